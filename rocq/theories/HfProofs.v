(** * The emitted host code does what the documented instructions do *)

From Coq Require Import ZArith Bool List Lia.
From Verif Require Import FpuModel FpuSpec FpuProofs FpuProps HfModel HfSpec.
Import ListNotations.
Local Open Scope Z_scope.

Ltac hs := cbv beta iota zeta delta [hexec fexec doc fst snd hpush hpop gload gstore dummy fin raise set_ctx restore on_g
  set_g set_hs set_hcw set_hex set_hcc set_sv g hs hcw hex hcc sv length Nat.ltb Nat.leb hsw post post_check
  op_st0_st1 op_st0_mem op_un op_sincos op_patan op_compp op_comp op_load op_store op_xch sw3 check_nm check_unmasked].
Ltac ok := first [exact I | split; [reflexivity | split; [reflexivity | split; [reflexivity | tauto]]]
  | split; [reflexivity | split; [reflexivity | tauto]]].
Ltac three x := destruct x as [[? ?] ?].

Lemma underflow_kept i d p s : fst (stack_underflow_reg i d p s) = false -> snd (stack_underflow_reg i d p s) = s.
Proof. unfold stack_underflow_reg. destruct (is_tag_empty s i); [discriminate | reflexivity]. Qed.
Lemma sincos_kept s : fst (stack_fault_fsincos s) = false -> snd (stack_fault_fsincos s) = s.
Proof. unfold stack_fault_fsincos. destruct (is_tag_empty s 0 || _); [discriminate | reflexivity]. Qed.

(** the C2 bit of the status word after the check is the host's *)
Lemma c2_post sw s : nz (Z.land (fstatus (set_fstatus (post_sw sw s) s)) SW_C2) = nz (Z.land sw SW_C2).
Proof.
  cbn [fstatus set_fstatus]. apply f_equal. unfold post_sw, SW_C2, not16.
  change (Z.lxor 65535 18239) with 47296. apply Z.bits_inj'. intros n Hn. rewrite !Z.land_spec, Z.lor_spec, !Z.land_spec.
  destruct (Z.eq_dec n 10) as [-> | N].
  - change (Z.testbit 47296 10) with false. change (Z.testbit 18239 10) with true. now rewrite andb_false_r, andb_true_r.
  - change 1024 with (2 ^ 10). rewrite Z.pow2_bits_false by congruence. now rewrite !andb_false_r.
Qed.
Lemma c2_of e c : Z.land e SW_C2 = 0 -> nz (Z.land (Z.lor e c) SW_C2) = nz (Z.land c SW_C2).
Proof. intros H. now rewrite Z.land_lor_distr_l, H. Qed.

Lemma not_unmasked sw s : Z.land sw 0x3F = 0 -> post_unmasked EXP_ALL sw s = false.
Proof.
  intros H. unfold post_unmasked, EXP_ALL. now rewrite <- Z.land_assoc, H, Z.land_0_r.
Qed.

Lemma refines A E i w : sane A ->
  agrees w (hexec A E i w) (fexec E (doc A (hcc w) i) (g w)).
Proof.
  intros SA. destruct w as [s st0 cw ex cc sv0].
  destruct i; hs.
  all: try (destruct (e_em E || e_ts E); [ok |]); try (destruct (e_ne E); [| ok]);
    try (destruct (nz (Z.land (fstatus s) SW_ES)); [ok |]).
  all: try (destruct src as [m |]; [| ok]).
  - destruct (stack_overflow _) as [[] t]; ok.
  - destruct (stack_overflow _) as [[] t]; [ok |]. three (a_load A (frp t) cc (if int then OInt bytes m else OFloat bytes m)).
    destruct int; [ok |]. change (Z.lor 0 z0) with z0. destruct (post_unmasked EXP_INVALID _ t); ok.
  - destruct (stack_overflow _) as [[] t]; [ok |]. destruct (stack_underflow_reg _ _ _ t) as [[] u]; ok.
  - destruct (stack_underflow_reg _ _ _ _) as [[] t]; [ok |]. destruct (nz i), pop; ok.
  - set (t := clear_c1 (update_ptr E s)). destruct (is_tag_empty t 0).
    + destruct (masked t); [| ok]. destruct wok; ok.
    + three (a_store A int bytes (frp t) cc (load_stx t 0)). change (Z.lor 0 z0) with z0.
      destruct (post_unmasked EXP_ALL (Z.lor z0 z1) t); [ok |]. destruct wok; [destruct pop |]; ok.
  - destruct (stack_fault_fcom _ _ _ _) as [[] t]; [ok |].
    destruct (a_cmp A (frp t) cc (OReg (load_stx t 0)) (OReg (load_stx t i))) as [e c]. change (Z.lor 0 e) with e.
    destruct (post_unmasked EXP_ALL _ t); ok.
  - destruct (stack_fault_fcom _ _ _ _) as [[] t]; [ok |].
    destruct (a_cmp A (frp t) cc (OReg (load_stx t 0)) _) as [e c]. change (Z.lor 0 e) with e.
    destruct (post_unmasked EXP_ALL _ t); ok.
  - destruct (stack_underflow_reg i _ _ _) as [[] t]; [ok |]. destruct (stack_underflow_reg 0 _ _ t) as [[] u]; [ok |].
    unfold form. destruct (opc =? 0xD8) eqn:D8; [apply Z.eqb_eq in D8; subst opc; change (0xD8 =? 0xDE) with false | destruct (opc =? 0xDE)];
      cbv iota; destruct o; cbv beta iota zeta delta [host_op documented];
      match goal with |- context [a_bin A ?o ?c cc ?x ?y] => three (a_bin A o c cc x y) end;
      change (Z.lor 0 z0) with z0; destruct (post_unmasked EXP_ALL _ u); ok.
  - destruct (stack_underflow_reg _ _ _ _) as [[] t]; [ok |].
    destruct o; cbv beta iota zeta delta [host_op documented];
      match goal with |- context [a_bin A ?o ?c cc ?x ?y] => three (a_bin A o c cc x y) end;
      change (Z.lor 0 z0) with z0; destruct (post_unmasked EXP_ALL _ t); ok.
  - destruct (stack_underflow_reg _ _ _ _) as [[] t]; ok.
  - destruct (stack_underflow_reg _ _ _ _) as [[] t]; [ok |]. three (a_un A Usqrt (frp t) cc (load_stx t 0)).
    change (Z.lor 0 z0) with z0. destruct (post_unmasked EXP_ALL _ t); ok.
  - pose proof (underflow_kept 0 0 false (clear_c2 (clear_c1 (update_ptr E s)))) as K.
    destruct (stack_underflow_reg _ _ _ _) as [[] t]; [ok |]. specialize (K eq_refl). cbn [snd] in K.
    assert (F : frp t = frp s) by now subst t. clear K. pose proof (proj1 SA u (frp t) cc (load_stx t 0)) as S.
    three (a_un A u (frp t) cc (load_stx t 0)). change (Z.lor 0 z0) with z0.
    destruct (post_unmasked EXP_ALL _ t); [ok |]. rewrite !c2_post, (c2_of _ _ S).
    destruct (nz (Z.land z1 SW_C2)).
    + split; [reflexivity |]. split; [reflexivity |]. split; [exact F | now eexists].
    + destruct u; ok.
  - pose proof (sincos_kept (clear_c2 (clear_c1 (update_ptr E s)))) as K.
    destruct (stack_fault_fsincos _) as [[] t]; [ok |]. specialize (K eq_refl). cbn [snd] in K.
    assert (F : frp t = frp s) by now subst t. clear K. pose proof (proj2 SA (frp t) cc (load_stx t 0)) as S.
    destruct (a_sincos A (frp t) cc (load_stx t 0)) as [[[sn cs] e] c]. destruct S as (S1 & S2). change (Z.lor 0 e) with e.
    destruct (nz (Z.land c SW_C2)) eqn:C2.
    + rewrite (not_unmasked _ t (S2 eq_refl)), !c2_post, (c2_of _ _ S1), C2.
      split; [reflexivity |]. split; [reflexivity |]. split; [exact F | now eexists].
    + destruct (post_unmasked EXP_ALL _ t); [ok |]. rewrite !c2_post, (c2_of _ _ S1), C2. ok.
  - destruct (stack_fault_fpatan _) as [[] t]; [ok |]. three (a_patan A (frp t) cc (load_stx t 1) (load_stx t 0)).
    change (Z.lor 0 z0) with z0. destruct (post_unmasked EXP_ALL _ t); ok.
  - destruct (stack_fault_fxch _ _) as [[] t]; ok.
  - ok.
  - ok.
  - ok.
  - unfold check_emms. destruct (e_em E || e_ts E); [ok |]. destruct (e_ne E); [| ok]. destruct (nz _); ok.
Qed.
