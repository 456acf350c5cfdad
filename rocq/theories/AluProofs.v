(** * The two-operand instructions compute what the specification says *)

From Coq Require Import ZArith Bool List Lia ZifyBool.
From Verif Require Import HostModel AluModel AluSpec HostProofs LazyFlagsProofs FlagsApiProofs
  FlagArith SymExec EaProofs.
Import ListNotations.
Local Open Scope Z_scope.

(** ** Values *)

Lemma getw_gget w h r g : getw w (gget w h r g) = gget w h r g.
Proof. apply getw_idem. Qed.

Lemma mload_hi m w a i : wbits w <= i -> Z.testbit (mload m w a) i = false.
Proof.
  intros Hi. assert (0 <= i) by (destruct w; cbn in Hi; lia).
  assert (B : forall k, 0 <= k < wbytes w ->
    Z.testbit (Z.shiftl (Z.land (m (w32 (a + k))) 0xFF) (8 * k)) i = false).
  { intros k Hk. rewrite Z.shiftl_spec, Z.land_spec by assumption.
    change 0xFF with (Z.ones 8). rewrite Z.ones_spec_high, andb_false_r; [reflexivity |].
    destruct w; cbn [wbits wbytes] in *; lia. }
  unfold mload. destruct w; rewrite ?Z.lor_spec; cbn [wbytes] in B; now rewrite ?B by lia.
Qed.

Lemma getw_mload m w a : getw w (mload m w a) = mload m w a.
Proof.
  apply Z.bits_inj'. intros i Hi. rewrite getw_testbit by assumption.
  destruct (Z.ltb_spec i (wbits w)); [now rewrite andb_true_r |].
  now rewrite mload_hi.
Qed.

(** the carry on entry *)
Lemma cf_in_bit c : ctx_ok c -> cf_in c = b2z (Z.testbit (aux c) 31).
Proof. intros H. unfold cf_in. rewrite read_flags by assumption. reflexivity. Qed.

Lemma cf_range c : 0 <= cf_in c <= 1.
Proof. unfold cf_in, b2z. destruct (f_cf _); lia. Qed.

Lemma shr31 v : Z.shiftr (Z.land v 0x80000000) 31 = b2z (Z.testbit v 31).
Proof.
  change 0x80000000 with (2 ^ 31). rewrite land_pow2 by lia.
  now destruct (Z.testbit v 31).
Qed.

Lemma cf_word o ax :
  setw W32 o (Z.shiftr (getw W32 (Z.land (getw W32 ax) (getw W32 2147483648))) 31)
  = b2z (Z.testbit ax 31).
Proof.
  change (getw W32 2147483648) with 0x80000000.
  replace (getw W32 (Z.land (getw W32 ax) 0x80000000)) with (Z.land (getw W32 ax) 0x80000000).
  2:{ unfold getw at 2. rewrite <- Z.land_assoc. reflexivity. }
  rewrite shr31, getw_testbit by lia. cbn [wbits]. change (31 <? 32) with true.
  rewrite andb_true_r. now destruct (Z.testbit ax 31).
Qed.

Lemma getw_land w a b : getw w (Z.land (getw w a) (getw w b)) = Z.land (getw w a) (getw w b).
Proof. apply Z.bits_inj'. intros i Hi. rewrite !getw_testbit, !Z.land_spec, !getw_testbit by assumption.
  now destruct (Z.testbit a i), (Z.testbit b i), (i <? wbits w). Qed.
Lemma getw_lor w a b : getw w (Z.lor (getw w a) (getw w b)) = Z.lor (getw w a) (getw w b).
Proof. apply Z.bits_inj'. intros i Hi. rewrite !getw_testbit, !Z.lor_spec, !getw_testbit by assumption.
  now destruct (Z.testbit a i), (Z.testbit b i), (i <? wbits w). Qed.
Lemma getw_lxor w a b : getw w (Z.lxor (getw w a) (getw w b)) = Z.lxor (getw w a) (getw w b).
Proof. apply Z.bits_inj'. intros i Hi. rewrite !getw_testbit, !Z.lxor_spec, !getw_testbit by assumption.
  now destruct (Z.testbit a i), (Z.testbit b i), (i <? wbits w). Qed.

Lemma adc_word w a b c : getw w (getw w (a + b) + getw w c) = (a + b + c) mod modulus w.
Proof. rewrite !getw_mod. now rewrite <- Zplus_mod. Qed.

Lemma sbb_word w a b c : getw w (a - getw w (getw w c + b)) = (a - b - c) mod modulus w.
Proof.
  rewrite !getw_mod, Zminus_mod_idemp_r.
  replace (a - (c mod modulus w + b)) with (a - b - c mod modulus w) by lia.
  apply Zminus_mod_idemp_r.
Qed.

Lemma cf_word32 ax :
  getw W32 (Z.shiftr (getw W32 (Z.land (getw W32 ax) (getw W32 2147483648))) 31)
  = b2z (Z.testbit ax 31).
Proof. exact (cf_word 0 ax). Qed.

Lemma adc_word32 w a b c : getw w (getw w (a + b) + c) = (a + b + c) mod modulus w.
Proof. rewrite !getw_mod. apply Zplus_mod_idemp_l. Qed.
Lemma sbb_word32 w a b c : getw w (a - getw w (c + b)) = (a - b - c) mod modulus w.
Proof.
  rewrite !getw_mod, Zminus_mod_idemp_r. f_equal. lia.
Qed.

(** ** The computation itself *)

(** the register pairs that the operand plumbing uses *)
Definition lam_op (w : width) (d : hreg) (o : opnd) : Prop :=
  (d = R8 /\ o = Rg w RBX) \/ (d = R8 /\ o = Rg w RDX) \/ (d = R8 /\ exists z, o = Im w z) \/
  (d = RBX /\ exists z, o = Im w z) \/ (d = RAX /\ o = Rg w RDX) \/
  (d = RBX /\ o = Rg w RAX) \/ (d = RAX /\ exists z, o = Im w z).

Lemma lam_ok E op w d o s rv sv :
  arith_w w -> lam_op w d o -> h_rcx (hr s) = P PCtx -> ctx_ok (ctx s) ->
  op_read E (Rg w d) s = Some rv -> op_read E o s = Some sv ->
  exists f v9 v,
    run E (lam_of op w (Rg w d) o) s =
      Done (set_hf f (set_hr (rset d (N v) (rset R9 v9 (hr s))) s)) /\
    getw w v = alu_value op w rv sv (cf_in (ctx s)).
Proof.
  intros Hw Hd Hcx Hok R1 R2. rewrite (cf_in_bit _ Hok).
  destruct s as [[rax rbx rcx rdx r8 r9 r10 r11] hf0 [gp sb ef ip rs ax c4 sl] gm lc nc mk].
  cbn [hr h_rcx h_r8] in Hcx. subst rcx.
  destruct w; try (now elim Hw); destruct op;
  destruct Hd as [[-> ->] | [[-> ->] | [[-> [z ->]] | [[-> [z ->]] | [[-> ->] | [[-> ->] | [-> [z ->]]]]]]]];
  injection R1 as R1; injection R2 as R2; cbn [hr h_rax h_rbx h_rdx h_r8 rget] in R1, R2;
  unfold run; expand_list; sym; subst rv sv.
  all: eexists _, _, _; split; [reflexivity |]; cbn [ctx aux]; rewrite ?getw_setw; cbn [alu_value];
    try change (0 =? 0) with true; cbv iota; rewrite ?cf_word, ?cf_word32.
  all: first [ apply getw_land | apply getw_lor | apply getw_lxor | apply adc_word | apply sbb_word
             | apply adc_word32 | apply sbb_word32 | apply getw_mod ].
Qed.

(** ** Memory accesses *)

Lemma ea_range m c : 0 <= ea m c < 2 ^ 32.
Proof. destruct m; unfold ea; apply Z.mod_pos_bound; reflexivity. Qed.

Lemma getw_ea m c : getw W32 (ea m c) = ea m c.
Proof. apply getw_small. apply ea_range. Qed.

Definition loaded (E : henv) (w : width) (a : Z) (s : hst) : hst :=
  let k := e_clob E (ncall s) in
  mkst (mkregs (N (setw w (k RAX) (mload (gmem s) w a))) (h_rbx (hr s)) (P PCtx) (N (k RDX))
               (N (k R8)) (N (k R9)) (N (k R10)) (N (k R11)))
       (hf s) (ctx s) (gmem s) (loc s) (S (ncall s)) (masked s).

Lemma load_step E w s a tl : getw W32 (num E (h_rdx (hr s))) = a ->
  exec E (ILoad w :: tl) (Done s) =
  if e_fault E false a (wbytes w) then Fault false a (wbytes w) s
  else exec E tl (Done (loaded E w a s)).
Proof.
  intros <-. rewrite exec_step. destruct s as [h0 f0 c0 m0 l0 n0 k0]. cbn [step]. unfold hval. cbn [rget hr].
  destruct (e_fault E false _ _); [destruct tl; reflexivity | reflexivity].
Qed.

Definition stored (E : henv) (w : width) (a v : Z) (s : hst) : hst :=
  let k := e_clob E (ncall s) in
  mkst (mkregs (N (k RAX)) (h_rbx (hr s)) (P PCtx) (N (k RDX))
               (N (k R8)) (N (k R9)) (N (k R10)) (N (k R11)))
       (hf s) (ctx s) (mstore (gmem s) w a v) (loc s) (S (ncall s)) (masked s).

Lemma store_step E w s a v tl : getw W32 (num E (h_rdx (hr s))) = a ->
  getw w (num E (h_r8 (hr s))) = v ->
  exec E (IStore w :: tl) (Done s) =
  if e_fault E true a (wbytes w) then Fault true a (wbytes w) s
  else exec E tl (Done (stored E w a v s)).
Proof.
  intros <- <-. rewrite exec_step. destruct s as [h0 f0 c0 m0 l0 n0 k0]. cbn [step]. unfold hval. cbn [rget hr].
  destruct (e_fault E true _ _); [destruct tl; reflexivity | reflexivity].
Qed.

(** ** The end of an instruction *)

Lemma eta_g c : mkg (gprs c) (segb c) (eflags c) (eip c) (res c) (aux c) (cr4 c) (gsel c) = c.
Proof. now destruct c. Qed.

Lemma becomes_flags s s' g m r a fl :
  ctx_ok (ctx s) -> h_rcx (hr s') = P PCtx ->
  ctx s' = set_aux a (set_res r (set_gprs g (ctx s))) -> gmem s' = m -> masked s' = masked s ->
  lazy_flags r a = fl -> becomes s s' g m fl.
Proof.
  intros Hok Hcx Hc Hm Hk <-.
  assert (Hok' : ctx_ok (ctx s')) by (rewrite Hc; exact Hok).
  split; [assumption |]. split; [| split; [| split]].
  - unfold frame. rewrite !control_read. rewrite Hc. cbn. repeat split; auto.
  - rewrite Hc. reflexivity.
  - now rewrite Hm.
  - unfold flags_now. rewrite read_flags by assumption. now rewrite Hc.
Qed.

Lemma finish E op w a b s0 s av bv g m :
  is_logic op = false -> arith_w w -> ab_op w a b -> h_rcx (hr s) = P PCtx ->
  op_read E a s = Some av -> op_read E b s = Some bv ->
  getw w (num E (h_r8 (hr s))) = alu_value op w av bv (cf_in (ctx s0)) ->
  ctx s = set_gprs g (ctx s0) -> gmem s = m -> masked s = masked s0 -> ctx_ok (ctx s0) ->
  exists s', run E (flags_of (is_sum op) w a b) s = Done s' /\
             becomes s0 s' g m (alu_flags op w av bv (cf_in (ctx s0))).
Proof.
  intros Hl Hw Hab Hcx RA RB HV Hc Hm Hk Hok.
  assert (K : exists s', run E (flags_of (is_sum op) w a b) s = Done s' /\
                         flags_set s s' (alu_flags op w av bv (cf_in (ctx s0)))).
  { pose proof (cf_range (ctx s0)).
    destruct op; try discriminate Hl; cbn [is_sum flags_of alu_flags alu_value] in *;
    first [ apply set_flags_sum_ok | apply set_flags_sub_ok ]; try assumption; try lia;
    rewrite HV, ?Z.add_0_r, ?Z.sub_0_r, getw_mod; reflexivity. }
  destruct K as (s' & HR & F). exists s'. split; [assumption |].
  destruct F as (F1 & _ & (r & x & F2 & F3) & F4 & _ & F5).
  apply becomes_flags with r x; try congruence.
Qed.

Lemma finish_logic E op w d s0 s av bv g m :
  is_logic op = true -> arith_w w -> d = RAX \/ d = RBX -> h_rcx (hr s) = P PCtx ->
  getw w (num E (rget d (hr s))) = alu_value op w av bv (cf_in (ctx s0)) ->
  ctx s = set_gprs g (ctx s0) -> gmem s = m -> masked s = masked s0 -> ctx_ok (ctx s0) ->
  exists s', run E (set_flags (Rg w d) (i32 0) w) s = Done s' /\
             becomes s0 s' g m (alu_flags op w av bv (cf_in (ctx s0))).
Proof.
  intros Hl Hw Hd Hcx HV Hc Hm Hk Hok.
  destruct s as [[rax rbx rcx rdx r8 r9 r10 r11] hf0 [gp sb ef ip rs ax c4 sl] gm lc nc mk].
  cbn [hr h_rcx ctx gmem masked] in *. subst rcx.
  destruct (ctx s0) as [gp0 sb0 ef0 ip0 rs0 ax0 c40 sl0] eqn:C0. cbn [set_gprs segb eflags eip res aux cr4 gsel] in Hc.
  injection Hc as -> -> -> -> -> -> -> ->.
  replace (alu_flags op w av bv _) with (logic_flags_spec w (alu_value op w av bv (cf_in (mkg gp0 sb0 ef0 ip0 rs0 ax0 c40 sl0))))
    by (destruct op; try discriminate Hl; reflexivity).
  destruct Hd as [-> | ->]; cbn [rget h_rax h_rbx] in HV;
  destruct w; try (now elim Hw); unfold run; expand_list; sym; eexists; (split; [reflexivity |]);
  rewrite <- HV;
  (eapply becomes_flags; [ rewrite C0; exact Hok | reflexivity | cbn [ctx]; rewrite C0; unfold set_aux, set_res, set_gprs; cbn [gprs segb eflags eip res aux cr4 gsel]; reflexivity
                         | exact Hm | exact Hk | ]);
  (apply logic_lazy; [assumption | apply getw_range | | now rewrite w32_putw]);
  rewrite ?w32_putw, ?w32_getw, ?sext_getw, ?sext32_w32; reflexivity.
Qed.
