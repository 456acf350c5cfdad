(** * Bit tests and scans *)

From Coq Require Import ZArith Bool List Lia ZifyBool.
From Verif Require Import HostModel AluModel AluSpec HostProofs LazyFlagsProofs FlagsApiProofs
  FlagArith SymExec EaProofs AluProofs AluForms UnaryProofs XchgProofs ShiftModel ShiftSpec
  ShiftProofs ShiftForms RotateProofs.
Import ListNotations.
Local Open Scope Z_scope.

(** ** One bit of a word *)

Lemma add_bit a i : 0 <= i -> Z.testbit a i = false -> Z.lor a (2 ^ i) = a + 2 ^ i /\ Z.lxor a (2 ^ i) = a + 2 ^ i.
Proof.
  intros Hi B. assert (L : Z.land a (2 ^ i) = 0) by (rewrite land_pow2 by assumption; now rewrite B).
  rewrite <- Z.lxor_lor by assumption. split; symmetry; now apply Z.add_nocarry_lxor.
Qed.

Lemma del_bit a i : 0 <= i -> Z.testbit a i = true ->
  Z.land a (Z.lnot (2 ^ i)) = a - 2 ^ i /\ Z.lxor a (2 ^ i) = a - 2 ^ i.
Proof.
  intros Hi B. set (b := Z.land a (Z.lnot (2 ^ i))).
  assert (Bb : Z.testbit b i = false).
  { unfold b. rewrite Z.land_spec, Z.lnot_spec, Z.pow2_bits_true by assumption. apply andb_false_r. }
  destruct (add_bit b i Hi Bb) as [_ X].
  assert (Xa : Z.lxor b (2 ^ i) = a).
  { unfold b. apply Z.bits_inj'. intros j Hj. rewrite Z.lxor_spec, Z.land_spec, Z.lnot_spec by assumption.
    destruct (Z.eq_dec i j) as [<- | N].
    - rewrite Z.pow2_bits_true by assumption. now rewrite B.
    - rewrite Z.pow2_bits_false by congruence. now rewrite andb_true_r, xorb_false_r. }
  split; [lia |]. rewrite <- Xa at 1. rewrite Z.lxor_assoc, Z.lxor_nilpotent, Z.lxor_0_r. lia.
Qed.

Lemma bit_val_spec op a i : 0 <= i -> bit_val op a i = bit_value op a i.
Proof.
  intros Hi. assert (S : Z.shiftl 1 i = 2 ^ i) by (rewrite Z.shiftl_mul_pow2 by assumption; lia).
  destruct (Z.testbit a i) eqn:B; destruct op; cbn [bit_val bit_value]; rewrite ?S, ?B; try reflexivity.
  - now apply del_bit.
  - now apply del_bit.
  - apply Z.bits_inj'. intros j Hj. rewrite Z.lor_spec. destruct (Z.eq_dec i j) as [<- | N].
    + rewrite Z.pow2_bits_true by assumption. now rewrite B.
    + rewrite Z.pow2_bits_false by congruence. apply orb_false_r.
  - now apply add_bit.
  - apply Z.bits_inj'. intros j Hj. rewrite Z.land_spec, Z.lnot_spec by assumption.
    destruct (Z.eq_dec i j) as [<- | N].
    + rewrite B. reflexivity.
    + rewrite Z.pow2_bits_false by congruence. apply andb_true_r.
  - now apply add_bit.
Qed.

Lemma bit_val_range op w a i : 0 <= a < modulus w -> 0 <= i < wbits w -> 0 <= bit_val op a i < modulus w.
Proof.
  intros Ha Hi. assert (S : Z.shiftl 1 i = 2 ^ i) by (rewrite Z.shiftl_mul_pow2 by lia; lia).
  assert (P : 0 < 2 ^ i) by (apply Z.pow_pos_nonneg; lia).
  assert (N : 0 <= bit_val op a i).
  { destruct op; cbn [bit_val]; rewrite ?S; try lia.
    - apply Z.lxor_nonneg. lia. 
    - apply Z.land_nonneg. lia.
    - apply Z.lor_nonneg. lia. }
  split; [exact N |]. apply range_bits; [exact N |]. intros j Hj.
  pose proof (testbit_over w a j Ha Hj) as O.
  destruct op; cbn [bit_val]; rewrite ?S, ?Z.lxor_spec, ?Z.land_spec, ?Z.lor_spec, O; try reflexivity;
  rewrite Z.pow2_bits_false by lia; reflexivity.
Qed.

(** ** The index *)

Lemma idx_mod w v : arith_w w -> Z.land v (wbits w - 1) = v mod wbits w.
Proof.
  intros Hw. destruct w; try (now elim Hw); cbn [wbits].
  - change (8 - 1) with (Z.ones 3). now rewrite Z.land_ones.
  - change (16 - 1) with (Z.ones 4). now rewrite Z.land_ones.
  - change (32 - 1) with (Z.ones 5). now rewrite Z.land_ones.
Qed.

Lemma bit_step_reg E op w s io a c tl : arith_w w ->
  op_read E (Rg w RAX) s = Some a -> op_read E io s = Some c ->
  exec E (IBit op (Rg w RAX) io :: tl) (Done s) =
  let f := hf s in let i := c mod wbits w in
  exec E tl (Done (set_hf (mkf (hzf f) (Z.testbit a i) (hsf f) (hof f))
    (if is_bt op then s else set_hr (rset RAX (N (setw w (num E (h_rax (hr s))) (bit_val op a i))) (hr s)) s))).
Proof.
  intros Hw Ha Hc. rewrite exec_step. cbn [step]. rewrite Ha, Hc. cbn [bind opw].
  rewrite idx_mod by assumption.
  destruct s as [[q1 q2 q3 q4 q5 q6 q7 q8] q9 q10 q11 q12 q13 q14]; destruct op; reflexivity.
Qed.

Lemma bit_step_mem E op w s io a c tl : arith_w w ->
  op_read E (Mm w (MLoc 0)) s = Some a -> op_read E io s = Some c ->
  (match io with Rg _ _ => c < wbits w | _ => True end) ->
  exec E (IBit op (Mm w (MLoc 0)) io :: tl) (Done s) =
  let f := hf s in let i := c mod wbits w in
  exec E tl (Done (set_hf (mkf (hzf f) (Z.testbit a i) (hsf f) (hof f))
    (if is_bt op then s else
     set_loc (fun k => if Nat.eqb k 0 then putw w (loc s 0%nat) (bit_val op a i) else loc s k) s))).
Proof.
  intros Hw Ha Hc Hin. rewrite exec_step. cbn [step]. rewrite Ha, Hc. cbn [bind opw local].
  rewrite idx_mod by assumption.
  replace (match io with Rg _ _ => c <? wbits w | _ => true end) with true
    by (destruct io; try reflexivity; symmetry; now apply Z.ltb_lt).
  destruct s as [[q1 q2 q3 q4 q5 q6 q7 q8] q9 q10 q11 q12 q13 q14]; destruct op; reflexivity.
Qed.

Lemma bit_step_out E op w s r a c tl : arith_w w ->
  op_read E (Mm w (MLoc 0)) s = Some a -> op_read E (Rg w r) s = Some c -> wbits w <= c ->
  exec E (IBit op (Mm w (MLoc 0)) (Rg w r) :: tl) (Done s) = Stuck.
Proof.
  intros Hw Ha Hc Hout. rewrite exec_step. cbn [step]. rewrite Ha, Hc. cbn [bind opw local].
  replace (c <? wbits w) with false by lia. now destruct tl.
Qed.

(** the flag word with only CF *)
Lemma cf_only r A c : w32 A = b2z c * 2 ^ 31 ->
  f_cf (lazy_flags r A) = c /\ f_zf (lazy_flags r A) = (w32 r =? 0).
Proof.
  intros HA. cbn [lazy_flags f_cf f_zf]. split; [| reflexivity].
  rewrite <- (w32_bit A 31 ltac:(lia)), HA. now destruct c.
Qed.

Ltac sym1b :=
  lazymatch goal with
  | |- context [exec _ (?i :: _) (Done _)] =>
      lazymatch i with
      | ILoad _ => fail | IStore _ => fail | IBit _ _ _ => fail | IBsf _ _ => fail | IBsr _ _ => fail
      | IJcc _ _ => fail
      | _ => sym1
      end
  end.
Ltac symb := repeat sym1b; rewrite ?getw_putw, ?getw_setw, ?getw_idem; try rewrite !getw_gget;
  try rewrite !getw_mload; try rewrite !getw_ea.

Ltac hide_val op :=
  try lazymatch goal with
  | |- context [bit_val op ?x ?y] => let v := fresh "v" in set (v := bit_val op x y) in *; clearbody v
  end.

Ltac close_bit Hok Hz :=
  cbn [exec]; eexists; split;
  [ | eexists; split; [reflexivity |];
      eapply becomes_flags; [ exact Hok | reflexivity
      | cbn [ctx]; unfold set_aux, set_res, set_gprs; cbn [gprs segb eflags eip res aux cr4 gsel]; reflexivity
      | cbn [gmem]; reflexivity | reflexivity | reflexivity ] ];
  apply Hz; rewrite ?w32_putw, ?w32_getw; cbn [holds hcf];
  lazymatch goal with |- _ = b2z ?b * _ => destruct b end; reflexivity.

(** an access faults: any permitted flags will do *)
Ltac fault_bit Hz :=
  lazymatch goal with
  | |- exists fl, _ /\ exists s', Fault _ _ _ _ = _ /\ _ =>
    lazymatch type of Hz with
    | forall A, w32 A = b2z ?B * _ -> _ =>
        eexists; split; [apply (Hz (b2z B * 2 ^ 31)); destruct B; reflexivity | forget]
    end
  end.

Lemma imm_index w i : arith_w w -> getw W8 i mod wbits w = i mod 256 mod wbits w.
Proof. intros _. now rewrite getw_mod. Qed.

Lemma bit_ok E op w o src s :
  arith_w w -> h_rcx (hr s) = P PCtx -> ctx_ok (ctx s) -> rm_ok o (ctx s) ->
  bit_in_range w o src (ctx s) ->
  let a := read_rm w o s in let i := bit_index w src (ctx s) mod wbits w in
  let v := bit_value op a i in
  exists fl, bit_flags a i (flags_now s) fl /\
    effect E (emit_bit op w o src) w s (rm_mem o) (if is_bt op then None else rm_mem o)
      (bit_regs op w o v s) (bit_mem op w o v s) fl.
Proof.
  intros Hw Hcx Hok Hm Hin a i v.
  assert (Hi : 0 <= i < wbits w) by (apply Z.mod_pos_bound; destruct w; reflexivity).
  pose proof (read_rm_range w o s) as Ra.
  assert (Hv : 0 <= bit_val op a i < modulus w) by (apply bit_val_range; assumption).
  subst v. rewrite <- bit_val_spec by lia.
  assert (Hz : forall A, w32 A = b2z (Z.testbit a i) * 2 ^ 31 ->
     bit_flags a i (flags_now s) (lazy_flags (res (ctx s)) A)).
  { intros A HA. destruct (cf_only (res (ctx s)) A _ HA) as [K1 K2]. split; [exact K1 |]. rewrite K2.
    unfold flags_now. now rewrite read_flags. }
  unfold bit_flags in *. revert Hz. unfold flags_now at 1.
  subst a i. unfold emit_bit, effect, first_fault, bit_regs, bit_mem, regs_after, mem_after.
  destruct o as [[h r] | m], src as [[hs rs'] | im]; cbn [rm_mem read_rm bit_index bit_in_range rm_ok] in *;
  unfold read_gop in *; cbn [g_high g_reg] in *; start_state s Hcx; intros Hz.
  - set (i := gget w hs rs' gp mod wbits w) in *.
    destruct w; try (now elim Hw); destruct (is_bt op) eqn:Hb;
    unfold run; expand_list; symb;
    (erewrite bit_step_reg; [| exact Hw | rd' | rd' ]); cbv zeta; rewrite Hb; nost; fold i; clearbody i; hide_val op; symb;
    rewrite ?(getw_small _ _ Hv); close_bit Hok Hz.
  - set (i := im mod 256 mod wbits w) in *.
    destruct w; try (now elim Hw); destruct (is_bt op) eqn:Hb;
    unfold run; expand_list; symb;
    (erewrite bit_step_reg; [| exact Hw | rd' | reflexivity ]); cbv zeta; rewrite (imm_index _ _ Hw), Hb; nost; fold i; clearbody i; hide_val op; symb;
    rewrite ?(getw_small _ _ Hv); close_bit Hok Hz.
  - rewrite <- !app_assoc. run_ea m Hm. set (i := gget w hs rs' gp mod wbits w) in *.
    destruct w; try (now elim Hw); destruct (is_bt op) eqn:Hb; faults;
    unfold run; expand_list; symb; access; symb; try fault_bit Hz;
    (erewrite bit_step_mem; [| exact Hw | rd' | rd' | exact Hin ]); cbv zeta; rewrite Hb; unfold set_loc; nost; rewrite ?getw_putw, ?getw_mload; fold i; clearbody i; hide_val op; symb;
    try access; symb; try fault_bit Hz;
    rewrite ?(getw_small _ _ Hv); close_bit Hok Hz.
  - rewrite <- !app_assoc. run_ea m Hm. set (i := im mod 256 mod wbits w) in *.
    destruct w; try (now elim Hw); destruct (is_bt op) eqn:Hb; faults;
    unfold run; expand_list; symb; access; symb; try fault_bit Hz;
    (erewrite bit_step_mem; [| exact Hw | rd' | reflexivity | exact I ]); cbv zeta; rewrite (imm_index _ _ Hw), Hb; unfold set_loc; nost; rewrite ?getw_putw, ?getw_mload; fold i; clearbody i; hide_val op; symb;
    try access; symb; try fault_bit Hz;
    rewrite ?(getw_small _ _ Hv); close_bit Hok Hz.
Qed.
