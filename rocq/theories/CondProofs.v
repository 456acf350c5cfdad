(** * Conditions: Jcc, SETcc, CMOVcc *)

From Coq Require Import ZArith Bool List Lia ZifyBool.
From Verif Require Import HostModel AluModel AluSpec HostProofs LazyFlagsProofs FlagsApiProofs
  FlagArith SymExec EaProofs AluProofs AluForms UnaryProofs XchgProofs.
Import ListNotations.
Local Open Scope Z_scope.

(** a computation that changes nothing but scratch registers *)
Definition scratch (s s' : hst) : Prop :=
  h_rcx (hr s') = P PCtx /\ ctx s' = ctx s /\ gmem s' = gmem s /\ masked s' = masked s.

(** ** The host words that hold the flags *)

Lemma one_bit v k : 0 <= k < 32 -> Z.land v (2 ^ k) = if Z.testbit v k then 2 ^ k else 0.
Proof. intros. apply land_pow2. lia. Qed.

Lemma w_cf ax : getw W32 (Z.land (getw W32 ax) (getw W32 2147483648))
  = if Z.testbit ax 31 then 2147483648 else 0.
Proof.
  change (getw W32 2147483648) with (2 ^ 31). rewrite one_bit by lia.
  replace (Z.testbit (getw W32 ax) 31) with (Z.testbit ax 31) by (hbits; reflexivity).
  now destruct (Z.testbit ax 31).
Qed.

Lemma w_of ax :
  getw W32 (Z.land (getw W32 (Z.lxor (getw W32 (Z.shiftl (getw W32 ax) 1)) (getw W32 ax)))
                   (getw W32 2147483648))
  = if xorb (Z.testbit ax 31) (Z.testbit ax 30) then 2147483648 else 0.
Proof.
  change (getw W32 2147483648) with (2 ^ 31). rewrite one_bit by lia.
  match goal with |- getw _ (if ?b then _ else _) = _ =>
    replace b with (xorb (Z.testbit ax 31) (Z.testbit ax 30)) by (hbits; apply xorb_comm) end.
  now destruct (xorb _ _).
Qed.

Lemma top_word v : getw W32 (Z.shiftr (getw W32 v) 31) = b2z (Z.testbit v 31).
Proof.
  rewrite getw_mod, getw_mod, Z.shiftr_div_pow2 by lia.
  change (modulus W32) with (2 ^ 32).
  pose proof (Z.mod_pos_bound v (2 ^ 32) eq_refl) as R.
  pose proof (testbit_half v 31 ltac:(lia)) as T. change (31 + 1) with 32 in T. rewrite T. unfold b2z.
  destruct (Z.leb_spec (2 ^ 31) (v mod 2 ^ 32)).
  - replace (v mod 2 ^ 32 / 2 ^ 31) with 1; [reflexivity |]. apply (Z.div_unique _ _ _ (v mod 2 ^ 32 - 2 ^ 31)); lia.
  - rewrite Z.div_small by lia. reflexivity.
Qed.

Lemma w_sf rs ax :
  getw W32 (Z.lxor (getw W32 (Z.shiftr (getw W32 rs) 31)) (getw W32 (Z.land (getw W32 ax) (getw W32 1))))
  = b2z (xorb (Z.testbit rs 31) (Z.testbit ax 0)).
Proof.
  rewrite top_word. change (getw W32 1) with (2 ^ 0). rewrite one_bit by lia.
  replace (Z.testbit (getw W32 ax) 0) with (Z.testbit ax 0) by (hbits; reflexivity).
  now destruct (Z.testbit rs 31), (Z.testbit ax 0).
Qed.

Lemma w_zf rs : (getw W32 (getw W32 rs - getw W32 0) =? 0) = (w32 rs =? 0).
Proof. change (getw W32 0) with 0. rewrite Z.sub_0_r, getw_idem. reflexivity. Qed.

Lemma parity_byte E v : parity_at E (getw W8 v) = b2z (odd_ones v).
Proof.
  unfold parity_at. pose proof (getw_range W8 v) as R. change (modulus W8) with 256 in R.
  replace ((0 <=? getw W8 v) && (getw W8 v <=? 255)) with true by lia.
  replace (odd_ones v) with (odd_ones (getw W8 v)); [reflexivity |].
  apply odd_ones_ext. intros i Hi. rewrite getw_testbit by lia.
  cbn [wbits]. replace (i <? 8) with true by lia. apply andb_true_r.
Qed.

Lemma w_pf E o1 o2 rs ax :
  getw W8 (parity_at E (setw W32 o1 (getw W8 (setw W64 o2
     (Z.lxor (getw W64 (Z.shiftr (getw W64 (getw W32 ax)) 8)) (getw W64 (getw W32 rs)))))))
  = b2z (odd_ones (Z.lxor rs (Z.shiftr ax 8))).
Proof.
  match goal with |- context [setw W32 o1 (getw W8 ?v)] =>
    replace (setw W32 o1 (getw W8 v)) with (getw W8 v) end.
  2:{ rewrite setw32. match goal with |- getw W8 ?v = _ => pose proof (getw_range W8 v) as R end.
    change (modulus W8) with 256 in R. symmetry. apply Z.mod_small. lia. }
  rewrite parity_byte.
  match goal with |- context [setw W64 o2 ?v] => change (setw W64 o2 v) with (getw W64 v) end.
  match goal with |- getw W8 (b2z (odd_ones ?x)) = b2z (odd_ones ?y) =>
    assert (H : odd_ones x = odd_ones y) end.
  { apply odd_ones_ext. intros i Hi. byte_cases i Hi; hbits; apply xorb_comm. }
  rewrite H. clear H. destruct (odd_ones _); vm_compute; reflexivity.
Qed.

Ltac words := rewrite ?w_of, ?w_cf, ?w_sf, ?w_pf, ?w_zf;
  repeat match goal with
  | |- context [Z.testbit ?x ?i] => destruct (Z.testbit x i)
  | |- context [w32 ?x =? 0] => is_var x; destruct (w32 x =? 0)
  | |- context [odd_ones ?x] => destruct (odd_ones x)
  end; try reflexivity.

Lemma cond_ok E c s : h_rcx (hr s) = P PCtx -> ctx_ok (ctx s) ->
  exists s', run E (emit_cond c) s = Done s' /\ scratch s s' /\
    getw W8 (num E (h_r8 (hr s'))) = b2z (cond_spec c (flags_now s)).
Proof.
  intros Hcx Hok. unfold flags_now. rewrite read_flags by assumption.
  start_state s Hcx. unfold scratch, lazy_flags, cond_spec. cbn [f_cf f_pf f_af f_zf f_sf f_of].
  destruct c; unfold run; expand_list; sym; rewrite ?if00, ?setw_getw32, ?twice;
  eexists; (split; [reflexivity | split; [repeat split |]]); cbn [hr h_r8 num]; rewrite ?getw_setw;
  cbv [holds sub_flags logic_flags hzf hcf]; words.
Qed.

Lemma target_eq sz nxt disp : jcc_target sz nxt disp = branch_target sz nxt disp.
Proof.
  unfold jcc_target, branch_target, w32. destruct sz.
  - rewrite <- Z.land_assoc. exact (Z.land_ones (nxt + disp) 16 ltac:(lia)).
  - exact (Z.land_ones (nxt + disp) 32 ltac:(lia)).
Qed.

Lemma w32_target sz nxt disp : w32 (jcc_target sz nxt disp) = jcc_target sz nxt disp.
Proof.
  unfold jcc_target, w32. destruct sz; rewrite <- ?Z.land_assoc; reflexivity.
Qed.

Lemma w32_putw32 o v : w32 (putw W32 o v) = w32 v.
Proof.
  unfold w32. apply Z.bits_inj'. intros n Hn. rewrite !Z.land_spec, putw_testbit by lia. cbn [wbits].
  change 0xFFFFFFFF with (Z.ones 32). destruct (Z.ltb_spec n 32); [reflexivity |].
  rewrite Z.ones_spec_high by lia. now rewrite !andb_false_r.
Qed.

Lemma w32_getw v : w32 (getw W32 v) = w32 v.
Proof. exact (getw_idem W32 v). Qed.

Lemma w32_add a b : getw W32 (getw W32 a + getw W32 b) = w32 (a + b).
Proof.
  change (getw W32 (getw W32 a + getw W32 b) = getw W32 (a + b)).
  rewrite !getw_mod, <- Z.add_mod by (vm_compute; discriminate). reflexivity.
Qed.

Ltac decide_if :=
  repeat match goal with |- context [if ?b then _ else _] =>
    let v := eval vm_compute in b in
    lazymatch v with true => idtac | false => idtac end; change b with v; cbv iota end.

Lemma jcc_ok E c s sz nxt disp base : h_rcx (hr s) = P PCtx -> ctx_ok (ctx s) ->
  exists s' ip, run E (emit_jcc c sz nxt disp base) s = Left s' /\
    gmem s' = gmem s /\ masked s' = masked s /\
    ctx s' = set_eip ip (ctx s) /\ h_rbx (hr s') = N (w32 (ip + base)) /\
    w32 ip = if cond_spec c (flags_now s) then jcc_target sz nxt disp else w32 nxt.
Proof.
  intros Hcx Hok. unfold flags_now. rewrite read_flags by assumption.
  start_state s Hcx. unfold lazy_flags, cond_spec. cbn [f_cf f_pf f_af f_zf f_sf f_of].
  pose proof (w32_target sz nxt disp) as J.
  unfold emit_jcc. generalize dependent (jcc_target sz nxt disp). intros tgt J.
  destruct c; unfold run; expand_list; sym; rewrite ?if00, ?setw_getw32, ?twice.
  all: eexists; eexists; (split; [reflexivity | split; [reflexivity | split; [reflexivity| split; [reflexivity|]]]]).
  all: cbv [holds sub_flags logic_flags hzf hcf]; cbn [hr h_rbx].
  all: split; [ rewrite w32_add; f_equal; rewrite <- (w32_add (putw _ _ _)), <- w32_add; f_equal; f_equal;
    symmetry; etransitivity; [apply w32_putw32 | apply getw_idem]
  | rewrite w32_putw32, w32_getw; words; decide_if; first [exact J | exact (w32_getw _) | rewrite w32_getw; exact J ] ].
Qed.
