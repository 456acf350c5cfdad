(** * Facts about the host model: widths, carries, sequencing *)

From Coq Require Import ZArith Bool List Lia ZifyBool.
From Verif Require Import HostModel AluModel AluSpec.
Import ListNotations.
Local Open Scope Z_scope.

(** ** Widths *)

Lemma getw_mod w v : getw w v = v mod modulus w.
Proof.
  unfold getw, modulus.
  replace (wmask w) with (Z.ones (wbits w)) by (destruct w; reflexivity).
  apply Z.land_ones. destruct w; cbn; lia.
Qed.

Lemma modulus_pos w : 0 < modulus w.
Proof. destruct w; reflexivity. Qed.

Lemma getw_range w v : 0 <= getw w v < modulus w.
Proof. rewrite getw_mod. apply Z.mod_pos_bound, modulus_pos. Qed.

Lemma getw_idem w v : getw w (getw w v) = getw w v.
Proof. rewrite !getw_mod. apply Z.mod_mod. pose proof (modulus_pos w); lia. Qed.

Lemma getw_small w v : 0 <= v < modulus w -> getw w v = v.
Proof. intros. rewrite getw_mod. now apply Z.mod_small. Qed.

Lemma testbit_wmask w i : 0 <= i -> Z.testbit (wmask w) i = (i <? wbits w).
Proof.
  intros. replace (wmask w) with (Z.ones (wbits w)) by (destruct w; reflexivity).
  rewrite Z.testbit_ones_nonneg; [reflexivity | destruct w; cbn; lia | assumption].
Qed.

Lemma getw_testbit w v i : 0 <= i -> Z.testbit (getw w v) i = Z.testbit v i && (i <? wbits w).
Proof. intros. unfold getw. now rewrite Z.land_spec, testbit_wmask. Qed.

Lemma setw_testbit w o v i : 0 <= i ->
  Z.testbit (setw w o v) i =
  if i <? wbits w then Z.testbit v i
  else match w with W8 | W16 => Z.testbit o i | _ => false end.
Proof.
  intros. destruct w; unfold setw, putw;
    rewrite ?Z.lor_spec, ?Z.land_spec, ?Z.lnot_spec by assumption.
  1-2: rewrite testbit_wmask by assumption;
       destruct (i <? _); cbn; rewrite ?andb_true_r, ?andb_false_r, ?orb_false_r; reflexivity.
  - change 0xFFFFFFFF with (wmask W32). rewrite testbit_wmask by assumption.
    destruct (i <? _); now rewrite ?andb_true_r, ?andb_false_r.
  - change 0xFFFFFFFFFFFFFFFF with (wmask W64). rewrite testbit_wmask by assumption.
    destruct (i <? _); now rewrite ?andb_true_r, ?andb_false_r.
Qed.

Lemma putw_testbit w o v i : 0 <= i ->
  Z.testbit (putw w o v) i = if i <? wbits w then Z.testbit v i else Z.testbit o i.
Proof.
  intros. unfold putw.
  rewrite ?Z.lor_spec, ?Z.land_spec, ?Z.lnot_spec, testbit_wmask by assumption.
  destruct (i <? _); cbn; rewrite ?andb_true_r, ?andb_false_r, ?orb_false_r; reflexivity.
Qed.

Lemma getw_setw w o v : getw w (setw w o v) = getw w v.
Proof.
  apply Z.bits_inj'. intros i Hi. rewrite !getw_testbit, setw_testbit by assumption.
  destruct (i <? wbits w); [reflexivity | now rewrite !andb_false_r].
Qed.

Lemma getw_putw w o v : getw w (putw w o v) = getw w v.
Proof.
  apply Z.bits_inj'. intros i Hi. rewrite !getw_testbit, putw_testbit by assumption.
  destruct (i <? wbits w); [reflexivity | now rewrite !andb_false_r].
Qed.

(** ** Carries and borrows

    The carry out of bit k of a + b + c is recovered from the operand bits and
    the sum bit, which is what the emitted vectors compute. *)

Lemma testbit_half a k : 0 <= k ->
  Z.testbit a k = (2 ^ k <=? a mod 2 ^ (k + 1)).
Proof.
  intros Hk. set (p := 2 ^ k). assert (Hp : 0 < p) by (apply Z.pow_pos_nonneg; lia).
  replace (2 ^ (k + 1)) with (2 * p) by (unfold p; rewrite Z.pow_add_r; lia).
  rewrite (Z.testbit_odd a k), Z.shiftr_div_pow2 by assumption. fold p.
  assert (E : a mod (2 * p) = p * ((a / p) mod 2) + a mod p).
  { rewrite Z.mul_comm. rewrite Z.rem_mul_r by lia. lia. }
  pose proof (Z.mod_pos_bound a p Hp). pose proof (Zmod_odd (a / p)).
  destruct (Z.odd (a / p)); rewrite E, H0; lia.
Qed.

Definition carry_vec (a b s : bool) : bool := (a && b) || ((a || b) && negb s).
Definition borrow_vec (a b s : bool) : bool := (negb a && b) || (negb (xorb a b) && s).

Lemma carry_bit a b c k : 0 <= k -> 0 <= c <= 1 ->
  carry_vec (Z.testbit a k) (Z.testbit b k) (Z.testbit (a + b + c) k)
  = (2 ^ (k + 1) <=? a mod 2 ^ (k + 1) + b mod 2 ^ (k + 1) + c).
Proof.
  intros Hk Hc. rewrite !testbit_half by assumption.
  assert (Hp : 0 < 2 ^ k) by (apply Z.pow_pos_nonneg; lia).
  assert (E2 : 2 ^ (k + 1) = 2 * 2 ^ k) by (rewrite Z.pow_add_r; lia).
  set (q := 2 ^ (k + 1)) in *. set (p := 2 ^ k) in *.
  assert (Hq : 0 < q) by lia.
  pose proof (Z.mod_pos_bound a q Hq) as HA. pose proof (Z.mod_pos_bound b q Hq) as HB.
  assert (ES : (a + b + c) mod q
               = if q <=? a mod q + b mod q + c then a mod q + b mod q + c - q
                 else a mod q + b mod q + c).
  { pose proof (Z.div_mod a q). pose proof (Z.div_mod b q).
    destruct (q <=? a mod q + b mod q + c) eqn:L; symmetry.
    - apply (Z.mod_unique _ _ (a / q + b / q + 1)); lia.
    - apply (Z.mod_unique _ _ (a / q + b / q)); lia. }
  rewrite ES. unfold carry_vec.
  destruct (q <=? a mod q + b mod q + c) eqn:L; lia.
Qed.

Lemma borrow_bit a b c k : 0 <= k -> 0 <= c <= 1 ->
  borrow_vec (Z.testbit a k) (Z.testbit b k) (Z.testbit (a - b - c) k)
  = (a mod 2 ^ (k + 1) - b mod 2 ^ (k + 1) - c <? 0).
Proof.
  intros Hk Hc. rewrite !testbit_half by assumption.
  assert (Hp : 0 < 2 ^ k) by (apply Z.pow_pos_nonneg; lia).
  assert (E2 : 2 ^ (k + 1) = 2 * 2 ^ k) by (rewrite Z.pow_add_r; lia).
  set (q := 2 ^ (k + 1)) in *. set (p := 2 ^ k) in *.
  assert (Hq : 0 < q) by lia.
  pose proof (Z.mod_pos_bound a q Hq) as HA. pose proof (Z.mod_pos_bound b q Hq) as HB.
  assert (ES : (a - b - c) mod q
               = if a mod q - b mod q - c <? 0 then a mod q - b mod q - c + q
                 else a mod q - b mod q - c).
  { pose proof (Z.div_mod a q). pose proof (Z.div_mod b q).
    destruct (a mod q - b mod q - c <? 0) eqn:L; symmetry.
    - apply (Z.mod_unique _ _ (a / q - b / q - 1)); lia.
    - apply (Z.mod_unique _ _ (a / q - b / q)); lia. }
  rewrite ES. unfold borrow_vec.
  destruct (a mod q - b mod q - c <? 0) eqn:L; lia.
Qed.

(** ** Sequencing *)

Lemma exec_app E l1 l2 o : exec E (l1 ++ l2) o = exec E l2 (exec E l1 o).
Proof.
  revert o. induction l1 as [| i l1 IH]; intros o; [reflexivity |].
  cbn [app exec]. destruct o; try (destruct l2 as [|? ?]; reflexivity);
    try apply IH.
  destruct i; try apply IH. destruct (Nat.eqb _ _); apply IH.
Qed.

Lemma run_seq E l1 l2 s s' : run E l1 s = Done s' -> run E (l1 ++ l2) s = run E l2 s'.
Proof. unfold run. intros H. now rewrite exec_app, H. Qed.

Lemma run_fault E l1 l2 s wr a n s' :
  run E l1 s = Fault wr a n s' -> run E (l1 ++ l2) s = Fault wr a n s'.
Proof. unfold run. intros H. rewrite exec_app, H. now destruct l2. Qed.
