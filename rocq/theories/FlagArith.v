(** * From carry vectors to architectural flags *)

From Coq Require Import ZArith Bool List Lia ZifyBool.
From Verif Require Import HostModel AluModel AluSpec HostProofs LazyFlagsProofs FlagsApiProofs.
Import ListNotations.
Local Open Scope Z_scope.

Lemma even_parity_odd v : even_parity v = negb (odd_ones v).
Proof.
  unfold even_parity, odd_ones. cbn [seq filter Z.of_nat Pos.of_succ_nat Pos.succ].
  destruct (Z.testbit v 0), (Z.testbit v 1), (Z.testbit v 2), (Z.testbit v 3),
    (Z.testbit v 4), (Z.testbit v 5), (Z.testbit v 6), (Z.testbit v 7); reflexivity.
Qed.

Lemma odd_ones_ext x y :
  (forall i, 0 <= i < 8 -> Z.testbit x i = Z.testbit y i) -> odd_ones x = odd_ones y.
Proof. intros H. rewrite !odd_ones_bits. now rewrite !H by (split; [posc | reflexivity]). Qed.

Lemma sext_mod w v : sext w v mod modulus w = v mod modulus w.
Proof.
  unfold sext. fold (getw w v). rewrite getw_mod.
  replace (wmask w + 1) with (modulus w) by (destruct w; reflexivity).
  pose proof (modulus_pos w).
  destruct (Z.testbit v _); [| apply Z.mod_mod; lia].
  rewrite Zminus_mod, Z_mod_same_full, Z.sub_0_r. rewrite !Z.mod_mod by lia. reflexivity.
Qed.

Lemma sext_bit w v i : 0 <= i < wbits w -> Z.testbit (sext w v) i = Z.testbit v i.
Proof.
  intros Hi.
  rewrite <- (Z.mod_pow2_bits_low (sext w v) (wbits w) i) by lia.
  rewrite <- (Z.mod_pow2_bits_low v (wbits w) i) by lia.
  fold (modulus w). now rewrite sext_mod.
Qed.

(** the sign of a word, as a bit and as a number *)
Lemma signed_neg w v : 0 <= v < modulus w -> (signed w v <? 0) = Z.testbit v (wbits w - 1).
Proof.
  intros H. rewrite testbit_half by (destruct w; cbn; lia).
  replace (wbits w - 1 + 1) with (wbits w) by lia. fold (modulus w).
  rewrite Z.mod_small by assumption. unfold signed.
  destruct (Z.ltb_spec v (2 ^ (wbits w - 1))); lia.
Qed.

Lemma sext_signed w v : sext w v = signed w (getw w v).
Proof.
  unfold sext, signed. fold (getw w v). pose proof (getw_range w v) as R.
  pose proof (signed_neg w _ R) as S. unfold signed in S.
  replace (Z.testbit v (wbits w - 1)) with (Z.testbit (getw w v) (wbits w - 1)).
  2:{ rewrite getw_testbit by (destruct w; cbn; lia).
      replace (wbits w - 1 <? wbits w) with true by (destruct w; reflexivity). apply andb_true_r. }
  rewrite <- S. replace (wmask w + 1) with (modulus w) by (destruct w; reflexivity).
  destruct (Z.ltb_spec (getw w v) (2 ^ (wbits w - 1))).
  - replace (getw w v <? 0) with false by lia. reflexivity.
  - replace (getw w v - modulus w <? 0) with true by lia. reflexivity.
Qed.

Definition arith_w (w : width) : Prop := w <> W64.

Lemma mod_neg y : - 2 ^ 32 <= y < 0 -> y mod 2 ^ 32 = y + 2 ^ 32.
Proof. intros H. symmetry. apply Z.mod_unique with (q := -1); lia. Qed.

(** sign bit of the sign-extended 32-bit image of a word of at most 32 bits *)
Lemma sext_top w v : arith_w w -> Z.testbit (sext w v) 31 = Z.testbit v (wbits w - 1).
Proof.
  intros Hw. rewrite sext_signed.
  assert (E : Z.testbit v (wbits w - 1) = Z.testbit (getw w v) (wbits w - 1)).
  { rewrite getw_testbit by (destruct w; cbn; lia).
    replace (wbits w - 1 <? wbits w) with true by (destruct w; reflexivity). now rewrite andb_true_r. }
  rewrite E. pose proof (getw_range w v) as R. rewrite <- signed_neg by assumption.
  set (x := getw w v) in *. rewrite testbit_half by lia.
  assert (B : - 2 ^ 31 <= signed w x < 2 ^ 31)
    by (unfold signed; destruct w; cbn in *; try (now elim Hw);
        match goal with |- context [if ?b then _ else _] => destruct b eqn:?; lia end).
  change (31 + 1) with 32.
  destruct (Z.ltb_spec (signed w x) 0).
  - rewrite mod_neg by lia. lia.
  - rewrite Z.mod_small by lia. lia.
Qed.

Lemma sext_zero w v : arith_w w -> (w32 (sext w v) =? 0) = (v mod modulus w =? 0).
Proof.
  intros Hw. rewrite sext_signed, getw_mod.
  pose proof (Z.mod_pos_bound v (modulus w) (modulus_pos w)) as R.
  set (x := v mod modulus w) in *. change (w32 (signed w x)) with (getw W32 (signed w x)).
  rewrite getw_mod. change (modulus W32) with (2 ^ 32). unfold signed.
  destruct (Z.ltb_spec x (2 ^ (wbits w - 1))).
  - rewrite Z.mod_small by (destruct w; cbn in *; try (now elim Hw); lia). reflexivity.
  - rewrite (mod_neg (x - modulus w)).
    + destruct w; cbn in *; try (now elim Hw); lia.
    + destruct w; cbn in *; try (now elim Hw); lia.
Qed.


Lemma n8 w : 8 <= wbits w.
Proof. destruct w; cbn; lia. Qed.

Lemma parity_from_res R A v :
  (forall i, 8 <= i < 16 -> Z.testbit A i = false) ->
  (forall i, 0 <= i < 8 -> Z.testbit R i = Z.testbit v i) ->
  negb (odd_ones (Z.lxor R (Z.shiftr A 8))) = even_parity v.
Proof.
  intros Apar H. rewrite even_parity_odd. f_equal. apply odd_ones_ext. intros i Hi.
  rewrite Z.lxor_spec, Z.shiftr_spec, Apar, xorb_false_r by lia. auto.
Qed.

Lemma mod_bit w v i : 0 <= i < wbits w -> Z.testbit (v mod modulus w) i = Z.testbit v i.
Proof. intros. unfold modulus. apply Z.mod_pow2_bits_low. lia. Qed.

Lemma w32_bits x y i : w32 x = w32 y -> 0 <= i < 32 -> Z.testbit x i = Z.testbit y i.
Proof. intros H Hi. rewrite <- (w32_bit x i Hi), <- (w32_bit y i Hi). now rewrite H. Qed.

Lemma res_bits w R A v : arith_w w -> Z.testbit A 0 = false -> w32 R = w32 (sext w v) ->
  (forall i, 0 <= i < 8 -> Z.testbit R i = Z.testbit (v mod modulus w) i) /\
  (w32 R =? 0) = (v mod modulus w =? 0) /\
  xorb (Z.testbit R 31) (Z.testbit A 0) = (signed w (v mod modulus w) <? 0).
Proof.
  intros Hw A0 H. pose proof (n8 w).
  split; [| split].
  - intros i Hi. rewrite mod_bit by lia. rewrite (w32_bits R (sext w v)) by (assumption || lia).
    apply sext_bit. lia.
  - rewrite H. now apply sext_zero.
  - rewrite A0, xorb_false_r, (w32_bits R (sext w v)) by (assumption || lia).
    rewrite sext_top by assumption.
    rewrite signed_neg by (apply Z.mod_pos_bound, modulus_pos). symmetry. apply mod_bit. lia.
Qed.

Lemma mod_half w x : 0 <= x < modulus w ->
  x mod 2 ^ (wbits w - 1) = if x <? 2 ^ (wbits w - 1) then x else x - 2 ^ (wbits w - 1).
Proof.
  intros Hx. assert (E : modulus w = 2 * 2 ^ (wbits w - 1)) by (destruct w; reflexivity).
  destruct (Z.ltb_spec x (2 ^ (wbits w - 1))).
  - now apply Z.mod_small.
  - symmetry. apply (Z.mod_unique _ _ 1); lia.
Qed.

Section Vec.
Variables (w : width) (a b c R A : Z).
Hypothesis Hw : arith_w w.
Hypothesis Ha : 0 <= a < modulus w.
Hypothesis Hb : 0 <= b < modulus w.
Hypothesis Hc : 0 <= c <= 1.
Hypothesis A0 : Z.testbit A 0 = false.
Hypothesis Apar : forall i, 8 <= i < 16 -> Z.testbit A i = false.

Let n := wbits w.

Lemma vec_sum :
  w32 R = w32 (sext w (a + b + c)) ->
  Z.testbit A 31 = carry_vec (Z.testbit a (n - 1)) (Z.testbit b (n - 1)) (Z.testbit (a + b + c) (n - 1)) ->
  Z.testbit A 30 = carry_vec (Z.testbit a (n - 2)) (Z.testbit b (n - 2)) (Z.testbit (a + b + c) (n - 2)) ->
  Z.testbit A 3 = carry_vec (Z.testbit a 3) (Z.testbit b 3) (Z.testbit (a + b + c) 3) ->
  lazy_flags R A = add_flags_spec w a b c.
Proof.
  intros HR H31 H30 H3. destruct (res_bits w R A _ Hw A0 HR) as (P & ZR & S).
  pose proof (n8 w : 8 <= n).
  rewrite carry_bit in H31, H30, H3 by first [assumption | clear - H; lia].
  replace (n - 1 + 1) with n in H31 by lia. replace (n - 2 + 1) with (n - 1) in H30 by lia.
  change (2 ^ n) with (modulus w) in H31. rewrite !Z.mod_small in H31 by assumption.
  unfold n in H30. rewrite !mod_half in H30 by assumption. change (2 ^ (3 + 1)) with 16 in H3.
  unfold lazy_flags, add_flags_spec. cbv zeta.
  rewrite (parity_from_res _ _ _ Apar P), ZR, S, H3, H31, H30. f_equal.
  unfold fits, signed. clear - Ha Hb Hc.
  assert (E : modulus w = 2 * 2 ^ (wbits w - 1)) by (destruct w; reflexivity).
  set (h := 2 ^ (wbits w - 1)) in *. clearbody h. rewrite E in *. clear E.
  destruct (Z.ltb_spec a h), (Z.ltb_spec b h); lia.
Qed.

Lemma vec_sub :
  w32 R = w32 (sext w (a - b - c)) ->
  Z.testbit A 31 = borrow_vec (Z.testbit a (n - 1)) (Z.testbit b (n - 1)) (Z.testbit (a - b - c) (n - 1)) ->
  Z.testbit A 30 = borrow_vec (Z.testbit a (n - 2)) (Z.testbit b (n - 2)) (Z.testbit (a - b - c) (n - 2)) ->
  Z.testbit A 3 = borrow_vec (Z.testbit a 3) (Z.testbit b 3) (Z.testbit (a - b - c) 3) ->
  lazy_flags R A = sub_flags_spec w a b c.
Proof.
  intros HR H31 H30 H3. destruct (res_bits w R A _ Hw A0 HR) as (P & ZR & S).
  pose proof (n8 w : 8 <= n).
  rewrite borrow_bit in H31, H30, H3 by first [assumption | clear - H; lia].
  replace (n - 1 + 1) with n in H31 by lia. replace (n - 2 + 1) with (n - 1) in H30 by lia.
  change (2 ^ n) with (modulus w) in H31. rewrite !Z.mod_small in H31 by assumption.
  unfold n in H30. rewrite !mod_half in H30 by assumption. change (2 ^ (3 + 1)) with 16 in H3.
  unfold lazy_flags, sub_flags_spec. cbv zeta.
  rewrite (parity_from_res _ _ _ Apar P), ZR, S, H3, H31, H30. f_equal.
  unfold fits, signed. clear - Ha Hb Hc.
  assert (E : modulus w = 2 * 2 ^ (wbits w - 1)) by (destruct w; reflexivity).
  set (h := 2 ^ (wbits w - 1)) in *. clearbody h. rewrite E in *. clear E.
  destruct (Z.ltb_spec a h), (Z.ltb_spec b h); lia.
Qed.
End Vec.

Lemma logic_lazy w v R A : arith_w w -> 0 <= v < modulus w ->
  w32 R = w32 (sext w v) -> w32 A = 0 -> lazy_flags R A = logic_flags_spec w v.
Proof.
  intros Hw Hv HR HA.
  assert (B : forall i, 0 <= i < 32 -> Z.testbit A i = false).
  { intros i Hi. rewrite <- (w32_bit A i Hi), HA. apply Z.testbit_0_l. }
  destruct (res_bits w R A v Hw (B 0 (conj (Z.le_refl 0) eq_refl)) HR) as (P & ZR & S).
  rewrite Z.mod_small in * by assumption.
  unfold lazy_flags, logic_flags_spec.
  rewrite (parity_from_res R A) with (v := v); [| intros; apply B; lia | assumption].
  rewrite ZR, S, !B by lia. reflexivity.
Qed.

(** flags other than CF and OF only depend on the low thirty bits of the
    auxiliary word *)
Lemma lazy_low R A A' :
  (forall i, 0 <= i < 30 -> Z.testbit A' i = Z.testbit A i) ->
  lazy_flags R A' =
  mkaf (Z.testbit A' 31) (f_pf (lazy_flags R A)) (f_af (lazy_flags R A)) (f_zf (lazy_flags R A))
       (f_sf (lazy_flags R A)) (xorb (Z.testbit A' 31) (Z.testbit A' 30)).
Proof.
  intros H. unfold lazy_flags; cbn [f_pf f_af f_zf f_sf]. f_equal.
  - f_equal. apply odd_ones_ext. intros i Hi. rewrite !Z.lxor_spec, !Z.shiftr_spec, H by lia. reflexivity.
  - apply H; lia.
  - rewrite H by lia. reflexivity.
Qed.
