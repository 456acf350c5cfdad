(** * Lanes and bytes *)

From Coq Require Import ZArith Bool List Lia ZifyBool.
From Verif Require Import HostModel AluModel AluSpec HostProofs FlagArith AluProofs UnaryProofs ShiftForms SseModel SseSpec.
Import ListNotations.
Local Open Scope Z_scope.

Lemma lor_sum a b k : 0 <= k -> 0 <= a < 2 ^ k -> Z.lor a (Z.shiftl b k) = a + b * 2 ^ k.
Proof. intros Hk Ha. rewrite Z.lor_comm, lor_join by assumption. lia. Qed.

(** ** Lanes *)

Lemma lane32_eq i v : 0 <= i -> lane32 i v = lane i v.
Proof.
  intros Hi. unfold lane32, lane. change 0xFFFFFFFF with (Z.ones 32). rewrite Z.land_ones by lia.
  now rewrite Z.shiftr_div_pow2 by lia.
Qed.
Lemma lane_range i v : 0 <= lane i v < 2 ^ 32.
Proof. apply Z.mod_pos_bound. reflexivity. Qed.
Lemma lanes_pack a b c d : 0 <= a < 2 ^ 32 -> 0 <= b < 2 ^ 32 -> 0 <= c < 2 ^ 32 -> 0 <= d < 2 ^ 32 ->
  lanes a b c d = pack a b c d.
Proof.
  intros Ha Hb Hc Hd. unfold lanes, pack.
  replace (Z.lor (Z.shiftl c 64) (Z.shiftl d 96)) with (Z.shiftl (c + d * 2 ^ 32) 64).
  2:{ change 96 with (32 + 64). rewrite <- (Z.shiftl_shiftl d 32 64), <- Z.shiftl_lor by lia. now rewrite lor_sum by lia. }
  rewrite (lor_sum a b 32), lor_sum by lia. lia.
Qed.
Lemma pack_range a b c d : 0 <= a < 2 ^ 32 -> 0 <= b < 2 ^ 32 -> 0 <= c < 2 ^ 32 -> 0 <= d < 2 ^ 32 ->
  0 <= pack a b c d < 2 ^ 128.
Proof. unfold pack. lia. Qed.
Lemma lane_pack a b c d : 0 <= a < 2 ^ 32 -> 0 <= b < 2 ^ 32 -> 0 <= c < 2 ^ 32 -> 0 <= d < 2 ^ 32 ->
  lane 0 (pack a b c d) = a /\ lane 1 (pack a b c d) = b /\ lane 2 (pack a b c d) = c /\ lane 3 (pack a b c d) = d.
Proof.
  intros Ha Hb Hc Hd. unfold lane, pack.
  assert (D : forall x y k, 0 < k -> 0 <= x < k -> (x + y * k) / k = y).
  { intros x y k K X. rewrite Z.div_add by lia. rewrite Z.div_small by lia. lia. }
  assert (M : forall x y k, 0 < k -> 0 <= x < k -> (x + y * k) mod k = x).
  { intros x y k K X. rewrite Z.mod_add by lia. now apply Z.mod_small. }
  split; [| split; [| split]].
  - change (2 ^ (32 * 0)) with 1. rewrite Z.div_1_r.
    replace (a + _ + _ + _) with (a + (b + c * 2 ^ 32 + d * 2 ^ 64) * 2 ^ 32) by lia. now apply M.
  - replace (a + _ + _ + _) with (a + (b + (c + d * 2 ^ 32) * 2 ^ 32) * 2 ^ 32) by lia.
    change (32 * 1) with 32. rewrite D by lia. now apply M.
  - replace (a + _ + _ + _) with ((a + b * 2 ^ 32) + (c + d * 2 ^ 32) * 2 ^ 64) by lia.
    change (32 * 2) with 64. rewrite D by lia. now apply M.
  - replace (a + _ + _ + _) with ((a + b * 2 ^ 32 + c * 2 ^ 64) + d * 2 ^ 96) by lia.
    change (32 * 3) with 96. rewrite D by lia. now apply Z.mod_small.
Qed.
Lemma pack_lanes v : 0 <= v < 2 ^ 128 -> pack (lane 0 v) (lane 1 v) (lane 2 v) (lane 3 v) = v.
Proof.
  intros Hv. unfold lane, pack. change (2 ^ (32 * 0)) with 1. rewrite Z.div_1_r.
  change (32 * 1) with 32. change (32 * 2) with 64. change (32 * 3) with 96.
  pose proof (Z.div_mod v (2 ^ 32)). 
  assert (E1 : v / 2 ^ 64 = v / 2 ^ 32 / 2 ^ 32) by (rewrite Z.div_div by lia; reflexivity).
  assert (E2 : v / 2 ^ 96 = v / 2 ^ 64 / 2 ^ 32) by (rewrite Z.div_div by lia; reflexivity).
  assert (E3 : v / 2 ^ 96 < 2 ^ 32) by (apply Z.div_lt_upper_bound; lia).
  assert (E4 : 0 <= v / 2 ^ 96) by (apply Z.div_pos; lia).
  rewrite (Z.mod_small (v / 2 ^ 96)) by lia.
  pose proof (Z.div_mod (v / 2 ^ 32) (2 ^ 32)). pose proof (Z.div_mod (v / 2 ^ 64) (2 ^ 32)). rewrite <- E1 in *. rewrite <- E2 in *. lia.
Qed.
Lemma land3 v : Z.land v 3 = v mod 4.
Proof. change 3 with (Z.ones 2). now rewrite Z.land_ones by lia. Qed.
Lemma sel_eq imm i : 0 <= i -> Z.land (Z.shiftr imm (2 * i)) 3 = field imm i.
Proof.
  intros Hi. rewrite land3, Z.shiftr_div_pow2 by lia. unfold field. now rewrite Z.pow_mul_r by lia.
Qed.
Lemma field_range imm i : 0 <= field imm i < 4.
Proof. apply Z.mod_pos_bound. reflexivity. Qed.

Lemma shuf_eq imm a b : alu128 (AShuf imm) a b = shufps imm a b.
Proof.
  cbn [alu128]. cbv zeta. rewrite !sel_eq by lia. rewrite !lane32_eq by (apply field_range).
  apply lanes_pack; apply lane_range.
Qed.
Lemma unpckh_eq a b : alu128 AUnpckH a b = unpckhps a b.
Proof. cbn [alu128]. rewrite !lane32_eq by lia. apply lanes_pack; apply lane_range. Qed.
Lemma unpckl_eq a b : alu128 AUnpckL a b = unpcklps a b.
Proof. cbn [alu128]. rewrite !lane32_eq by lia. apply lanes_pack; apply lane_range. Qed.

(** ** Parts of a register *)

Lemma high_bits v k i : 0 <= v < 2 ^ k -> k <= i -> Z.testbit v i = false.
Proof.
  intros Hv Hi. destruct (Z.eq_dec v 0) as [-> | N]; [apply Z.bits_0 |]. apply Z.bits_above_log2; [lia |].
  apply Z.log2_lt_pow2; [lia |]. eapply Z.lt_le_trans; [apply Hv |]. apply Z.pow_le_mono_r; lia.
Qed.

(** clearing the low [k] bits of a 128-bit value *)
Lemma clear_low v k : 0 <= k <= 128 -> 0 <= v < 2 ^ 128 -> Z.land v (Z.lxor M128 (Z.ones k)) = Z.shiftl (v / 2 ^ k) k.
Proof.
  intros Hk Hv. apply Z.bits_inj'. intros i Hi.
  change M128 with (Z.ones 128). rewrite Z.land_spec, Z.lxor_spec, Z.shiftl_spec by assumption.
  rewrite <- Z.shiftr_div_pow2 by lia. rewrite !Z.testbit_ones_nonneg by lia.
  destruct (Z.ltb_spec i k).
  - rewrite (Z.testbit_neg_r _ (i - k)) by lia. destruct (Z.ltb_spec i 128); [| lia]. cbn. apply andb_false_r.
  - rewrite Z.shiftr_spec by lia. replace (i - k + k) with i by lia. destruct (Z.ltb_spec i 128); cbn; [now rewrite andb_true_r |].
    rewrite (high_bits v 128) by (assumption || lia). reflexivity.
Qed.
(** clearing the bits from [k] on *)
Lemma clear_high v k : 0 <= k <= 128 -> 0 <= v < 2 ^ 128 -> Z.land v (Z.lxor M128 (Z.shiftl (Z.ones (128 - k)) k)) = v mod 2 ^ k.
Proof.
  intros Hk Hv. rewrite <- Z.land_ones by lia. apply Z.bits_inj'. intros i Hi. change M128 with (Z.ones 128).
  rewrite !Z.land_spec, Z.lxor_spec, Z.shiftl_spec by assumption.
  rewrite (Z.testbit_ones_nonneg 128 i), (Z.testbit_ones_nonneg k i) by lia.
  destruct (Z.ltb_spec i k).
  - rewrite (Z.testbit_neg_r _ (i - k)) by lia. destruct (Z.ltb_spec i 128); [reflexivity | lia].
  - rewrite Z.testbit_ones_nonneg by lia. rewrite andb_false_r. destruct (Z.ltb_spec i 128).
    + destruct (Z.ltb_spec (i - k) (128 - k)); [apply andb_false_r | lia].
    + rewrite (high_bits v 128) by (assumption || lia). reflexivity.
Qed.

Lemma insert_low w old v : w = W32 \/ w = W64 -> 0 <= old < 2 ^ 128 ->
  xinsert w 0 old v = v mod modulus w + old / modulus w * modulus w.
Proof.
  intros Hw Ho. unfold xinsert. rewrite Z.mul_0_r, !Z.shiftl_0_r, getw_mod.
  assert (W : wmask w = Z.ones (wbits w)) by (destruct Hw as [-> | ->]; reflexivity).
  assert (B : 0 <= wbits w <= 128) by (destruct Hw as [-> | ->]; cbn; lia).
  rewrite W, clear_low by assumption. fold (modulus w). rewrite Z.lor_comm. unfold modulus. apply lor_sum; [lia |].
  apply Z.mod_pos_bound. apply Z.pow_pos_nonneg; lia.
Qed.
Lemma insert_high old v : 0 <= old < 2 ^ 128 -> xinsert W64 8 old v = old mod 2 ^ 64 + v mod 2 ^ 64 * 2 ^ 64.
Proof.
  intros Ho. unfold xinsert. rewrite getw_mod. change (wmask W64) with (Z.ones (128 - 64)). change (8 * 8) with 64.
  rewrite clear_high by (lia || assumption). change (modulus W64) with (2 ^ 64). apply lor_sum; [lia |]. apply Z.mod_pos_bound. reflexivity.
Qed.
Lemma xpart_eq w off v : 0 <= off -> xpart w off v = (v / 2 ^ (8 * off)) mod modulus w.
Proof. intros H. unfold xpart. rewrite getw_mod. now rewrite Z.shiftr_div_pow2 by lia. Qed.

Lemma movss_eq a b : 0 <= a < 2 ^ 128 -> alu128 AMovss a b = pack (lane 0 b) (lane 1 a) (lane 2 a) (lane 3 a).
Proof.
  intros Ha. cbn [alu128]. change 0xFFFFFFFF with (Z.ones 32) at 1. rewrite clear_low by (assumption || lia).
  change 0xFFFFFFFF with (Z.ones 32). rewrite Z.land_ones, Z.lor_comm, lor_sum by (lia || (apply Z.mod_pos_bound; reflexivity)).
  rewrite <- (pack_lanes a Ha) at 1. unfold pack at 1.
  replace (_ + _ + _ + _) with (lane 0 a + (lane 1 a + lane 2 a * 2 ^ 32 + lane 3 a * 2 ^ 64) * 2 ^ 32) by lia.
  rewrite Z.div_add, Z.div_small by (lia || apply lane_range). unfold pack. unfold lane at 4.
  change (2 ^ (32 * 0)) with 1. rewrite Z.div_1_r. lia.
Qed.

(** ** Bytes *)

Lemma value_range n : forall m a, 0 <= value_at n m a < 256 ^ Z.of_nat n.
Proof.
  induction n as [| n IH]; intros m a; [cbn; lia |]. cbn [value_at]. rewrite Nat2Z.inj_succ, Z.pow_succ_r by lia.
  pose proof (Z.mod_pos_bound (m (a mod 2 ^ 32)) 256 eq_refl). pose proof (IH m (a + 1)). lia.
Qed.
Lemma value_wrap n : forall m a b, a mod 2 ^ 32 = b mod 2 ^ 32 -> value_at n m a = value_at n m b.
Proof.
  induction n as [| n IH]; intros m a b H; [reflexivity |]. cbn [value_at]. rewrite H. do 2 f_equal. apply IH.
  rewrite (Z.add_mod a), (Z.add_mod b), H by lia. reflexivity.
Qed.
Lemma value_app n k m : forall a, value_at (n + k) m a = value_at n m a + 256 ^ Z.of_nat n * value_at k m (a + Z.of_nat n).
Proof.
  induction n as [| n IH]; intros a.
  - cbn [Nat.add value_at Z.of_nat]. rewrite Z.add_0_r. change (256 ^ 0) with 1. lia.
  - cbn [Nat.add value_at]. rewrite IH. rewrite Nat2Z.inj_succ, Z.pow_succ_r by lia.
    replace (a + 1 + Z.of_nat n) with (a + Z.succ (Z.of_nat n)) by lia. lia.
Qed.
Lemma byte_eq m a : Z.land (m (w32 a)) 0xFF = m (a mod 2 ^ 32) mod 256.
Proof.
  change w32 with (getw W32). rewrite getw_mod. change 0xFF with (Z.ones 8). now rewrite Z.land_ones by lia.
Qed.
Lemma step_eq y v : 0 <= y < 256 -> y + 256 * v = Z.lor y (Z.shiftl v 8).
Proof. intros H. rewrite lor_sum by lia. change (2 ^ 8) with 256. lia. Qed.

Lemma mload_value w m a : mload m w a = value_at (Z.to_nat (wbytes w)) m a.
Proof.
  unfold mload. rewrite !byte_eq.
  assert (B : forall i, 0 <= m (i mod 2 ^ 32) mod 256 < 256) by (intros; apply Z.mod_pos_bound; reflexivity).
  destruct w; cbn [wbytes]; match goal with |- context [Z.to_nat ?k] => let n := eval cbv in (Z.to_nat k) in change (Z.to_nat k) with n end;
    cbn [value_at]; rewrite ?Z.mul_0_r, ?Z.add_0_r; rewrite <- ?Z.add_assoc;
    rewrite ?step_eq by apply B; rewrite ?Z.shiftl_lor, ?Z.shiftl_shiftl by lia; rewrite <- ?Z.lor_assoc;
    rewrite ?Z.shiftl_0_l, ?Z.shiftl_0_r, ?Z.lor_0_r; cbn [Z.add Z.mul Pos.add Pos.mul Pos.succ]; reflexivity.
Qed.
Lemma load16 m a : Z.lor (getw W64 (mload m W64 a)) (Z.shiftl (getw W64 (mload m W64 (w32 (a + 8)))) 64) = value_at 16 m a.
Proof.
  rewrite !getw_mload, !mload_value. change (Z.to_nat (wbytes W64)) with 8%nat.
  rewrite lor_sum by (pose proof (value_range 8 m a) as R; change (256 ^ Z.of_nat 8) with (2 ^ 64) in R; lia).
  change 16%nat with (8 + 8)%nat. rewrite (value_app 8 8). change (256 ^ Z.of_nat 8) with (2 ^ 64). change (Z.of_nat 8) with 8.
  rewrite (value_wrap 8 m (w32 (a + 8)) (a + 8)); [lia |]. change w32 with (getw W32). rewrite getw_mod. now rewrite Z.mod_mod.
Qed.

Lemma mstore_put w m a v x : mstore m w a v x = put_at (wbytes w) m a v x.
Proof.
  unfold mstore, put_at. change w32 with (getw W32). rewrite getw_mod. change (modulus W32) with (2 ^ 32).
  replace (x <? 2 ^ 32) with (x <=? 0xFFFFFFFF) by lia.
  destruct ((0 <=? x) && (x <=? 4294967295)); cbn [andb]; [| reflexivity].
  destruct ((x - a) mod 2 ^ 32 <? wbytes w); [| reflexivity].
  pose proof (Z.mod_pos_bound (x - a) (2 ^ 32) eq_refl).
  change 0xFF with (Z.ones 8). rewrite Z.land_ones, Z.shiftr_div_pow2 by lia. rewrite Z.pow_mul_r by lia. reflexivity.
Qed.
Lemma store16 m a v x : 0 <= a < 2 ^ 32 ->
  mstore (mstore m W64 a (xpart W64 0 v)) W64 (w32 (a + 8)) (xpart W64 8 v) x = put_at 16 m a v x.
Proof.
  intros Ha. rewrite mstore_put. unfold put_at at 1. rewrite mstore_put. unfold put_at. cbn [wbytes].
  destruct ((0 <=? x) && (x <? 2 ^ 32)) eqn:R; cbn [andb]; [| reflexivity].
  replace ((x - w32 (a + 8)) mod 2 ^ 32) with ((x - a - 8) mod 2 ^ 32).
  2:{ change w32 with (getw W32). rewrite getw_mod. change (modulus W32) with (2 ^ 32). rewrite Zminus_mod_idemp_r. f_equal. lia. }
  pose proof (Z.mod_pos_bound (x - a) (2 ^ 32) eq_refl) as K. set (o := (x - a) mod 2 ^ 32) in *.
  assert (O8 : (x - a - 8) mod 2 ^ 32 = if o <? 8 then o - 8 + 2 ^ 32 else o - 8).
  { replace ((x - a - 8) mod 2 ^ 32) with ((o - 8) mod 2 ^ 32) by (unfold o; apply Zminus_mod_idemp_l).
    destruct (Z.ltb_spec o 8); [| apply Z.mod_small; lia].
    rewrite <- (Z.mod_add (o - 8) 1) by lia. apply Z.mod_small. lia. }
  rewrite O8. clearbody o. clear O8. rewrite !xpart_eq by lia. change (modulus W64) with (256 ^ 8). change (2 ^ (8 * 0)) with 1. rewrite Z.div_1_r.
  change (2 ^ (8 * 8)) with (256 ^ 8).
  assert (P : forall u i, 0 <= i < 8 -> (u mod 256 ^ 8 / 256 ^ i) mod 256 = (u / 256 ^ i) mod 256).
  { intros u i Hi. replace (256 ^ 8) with (256 ^ i * 256 ^ (8 - i)) by (rewrite <- Z.pow_add_r by lia; f_equal; lia).
    assert (0 < 256 ^ i) by (apply Z.pow_pos_nonneg; lia). assert (0 < 256 ^ (7 - i)) by (apply Z.pow_pos_nonneg; lia).
    replace (256 ^ (8 - i)) with (256 * 256 ^ (7 - i)) by (rewrite <- Z.pow_succ_r by lia; f_equal; lia).
    rewrite Z.rem_mul_r by lia. rewrite (Z.mul_comm (256 ^ i)), Z.div_add by lia. rewrite (Z.div_small (u mod 256 ^ i)) by (apply Z.mod_pos_bound; lia).
    rewrite Z.add_0_l. rewrite Z.rem_mul_r by lia. rewrite Z.mul_comm, Z.mod_add by lia. apply Z.mod_mod. lia. }
  destruct (Z.ltb_spec o 8).
  - destruct (Z.ltb_spec (o - 8 + 2 ^ 32) 8); [lia |]. destruct (Z.ltb_spec o 16); [| lia]. apply P. lia.
  - destruct (Z.ltb_spec (o - 8) 8); destruct (Z.ltb_spec o 16); try lia.
    rewrite P by lia. rewrite Z.div_div by (apply Z.pow_nonzero || apply Z.pow_pos_nonneg; lia). rewrite <- Z.pow_add_r by lia. do 3 f_equal. lia.
Qed.
