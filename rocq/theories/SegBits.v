(** * Bit fields of descriptors, selectors and hflags *)

From Coq Require Import ZArith Bool List Lia ZifyBool.
From Verif Require Import SegModel SegSpec.
Local Open Scope Z_scope.

Lemma land_bit d k : 0 <= k -> d .& (1 << k) = if Z.testbit d k then 2 ^ k else 0.
Proof.
  intros Hk. rewrite Z.shiftl_1_l. apply Z.bits_inj'. intros i Hi.
  rewrite Z.land_spec, Z.pow2_bits_eqb by lia. destruct (Z.eqb_spec k i) as [<- | N].
  - destruct (Z.testbit d k); [now rewrite Z.pow2_bits_true by lia | now rewrite Z.bits_0].
  - rewrite andb_false_r. destruct (Z.testbit d k); [now rewrite Z.pow2_bits_false by lia | now rewrite Z.bits_0].
Qed.
Lemma fld1 d k j : 0 <= j <= k -> (d .& (1 << k)) >> j = if Z.testbit d k then 2 ^ (k - j) else 0.
Proof.
  intros H. rewrite land_bit by lia. destruct (Z.testbit d k); [| apply Z.shiftr_0_l].
  rewrite Z.shiftr_div_pow2 by lia. replace k with (k - j + j) at 1 by lia. rewrite Z.pow_add_r by lia.
  apply Z.div_mul. lia.
Qed.
Lemma nz_fld d k : 0 <= k -> nz (d .& (1 << k)) = Z.testbit d k.
Proof. intros H. unfold nz. rewrite land_bit by exact H. destruct (Z.testbit d k); [| reflexivity]. pose proof (Z.pow_pos_nonneg 2 k). lia. Qed.
Lemma z_fld d k : 0 <= k -> (d .& (1 << k) =? 0) = negb (Z.testbit d k).
Proof. intros H. rewrite <- nz_fld by exact H. unfold nz. now rewrite negb_involutive. Qed.
Lemma field d n k : 0 <= k -> 0 <= n -> (d .& (Z.ones n << k)) = (d / 2 ^ k mod 2 ^ n) << k.
Proof.
  intros Hk Hn. rewrite <- Z.land_ones, <- Z.shiftr_div_pow2 by lia.
  apply Z.bits_inj'. intros i Hi. rewrite Z.land_spec. destruct (Z.ltb_spec i k) as [L | L].
  - rewrite !Z.shiftl_spec_low by lia. apply andb_false_r.
  - rewrite !Z.shiftl_spec, Z.land_spec, Z.shiftr_spec by lia. do 2 f_equal. lia.
Qed.
Lemma fieldr d n k j : 0 <= j <= k -> 0 <= n -> (d .& (Z.ones n << k)) >> j = (d / 2 ^ k mod 2 ^ n) * 2 ^ (k - j).
Proof.
  intros Hk Hn. rewrite field by lia. rewrite Z.shiftl_mul_pow2, Z.shiftr_div_pow2 by lia.
  replace k with (k - j + j) at 2 by lia. rewrite Z.pow_add_r, Z.mul_assoc by lia. apply Z.div_mul. lia.
Qed.
Lemma dpl_eq d : desc_dpl d = dpl_of d.
Proof. unfold desc_dpl, SEG_DESC_DPL. change 3 with (Z.ones 2). rewrite fieldr by lia. unfold dpl_of. change (2 ^ 2) with 4. lia. Qed.
Lemma dpl_range d : 0 <= dpl_of d < 4.
Proof. unfold dpl_of. apply Z.mod_pos_bound. lia. Qed.
Lemma rpl_range d : 0 <= rpl d < 4.
Proof. unfold rpl. apply Z.mod_pos_bound. lia. Qed.
Lemma rpl_eq sl : sl .& 3 = rpl sl.
Proof. change 3 with (Z.ones 2). rewrite Z.land_ones by lia. reflexivity. Qed.
Lemma err_eq sl : 0 <= sl < 2 ^ 16 -> sl .& 0xFFFC = errcode sl.
Proof.
  intros H. change 0xFFFC with (Z.ones 14 << 2). rewrite field by lia. unfold errcode.
  rewrite Z.shiftl_mul_pow2 by lia. change (2 ^ 2) with 4. rewrite Z.mod_small; [reflexivity |].
  split; [apply Z.div_pos; lia | apply Z.div_lt_upper_bound; lia].
Qed.
Lemma null_eq sl : 0 <= sl -> (sl >> 2 =? 0) = is_null sl.
Proof.
  intros H. rewrite Z.shiftr_div_pow2 by lia. unfold is_null. change (2 ^ 2) with 4.
  pose proof (Z.div_mod sl 4). pose proof (Z.mod_pos_bound sl 4).
  destruct (Z.ltb_spec sl 4); [rewrite Z.div_small by lia; reflexivity |]. apply Z.eqb_neq. nia.
Qed.
Lemma bit_add a b k i : 0 <= k -> 0 <= a < 2 ^ k -> 0 <= i ->
  Z.testbit (b * 2 ^ k + a) i = if i <? k then Z.testbit a i else Z.testbit b (i - k).
Proof.
  intros Hk Ha Hi. destruct (Z.ltb_spec i k) as [L | L].
  - rewrite <- (Z.mod_pow2_bits_low (b * 2 ^ k + a) k i) by lia.
    rewrite Z.add_comm, Z.mod_add by lia. now rewrite Z.mod_small by lia.
  - replace i with (i - k + k) at 1 by lia. rewrite <- Z.shiftr_spec by lia.
    rewrite Z.shiftr_div_pow2, Z.div_add_l, (Z.div_small a) by lia. now rewrite Z.add_0_r.
Qed.
Lemma lor_disj a b k : 0 <= k -> 0 <= a < 2 ^ k -> (b * 2 ^ k) .| a = b * 2 ^ k + a.
Proof.
  intros Hk Ha. apply Z.bits_inj'. intros i Hi. rewrite Z.lor_spec, bit_add by lia.
  destruct (Z.ltb_spec i k) as [L | L].
  - now rewrite Z.mul_pow2_bits_low by lia.
  - replace (Z.testbit a i) with false.
    2:{ symmetry. destruct (Z.eq_dec a 0) as [-> | N]; [apply Z.bits_0 |]. apply Z.bits_above_log2; [lia |].
        apply Z.log2_lt_pow2; [lia |]. apply Z.lt_le_trans with (2 ^ k); [lia |]. apply Z.pow_le_mono_r; lia. }
    rewrite orb_false_r. replace i with (i - k + k) at 1 by lia. rewrite <- Z.shiftr_spec by lia.
    now rewrite Z.shiftr_div_pow2, Z.div_mul by lia.
Qed.
Lemma lor_disj' a b k : 0 <= k -> 0 <= a < 2 ^ k -> a .| (b * 2 ^ k) = b * 2 ^ k + a.
Proof. intros. rewrite Z.lor_comm. now apply lor_disj. Qed.

Lemma base_eq d : desc_base d = base_of d.
Proof.
  unfold desc_base, base_of, w32.
  change 0xFFFF0000 with (Z.ones 16 << 16). change 0xFF00000000 with (Z.ones 8 << 32).
  change 0xFF00000000000000 with (Z.ones 8 << 56). rewrite !fieldr by lia.
  change (16 - 16) with 0. change (32 - 16) with 16. change (56 - 32) with 24. rewrite Z.mul_1_r.
  pose proof (Z.mod_pos_bound (d / 2 ^ 16) (2 ^ 16)) as A. pose proof (Z.mod_pos_bound (d / 2 ^ 32) (2 ^ 8)) as B.
  pose proof (Z.mod_pos_bound (d / 2 ^ 56) (2 ^ 8)) as C.
  assert (E : d / 2 ^ 16 mod 2 ^ 24 = d / 2 ^ 32 mod 2 ^ 8 * 2 ^ 16 + d / 2 ^ 16 mod 2 ^ 16).
  { change (2 ^ 24) with (2 ^ 16 * 2 ^ 8). rewrite Z.rem_mul_r by lia. rewrite Z.div_div by lia.
    change (2 ^ 16 * 2 ^ 16) with (2 ^ 32). lia. }
  rewrite E. rewrite (lor_disj' (d / 2 ^ 16 mod 2 ^ 16) _ 16) by lia. rewrite (lor_disj' _ _ 24) by lia.
  rewrite Z.mod_small by lia. lia.
Qed.
Lemma flags_eq d : 0 <= d < 2 ^ 64 -> desc_flags d = d / 2 ^ 32.
Proof.
  intros H. unfold desc_flags. change 0xFFFFFFFF00000000 with (Z.ones 32 << 32). rewrite fieldr by lia.
  change (32 - 32) with 0. rewrite Z.mul_1_r. apply Z.mod_small. split; [apply Z.div_pos; lia | apply Z.div_lt_upper_bound; lia].
Qed.
Lemma limit_eq d : desc_limit d = limit_of d.
Proof.
  unfold desc_limit, limit_of, SEG_DESC_G. rewrite nz_fld by lia. cbv zeta.
  change 0xFFFF with (Z.ones 16). change 0xF000000000000 with (Z.ones 4 << 48). rewrite Z.land_ones, fieldr by lia.
  change (48 - 32) with 16. pose proof (Z.mod_pos_bound d (2 ^ 16)) as A. pose proof (Z.mod_pos_bound (d / 2 ^ 48) (2 ^ 4)) as B.
  rewrite lor_disj' by lia. destruct (Z.testbit d 55); [| lia]. unfold w32.
  rewrite Z.shiftl_mul_pow2 by lia. set (raw := d / 2 ^ 48 mod 2 ^ 4 * 2 ^ 16 + d mod 2 ^ 16).
  assert (R : 0 <= raw < 2 ^ 20) by (unfold raw; lia).
  rewrite (Z.mod_small (raw * 2 ^ 12)) by lia.
  change 0xFFF with (2 ^ 12 - 1). rewrite lor_disj by lia. unfold raw. lia.
Qed.
Lemma decode_eq r sl d X s : 0 <= d < 2 ^ 64 -> seg X (load_desc X r sl d s) r = decode sl d.
Proof.
  intros H. unfold load_desc, write_seg_reg, decode. rewrite base_eq, limit_eq, flags_eq by exact H.
  destruct r; reflexivity.
Qed.
Lemma load_other r q sl d X s : q <> r -> seg X (load_desc X r sl d s) q = seg X s q.
Proof. intros H. unfold load_desc, write_seg_reg. destruct r, q; try reflexivity; now destruct H. Qed.

Lemma ti_eq sl : nz (sl .& 4) = in_ldt sl.
Proof. change 4 with (1 << 2). now rewrite nz_fld by lia. Qed.

Lemma four x : 0 <= x < 4 -> x = 0 \/ x = 1 \/ x = 2 \/ x = 3.
Proof. lia. Qed.

(** the comparison trick of the stack segment checks *)
Lemma stack_bits (s d w : bool) dp rp c : 0 <= dp < 4 -> 0 <= rp < 4 -> 0 <= c < 4 ->
  nz (((if s then 2 ^ 0 else 0) .| (if d then 2 ^ 1 else 0) .| (if w then 2 ^ 2 else 0) .| (dp * 2 ^ 3) .| (rp << 5))
       .^ (5 .| (c << 3) .| (c << 5)))
  = negb (s && negb d && w && (dp =? c) && (rp =? c)).
Proof.
  intros D%four R%four C%four. destruct D as [-> | [-> | [-> | ->]]], R as [-> | [-> | [-> | ->]]], C as [-> | [-> | [-> | ->]]];
    destruct s, d, w; reflexivity.
Qed.

(** ** hflags *)
Lemma cpl_mod X s : cpl X s = ring X s.
Proof. unfold cpl, ring, HFLG_CPL. change 3 with (Z.ones 2). now rewrite Z.land_ones by lia. Qed.
Lemma ring_range X s : 0 <= ring X s < 4.
Proof. apply Z.mod_pos_bound. lia. Qed.
