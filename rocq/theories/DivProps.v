(** * C09: division *)

From Coq Require Import ZArith Bool Lia ZifyBool.
From Verif Require Import DivModel.
Local Open Scope Z_scope.

(** ** What division should do, with div/mod on whole registers *)

(** the double-width dividend and where quotient and remainder go *)
Definition dividend (n eax edx : Z) : Z :=
  if n =? 8 then eax mod 2 ^ 16 else edx mod 2 ^ n * 2 ^ n + eax mod 2 ^ n.
Definition signed (n v : Z) : Z := if v mod 2 ^ n <? 2 ^ (n - 1) then v mod 2 ^ n else v mod 2 ^ n - 2 ^ n.
Definition results (n eax edx q r : Z) : Z * Z :=
  if n =? 8 then (eax / 2 ^ 16 * 2 ^ 16 + r mod 2 ^ 8 * 2 ^ 8 + q mod 2 ^ 8, edx)
  else (eax / 2 ^ n * 2 ^ n + q mod 2 ^ n, edx / 2 ^ n * 2 ^ n + r mod 2 ^ n).

(** [q] and [r] are quotient and remainder, truncated towards zero *)
Definition truncated (D d q r : Z) : Prop :=
  D = q * d + r /\ Z.abs r < Z.abs d /\ (r = 0 \/ Z.sgn r = Z.sgn D).

Definition widths (n : Z) : Prop := n = 8 \/ n = 16 \/ n = 32.

Definition div_ok (out : dout) (n eax edx D d lo hi : Z) : Prop :=
  (d = 0 /\ out = DRaise) \/
  (d <> 0 /\ exists q r, truncated D d q r /\
    if (lo <=? q) && (q <=? hi)
    then out = DDone (fst (results n eax edx q r)) (snd (results n eax edx q r))
    else out = DRaise).

(** ** Proofs *)

Lemma zx_mod n v : 0 <= n -> zx n v = v mod 2 ^ n.
Proof. intros H. unfold zx. now apply Z.land_ones. Qed.
Lemma sx_signed n v : 0 < n -> sx n v = signed n v.
Proof.
  intros H. unfold sx, signed. rewrite Z.land_ones by lia.
  assert (M : 0 <= v mod 2 ^ n < 2 ^ n) by (apply Z.mod_pos_bound; lia).
  assert (P : 2 ^ n = 2 * 2 ^ (n - 1)) by (rewrite <- Z.pow_succ_r by lia; f_equal; lia).
  assert (B : Z.testbit (v mod 2 ^ n) (n - 1) = negb (v mod 2 ^ n <? 2 ^ (n - 1))).
  { rewrite Z.testbit_odd, Z.shiftr_div_pow2 by lia. set (m := v mod 2 ^ n) in *.
    destruct (Z.ltb_spec m (2 ^ (n - 1))) as [L | L].
    - rewrite Z.div_small by lia. reflexivity.
    - replace (m / 2 ^ (n - 1)) with 1; [reflexivity |]. apply Z.div_unique with (r := m - 2 ^ (n - 1)); lia. }
  rewrite B. destruct (v mod 2 ^ n <? 2 ^ (n - 1)); reflexivity.
Qed.
Lemma lor_shift a b k : 0 <= k -> 0 <= a < 2 ^ k -> Z.lor a (Z.shiftl b k) = b * 2 ^ k + a.
Proof.
  intros Hk Ha. rewrite Z.lor_comm. rewrite Z.shiftl_mul_pow2 by lia.
  apply Z.bits_inj'. intros i Hi. rewrite Z.lor_spec.
  destruct (Z.ltb_spec i k) as [L | L].
  - rewrite Z.mul_pow2_bits_low by lia. cbn [orb].
    rewrite <- (Z.mod_pow2_bits_low (b * 2 ^ k + a) k i) by lia.
    rewrite Z.add_comm, Z.mod_add by lia. now rewrite Z.mod_small by lia.
  - replace (Z.testbit a i) with false.
    2:{ symmetry. destruct (Z.eq_dec a 0) as [-> | N]; [apply Z.bits_0 |]. apply Z.bits_above_log2; [lia |].
        apply Z.log2_lt_pow2; [lia |]. apply Z.lt_le_trans with (2 ^ k); [lia |]. apply Z.pow_le_mono_r; lia. }
    rewrite orb_false_r. replace i with (i - k + k) by lia. rewrite <- !Z.shiftr_spec by lia.
    rewrite Z.shiftr_div_pow2, Z.div_mul by lia.
    rewrite Z.shiftr_div_pow2, Z.div_add_l, (Z.div_small a) by lia. now rewrite Z.add_0_r.
Qed.
Lemma lor_mul a b k : 0 <= k -> 0 <= a < 2 ^ k -> Z.lor (b * 2 ^ k) a = b * 2 ^ k + a.
Proof. intros Hk Ha. rewrite <- (lor_shift a b k) by assumption. now rewrite Z.lor_comm, Z.shiftl_mul_pow2 by lia. Qed.
Lemma hi16 r : 0 <= r < 2 ^ 32 -> Z.land r 0xFFFF0000 = r / 2 ^ 16 * 2 ^ 16.
Proof.
  intros H. change 0xFFFF0000 with (Z.shiftl (Z.ones 16) 16).
  assert (X : Z.land r (Z.shiftl (Z.ones 16) 16) = Z.shiftl (Z.land (Z.shiftr r 16) (Z.ones 16)) 16).
  { apply Z.bits_inj'. intros i Hi. rewrite Z.land_spec. destruct (Z.ltb_spec i 16) as [L | L].
    - rewrite !Z.shiftl_spec_low by lia. apply andb_false_r.
    - rewrite !Z.shiftl_spec, Z.land_spec, Z.shiftr_spec by lia. do 2 f_equal. lia. }
  rewrite X, Z.land_ones, Z.shiftr_div_pow2, Z.shiftl_mul_pow2 by lia. rewrite Z.mod_small; [reflexivity |].
  split; [apply Z.div_pos; lia | apply Z.div_lt_upper_bound; lia].
Qed.
Lemma put16_eq r v : 0 <= r < 2 ^ 32 -> 0 <= v < 2 ^ 16 -> put16 r v = r / 2 ^ 16 * 2 ^ 16 + v.
Proof.
  intros Hr Hv. unfold put16. rewrite hi16 by exact Hr. apply lor_mul; lia.
Qed.
Lemma put8_eq r h v : 0 <= r < 2 ^ 32 -> 0 <= h < 2 ^ 8 -> 0 <= v < 2 ^ 8 ->
  Z.lor (Z.lor (Z.land r 0xFFFF0000) (Z.shiftl h 8)) v = r / 2 ^ 16 * 2 ^ 16 + h * 2 ^ 8 + v.
Proof.
  intros Hr Hh Hv. rewrite hi16 by exact Hr. rewrite <- Z.lor_assoc, (Z.lor_comm (Z.shiftl h 8)), lor_shift by lia.
  rewrite lor_mul by lia. lia.
Qed.
Lemma low_land n v : 0 <= n -> Z.land v (Z.ones n) = v mod 2 ^ n.
Proof. apply Z.land_ones. Qed.

Lemma dividend_range n eax edx : widths n -> 0 <= dividend n eax edx < 2 ^ (2 * n).
Proof.
  intros [-> | [-> | ->]]; unfold dividend; cbn [Z.eqb Pos.eqb].
  - apply Z.mod_pos_bound. lia.
  - pose proof (Z.mod_pos_bound edx (2 ^ 16)). pose proof (Z.mod_pos_bound eax (2 ^ 16)).
    change (2 ^ (2 * 16)) with (2 ^ 16 * 2 ^ 16). nia.
  - pose proof (Z.mod_pos_bound edx (2 ^ 32)). pose proof (Z.mod_pos_bound eax (2 ^ 32)).
    change (2 ^ (2 * 32)) with (2 ^ 32 * 2 ^ 32). nia.
Qed.

Lemma div_trunc D d : 0 <= D -> 0 < d -> truncated D d (D / d) (D mod d).
Proof.
  intros HD Hd. pose proof (Z.div_mod D d) as E. pose proof (Z.mod_pos_bound D d Hd) as M. split; [lia |]. split; [lia |].
  destruct (Z.eq_dec (D mod d) 0) as [H | H]; [now left | right].
  assert (D <> 0) by (intros ->; rewrite Z.mod_0_l in H; lia). rewrite !Z.sgn_pos by lia. reflexivity.
Qed.
Lemma quot_trunc D d : d <> 0 -> truncated D d (Z.quot D d) (Z.rem D d).
Proof.
  intros Hd. pose proof (Z.quot_rem D d Hd) as E. split; [lia |]. split; [now apply Z.rem_bound_abs |].
  destruct (Z.eq_dec (Z.rem D d) 0) as [H | H]; [now left | right]. now apply Z.rem_sign_nz.
Qed.

Lemma div_correct n eax edx d : widths n -> 0 <= eax < 2 ^ 32 -> 0 <= edx < 2 ^ 32 -> 0 <= d < 2 ^ n ->
  div_ok (div_helper n eax edx d) n eax edx (dividend n eax edx) d 0 (2 ^ n - 1).
Proof.
  intros W Ha Hd0 Hd. pose proof (dividend_range n eax edx W) as R. destruct (Z.eq_dec d 0) as [-> | N].
  { left. split; [reflexivity |]. destruct W as [-> | [-> | ->]]; reflexivity. }
  right. split; [exact N |]. exists (dividend n eax edx / d), (dividend n eax edx mod d).
  split; [apply div_trunc; lia |].
  assert (Q : 0 <= dividend n eax edx / d) by (apply Z.div_pos; lia).
  assert (RM : 0 <= dividend n eax edx mod d < d) by (apply Z.mod_pos_bound; lia).
  replace (0 <=? dividend n eax edx / d) with true by lia. cbn [andb].
  destruct W as [-> | [-> | ->]]; unfold div_helper; cbn [Z.eqb Pos.eqb].
  - unfold divb. cbv zeta. change 0xFFFF with (Z.ones 16). rewrite low_land by lia. change (eax mod 2 ^ 16) with (dividend 8 eax edx).
    replace (d =? 0) with false by lia. rewrite !zx_mod by lia.
    assert (Q16 : dividend 8 eax edx / d < 2 ^ 16) by (apply Z.div_lt_upper_bound; [lia |]; change (2 * 8) with 16 in R; nia).
    rewrite (Z.mod_small (dividend 8 eax edx / d)) by lia. rewrite (Z.mod_small (dividend 8 eax edx mod d) (2 ^ 16)) by lia.
    set (D := dividend 8 eax edx) in *. replace (255 <? D / d) with (negb (D / d <=? 2 ^ 8 - 1)) by lia.
    destruct (D / d <=? 2 ^ 8 - 1) eqn:L; cbn [negb]; [| reflexivity].
    rewrite put8_eq by (try exact Ha; apply Z.mod_pos_bound; lia). reflexivity.
  - unfold divw. cbv zeta. change 0xFFFF with (Z.ones 16). rewrite !low_land by lia.
    rewrite lor_shift by (try lia; apply Z.mod_pos_bound; lia). change (edx mod 2 ^ 16 * 2 ^ 16 + eax mod 2 ^ 16) with (dividend 16 eax edx).
    replace (d =? 0) with false by lia. rewrite !zx_mod by lia. set (D := dividend 16 eax edx) in *.
    change (Z.ones 16) with (2 ^ 16 - 1). replace (2 ^ 16 - 1 <? D / d) with (negb (D / d <=? 2 ^ 16 - 1)) by lia.
    destruct (D / d <=? 2 ^ 16 - 1) eqn:L; cbn [negb]; [| reflexivity].
    rewrite !put16_eq by (try assumption; apply Z.mod_pos_bound; lia). reflexivity.
  - unfold divd. cbv zeta. rewrite lor_shift by lia.
    replace (edx * 2 ^ 32 + eax) with (dividend 32 eax edx) by (unfold dividend; cbn [Z.eqb Pos.eqb]; rewrite !Z.mod_small by lia; reflexivity).
    replace (d =? 0) with false by lia. rewrite !zx_mod by lia. set (D := dividend 32 eax edx) in *.
    change 0xFFFFFFFF with (2 ^ 32 - 1). replace (2 ^ 32 - 1 <? D / d) with (negb (D / d <=? 2 ^ 32 - 1)) by lia.
    destruct (D / d <=? 2 ^ 32 - 1) eqn:L; cbn [negb]; [| reflexivity].
    unfold results. cbn [Z.eqb Pos.eqb fst snd]. rewrite (Z.div_small eax), (Z.div_small edx) by lia. reflexivity.
Qed.

Lemma signed_range n v : 0 < n -> - 2 ^ (n - 1) <= signed n v < 2 ^ (n - 1).
Proof.
  intros H. unfold signed. assert (M : 0 <= v mod 2 ^ n < 2 ^ n) by (apply Z.mod_pos_bound; lia).
  assert (P : 2 ^ n = 2 * 2 ^ (n - 1)) by (rewrite <- Z.pow_succ_r by lia; f_equal; lia).
  destruct (Z.ltb_spec (v mod 2 ^ n) (2 ^ (n - 1))); lia.
Qed.
Lemma signed_fix n v : 0 < n -> (v =? signed n v) = (- 2 ^ (n - 1) <=? v) && (v <=? 2 ^ (n - 1) - 1).
Proof.
  intros H. pose proof (signed_range n v H) as R.
  assert (P : 2 ^ n = 2 * 2 ^ (n - 1)) by (rewrite <- Z.pow_succ_r by lia; f_equal; lia).
  destruct (Z.eqb_spec v (signed n v)) as [e | ne]; [lia |].
  symmetry. apply andb_false_iff. destruct (Z.leb_spec (- 2 ^ (n - 1)) v) as [L1 | L1]; [right | now left].
  apply Z.leb_gt. destruct (Z_lt_ge_dec v (2 ^ (n - 1))) as [L2 | L2]; [| lia]. exfalso. apply ne. unfold signed.
  destruct (Z_lt_ge_dec v 0) as [L3 | L3].
  - replace (v mod 2 ^ n) with (v + 2 ^ n) by (apply Z.mod_unique_pos with (q := -1); lia).
    destruct (Z.ltb_spec (v + 2 ^ n) (2 ^ (n - 1))); lia.
  - rewrite Z.mod_small by lia. destruct (Z.ltb_spec v (2 ^ (n - 1))); lia.
Qed.
Lemma quot_abs D d : d <> 0 -> Z.abs (Z.quot D d) <= Z.abs D.
Proof.
  intros Hd. pose proof (Z.quot_rem D d Hd) as E. pose proof (Z.rem_bound_abs D d Hd) as R.
  rewrite <- Z.quot_abs by exact Hd. apply Z.quot_le_upper_bound; [lia |]. nia.
Qed.
Lemma signed_small n v : 0 < n -> - 2 ^ (n - 1) <= v <= 2 ^ (n - 1) - 1 -> signed n v = v.
Proof. intros H R. pose proof (signed_fix n v H) as F. replace ((- 2 ^ (n - 1) <=? v) && (v <=? 2 ^ (n - 1) - 1)) with true in F by lia. lia. Qed.

Lemma idiv_correct n eax edx d : widths n -> 0 <= eax < 2 ^ 32 -> 0 <= edx < 2 ^ 32 -> 0 <= d < 2 ^ n ->
  (n = 8 \/ signed (2 * n) (dividend n eax edx) <> - 2 ^ (2 * n - 1) \/ signed n d <> -1) ->
  div_ok (idiv_helper n eax edx d) n eax edx (signed (2 * n) (dividend n eax edx)) (signed n d) (- 2 ^ (n - 1)) (2 ^ (n - 1) - 1).
Proof.
  intros W Ha Hd0 Hd OK. set (D := signed (2 * n) (dividend n eax edx)) in *. set (e := signed n d) in *.
  destruct (Z.eq_dec e 0) as [E0 | N].
  { left. split; [exact E0 |]. destruct W as [-> | [-> | ->]]; unfold idiv_helper, idivb, idivw, idivd; cbn [Z.eqb Pos.eqb];
      rewrite sx_signed by lia; fold e; rewrite E0; reflexivity. }
  right. split; [exact N |]. exists (Z.quot D e), (Z.rem D e). split; [now apply quot_trunc |].
  rewrite <- (signed_fix n) by (destruct W as [-> | [-> | ->]]; lia).
  destruct W as [-> | [-> | ->]]; unfold idiv_helper; cbn [Z.eqb Pos.eqb].
  - unfold idivb. cbv zeta. change 0xFFFF with (Z.ones 16). rewrite low_land, !sx_signed by lia.
    change (signed 16 (eax mod 2 ^ 16)) with D. fold e. replace (e =? 0) with false by lia.
    pose proof (signed_range 16 (dividend 8 eax edx) ltac:(lia)) as RD. change (signed 16 (dividend 8 eax edx)) with D in RD.
    pose proof (signed_range 8 d ltac:(lia)) as RE. fold e in RE.
    unfold cdiv. replace ((D =? - 2 ^ (32 - 1)) && (e =? -1)) with false by (cbn in RD; lia).
    rewrite !sx_signed by lia. pose proof (quot_abs D e N) as QA. pose proof (Z.rem_bound_abs D e N) as RB.
    rewrite (signed_small 16 (Z.rem D e)) by (cbn in *; lia).
    (* the quotient 32768 wraps, but does not fit in either form *)
    destruct (Z.eq_dec (Z.quot D e) 32768) as [Q | Q].
    + rewrite Q. reflexivity.
    + rewrite (signed_small 16 (Z.quot D e)) by (cbn in *; lia).
      destruct (Z.quot D e =? signed 8 (Z.quot D e)); cbn [negb]; [| reflexivity].
      rewrite !zx_mod by lia. rewrite put8_eq by (try exact Ha; apply Z.mod_pos_bound; lia). reflexivity.
  - unfold idivw. cbv zeta. change 0xFFFF with (Z.ones 16). rewrite !low_land, lor_shift by (try lia; apply Z.mod_pos_bound; lia).
    rewrite !sx_signed by lia. change (signed 32 (edx mod 2 ^ 16 * 2 ^ 16 + eax mod 2 ^ 16)) with D. fold e. replace (e =? 0) with false by lia.
    unfold cdiv. change (2 * 16 - 1) with (32 - 1) in OK. replace ((D =? - 2 ^ (32 - 1)) && (e =? -1)) with false by lia.
    rewrite sx_signed by lia. destruct (Z.quot D e =? signed 16 (Z.quot D e)); cbn [negb]; [| reflexivity].
    rewrite !zx_mod by lia. rewrite !put16_eq by (try assumption; apply Z.mod_pos_bound; lia). reflexivity.
  - unfold idivd. cbv zeta. rewrite lor_shift by lia.
    replace (edx * 2 ^ 32 + eax) with (dividend 32 eax edx) by (unfold dividend; cbn [Z.eqb Pos.eqb]; rewrite !Z.mod_small by lia; reflexivity).
    rewrite !sx_signed by lia. change (signed 64 (dividend 32 eax edx)) with D. fold e. replace (e =? 0) with false by lia.
    unfold cdiv. change (2 * 32 - 1) with (64 - 1) in OK. replace ((D =? - 2 ^ (64 - 1)) && (e =? -1)) with false by lia.
    rewrite sx_signed by lia. destruct (Z.quot D e =? signed 32 (Z.quot D e)); cbn [negb]; [| reflexivity].
    rewrite !zx_mod by lia. unfold results. cbn [Z.eqb Pos.eqb fst snd]. rewrite (Z.div_small eax), (Z.div_small edx) by lia. reflexivity.
Qed.

(** ** Theorems *)

(** DIV: the exact quotient and remainder, or #DE with nothing changed, for all
    operands; the host never faults. *)
Theorem C09_div : forall n eax edx d, widths n -> 0 <= eax < 2 ^ 32 -> 0 <= edx < 2 ^ 32 -> 0 <= d < 2 ^ n ->
  div_ok (div_helper n eax edx d) n eax edx (dividend n eax edx) d 0 (2 ^ n - 1).
Proof. exact div_correct. Qed.
Print Assumptions C09_div.

(** IDIV: the same, except for the smallest dividend divided by -1 at 16 and 32
    bits. *)
Theorem C09_idiv_partial : forall n eax edx d, widths n -> 0 <= eax < 2 ^ 32 -> 0 <= edx < 2 ^ 32 -> 0 <= d < 2 ^ n ->
  (n = 8 \/ signed (2 * n) (dividend n eax edx) <> - 2 ^ (2 * n - 1) \/ signed n d <> -1) ->
  div_ok (idiv_helper n eax edx d) n eax edx (signed (2 * n) (dividend n eax edx)) (signed n d) (- 2 ^ (n - 1)) (2 ^ (n - 1) - 1).
Proof. exact idiv_correct. Qed.
Print Assumptions C09_idiv_partial.

(** There the emulator itself traps: the guest's #DE is due, the C++ division
    overflows. *)
Theorem C09_refuted_host_trap :
  idiv_helper 32 0 0x80000000 0xFFFFFFFF = DUndef /\ idiv_helper 16 0x12340000 0x8000 0xFFFF = DUndef /\
  ~ div_ok (idiv_helper 32 0 0x80000000 0xFFFFFFFF) 32 0 0x80000000 (- 2 ^ 63) (-1) (- 2 ^ 31) (2 ^ 31 - 1).
Proof.
  split; [reflexivity |]. split; [reflexivity |]. change (idiv_helper 32 0 0x80000000 0xFFFFFFFF) with DUndef.
  intros [[H _] | (_ & q & r & _ & H)]; [discriminate |]. destruct (_ && _); discriminate.
Qed.
Print Assumptions C09_refuted_host_trap.

Example C09_example :
  idiv_helper 8 0x0000FFF9 7 2 = DDone 0x0000FFFD 7 /\       (* -7 / 2 = -3 rem -1 *)
  idiv_helper 8 0x8000 0 0xFF = DRaise /\
  idiv_helper 32 0xFFFFFFF9 0xFFFFFFFF 2 = DDone 0xFFFFFFFD 0xFFFFFFFF /\
  div_helper 16 0xABCD0005 0x00000001 0x10 = DDone 0xABCD1000 5 /\ div_helper 16 5 0x10 0x10 = DRaise.
Proof. repeat split. Qed.
