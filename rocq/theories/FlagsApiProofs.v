(** * The flags API: reading back what was written *)

From Coq Require Import ZArith Bool List Lia ZifyBool.
From Verif Require Import HostModel AluModel AluSpec HostProofs LazyFlagsProofs.
Import ListNotations.
Local Open Scope Z_scope.

Lemma below12 i : 0 <= i -> i < 12 ->
  i = 0 \/ i = 1 \/ i = 2 \/ i = 3 \/ i = 4 \/ i = 5 \/ i = 6 \/ i = 7 \/ i = 8 \/ i = 9
  \/ i = 10 \/ i = 11.
Proof. lia. Qed.

Lemma status_cases i : 0 <= i -> Z.testbit STATUS i = true ->
  i = 0 \/ i = 2 \/ i = 4 \/ i = 6 \/ i = 7 \/ i = 11.
Proof.
  intros Hi S. destruct (Z.lt_ge_cases i 12) as [Hc | Hc].
  - destruct (below12 i Hi Hc) as [-> | D]; [tauto |].
    repeat destruct D as [-> | D]; try subst i; try discriminate S; tauto.
  - rewrite Z.bits_above_log2 in S; [discriminate | discriminate |].
    apply Z.lt_le_trans with 12; [reflexivity | assumption].
Qed.

Lemma eflags_by_parts x y :
  flags_of_eflags x = flags_of_eflags y -> control_bits x = control_bits y -> x = y.
Proof.
  unfold flags_of_eflags, control_bits. intros F C. injection F; intros.
  apply Z.bits_inj'. intros i Hi.
  destruct (Z.testbit STATUS i) eqn:S.
  - destruct (status_cases i Hi S) as [-> | D]; [assumption |].
    repeat destruct D as [-> | D]; try subst i; assumption.
  - assert (E : Z.testbit (Z.land x (Z.lnot STATUS)) i = Z.testbit (Z.land y (Z.lnot STATUS)) i)
      by now rewrite C.
    rewrite !Z.land_spec, Z.lnot_spec, S in E by assumption. now rewrite !andb_true_r in E.
Qed.

Lemma land_pow2 v k : 0 <= k -> Z.land v (2 ^ k) = if Z.testbit v k then 2 ^ k else 0.
Proof.
  intros Hk. apply Z.bits_inj'. intros i Hi.
  rewrite Z.land_spec, Z.pow2_bits_eqb by assumption.
  destruct (Z.eqb_spec k i) as [-> | N].
  - destruct (Z.testbit v i); rewrite ?andb_true_r, ?andb_false_l.
    + now rewrite Z.pow2_bits_true. + now rewrite Z.testbit_0_l.
  - rewrite andb_false_r. destruct (Z.testbit v k);
      [now rewrite Z.pow2_bits_false by lia | now rewrite Z.testbit_0_l].
Qed.

Lemma zf_write v :
  (w32 (Z.lxor (Z.shiftl (Z.land v 0x40) 2) 0x100) =? 0) = Z.testbit v 6.
Proof.
  change 0x40 with (2 ^ 6). rewrite land_pow2 by lia. now destruct (Z.testbit v 6).
Qed.

(** low byte of the combined result after a flag write: only the parity bit *)
Lemma odd_ones_bits x :
  odd_ones x = xorb (xorb (xorb (Z.testbit x 0) (Z.testbit x 1)) (xorb (Z.testbit x 2) (Z.testbit x 3)))
                    (xorb (xorb (Z.testbit x 4) (Z.testbit x 5)) (xorb (Z.testbit x 6) (Z.testbit x 7))).
Proof. reflexivity. Qed.

Lemma write_lazy v reg32 c :
  lazy_flags (res (write_eflags v reg32 c)) (aux (write_eflags v reg32 c)) = flags_of_eflags v.
Proof.
  unfold write_eflags, lazy_flags, flags_of_eflags. cbn [res aux set_eflags set_aux set_res].
  rewrite zf_write, odd_ones_bits.
  f_equal; bits2; rewrite ?xorb_false_r, ?xorb_false_l, ?negb_involutive; try reflexivity.
  all: destruct (Z.testbit v 0); destruct (Z.testbit v 11); reflexivity.
Qed.

Lemma write_ctx_ok v reg32 c : ctx_ok (write_eflags v reg32 c).
Proof.
  unfold ctx_ok, write_eflags. destruct reg32; cbn [eflags set_eflags set_aux set_res];
    rewrite Z.land_lor_distr_l, <- !Z.land_assoc; unfold STATUS;
    cbn [Z.land Pos.land Pos.Ndouble Pos.Nsucc_double Z.of_N]; now rewrite !Z.land_0_r.
Qed.

Lemma w32_land_const x m : 0 <= m < 2 ^ 32 -> Z.land (w32 x) m = Z.land x m.
Proof.
  intros Hm. unfold w32. rewrite <- Z.land_assoc. f_equal.
  change 0xFFFFFFFF with (Z.ones 32). rewrite Z.land_comm, Z.land_ones by lia.
  now apply Z.mod_small.
Qed.

Lemma w32_low x m : 0 <= m < 2 ^ 32 -> w32 (Z.land x m) = Z.land x m.
Proof.
  intros Hm. unfold w32. rewrite <- Z.land_assoc. f_equal.
  change 0xFFFFFFFF with (Z.ones 32). rewrite Z.land_ones by lia. now apply Z.mod_small.
Qed.

Lemma w32_lor x y : w32 (Z.lor x y) = Z.lor (w32 x) (w32 y).
Proof. apply Z.land_lor_distr_l. Qed.

Lemma control_lor x y : control_bits (Z.lor x y) = Z.lor (control_bits x) (control_bits y).
Proof. apply Z.land_lor_distr_l. Qed.

Lemma control_land x m : control_bits (Z.land x m) = Z.land x (Z.land m (Z.lnot STATUS)).
Proof. unfold control_bits. symmetry. apply Z.land_assoc. Qed.

Lemma read_land_control c m :
  0 <= m < 2 ^ 32 -> Z.land m STATUS = 0 -> Z.land (read_eflags c) m = Z.land (eflags c) m.
Proof.
  intros Hm Hs. pose proof (control_read c) as C.
  assert (E : m = Z.land (Z.lnot STATUS) m).
  { apply Z.bits_inj'. intros i Hi. rewrite Z.land_spec, Z.lnot_spec by assumption.
    assert (Z.testbit (Z.land m STATUS) i = false) by (rewrite Hs; apply Z.testbit_0_l).
    rewrite Z.land_spec in H. destruct (Z.testbit m i), (Z.testbit STATUS i); easy. }
  rewrite E, !Z.land_assoc. fold (control_bits (read_eflags c)) (control_bits (eflags c)).
  rewrite C. unfold control_bits. rewrite <- !Z.land_assoc, <- E.
  now apply w32_land_const.
Qed.

(** ** [write_eflags] then [read_eflags] *)

Lemma status_of_masked v m x :
  Z.land m STATUS = STATUS -> Z.land x STATUS = 0 ->
  flags_of_eflags (Z.lor (Z.land v m) x) = flags_of_eflags v.
Proof.
  intros Hm Hx. unfold flags_of_eflags.
  assert (B : forall i, 0 <= i -> Z.testbit STATUS i = true ->
              Z.testbit (Z.lor (Z.land v m) x) i = Z.testbit v i).
  { intros i Hi HS.
    assert (Z.testbit (Z.land m STATUS) i = true) by now rewrite Hm.
    assert (Z.testbit (Z.land x STATUS) i = false) by (rewrite Hx; apply Z.testbit_0_l).
    rewrite !Z.land_spec, HS, andb_true_r in H, H0.
    rewrite Z.lor_spec, Z.land_spec, H, H0. now rewrite andb_true_r, orb_false_r. }
  rewrite !B by (reflexivity || posc). reflexivity.
Qed.

Lemma round_trip32 v c :
  read_eflags (write_eflags v true c) = Z.lor (Z.land v 0x3F7FD5) (Z.land (read_eflags c) 2).
Proof.
  apply eflags_by_parts.
  - rewrite read_flags by apply write_ctx_ok. rewrite write_lazy. symmetry.
    apply status_of_masked; [reflexivity |].
    rewrite <- Z.land_assoc. apply Z.land_0_r.
  - rewrite control_read. unfold write_eflags. cbn [eflags set_eflags set_aux set_res].
    rewrite read_land_control by (split; reflexivity || easy).
    rewrite w32_lor, !control_lor, !w32_low by (split; easy).
    rewrite !control_land. rewrite w32_land_const by (split; easy). apply Z.lor_comm.
Qed.

Lemma round_trip16 v c :
  read_eflags (write_eflags v false c)
  = Z.lor (Z.land v 0x7FD5) (Z.land (read_eflags c) 0xFFFF0002).
Proof.
  apply eflags_by_parts.
  - rewrite read_flags by apply write_ctx_ok. rewrite write_lazy. symmetry.
    apply status_of_masked; [reflexivity |].
    rewrite <- Z.land_assoc. apply Z.land_0_r.
  - rewrite control_read. unfold write_eflags. cbn [eflags set_eflags set_aux set_res].
    rewrite read_land_control by (split; reflexivity || easy).
    rewrite w32_lor, !control_lor, !w32_low by (split; easy).
    rewrite !control_land. rewrite w32_land_const by (split; easy). apply Z.lor_comm.
Qed.

(** ** [write_eflags_helper] (IRET, POPF in the helpers) *)

Lemma helper_lazy ef mask c :
  lazy_flags (res (write_eflags_helper ef mask c)) (aux (write_eflags_helper ef mask c))
  = flags_of_eflags ef.
Proof.
  unfold write_eflags_helper, lazy_flags, flags_of_eflags.
  cbn [res aux set_eflags set_aux set_res].
  replace (w32 (Z.shiftl (Z.lxor (Z.land ef 0x40) 0x40) 2) =? 0) with (Z.testbit ef 6)
    by (change 0x40 with (2 ^ 6); rewrite land_pow2 by lia; now destruct (Z.testbit ef 6)).
  rewrite odd_ones_bits.
  f_equal; bits2; rewrite ?xorb_false_r, ?xorb_false_l, ?negb_involutive; try reflexivity.
  all: destruct (Z.testbit ef 0); destruct (Z.testbit ef 11); reflexivity.
Qed.

Lemma helper_ctx_ok ef mask c :
  Z.land mask STATUS = 0 -> ctx_ok c -> ctx_ok (write_eflags_helper ef mask c).
Proof.
  intros Hm Hc. unfold ctx_ok, write_eflags_helper in *. cbn [eflags set_eflags set_aux set_res].
  rewrite !Z.land_lor_distr_l, <- !Z.land_assoc, Hm, Z.land_0_r.
  rewrite (Z.land_comm (w32 _)), Z.land_assoc, Hc. reflexivity.
Qed.

(** the guest-visible word: masked control bits come from the new value, the
    others stay, all status flags are taken over *)
Lemma helper_read ef mask c :
  0 <= mask < 2 ^ 32 -> Z.land mask STATUS = 0 -> ctx_ok c ->
  read_eflags (write_eflags_helper ef mask c)
  = Z.lor (Z.lor (Z.land ef (Z.lor mask STATUS))
                 (Z.land (read_eflags c) (w32 (Z.lnot (Z.lor mask STATUS))))) 2.
Proof.
  intros Hr Hm Hc.
  assert (HL : Z.land (w32 (Z.lnot (Z.lor mask STATUS))) STATUS = 0).
  { apply Z.bits_inj'. intros i Hi. unfold w32.
    rewrite !Z.land_spec, Z.lnot_spec, Z.lor_spec, Z.testbit_0_l by assumption.
    destruct (Z.testbit STATUS i); rewrite ?orb_true_r, ?andb_false_r; reflexivity. }
  apply eflags_by_parts.
  - rewrite read_flags by now apply helper_ctx_ok. rewrite helper_lazy. symmetry.
    rewrite <- Z.lor_assoc. apply status_of_masked.
    + rewrite Z.land_lor_distr_l, Hm. reflexivity.
    + rewrite Z.land_lor_distr_l, <- Z.land_assoc, HL, Z.land_0_r. reflexivity.
  - rewrite control_read. unfold write_eflags_helper. cbn [eflags set_eflags set_aux set_res].
    rewrite read_land_control; [| unfold w32; change 0xFFFFFFFF with (Z.ones 32);
      rewrite Z.land_ones by lia; apply Z.mod_pos_bound; reflexivity | exact HL].
    apply Z.bits_inj'. intros i Hi. unfold control_bits, w32.
    repeat (rewrite ?Z.land_spec, ?Z.lor_spec; rewrite ?Z.lnot_spec by assumption).
    assert (M : Z.testbit mask i = true -> Z.testbit 0xFFFFFFFF i = true).
    { intros B. change 0xFFFFFFFF with (Z.ones 32). rewrite Z.testbit_ones_nonneg by lia.
      destruct (Z.ltb_spec i 32); [reflexivity |].
      rewrite <- (Z.mod_small mask (2 ^ 32)), Z.mod_pow2_bits_high in B by lia. discriminate. }
    assert (T : Z.testbit 2 i = true -> Z.testbit 0xFFFFFFFF i = true).
    { intros B. change 2 with (2 ^ 1) in B. rewrite Z.pow2_bits_eqb in B by lia.
      replace i with 1 by lia. reflexivity. }
    destruct (Z.testbit (eflags c) i), (Z.testbit ef i), (Z.testbit mask i),
      (Z.testbit STATUS i), (Z.testbit 0xFFFFFFFF i), (Z.testbit 2 i); cbn;
      try reflexivity; first [discriminate (M eq_refl) | discriminate (T eq_refl)].
Qed.
