(** * Proofs about the x87 model *)

From Coq Require Import ZArith Bool List Lia.
From Verif Require Import FpuModel FpuSpec.
Import ListNotations.
Local Open Scope Z_scope.

Ltac mods := Z.to_euclidean_division_equations; lia.

Lemma land7 x : Z.land x 7 = x mod 8.
Proof. change 7 with (Z.ones 3). now rewrite Z.land_ones by lia. Qed.
Lemma idx_mod s i : idx s i = (ftop s + i) mod 8.
Proof. unfold idx. rewrite land7. f_equal. lia. Qed.
Lemma stx_mod s i : 0 <= ftop s < 8 -> stx s i = (ftop s + i) mod 8.
Proof.
  intros H. unfold stx. destruct (Z.eqb_spec i 0); [subst; rewrite Z.add_0_r, Z.mod_small by lia; reflexivity |].
  now rewrite land7.
Qed.
Lemma idx_top s : 0 <= ftop s < 8 -> idx s 0 = ftop s.
Proof. intros H. rewrite idx_mod, Z.add_0_r. now apply Z.mod_small. Qed.

Lemma upd_eq f k v : upd f k v k = v.
Proof. unfold upd. now rewrite Z.eqb_refl. Qed.
Lemma upd_ne f k v j : j <> k -> upd f k v j = f j.
Proof. intros H. unfold upd. now rewrite (proj2 (Z.eqb_neq _ _) H). Qed.

Lemma nz_bit x n : 0 <= n -> nz (Z.land x (2 ^ n)) = Z.testbit x n.
Proof.
  intros Hn. unfold nz. destruct (Z.testbit x n) eqn:T.
  - destruct (Z.eqb_spec (Z.land x (2 ^ n)) 0) as [E | E]; [| reflexivity].
    apply (f_equal (fun y => Z.testbit y n)) in E. rewrite Z.land_spec, Z.pow2_bits_true, T, Z.bits_0 in E by lia. discriminate.
  - replace (Z.land x (2 ^ n)) with 0; [reflexivity |]. symmetry. apply Z.bits_inj'. intros m Hm.
    rewrite Z.land_spec, Z.bits_0, Z.pow2_bits_eqb by lia. destruct (Z.eqb_spec n m); [subst; now rewrite T | apply andb_false_r].
Qed.
Lemma masked_im s : masked s = im s.
Proof. exact (nz_bit (fctrl s) 0 ltac:(lia)). Qed.
Lemma pending_es s : nz (Z.land (fstatus s) SW_ES) = pending s.
Proof. exact (nz_bit (fstatus s) 7 ltac:(lia)). Qed.
Lemma is_empty_st s i : is_tag_empty s i = match st s i with None => true | Some _ => false end.
Proof. unfold is_tag_empty, st. rewrite idx_mod. unfold TAG_EMPTY. now destruct (_ =? 3). Qed.

Lemma hi_bit x n : 0 <= n -> 0 <= x < 2 ^ n -> Z.testbit x n = false.
Proof. intros Hn H. rewrite Z.testbit_false by lia. rewrite Z.div_small by lia. reflexivity. Qed.
Lemma tag_for_class v : tag_for v = class v.
Proof.
  unfold tag_for, class, exponent, significand, TAG_ZERO, TAG_SPECIAL, TAG_VALID.
  change (Z.land (Z.shiftr v 64) 32767) with (Z.land (Z.shiftr v 64) (Z.ones 15)).
  rewrite !Z.land_ones, Z.shiftr_div_pow2 by lia. change 32767 with (2 ^ 15 - 1).
  set (e := (v / 2 ^ 64) mod 2 ^ 15). set (m := v mod 2 ^ 64).
  assert (He : 0 <= e < 2 ^ 15) by (apply Z.mod_pos_bound; lia).
  assert (Hm : 0 <= m < 2 ^ 64) by (apply Z.mod_pos_bound; lia).
  change (Z.shiftl 1 63) with (2 ^ 63). rewrite nz_bit by lia.
  assert (T : Z.testbit m 63 = (2 ^ 63 <=? m)).
  { destruct (Z.leb_spec (2 ^ 63) m).
    - replace m with (2 ^ 63 + (m - 2 ^ 63)) by lia. assert (B : Z.testbit (m - 2 ^ 63) 63 = false) by (apply hi_bit; lia).
      rewrite Z.add_nocarry_lxor.
      + rewrite Z.lxor_spec, Z.pow2_bits_true, B by lia. reflexivity.
      + apply Z.bits_inj'. intros n Hn. rewrite Z.land_spec, Z.bits_0, Z.pow2_bits_eqb by lia.
        destruct (Z.eqb_spec 63 n); [subst n; now rewrite B | reflexivity].
    - apply hi_bit; lia. }
  rewrite T. destruct (Z.eqb_spec e 0), (Z.eqb_spec m 0), (Z.eqb_spec e (2 ^ 15 - 1)), (Z.leb_spec (2 ^ 63) m),
    (Z.ltb_spec 0 e), (Z.ltb_spec e (2 ^ 15 - 1)); cbn [andb orb negb]; try reflexivity; exfalso; lia.
Qed.
Lemma class_range v : 0 <= class v <= 2.
Proof. unfold class. destruct (_ && _); [lia |]. destruct (_ && _); lia. Qed.
Lemma class_full v : (class v =? 3) = false.
Proof. apply Z.eqb_neq. pose proof (class_range v). lia. Qed.

(** ** Stack effects of the building blocks *)
Section Blocks.
Variable s : fpu.
Hypothesis Ht : 0 <= ftop s < 8.

Lemma push_range : 0 <= ftop (fpu_push s) < 8.
Proof. cbn. rewrite land7. apply Z.mod_pos_bound. lia. Qed.
Lemma pop_range : 0 <= ftop (FPU_POP s) < 8.
Proof. cbn. rewrite land7. apply Z.mod_pos_bound. lia. Qed.

Lemma st_store_tag i j v : st (store_tag i v s) j =
  if (ftop s + j) mod 8 =? (ftop s + i) mod 8 then Some v else st s j.
Proof.
  unfold st, store_tag, update_tag, store_stx. rewrite idx_mod. cbn [fr ftag ftop set_fr set_ftag].
  rewrite stx_mod by exact Ht. destruct (Z.eqb_spec ((ftop s + j) mod 8) ((ftop s + i) mod 8)) as [E | E].
  - rewrite E, !upd_eq, tag_for_class, class_full. reflexivity.
  - now rewrite !upd_ne by exact E.
Qed.
Lemma st_put_qnan i j : st (put_qnan (idx s i) s) j =
  if (ftop s + j) mod 8 =? (ftop s + i) mod 8 then Some indefinite else st s j.
Proof.
  unfold st, put_qnan. rewrite idx_mod. cbn [fr ftag ftop set_fr set_ftag]. unfold upd.
  destruct (_ =? (ftop s + i) mod 8); reflexivity.
Qed.
Lemma st_ftop k j : st (set_ftop k s) j = st s (j + k - ftop s).
Proof. unfold st. cbn [fr ftag ftop set_ftop]. replace (ftop s + (j + k - ftop s)) with (k + j) by lia. reflexivity. Qed.
Lemma st_period i j : (i - j) mod 8 = 0 -> st s i = st s j.
Proof. intros H. unfold st. replace ((ftop s + i) mod 8) with ((ftop s + j) mod 8) by mods. reflexivity. Qed.
Lemma st_tag_pop j : st (tag_pop s) j = if (ftop s + 1 + j) mod 8 =? ftop s then None else st s (j + 1).
Proof.
  unfold tag_pop, update_tag, FPU_POP. rewrite idx_top by exact Ht. unfold st. cbn [fr ftag ftop set_ftop set_ftag].
  rewrite land7. replace (((ftop s + 1) mod 8 + j) mod 8) with ((ftop s + 1 + j) mod 8) by mods.
  replace (ftop s + (j + 1)) with (ftop s + 1 + j) by lia. unfold upd.
  destruct (_ =? ftop s); [reflexivity | destruct (_ =? 3); reflexivity].
Qed.
Lemma popped_tag_pop : popped s (tag_pop s).
Proof.
  split; [unfold tag_pop, FPU_POP; cbn; apply land7 |]. split.
  - rewrite st_tag_pop. replace ((ftop s + 1 + 7) mod 8) with (ftop s) by mods. now rewrite Z.eqb_refl.
  - intros i Hi. rewrite st_tag_pop. rewrite (proj2 (Z.eqb_neq _ _)); [reflexivity | mods].
Qed.
Lemma fpu_pop_eq : fpu_pop s = tag_pop s.
Proof. unfold fpu_pop, tag_pop, update_tag. now rewrite idx_top. Qed.
Lemma replaced_store i v : 0 <= i < 8 -> replaced i v s (store_tag i v s).
Proof.
  intros Hi. split; [reflexivity |]. split.
  - rewrite st_store_tag, Z.eqb_refl. reflexivity.
  - intros j Hj N. rewrite st_store_tag, (proj2 (Z.eqb_neq _ _)); [reflexivity | mods].
Qed.
Lemma replaced_qnan i : 0 <= i < 8 -> replaced i indefinite s (put_qnan (idx s i) s).
Proof.
  intros Hi. split; [reflexivity |]. split.
  - rewrite st_put_qnan, Z.eqb_refl. reflexivity.
  - intros j Hj N. rewrite st_put_qnan, (proj2 (Z.eqb_neq _ _)); [reflexivity | mods].
Qed.
End Blocks.

Lemma pushed_store v s : 0 <= ftop s < 8 -> pushed v s (store_tag 0 v (fpu_push s)).
Proof.
  intros H. pose proof (push_range s) as R. split; [cbn; apply land7 |]. split.
  - rewrite st_store_tag by exact R. now rewrite Z.eqb_refl.
  - intros i Hi. rewrite st_store_tag by exact R. unfold fpu_push. cbn [ftop set_ftop]. rewrite land7.
    rewrite (proj2 (Z.eqb_neq _ _)) by mods. rewrite st_ftop. apply st_period. mods.
Qed.
Lemma pushed_qnan s : 0 <= ftop s < 8 -> pushed indefinite s (let t := fpu_push s in put_qnan (ftop t) t).
Proof.
  intros H. pose proof (push_range s) as R. cbv zeta. rewrite <- (idx_top (fpu_push s) R) at 1.
  split; [cbn; apply land7 |]. split.
  - rewrite st_put_qnan. now rewrite Z.eqb_refl.
  - intros i Hi. rewrite st_put_qnan. unfold fpu_push. cbn [ftop set_ftop]. rewrite land7.
    rewrite (proj2 (Z.eqb_neq _ _)) by mods. rewrite st_ftop. apply st_period. mods.
Qed.

(** two states with the same stack *)
Definition core_eq (s t : fpu) : Prop := fr t = fr s /\ ftag t = ftag s /\ ftop t = ftop s.
Lemma core_st s t i : core_eq s t -> st t i = st s i.
Proof. intros (A & B & C). unfold st. now rewrite A, B, C. Qed.
Lemma core_refl s : core_eq s s. Proof. now split. Qed.
Lemma core_sym s t : core_eq s t -> core_eq t s.
Proof. intros (A & B & C). now repeat split. Qed.
Lemma core_trans s t u : core_eq s t -> core_eq t u -> core_eq s u.
Proof. intros (A & B & C) (A' & B' & C'). repeat split; congruence. Qed.
Lemma core_wf s t : core_eq s t -> wf s -> wf t.
Proof. intros (A & B & C) [H1 H2]. split; [now rewrite C |]. intros k Hk. rewrite B. now apply H2. Qed.
Lemma core_same s t : core_eq s t -> same_stack s t.
Proof. intros H. split; [apply H |]. intros i _. now apply core_st. Qed.

Ltac core_tac := intros; match goal with H : core_eq _ _, H' : core_eq _ _ |- _ => destruct H as (? & ? & E1), H' as (? & ? & E2) end.
Lemma pushed_core v s t s' t' : core_eq s t -> core_eq s' t' -> pushed v s s' -> pushed v t t'.
Proof.
  intros H H' (A & B & C). pose proof (core_st _ _ 0 H') as Z0.
  split; [destruct H as (_ & _ & ->), H' as (_ & _ & ->); exact A |]. split; [now rewrite Z0 |].
  intros i Hi. rewrite (core_st _ _ _ H'), (core_st _ _ _ H). now apply C.
Qed.
Lemma popped_core s t s' t' : core_eq s t -> core_eq s' t' -> popped s s' -> popped t t'.
Proof.
  intros H H' (A & B & C).
  split; [destruct H as (_ & _ & ->), H' as (_ & _ & ->); exact A |]. split; [now rewrite (core_st _ _ _ H') |].
  intros i Hi. rewrite (core_st _ _ _ H'), (core_st _ _ _ H). now apply C.
Qed.
Lemma replaced_core i v s t s' t' : core_eq s t -> core_eq s' t' -> replaced i v s s' -> replaced i v t t'.
Proof.
  intros H H' (A & B & C).
  split; [destruct H as (_ & _ & ->), H' as (_ & _ & ->); exact A |]. split; [now rewrite (core_st _ _ _ H') |].
  intros j Hj N. rewrite (core_st _ _ _ H'), (core_st _ _ _ H). now apply C.
Qed.

(** ** The status word *)
Lemma bits16 b (P : Z -> Prop) : 0 <= b < 16 -> P 0 -> P 1 -> P 2 -> P 3 -> P 4 -> P 5 -> P 6 -> P 7 -> P 8 -> P 9 -> P 10 -> P 11 -> P 12 -> P 13 -> P 14 -> P 15 -> P b.
Proof.
  intros H. intros.
  assert (b = 0 \/ b = 1 \/ b = 2 \/ b = 3 \/ b = 4 \/ b = 5 \/ b = 6 \/ b = 7 \/ b = 8 \/ b = 9 \/ b = 10 \/ b = 11 \/ b = 12 \/ b = 13 \/ b = 14 \/ b = 15) as Q by lia.
  repeat (destruct Q as [-> | Q]; [assumption |]). now subst.
Qed.
Ltac tb := match goal with |- context [Z.testbit (Zpos ?p) ?n] => let v := eval vm_compute in (Z.testbit (Zpos p) n) in change (Z.testbit (Zpos p) n) with v end.
Ltac bit_solve := intros; rewrite ?Z.lor_spec, ?Z.land_spec, ?Z.lxor_spec; repeat tb; cbn [andb orb negb xorb];
  rewrite ?andb_true_r, ?andb_false_r, ?orb_true_r, ?orb_false_r; try reflexivity.

Lemma fault_core e s : core_eq s (stack_fault e s).
Proof. now repeat split. Qed.
Lemma fault_bits (over : bool) s s0 (cc : Z -> bool) :
  (forall b, 0 <= b < 16 -> b <> 9 -> Z.testbit (fstatus s) b = if cc b then true else Z.testbit (fstatus s0) b) ->
  fctrl s = fctrl s0 -> cc 7 = false ->
  fault_status over cc s0 (stack_fault (if over then STACK_OVERFLOW else STACK_UNDERFLOW) s).
Proof.
  intros HC HF H7 b Hb. unfold stack_fault.
  assert (U : nz (Z.land (Z.land (Z.land (if over then STACK_OVERFLOW else STACK_UNDERFLOW) 0x27F) (not16 (fctrl s))) EXP_ALL) = negb (im s0)).
  { replace (Z.land (Z.land (Z.land (if over then STACK_OVERFLOW else STACK_UNDERFLOW) 0x27F) (not16 (fctrl s))) EXP_ALL) with (Z.land (not16 (fctrl s)) (2 ^ 0)).
    - rewrite nz_bit by lia. unfold not16, im. rewrite Z.lxor_spec, HF. reflexivity.
    - rewrite (Z.land_comm _ (not16 (fctrl s))), <- Z.land_assoc. f_equal. destruct over; reflexivity. }
  rewrite U. unfold STACK_OVERFLOW, STACK_UNDERFLOW, SW_SF, SW_C1, SW_ES, not16. cbn [fstatus set_fstatus].
  destruct over, (im s0) eqn:I;
    change (Z.land 0x241 0x27F) with 0x241; change (Z.land 0x41 0x27F) with 0x41;
    change (Z.lxor 0xFFFF 0x200) with 0xFDFF;
    cbn [negb andb]; revert b Hb;
    match goal with |- forall b, 0 <= b < 16 -> ?Q => idtac end; intros b Hb;
    try change (nz (Z.land 577 64) && negb (nz (Z.land 577 512))) with false;
    try change (nz (Z.land 65 64) && negb (nz (Z.land 65 512))) with true; cbv iota;
    (apply (bits16 b); [exact Hb | ..]);
    try (rewrite ?Z.land_spec, ?Z.lor_spec, ?Z.land_spec; repeat tb; cbn -[Z.testbit];
      rewrite ?andb_true_r, ?andb_false_r, ?orb_true_r, ?orb_false_r; try reflexivity;
      rewrite HC by lia; rewrite ?H7; reflexivity).
Qed.
