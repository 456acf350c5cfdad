(** * MSR accesses (C27) *)

From Coq Require Import ZArith Bool List Lia.
From Verif Require Import MsrModel.
Import ListNotations.
Local Open Scope Z_scope.

(** ** Specification *)

(** the documented reserved bits of the registers that have some *)
Definition reserved_bit (c b : Z) : bool :=
  if c =? 0x1B then (b <=? 7) || (b =? 9) || (b =? 10) || (36 <=? b)          (* IA32_APIC_BASE *)
  else if c =? 0x2A then (b =? 0) || (b =? 5) || (b =? 11) || (28 <=? b)      (* EBL_CR_POWERON *)
  else if c =? 0x8B then (b <? 32)                                            (* BIOS_SIGN_ID *)
  else if (0x200 <=? c) && (c <=? 0x20F) then
    if c mod 2 =? 0 then (8 <=? b) && (b <=? 11) || (36 <=? b)                (* PHYSBASEn *)
    else (b <=? 10) || (36 <=? b)                                             (* PHYSMASKn *)
  else if c =? 0x277 then 3 <=? b mod 8                                       (* PAT *)
  else if c =? 0x2FF then (b =? 8) || (b =? 9) || (12 <=? b)                  (* MTRR_DEF_TYPE *)
  else false.
(** memory type [i] of a register made of eight bytes *)
Definition type_of (v i : Z) : Z := (v / 256 ^ i) mod 256.
(** registers that hold whatever is accepted *)
Definition plain (c : Z) : bool :=
  (c =? 0x8B) || (c =? 0x175) || (c =? 0x176) || (0x200 <=? c) && (c <=? 0x20F) || (c =? 0x250) ||
  (0x258 <=? c) && (c <=? 0x259) || (0x268 <=? c) && (c <=? 0x26F) || (c =? 0x277) || (c =? 0x2FF).
(** registers that exist *)
Definition exists_msr (c : Z) : bool :=
  plain c || (c =? 0x1B) || (c =? 0x2A) || (c =? 0x79) || (c =? 0xFE) || (c =? 0x174) || (c =? 0x179) || (c =? 0x17A) ||
  (c =? 0x17B) || (0x400 <=? c) && (c <? 0x428).

(** ** Proofs *)
Lemma is_base_eq c : is_base c = (0x200 <=? c) && (c <=? 0x20F) && (c mod 2 =? 0).
Proof.
  unfold is_base. rewrite Zeven_mod. change (Zeq_bool (c mod 2) 0) with (Zeq_bool (c mod 2) 0).
  assert (H : Zeq_bool (c mod 2) 0 = (c mod 2 =? 0)) by (destruct (Zeq_bool (c mod 2) 0) eqn:E; symmetry; [apply Z.eqb_eq; now apply Zeq_bool_eq | apply Z.eqb_neq; now apply Zeq_bool_neq]).
  rewrite H. destruct (Z.leb_spec 512 c), (Z.leb_spec c 526), (Z.leb_spec c 527), (Z.eqb_spec (c mod 2) 0); try reflexivity; exfalso; Z.div_mod_to_equations; lia.
Qed.
Lemma is_mask_eq c : is_mask c = (0x200 <=? c) && (c <=? 0x20F) && negb (c mod 2 =? 0).
Proof.
  unfold is_mask. rewrite <- Z.negb_even, Zeven_mod.
  assert (H : Zeq_bool (c mod 2) 0 = (c mod 2 =? 0)) by (destruct (Zeq_bool (c mod 2) 0) eqn:E; symmetry; [apply Z.eqb_eq; now apply Zeq_bool_eq | apply Z.eqb_neq; now apply Zeq_bool_neq]).
  rewrite H. destruct (Z.leb_spec 512 c), (Z.leb_spec 513 c), (Z.leb_spec c 527), (Z.eqb_spec (c mod 2) 0); try reflexivity; exfalso; Z.div_mod_to_equations; lia.
Qed.

Definition range64 : list Z := map Z.of_nat (seq 0 64).
Lemma in_range64 b : 0 <= b < 64 -> In b range64.
Proof. intros H. unfold range64. apply in_map_iff. exists (Z.to_nat b). split; [lia |]. apply in_seq. lia. Qed.
Lemma bits_match m f : forallb (fun b => Bool.eqb (Z.testbit m b) (f b)) range64 = true -> forall b, 0 <= b < 64 -> Z.testbit m b = f b.
Proof. intros H b Hb. rewrite forallb_forall in H. specialize (H b (in_range64 b Hb)). now apply eqb_prop. Qed.
Lemma hits v m f : forallb (fun b => Bool.eqb (Z.testbit m b) (f b)) range64 = true -> 0 <= v < 2 ^ 64 ->
  (nz (Z.land v m) = true <-> exists b, 0 <= b < 64 /\ Z.testbit v b = true /\ f b = true).
Proof.
  intros H Hv. pose proof (bits_match m f H) as B. unfold nz. rewrite negb_true_iff, Z.eqb_neq. split.
  - intros N. destruct (existsb (fun b => Z.testbit v b && f b) range64) eqn:E.
    + apply existsb_exists in E as (b & I & T). unfold range64 in I. apply in_map_iff in I as (k & <- & I). apply in_seq in I.
      apply andb_prop in T. exists (Z.of_nat k). split; [lia | exact T].
    + exfalso. apply N. apply Z.bits_inj'. intros b Hb. rewrite Z.land_spec, Z.bits_0. destruct (Z.ltb_spec b 64).
      * destruct (Z.testbit v b && Z.testbit m b) eqn:T; [| reflexivity]. exfalso. rewrite B in T by lia.
        assert (existsb (fun b => Z.testbit v b && f b) range64 = true) by (apply existsb_exists; exists b; split; [apply in_range64; lia | exact T]). congruence.
      * assert (Z.testbit v b = false); [| now rewrite H1].
        destruct (Z.eq_dec v 0) as [-> |]; [apply Z.bits_0 |]. apply Z.bits_above_log2; [lia |]. apply Z.log2_lt_pow2; [lia |].
        apply Z.lt_le_trans with (2 ^ 64); [lia | apply Z.pow_le_mono_r; lia].
  - intros (b & Hb & T & F) Z0. apply (f_equal (fun x => Z.testbit x b)) in Z0. rewrite Z.land_spec, T, B, F, Z.bits_0 in Z0 by exact Hb. discriminate.
Qed.

Ltac hit X R b :=
  match type of R with ?L = true => let f := eval pattern b in L in match f with ?g _ => refine (X _ _ g _ R); vm_compute; reflexivity end end.
Ltac hit' X A :=
  match type of A with forall b, _ -> _ -> @?g b = false => refine (X _ _ g _ A); vm_compute; reflexivity end.

(** A value with a reserved bit set is refused; nothing is changed, since the outcome has no
    new registers. *)
Theorem C27_reserved : forall c v r b, 0 <= v < 2 ^ 64 -> 0 <= b < 64 -> Z.testbit v b = true -> reserved_bit c b = true -> write c v r = MGp.
Proof.
  intros c v r b Hv Hb T R. unfold reserved_bit in R. unfold write. rewrite is_base_eq, is_mask_eq.
  assert (X : forall m k f, forallb (fun b => Bool.eqb (Z.testbit m b) (f b)) range64 = true -> f b = true -> (if nz (Z.land v m) then MGp else MOk k : mout msrs) = MGp).
  { intros m k f H F. assert (nz (Z.land v m) = true) as ->; [| reflexivity]. apply (hits v m f H Hv). now exists b. }
  destruct (c =? 0x1B); [hit X R b |]. destruct (c =? 0x2A); [hit X R b |].
  destruct (c =? 0x8B) eqn:E1; [apply Z.eqb_eq in E1; subst c; hit X R b |].
  destruct ((0x200 <=? c) && (c <=? 0x20F)) eqn:E2.
  - apply andb_prop in E2 as [E2 E3]. apply Z.leb_le in E2, E3.
    repeat match goal with |- context [c =? ?k] => replace (c =? k) with false by (symmetry; apply Z.eqb_neq; lia) end.
    destruct (c mod 2 =? 0); cbn [andb negb]; hit X R b.
  - cbn [andb]. destruct (c =? 0x277) eqn:E3; [apply Z.eqb_eq in E3; subst c |].
    + cbn. assert (nz (Z.land v PAT_RES) = true) as ->; [| reflexivity]. apply (hits v PAT_RES (fun b => 3 <=? b mod 8) eq_refl Hv). now exists b.
    + destruct (c =? 0x2FF) eqn:E4; [| discriminate]. apply Z.eqb_eq in E4. subst c. cbn. hit X R b.
Qed.
Print Assumptions C27_reserved.

(** A plain register reads back what was accepted. *)
Theorem C27_readback : forall c v r r', plain c = true -> write c v r = MOk r' -> read c r' = MOk v.
Proof.
  intros c v r r' P. unfold write, read. rewrite is_base_eq, is_mask_eq. revert P. unfold plain, fixed_idx.
  destruct (Z.eqb_spec c 0x1B); [subst; discriminate |]. destruct (Z.eqb_spec c 0x2A); [subst; discriminate |].
  destruct (Z.eqb_spec c 0x79); [subst; discriminate |].
  destruct (Z.eqb_spec c 0x8B); [intros _; destruct (nz _); intros [= <-]; reflexivity |].
  destruct (Z.eqb_spec c 0xFE); [subst; discriminate |]. destruct (Z.eqb_spec c 0x174); [subst; discriminate |].
  destruct (Z.eqb_spec c 0x175); [intros _ [= <-]; reflexivity |]. destruct (Z.eqb_spec c 0x176); [intros _ [= <-]; reflexivity |].
  destruct (Z.eqb_spec c 0x179); [subst; discriminate |]. destruct (Z.eqb_spec c 0x17A); [subst; discriminate |]. destruct (Z.eqb_spec c 0x17B); [subst; discriminate |].
  destruct ((0x200 <=? c) && (c <=? 0x20F)) eqn:ER.
  - destruct (c mod 2 =? 0); cbn [andb negb]; intros _; destruct (nz _); intros [= <-]; cbn; unfold put; rewrite ?Z.eqb_refl; reflexivity.
  - cbn [andb orb]. destruct (Z.eqb_spec c 0x250); [intros _ [= <-]; cbn; unfold put; rewrite ?Z.eqb_refl; reflexivity |].
    destruct ((0x258 <=? c) && (c <=? 0x259)); [intros _ [= <-]; cbn; unfold put; rewrite ?Z.eqb_refl; reflexivity |].
    destruct ((0x268 <=? c) && (c <=? 0x26F)); [intros _ [= <-]; cbn; unfold put; rewrite ?Z.eqb_refl; reflexivity |].
    cbn [orb]. destruct (Z.eqb_spec c 0x277); [intros _; destruct (nz _); [discriminate |]; destruct (pat_bad v); intros [= <-]; reflexivity |].
    destruct (Z.eqb_spec c 0x2FF); [intros _; destruct (nz _); intros [= <-]; reflexivity | discriminate].
Qed.
Print Assumptions C27_readback.

Lemma mok_inj (A : Type) (x y : A) : MOk x = MOk y -> x = y.
Proof. congruence. Qed.

(** What the registers with a rule of their own read back. *)
Theorem C27_readback_masked : forall v r r', 0 <= v < 2 ^ 64 ->
  (write 0x174 v r = MOk r' -> read 0x174 r' = MOk (v mod 2 ^ 32)) /\
  (write 0x2A v r = MOk r' -> exists w, read 0x2A r' = MOk w /\
     forall b, 0 <= b < 64 -> Z.testbit w b = if (1 <=? b) && (b <=? 4) || (b =? 6) || (b =? 7) || (b =? 26) then Z.testbit v b else Z.testbit (ebl r) b) /\
  (forall n, 0 <= n < 10 -> v = 0 \/ v = 2 ^ 64 - 1 -> write (0x400 + 4 * n) v r = MOk r' -> read (0x400 + 4 * n) r' = MOk v).
Proof.
  intros v r r' Hv. split; [| split].
  - cbn. intros [= <-]. cbn. f_equal. change 4294967295 with (Z.ones 32). rewrite <- Z.land_assoc, Z.land_diag. now apply Z.land_ones.
  - unfold write. cbn [Z.eqb Pos.eqb]. destruct (nz _); [discriminate |]. intros H. apply mok_inj in H. subst r'. eexists. split; [reflexivity |].
    intros b Hb. cbn [ebl set_ebl]. rewrite Z.lor_spec, !Z.land_spec.
    rewrite (bits_match EBL_RW (fun b => (1 <=? b) && (b <=? 4) || (b =? 6) || (b =? 7) || (b =? 26)) eq_refl b Hb).
    rewrite (bits_match (Z.lxor ALL_ONES EBL_RW) (fun b => negb ((1 <=? b) && (b <=? 4) || (b =? 6) || (b =? 7) || (b =? 26))) eq_refl b Hb).
    destruct ((1 <=? b) && (b <=? 4) || (b =? 6) || (b =? 7) || (b =? 26)); cbn [negb]; rewrite ?andb_true_r, ?andb_false_r, ?orb_false_r; reflexivity.
  - intros n Hn Hc.
    assert (J : Z.land (0x400 + 4 * n - 0x400) 3 = 0) by (change 3 with (Z.ones 2); rewrite Z.land_ones by lia; change (2 ^ 2) with 4; Z.div_mod_to_equations; lia).
    assert (EB : is_bank (0x400 + 4 * n) = true) by (unfold is_bank; apply andb_true_intro; split; [apply Z.leb_le | apply Z.ltb_lt]; lia).
    unfold write, read. rewrite is_base_eq, is_mask_eq. unfold fixed_idx.
    repeat match goal with
           | |- context [0x400 + 4 * n =? ?k] => replace (0x400 + 4 * n =? k) with false by (symmetry; apply Z.eqb_neq; lia)
           | |- context [0x400 + 4 * n <=? ?k] => replace (0x400 + 4 * n <=? k) with false by (symmetry; apply Z.leb_gt; lia)
           end.
    rewrite !andb_false_r, EB. cbn [andb]. rewrite J. cbn [Z.eqb].
    assert (negb (v =? ALL_ONES) && negb (v =? 0) = false) as -> by (destruct Hc as [-> | ->]; reflexivity).
    intros [= <-]. cbn [banks set_bank]. now rewrite !Z.eqb_refl.
Qed.
Print Assumptions C27_readback_masked.

Lemma fixed_idx_inv c i : fixed_idx c = Some i -> i = 0 /\ c = 592 \/ i = 1 + (c - 600) /\ 600 <= c <= 601 \/ i = 3 + (c - 616) /\ 616 <= c <= 623.
Proof.
  unfold fixed_idx. destruct (Z.eqb_spec c 592); [intros [= <-]; lia |].
  destruct (Z.leb_spec 600 c), (Z.leb_spec c 601); cbn [andb]; try (intros [= <-]; lia);
  destruct (Z.leb_spec 616 c), (Z.leb_spec c 623); cbn [andb]; try discriminate; intros [= <-]; lia.
Qed.

(** No other register changes. *)
Theorem C27_frame : forall c c' v r r', c <> c' -> write c v r = MOk r' -> read c' r' = read c' r.
Proof.
  intros c c' v r r' N. unfold write.
  destruct (Z.eqb_spec c 0x1B); [destruct (nz _); intros [= <-]; reflexivity |].
  assert (F : forall k, c = k -> (c' =? k) = false) by (intros k E; apply Z.eqb_neq; congruence).
  destruct (Z.eqb_spec c 0x2A); [destruct (nz _); intros [= <-]; unfold read; rewrite (F 0x2A) by assumption; reflexivity |].
  destruct (Z.eqb_spec c 0x79); [intros [= <-]; reflexivity |].
  destruct (Z.eqb_spec c 0x8B); [destruct (nz _); intros [= <-]; unfold read; rewrite (F 0x8B) by assumption; reflexivity |].
  destruct (Z.eqb_spec c 0xFE); [discriminate |].
  destruct (Z.eqb_spec c 0x174); [intros [= <-]; unfold read; rewrite (F 0x174) by assumption; reflexivity |].
  destruct (Z.eqb_spec c 0x175); [intros [= <-]; unfold read; rewrite (F 0x175) by assumption; reflexivity |].
  destruct (Z.eqb_spec c 0x176); [intros [= <-]; unfold read; rewrite (F 0x176) by assumption; reflexivity |].
  destruct (Z.eqb_spec c 0x179); [intros [= <-]; reflexivity |].
  destruct (Z.eqb_spec c 0x17A); [discriminate |].
  destruct (Z.eqb_spec c 0x17B); [intros [= <-]; destruct (_ && _); [| reflexivity]; unfold read; rewrite (F 0x17B) by assumption; reflexivity |].
  destruct (is_base c) eqn:B.
  { destruct (nz _); intros [= <-]. unfold read. destruct (is_base c') eqn:B'; [| reflexivity]. cbn [base set_base sign_id ebl sys_cs sys_esp sys_eip mcg_cap mcg_status mcg_ctl].
    rewrite is_base_eq in B, B'. assert (put (base r) ((c - 512) / 2) v ((c' - 512) / 2) = base r ((c' - 512) / 2)) as ->; [| reflexivity].
    unfold put. destruct (Z.eqb_spec ((c' - 512) / 2) ((c - 512) / 2)) as [E | E]; [| reflexivity]. exfalso.
    apply andb_prop in B as [_ B]. apply andb_prop in B' as [_ B']. apply Z.eqb_eq in B, B'. Z.div_mod_to_equations. lia. }
  destruct (is_mask c) eqn:M.
  { destruct (nz _); intros [= <-]. unfold read. destruct (is_mask c') eqn:M'; [| reflexivity]. cbn [mask base set_mask sign_id ebl sys_cs sys_esp sys_eip mcg_cap mcg_status mcg_ctl].
    rewrite is_mask_eq in M, M'. assert (put (mask r) ((c - 513) / 2) v ((c' - 513) / 2) = mask r ((c' - 513) / 2)) as ->; [| reflexivity].
    unfold put. destruct (Z.eqb_spec ((c' - 513) / 2) ((c - 513) / 2)) as [E | E]; [| reflexivity]. exfalso.
    apply andb_prop in M as [_ M]. apply andb_prop in M' as [_ M']. apply negb_true_iff, Z.eqb_neq in M, M'. Z.div_mod_to_equations. lia. }
  destruct (fixed_idx c) as [i |] eqn:X.
  { intros [= <-]. unfold read. destruct (fixed_idx c') as [j |] eqn:X'; [| reflexivity]. cbn [fixed mask base set_fixed sign_id ebl sys_cs sys_esp sys_eip mcg_cap mcg_status mcg_ctl].
    assert (put (fixed r) i v j = fixed r j) as ->; [| reflexivity]. unfold put. destruct (Z.eqb_spec j i) as [E | E]; [| reflexivity]. exfalso. subst j. apply N.
    apply fixed_idx_inv in X, X'. lia. }
  destruct (Z.eqb_spec c 0x277).
  { destruct (nz _); [discriminate |]. destruct (pat_bad v); intros [= <-]. unfold read. rewrite (F 0x277) by assumption. reflexivity. }
  destruct (Z.eqb_spec c 0x2FF).
  { destruct (nz _); intros [= <-]. unfold read. rewrite (F 0x2FF) by assumption. reflexivity. }
  destruct (is_bank c) eqn:K; [| discriminate]. cbv zeta.
  assert (G : read c' (set_bank ((c - 1024) / 4) (Z.land (c - 1024) 3) v r) = read c' r).
  { unfold read. destruct (is_bank c') eqn:K'; [| reflexivity]. cbn [banks fixed mask base set_bank sign_id ebl sys_cs sys_esp sys_eip mcg_cap mcg_status mcg_ctl pat def_type].
    change 3 with (Z.ones 2). rewrite !Z.land_ones by lia. change (2 ^ 2) with 4.
    destruct (Z.eqb_spec ((c' - 1024) / 4) ((c - 1024) / 4)), (Z.eqb_spec ((c' - 1024) mod 4) ((c - 1024) mod 4)); try reflexivity.
    exfalso. apply N. Z.div_mod_to_equations. lia. }
  destruct (Z.land (c - 1024) 3 =? 0); [destruct (_ && _); intros [= <-]; [reflexivity | exact G] |].
  destruct (nz v); [discriminate |]. intros [= <-]. exact G.
Qed.
Print Assumptions C27_frame.

(** A value without reserved bits is accepted by every plain register but the PAT. *)
Theorem C27_accepts : forall c v r, 0 <= v < 2 ^ 64 -> plain c = true -> c <> 0x277 ->
  (forall b, 0 <= b < 64 -> Z.testbit v b = true -> reserved_bit c b = false) -> exists r', write c v r = MOk r'.
Proof.
  intros c v r Hv P NP A. unfold write, fixed_idx. rewrite is_base_eq, is_mask_eq. revert P A. unfold plain, reserved_bit.
  assert (X : forall m k f, forallb (fun b => Bool.eqb (Z.testbit m b) (f b)) range64 = true -> (forall b, 0 <= b < 64 -> Z.testbit v b = true -> f b = false) ->
    exists r', (if nz (Z.land v m) then MGp else MOk k : mout msrs) = MOk r').
  { intros m k f H F. destruct (nz (Z.land v m)) eqn:E; [| eexists; reflexivity]. exfalso. apply (hits v m f H Hv) in E as (b & Hb & T & Fb).
    rewrite F in Fb by assumption. discriminate. }
  destruct (Z.eqb_spec c 0x1B); [subst; discriminate |]. destruct (Z.eqb_spec c 0x2A); [subst; discriminate |].
  destruct (Z.eqb_spec c 0x79); [subst; discriminate |].
  destruct (Z.eqb_spec c 0x8B); [intros _ A; hit' X A |].
  destruct (Z.eqb_spec c 0xFE); [subst; discriminate |]. destruct (Z.eqb_spec c 0x174); [subst; discriminate |].
  destruct (Z.eqb_spec c 0x175); [intros _ _; eexists; reflexivity |]. destruct (Z.eqb_spec c 0x176); [intros _ _; eexists; reflexivity |].
  destruct (Z.eqb_spec c 0x179); [subst; discriminate |]. destruct (Z.eqb_spec c 0x17A); [subst; discriminate |]. destruct (Z.eqb_spec c 0x17B); [subst; discriminate |].
  destruct ((0x200 <=? c) && (c <=? 0x20F)) eqn:ER.
  - destruct (c mod 2 =? 0); cbn [andb negb]; intros _ A; hit' X A.
  - cbn [andb orb]. destruct (Z.eqb_spec c 0x250); [intros _ _; eexists; reflexivity |].
    destruct ((0x258 <=? c) && (c <=? 0x259)); [intros _ _; eexists; reflexivity |].
    destruct ((0x268 <=? c) && (c <=? 0x26F)); [intros _ _; eexists; reflexivity |].
    cbn [orb]. destruct (Z.eqb_spec c 0x277); [contradiction |].
    destruct (Z.eqb_spec c 0x2FF); [intros _ A; hit' X A | discriminate].
Qed.
Print Assumptions C27_accepts.

(** The PAT accepts a value exactly if its first seven entries are valid types and no
    reserved bit is set; the eighth is not looked at. *)
Theorem C27_pat_partial : forall v r, 0 <= v < 2 ^ 64 ->
  (exists r', write 0x277 v r = MOk r') <->
  (forall b, 0 <= b < 64 -> Z.testbit v b = true -> reserved_bit 0x277 b = false) /\
  forall i, 0 <= i < 7 -> type_of v i <> 2 /\ type_of v i <> 3.
Proof.
  intros v r Hv. unfold write. cbn [Z.eqb Pos.eqb is_base is_mask fixed_idx Z.leb Z.compare Pos.compare Pos.compare_cont andb].
  change (is_base 631) with false. change (is_mask 631) with false. change (fixed_idx 631) with (@None Z). cbv iota. cbn [Z.eqb Pos.eqb].
  assert (RB : forall b, reserved_bit 0x277 b = (3 <=? b mod 8)) by reflexivity.
  assert (T : (forall b, 0 <= b < 64 -> Z.testbit v b = true -> reserved_bit 0x277 b = false) ->
     forall i, 0 <= i < 8 -> Z.land (Z.shiftr v (i * 8)) 7 = type_of v i).
  { intros A i Hi. unfold type_of. change 256 with (2 ^ 8). rewrite <- Z.pow_mul_r by lia. apply Z.bits_inj'. intros n Hn.
    change 7 with (Z.ones 3). rewrite Z.land_spec, Z.shiftr_spec by lia. destruct (Z.ltb_spec n 8).
    - rewrite Z.mod_pow2_bits_low, <- Z.shiftr_div_pow2, Z.shiftr_spec by lia. replace (n + 8 * i) with (n + i * 8) by lia.
      destruct (Z.ltb_spec n 3); [rewrite Z.ones_spec_low by lia; apply andb_true_r |]. rewrite Z.ones_spec_high, andb_false_r by lia.
      destruct (Z.testbit v (n + i * 8)) eqn:E; [| reflexivity]. specialize (A (n + i * 8) ltac:(lia) E). rewrite RB in A.
      exfalso. rewrite Z.mod_add, Z.mod_small in A by lia. apply Z.leb_gt in A. lia.
    - rewrite Z.mod_pow2_bits_high by lia. rewrite Z.ones_spec_high by lia. apply andb_false_r. }
  assert (PB : (forall i, 0 <= i < 8 -> Z.land (Z.shiftr v (i * 8)) 7 = type_of v i) ->
     pat_bad v = false <-> forall i, 0 <= i < 7 -> type_of v i <> 2 /\ type_of v i <> 3).
  { intros L. unfold pat_bad. cbn [existsb]. rewrite !L by lia. rewrite !orb_false_iff, !Z.eqb_neq. split.
    - intros Q i Hi. assert (i = 0 \/ i = 1 \/ i = 2 \/ i = 3 \/ i = 4 \/ i = 5 \/ i = 6) as C by lia. intuition subst; tauto.
    - intros Q. pose proof (Q 0 ltac:(lia)). pose proof (Q 1 ltac:(lia)). pose proof (Q 2 ltac:(lia)). pose proof (Q 3 ltac:(lia)).
      pose proof (Q 4 ltac:(lia)). pose proof (Q 5 ltac:(lia)). pose proof (Q 6 ltac:(lia)). tauto. }
  destruct (nz (Z.land v PAT_RES)) eqn:E.
  - split; [intros (r' & H); discriminate |]. intros [A _]. exfalso. apply (hits v PAT_RES (fun b => 3 <=? b mod 8) eq_refl Hv) in E as (b & Hb & TB & F).
    specialize (A b Hb TB). rewrite RB, F in A. discriminate.
  - assert (A : forall b, 0 <= b < 64 -> Z.testbit v b = true -> reserved_bit 0x277 b = false).
    { intros b Hb TB. rewrite RB. destruct (3 <=? b mod 8) eqn:F; [| reflexivity]. exfalso.
      assert (nz (Z.land v PAT_RES) = true) by (apply (hits v PAT_RES (fun b => 3 <=? b mod 8) eq_refl Hv); now exists b). congruence. }
    specialize (PB (T A)). destruct (pat_bad v) eqn:B.
    + split; [intros (r' & H); discriminate |]. intros [_ C]. apply PB in C. discriminate.
    + split; [| intros _; eexists; reflexivity]. intros _. split; [exact A | now apply PB].
Qed.
Print Assumptions C27_pat_partial.

(** The last PAT entry may be a reserved type. *)
Theorem C27_refuted_pat : exists v r r', 0 <= v < 2 ^ 64 /\ type_of v 7 = 2 /\ write 0x277 v r = MOk r' /\ read 0x277 r' = MOk v.
Proof. exists (2 * 256 ^ 7), reset_msrs. eexists. split; [lia |]. repeat split. Qed.
Print Assumptions C27_refuted_pat.

(** The memory types of the range registers are not checked: type 2 is reserved. *)
Theorem C27_refuted_types : forall r,
  (forall n, 0 <= n < 8 -> exists r', write (0x200 + 2 * n) 2 r = MOk r' /\ read (0x200 + 2 * n) r' = MOk 2) /\
  (exists r', write 0x2FF 2 r = MOk r' /\ read 0x2FF r' = MOk 2) /\ (exists r', write 0x250 2 r = MOk r' /\ read 0x250 r' = MOk 2).
Proof.
  intros r. split; [| split; eexists; split; reflexivity].
  intros n Hn. assert (n = 0 \/ n = 1 \/ n = 2 \/ n = 3 \/ n = 4 \/ n = 5 \/ n = 6 \/ n = 7) as C by lia.
  repeat (destruct C as [-> | C]; [eexists; split; reflexivity |]). subst n. eexists; split; reflexivity.
Qed.
Print Assumptions C27_refuted_types.

(** IA32_APIC_BASE accepts a value and forgets it; machine check control registers ignore
    everything but all ones and all zeros. *)
Theorem C27_refuted_readback :
  (exists v r r', write 0x1B v r = MOk r' /\ read 0x1B r' <> MOk v) /\
  (forall r n v, 0 <= n < 10 -> v <> 0 -> v <> 2 ^ 64 - 1 -> write (0x400 + 4 * n) v r = MOk r).
Proof.
  split; [exists 0xFEE00900, reset_msrs, reset_msrs; split; [reflexivity | discriminate] |].
  intros r n v Hn A B.
  assert (J : Z.land (0x400 + 4 * n - 0x400) 3 = 0) by (change 3 with (Z.ones 2); rewrite Z.land_ones by lia; change (2 ^ 2) with 4; Z.div_mod_to_equations; lia).
  assert (EB : is_bank (0x400 + 4 * n) = true) by (unfold is_bank; apply andb_true_intro; split; [apply Z.leb_le | apply Z.ltb_lt]; lia).
  unfold write. rewrite is_base_eq, is_mask_eq. unfold fixed_idx.
  repeat match goal with
         | |- context [0x400 + 4 * n =? ?k] => replace (0x400 + 4 * n =? k) with false by (symmetry; apply Z.eqb_neq; lia)
         | |- context [0x400 + 4 * n <=? ?k] => replace (0x400 + 4 * n <=? k) with false by (symmetry; apply Z.leb_gt; lia)
         end.
  rewrite !andb_false_r, EB. cbn [andb]. rewrite J. cbn [Z.eqb].
  rewrite (proj2 (Z.eqb_neq v ALL_ONES) B), (proj2 (Z.eqb_neq v 0) A). reflexivity.
Qed.
Print Assumptions C27_refuted_readback.

(** Writing back the value that EBL_CR_POWERON reads after reset faults, and so does any
    write of IA32_MCG_STATUS, even of the value it holds. *)
Theorem C27_refuted_write_back :
  (exists v, read 0x2A reset_msrs = MOk v /\ write 0x2A v reset_msrs = MGp) /\ (forall v r, write 0x17A v r = MGp).
Proof. split; [eexists; split; reflexivity | reflexivity]. Qed.
Print Assumptions C27_refuted_write_back.

(** An access to a register that does not exist stops the emulator instead of raising #GP. *)
Theorem C27_refuted_unknown : forall c v r, exists_msr c = false -> read c r = MAbort /\ write c v r = MAbort.
Proof.
  intros c v r H. unfold exists_msr, plain in H. repeat (apply orb_false_elim in H as [H ?]).
  assert (B : is_base c = false) by (rewrite is_base_eq; repeat match goal with E : (_ <=? c) && (c <=? 0x20F) = false |- _ => rewrite E end; reflexivity).
  assert (M : is_mask c = false) by (rewrite is_mask_eq; repeat match goal with E : (_ <=? c) && (c <=? 0x20F) = false |- _ => rewrite E end; reflexivity).
  assert (X : fixed_idx c = None) by (unfold fixed_idx; repeat match goal with E : _ = false |- _ => rewrite E end; reflexivity).
  assert (K : is_bank c = false) by (unfold is_bank; assumption).
  unfold read, write. rewrite B, M, X, K. repeat match goal with E : (c =? _) = false |- _ => rewrite E; clear E end. split; reflexivity.
Qed.
Print Assumptions C27_refuted_unknown.

(** concrete accesses that meet the hypotheses *)
Example C27_example : exists r1 r2,
  write 0x203 0x0000000FFE000800 reset_msrs = MOk r1 /\ write 0x277 0x0007040600070406 r1 = MOk r2 /\
  read 0x203 r2 = MOk 0x0000000FFE000800 /\ read 0x277 r2 = MOk 0x0007040600070406 /\ read 0x202 r2 = MOk 0 /\
  write 0x202 0x100000000F reset_msrs = MGp /\ plain 0x203 = true /\ plain 0x277 = true.
Proof. do 2 eexists. repeat split. Qed.
