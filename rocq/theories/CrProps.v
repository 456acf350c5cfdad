(** * Properties of control register writes *)

From Coq Require Import ZArith Bool List Lia ZifyBool.
From Verif Require Import SegModel SegSpec SegBits SegProofs SegFar SegProps.
Import ListNotations.
Local Open Scope Z_scope.

(** ** C63: control register writes store exactly the documented bits

    The bits are those of the Intel manual, volume 3, 2.5, for a Pentium III. *)
Definition cr0_bits : list Z := [0; 1; 2; 3; 5; 16; 18; 29; 30; 31].    (* bit 4, ET, is always set *)
Definition cr3_bits : list Z := 3 :: 4 :: [12; 13; 14; 15; 16; 17; 18; 19; 20; 21; 22; 23; 24; 25; 26; 27; 28; 29; 30; 31].
Definition has (l : list Z) (i : Z) : bool := existsb (Z.eqb i) l.
(** PG needs PE, NW needs CD *)
Definition cr0_ok (v : Z) : bool := (negb (Z.testbit v 31) || Z.testbit v 0) && (negb (Z.testbit v 29) || Z.testbit v 30).

(** the general protection fault with error code 0 *)
Definition gp0 (X : memsys) (s : st X) : st X := set_xcode X 0 (set_xidx X EXP_GP s).
(** nothing but the named register, the mode flags and the requests for TLB flushes differs *)
Definition cr0_changed (X : memsys) (s s' : st X) : Prop := exists c h f, s' = set_cr0 X c (set_hfl X h (set_flushes X f s)).

Lemma bits32 i : 0 <= i < 32 -> In i (map Z.of_nat (seq 0 32)).
Proof. intros H. apply in_map_iff. exists (Z.to_nat i). split; [lia |]. apply in_seq. lia. Qed.
Ltac each_bit H := apply bits32 in H; cbn [map seq Z.of_nat Pos.of_succ_nat Pos.succ In] in H; repeat (destruct H as [<- | H]; [| ]); [.. | destruct H].

Lemma set_flushes_id X (s : st X) : set_flushes X (flushes X s) s = s. Proof. now destruct s. Qed.
Lemma ring0 X (s : st X) : ring X s = 0 -> nz (cpl X s) = false.
Proof. intros H. rewrite cpl_mod, H. reflexivity. Qed.
Lemma ring_nz X (s : st X) : ring X s <> 0 -> nz (cpl X s) = true.
Proof. intros H. rewrite cpl_mod. unfold nz. destruct (Z.eqb_spec (ring X s) 0); [contradiction | reflexivity]. Qed.

Lemma update0_shape X ins v s s' : update_cr0 X ins v s = Some s' -> cr0_changed X s s' /\
  cr0 X s' = (if ins =? 0 then (v .& CR0_FLG_MASK) .| CR0_ET
              else if ins =? 1 then ((cr0 X s .& not32 CR0_LMSW_MASK) .| (v .& CR0_LMSW_MASK)) .| CR0_ET else cr0 X s .& not32 CR0_TS).
Proof.
  unfold update_cr0. destruct (_ && _); [discriminate |]. cbv zeta. intros H. injection H as <-.
  match goal with |- context [if ?b then set_flushes X ?l s else s] => destruct b end.
  - split; [eexists; eexists; eexists; reflexivity | reflexivity].
  - split; [| reflexivity]. eexists. eexists. exists (flushes X s). rewrite set_flushes_id. reflexivity.
Qed.
Lemma update0_refused X v s : update_cr0 X 0 v s = None <-> cr0_ok v = false.
Proof.
  unfold update_cr0. change (0 =? 0) with true. cbn [andb]. unfold CR0_PE, CR0_PG, CR0_CD, CR0_NW, cr0_ok.
  change 1 with (1 << 0) at 1. rewrite !z_fld, !fld1 by lia.
  destruct (Z.testbit v 31), (Z.testbit v 0), (Z.testbit v 29), (Z.testbit v 30); cbn [negb andb orb];
    change (2 ^ (31 - 31) =? 1) with true; change (2 ^ (29 - 29) =? 1) with true; change (0 =? 1) with false; cbn [negb andb orb]; split; intros H; congruence.
Qed.
Lemma update0_other X ins v s : ins <> 0 -> exists s', update_cr0 X ins v s = Some s'.
Proof. intros H. unfold update_cr0. destruct (Z.eqb_spec ins 0); [contradiction |]. cbn [andb]. eexists. reflexivity. Qed.

Lemma land_bit v m i : 0 <= i -> Z.testbit (v .& m) i = Z.testbit v i && Z.testbit m i. Proof. intros H. apply Z.land_spec. Qed.

(** MOV CR0 *)
Theorem C63_cr0 : forall X v s, 0 <= v < 2 ^ 32 -> ring X s = 0 ->
  if cr0_ok v
  then exists s', mov_cr X 0 v s = Ok X _ tt s' /\ cr0_changed X s s' /\
         forall i, 0 <= i < 32 -> Z.testbit (cr0 X s') i = (i =? 4) || (has cr0_bits i && Z.testbit v i)
  else mov_cr X 0 v s = Exc X _ (gp0 X s).
Proof.
  intros X v s Hv R. unfold mov_cr. rewrite (ring0 X s R). change (0 =? 0) with true. cbv iota.
  destruct (update_cr0 X 0 v s) as [s' |] eqn:U.
  - destruct (cr0_ok v) eqn:K; [| apply (update0_refused X v s) in K; congruence].
    destruct (update0_shape X 0 v s s' U) as [CH C]. exists s'. split; [reflexivity |]. split; [exact CH |].
    rewrite C. change (0 =? 0) with true. cbv iota. intros i Hi. rewrite Z.lor_spec, Z.land_spec.
    each_bit Hi; unfold CR0_FLG_MASK, CR0_ET, has, cr0_bits; cbn [existsb Z.eqb Pos.eqb orb andb];
      match goal with |- context [Z.testbit ?m ?k] => idtac end;
      rewrite ?andb_true_r; cbn; rewrite ?andb_true_r, ?andb_false_r, ?orb_false_r, ?orb_true_r; reflexivity.
  - apply update0_refused in U. rewrite U. reflexivity.
Qed.
Print Assumptions C63_cr0.

(** LMSW: the low four bits, but PE is never cleared.  Whether PE is set is taken from
    the mode flags, which C22 shows to agree with CR0. *)
Theorem C63_lmsw : forall X v s, 0 <= v < 2 ^ 32 -> ring X s = 0 -> Z.testbit (hfl X s) 4 = Z.testbit (cr0 X s) 0 ->
  exists s', lmsw X v s = Ok X _ tt s' /\ cr0_changed X s s' /\
    forall i, 0 <= i < 32 -> Z.testbit (cr0 X s') i =
      if i =? 0 then Z.testbit (cr0 X s) 0 || Z.testbit v 0 else if i <? 4 then Z.testbit v i else (i =? 4) || Z.testbit (cr0 X s) i.
Proof.
  intros X v s Hv R PE. unfold lmsw. rewrite (ring0 X s R).
  set (n := if nz (hfl X s .& HFLG_PE_MODE) then w16 v .| CR0_PE else w16 v).
  assert (N : forall i, 0 <= i < 4 -> Z.testbit n i = ((i =? 0) && Z.testbit (cr0 X s) 0) || Z.testbit v i). {
    intros i Hi. assert (M : Z.testbit (w16 v) i = Z.testbit v i) by (unfold w16; rewrite Z.mod_pow2_bits_low by lia; reflexivity).
    rewrite <- PE. subst n. unfold nz, HFLG_PE_MODE. change 16 with (1 << 4). rewrite z_fld by lia.
    destruct (Z.testbit (hfl X s) 4); cbn [negb]; [rewrite Z.lor_spec |]; rewrite M.
    - unfold CR0_PE. assert (C : i = 0 \/ i = 1 \/ i = 2 \/ i = 3) by lia. destruct C as [-> | [-> | [-> | ->]]]; cbn; rewrite ?orb_true_r, ?orb_false_r; reflexivity.
    - rewrite andb_false_r. reflexivity. }
  clearbody n. destruct (update0_other X 1 n s ltac:(lia)) as [s' U]. rewrite U. destruct (update0_shape X 1 n s s' U) as [CH C].
  exists s'. split; [reflexivity |]. split; [exact CH |]. rewrite C. change (1 =? 0) with false. change (1 =? 1) with true. cbv iota.
  intros i Hi. rewrite !Z.lor_spec, !Z.land_spec.
  destruct (Z.ltb_spec i 4) as [L | L].
  - rewrite (N i) by lia. assert (K : i = 0 \/ i = 1 \/ i = 2 \/ i = 3) by lia.
    destruct K as [-> | [-> | [-> | ->]]]; cbn; rewrite ?andb_true_r, ?andb_false_r, ?orb_false_r; reflexivity.
  - clear N. clear - L Hi. each_bit Hi; try (exfalso; clear - L; lia); cbn; rewrite ?andb_true_r, ?andb_false_r, ?orb_false_r, ?orb_true_r; reflexivity.
Qed.
Print Assumptions C63_lmsw.

(** CLTS: the TS bit is cleared, nothing else *)
Theorem C63_clts : forall X s, 0 <= cr0 X s < 2 ^ 32 -> ring X s = 0 ->
  exists s', clts X s = Ok X _ tt s' /\ cr0_changed X s s' /\
    forall i, 0 <= i < 32 -> Z.testbit (cr0 X s') i = negb (i =? 3) && Z.testbit (cr0 X s) i.
Proof.
  intros X s Hv R. unfold clts. rewrite (ring0 X s R).
  match goal with |- context [update_cr0 X 2 ?n s] => destruct (update0_other X 2 n s ltac:(lia)) as [s' U]; rewrite U; destruct (update0_shape X 2 n s s' U) as [CH C] end.
  exists s'. split; [reflexivity |]. split; [exact CH |]. rewrite C. change (2 =? 0) with false. change (2 =? 1) with false. cbv iota.
  intros i Hi. rewrite !Z.land_spec.
  each_bit Hi; cbn; rewrite ?andb_true_r, ?andb_false_r; reflexivity.
Qed.
Print Assumptions C63_clts.

(** MOV CR2 and MOV CR3: the whole register; the page directory and its two cache bits *)
Theorem C63_cr2_cr3 : forall X v s, 0 <= v < 2 ^ 32 -> ring X s = 0 ->
  mov_cr X 2 v s = Ok X _ tt (set_cr2 X v s) /\
  exists c f, mov_cr X 3 v s = Ok X _ tt (set_cr3 X c (set_flushes X f s)) /\
    forall i, 0 <= i < 32 -> Z.testbit c i = has cr3_bits i && Z.testbit v i.
Proof.
  intros X v s Hv R. unfold mov_cr. rewrite (ring0 X s R). split; [reflexivity |].
  change (3 =? 0) with false. change (3 =? 2) with false. change (3 =? 3) with true. cbv iota. unfold update_cr3.
  exists (v .& CR3_FLG_MASK). eexists. split.
  - instantiate (1 := if nz (cr0 X s .& CR0_PG) then negb (nz (cr4 X s .& CR4_PGE)) :: flushes X s else flushes X s).
    destruct (nz (cr0 X s .& CR0_PG)); [reflexivity |]. rewrite set_flushes_id. reflexivity.
  - intros i Hi. rewrite Z.land_spec. each_bit Hi; cbn; rewrite ?andb_true_r, ?andb_false_r; reflexivity.
Qed.
Print Assumptions C63_cr2_cr3.

(** MOV CR4: bits 11 to 31 are refused, the others stored, unless PAE is set *)
Theorem C63_cr4_partial : forall X v s, 0 <= v < 2 ^ 32 -> ring X s = 0 ->
  (2 ^ 11 <= v -> mov_cr X 4 v s = Exc X _ (gp0 X s)) /\
  (v < 2 ^ 11 -> Z.testbit v 5 = false -> exists h f, mov_cr X 4 v s = Ok X _ tt (set_cr4 X v (set_hfl X h (set_flushes X f s)))).
Proof.
  intros X v s Hv R. unfold mov_cr. rewrite (ring0 X s R).
  change (4 =? 0) with false. change (4 =? 2) with false. change (4 =? 3) with false. change (4 =? 4) with true. cbv iota. unfold update_cr4.
  assert (M : v .& CR4_RES_MASK = (v / 2 ^ 11) * 2 ^ 11). {
    apply Z.bits_inj'. intros i Hi. rewrite Z.land_spec. unfold CR4_RES_MASK.
    rewrite <- Z.shiftl_mul_pow2, <- Z.shiftr_div_pow2 by lia. rewrite Z.shiftl_spec by lia.
    destruct (Z.ltb_spec i 11) as [L | L].
    - rewrite (Z.testbit_neg_r _ (i - 11)) by lia. assert (K : i = 0 \/ i = 1 \/ i = 2 \/ i = 3 \/ i = 4 \/ i = 5 \/ i = 6 \/ i = 7 \/ i = 8 \/ i = 9 \/ i = 10) by lia.
      repeat (destruct K as [-> | K]; [apply andb_false_r |]). subst i. apply andb_false_r.
    - rewrite Z.shiftr_spec by lia. replace (i - 11 + 11) with i by lia.
      destruct (Z.ltb_spec i 32) as [H | H].
      + assert (Hj : 0 <= i < 32) by lia. clear - L Hj. each_bit Hj; try (exfalso; clear - L; lia); apply andb_true_r.
      + assert (Z.testbit v i = false) as ->; [| reflexivity]. destruct (Z.eq_dec v 0) as [-> |]; [apply Z.bits_0 |].
        apply Z.bits_above_log2; [lia |]. apply Z.log2_lt_pow2; [lia |]. apply Z.lt_le_trans with (2 ^ 32); [lia |]. apply Z.pow_le_mono_r; lia. }
  rewrite M. split.
  - intros L. assert (1 <= v / 2 ^ 11) by (apply Z.div_le_lower_bound; lia). unfold nz. destruct (Z.eqb_spec (v / 2 ^ 11 * 2 ^ 11) 0); [lia |]. reflexivity.
  - intros L P. rewrite Z.div_small by lia. change (nz (0 * 2 ^ 11)) with false. cbv iota.
    unfold nz at 1, CR4_PAE. change 32 with (1 << 5). rewrite z_fld, P by lia. cbn [negb].
    match goal with |- context [if ?b then set_flushes X ?l s else s] => destruct b end; eexists.
    + eexists. reflexivity.
    + exists (flushes X s). rewrite set_flushes_id. reflexivity.
Qed.
Print Assumptions C63_cr4_partial.

(** a guest that sets PAE, which CPUID advertises (cpuid_helper, I 1482), ends the process *)
Theorem C63_refuted_pae : forall X v s, 0 <= v < 2 ^ 11 -> Z.testbit v 5 = true -> ring X s = 0 -> mov_cr X 4 v s = Abort X _.
Proof.
  intros X v s Hv P R. unfold mov_cr. rewrite (ring0 X s R).
  change (4 =? 0) with false. change (4 =? 2) with false. change (4 =? 3) with false. change (4 =? 4) with true. cbv iota. unfold update_cr4.
  unfold nz at 1. destruct (Z.eqb_spec (v .& CR4_RES_MASK) 0) as [E | E]; cbn [negb].
  - unfold nz at 1, CR4_PAE. change 32 with (1 << 5). rewrite z_fld, P by lia. reflexivity.
  - exfalso. apply E. apply Z.bits_inj'. intros i Hi. rewrite Z.land_spec, Z.bits_0.
    destruct (Z.ltb_spec i 11) as [L | L].
    + assert (K : 0 <= i < 32) by lia. clear - L K. each_bit K; try (exfalso; clear - L; lia); apply andb_false_r.
    + assert (Z.testbit v i = false) as ->; [| reflexivity]. destruct (Z.eq_dec v 0) as [-> |]; [apply Z.bits_0 |].
      apply Z.bits_above_log2; [lia |]. apply Z.log2_lt_pow2; [lia |]. apply Z.lt_le_trans with (2 ^ 11); [lia |]. apply Z.pow_le_mono_r; lia.
Qed.
Print Assumptions C63_refuted_pae.

(** above ring 0, virtual 8086 code included, every one of them faults and changes nothing *)
Theorem C63_privileged : forall X n v s, ring X s <> 0 ->
  mov_cr X n v s = Exc X _ (gp0 X s) /\ lmsw X v s = Exc X _ (gp0 X s) /\ clts X s = Exc X _ (gp0 X s).
Proof. intros X n v s R. unfold mov_cr, lmsw, clts. rewrite (ring_nz X s R). repeat split. Qed.
Print Assumptions C63_privileged.

(** Every one of these on a machine in protected mode with CR0 = PE | ET | TS: LMSW 0 leaves PE *)
Example C63_example :
  let s := set_cr0 flat 0x80010019 (machine 0 2 m0) in
  ring flat s = 0 /\ Z.testbit (hfl flat s) 4 = Z.testbit (cr0 flat s) 0 /\ cr0_ok 0x80010003 = true /\ cr0_ok 0x80000000 = false /\ cr0_ok 0x20000001 = false /\
  ok (lmsw flat 0xFFF0 s) (fun s => cr0 flat s =? 0x80010011) = true /\
  ok (lmsw flat 0xFFFE s) (fun s => cr0 flat s =? 0x8001001F) = true /\
  ok (clts flat s) (fun s => cr0 flat s =? 0x80010011) = true /\
  ok (mov_cr flat 0 0x5FFFFFFF s) (fun s => cr0 flat s =? 0x4005003F) = true /\
  ok (mov_cr flat 3 0x12345FFF s) (fun s => cr3 flat s =? 0x12345018) = true /\
  ok (mov_cr flat 4 0x690 s) (fun s => cr4 flat s =? 0x690) = true.
Proof. repeat split; vm_compute; reflexivity. Qed.
