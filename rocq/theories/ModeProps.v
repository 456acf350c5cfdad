(** * Properties of the derived mode flags and of control register writes *)

From Coq Require Import ZArith Bool List Lia ZifyBool.
From Verif Require Import SegModel SegSpec SegBits SegProofs SegFar SegRet SegCall SegProps ExcSpec ExcProofs ExcDel ModeSpec ModeProofs ModeModel ModeSteps.
Import ListNotations.
Local Open Scope Z_scope.

Section Run.
Context (X : memsys).
Notation st := (st X).
Implicit Types s : st.

Definition ends {A} (o : out X A) (s' : st) : Prop :=
  match o with Ok _ _ _ t | Exc _ _ t | PFault _ _ t => t = s' | Abort _ _ => False end.
(** Far transfers in real and virtual 8086 mode, and interrupts from virtual 8086
    mode, do not maintain the zero-base bits. *)
Definition forgets_bases (o : op) s : bool :=
  match o with
  | JmpFar _ _ _ | CallFar _ _ _ _ | RetFar _ _ | Iret _ => negb (pe X s) || vm X s
  | Deliver _ _ => vm X s
  | _ => false
  end.
(** Sequences of mode changing operations, successful or faulting, interleaved with
    anything that leaves the segment registers, CR0, CR4 and VM alone. *)
Inductive ran : st -> st -> Prop :=
| ran_nil s : ran s s
| ran_op s o s1 s2 : ends (exec X o s) s1 ->
    (forgets_bases o s = true -> forall r, flat_base X s1 r = flat_base X s r) -> ran s1 s2 -> ran s s2
| ran_other s s1 s2 : hfl X s1 = hfl X s -> seg X s1 = seg X s -> cr0 X s1 = cr0 X s -> cr4 X s1 = cr4 X s ->
    vm X s1 = vm X s -> ran s1 s2 -> ran s s2.

Lemma ends_inv P {A} (o : out X A) s' : inv X P o -> ends o s' -> P s'.
Proof. destruct o; cbn; try easy; now intros H <-. Qed.
Lemma Qp_W s : Qp X s -> W X s.
Proof. intros (P & H & V). split; [exact H | intros _; exact P]. Qed.
Lemma inv_imp (P Q : st -> Prop) {A} (o : out X A) : (forall s, P s -> Q s) -> inv X P o -> inv X Q o.
Proof. intros H. destruct o; cbn; auto. Qed.
Lemma protected_eq s : W X s -> protected X s = pe X s && negb (vm X s).
Proof.
  intros H. unfold protected. change HFLG_PE_MODE with (1 << 4). rewrite nz_fld, (W_pe X s H), vm_eq by lia. reflexivity.
Qed.
Lemma W_Qp s : W X s -> pe X s && negb (vm X s) = true -> Qp X s.
Proof. intros [H _] E. apply andb_true_iff in E as [P V]. split; [exact P |]. split; [exact H | now destruct (vm X s)]. Qed.
Lemma not_prot s : pe X s && negb (vm X s) = false -> pe X s = false \/ vm X s = true.
Proof. destruct (pe X s), (vm X s); auto; discriminate. Qed.
Lemma forget_of s : pe X s = false \/ vm X s = true -> negb (pe X s) || vm X s = true.
Proof. intros [-> | ->]; [reflexivity | apply orb_true_r]. Qed.
Lemma W_far sl ip e s s0 : W X s -> pe X s = false \/ vm X s = true -> seg X s0 = seg X s ->
  (forall r, flat_base X (far_real X sl ip (set_esp X e s)) r = flat_base X s0 r) -> W X (far_real X sl ip (set_esp X e s)).
Proof. intros H M E Z. refine (W_cs8086 X sl (limit (seg X s CS)) ip e s H M _). specialize (Z CS). unfold flat_base in *. rewrite E in Z. rewrite <- Z. reflexivity. Qed.
Lemma W_wef v m s : Z.testbit m 17 = false -> W X s -> W X (write_eflags_helper X v m s).
Proof.
  intros B. apply W_same; try reflexivity. unfold vm. rewrite wef_bit by lia. now rewrite B.
Qed.
Definition steady (s0 t : st) : Prop := (forall r, flat_base X t r = flat_base X s0 r) -> W X t.
Lemma closed_steady s0 : closed X (steady s0).
Proof.
  intros t HT. refine (conj _ (conj _ (conj _ (conj _ (conj _ _))))); intros v ZZ; specialize (HT ZZ); destruct HT; split; assumption.
Qed.

(** three pops and the end of IRET in real mode *)
Lemma iret_real_W n s s' : W X s -> pe X s = false \/ vm X s = true -> ends (iret_real X n s) s' ->
  (forall r, flat_base X s' r = flat_base X s r) -> W X s'.
Proof.
  intros H M E Z. pose proof (closed_steady s) as C. set (P := steady s) in *.
  assert (P0 : P s) by (intros _; exact H).
  assert (K : inv X P (iret_real X n s)); [| exact (ends_inv P _ _ K E Z)].
  unfold iret_real. unfold bind at 1, get at 1.
  apply inv_mem; [exact C | exact P0 | apply memonly_pop |]. intros p1 m1.
  apply inv_mem; [exact C | exact P0 | apply memonly_pop |]. intros p2 m2.
  apply inv_mem; [exact C | exact P0 | apply memonly_pop |]. intros p3 m3. unfold inv, upd. cbv zeta. intros ZZ.
  apply W_wef. { destruct (nz _), (n =? 2); reflexivity. }
  specialize (ZZ CS). unfold flat_base in ZZ. cbn [seg set_mem] in ZZ.
  match goal with |- W X (put_seg X CS (mkseg ?cs _ ?l _) (set_eip X ?ip (set_esp X ?e ?t))) =>
    assert (R : W X (set_eip X ip (put_seg X CS (mkseg cs (cs << 4) l (sflags (seg X t CS))) (set_esp X e t)))) end.
  { apply W_cs8086; [destruct H; split; assumption | exact M |]. unfold flat_base. cbn [seg set_mem]. rewrite <- ZZ. reflexivity. }
  destruct R as [R1 R2]. split; [exact R1 | exact R2].
Qed.

Lemma W_op o s s' : W X s -> ends (exec X o s) s' -> (forgets_bases o s = true -> forall r, flat_base X s' r = flat_base X s r) -> W X s'.
Proof.
  intros H E Z. destruct o as [r sl | sl n ip | sl ip n rt | n imm | n | sl | sl | n v | v | | intn hw]; cbn [exec forgets_bases] in E, Z;
    rewrite ?(protected_eq s H) in E.
  - destruct r; try contradiction; (destruct (pe X s && negb (vm X s)) eqn:P;
      [exact (Qp_W _ (ends_inv _ _ _ (inv_mov X _ _ s (W_Qp s H P)) E)) | cbn in E; subst s'; apply W_mov_real; [exact H | discriminate | now apply not_prot]]).
  - destruct (pe X s && negb (vm X s)) eqn:P; [exact (Qp_W _ (ends_inv _ _ _ (inv_ljmp X _ _ _ s (W_Qp s H P)) E)) |].
    cbn in E. subst s'. pose proof (not_prot s P) as M. specialize (Z (forget_of s M)). 
    assert (R : W X (far_real X sl ip (set_esp X (esp X s) s))). { apply (W_far sl ip (esp X s) s s); auto. }
    destruct R as [R1 R2]. split; [exact R1 | exact R2].
  - destruct (pe X s && negb (vm X s)) eqn:P; [exact (Qp_W _ (ends_inv _ _ _ (inv_lcall X _ _ _ _ s (W_Qp s H P)) E)) |].
    pose proof (not_prot s P) as M. specialize (Z (forget_of s M)).
    pose proof (closed_steady s) as C. set (Pz := steady s) in *.
    assert (P0 : Pz s) by (intros _; exact H).
    refine (ends_inv Pz _ s' _ E Z).
    apply inv_mem; [exact C | exact P0 | apply memonly_push |]. intros e1 m1.
    apply inv_mem; [exact C | exact P0 | apply memonly_push |]. intros e2 m2. unfold inv, upd. intros ZZ.
    apply (W_far _ _ _ _ s); [destruct H; split; assumption | exact M | reflexivity | exact ZZ].
  - destruct (pe X s && negb (vm X s)) eqn:P; [exact (Qp_W _ (ends_inv _ _ _ (inv_retf X _ _ s (W_Qp s H P)) E)) |].
    pose proof (not_prot s P) as M. specialize (Z (forget_of s M)).
    pose proof (closed_steady s) as C. set (Pz := steady s) in *.
    assert (P0 : Pz s) by (intros _; exact H).
    refine (ends_inv Pz _ s' _ E Z).
    apply inv_mem; [exact C | exact P0 | apply memonly_pop |]. intros p1 m1.
    apply inv_mem; [exact C | exact P0 | apply memonly_pop |]. intros p2 m2. unfold inv, upd. intros ZZ.
    apply (W_far _ _ _ _ s); [destruct H; split; assumption | exact M | reflexivity | exact ZZ].
  - change HFLG_PE_MODE with (1 << 4) in E. rewrite nz_fld, (W_pe X s H) in E by lia. destruct (pe X s) eqn:P.
    + destruct (vm X s) eqn:V.
      * cbn [negb orb] in Z. specialize (Z eq_refl). unfold iret_pe in E. unfold bind at 1, get at 1 in E. rewrite vm_eq, V in E.
        destruct (_ =? 3); [eapply iret_real_W; eauto |]. cbn in E. subst s'. destruct H; split; assumption.
      * assert (Q : Qp X s) by (apply W_Qp; [exact H | rewrite P, V; reflexivity]).
        pose proof (ends_inv _ _ _ (inv_iret X n s Q) E) as [A B]. split; [exact B | intros _; exact A].
    + cbn [negb orb] in Z. eapply iret_real_W; eauto.
  - destruct (pe X s && negb (vm X s)) eqn:P; [| contradiction]. exact (Qp_W _ (ends_inv _ _ _ (inv_ltr X _ s (W_Qp s H P)) E)).
  - destruct (pe X s && negb (vm X s)) eqn:P; [| contradiction]. exact (Qp_W _ (ends_inv _ _ _ (inv_lldt X _ s (W_Qp s H P)) E)).
  - exact (ends_inv _ _ _ (inv_movcr X n v s H) E).
  - exact (ends_inv _ _ _ (inv_lmsw X v s H) E).
  - exact (ends_inv _ _ _ (inv_clts X s H) E).
  - exact (ends_inv _ _ _ (inv_deliver X intn hw s H) E Z).
Qed.
End Run.

(** ** C22: the derived mode flags *)

(** Over any history of segment loads, far transfers, returns, interrupts, control
    register writes and faults, the derived mode bits stay equal to what CS, SS, the
    segment bases, CR0, CR4 and VM say.  Missing: the operations of [forgets_bases],
    for which it holds only if they happen to change no base from or to zero (the
    refutations below). *)
Theorem C22_history_partial : forall X s s', ran X s s' -> mode_ok X s -> (vm X s = true -> pe X s = true) -> mode_ok X s'.
Proof.
  intros X s s' R H V. assert (K : W X s) by (split; assumption). clear H V. revert K.
  induction R as [s | s o s1 s2 E Z R IH | s s1 s2 E1 E2 E3 E4 E5 R IH]; intros K; [exact (proj1 K) | |].
  - apply IH. eapply W_op; eauto.
  - apply IH. revert K. now apply W_same.
Qed.
Print Assumptions C22_history_partial.

Ltac each := repeat (constructor; [cbn [fst snd] |]); [.. | exact (Forall_nil _)].

(** cpu_sync_state computes these bits in protected mode, ... *)
Theorem C22_sync_protected : forall X s, pe X s = true -> vm X s = false -> mode_ok X (sync X s).
Proof.
  intros X s P V. unfold sync, sync_hflags, bit_if, mode_ok, mode_bits, pe, big, flat_base, vm in *.
  cbn [hfl seg cr0 cr4 ef set_hfl]. rewrite P, V. cbn [andb orb].
  rewrite !nz_pe, !nz_db. unfold CR0_EM, CR0_TS, CR0_NE, CR0_MP.
  change CR4_OSFXSR with (1 << 9). change CR4_VME with (1 << 0). change CR4_PVI with (1 << 1). change CR4_OSXMMEXCPT with (1 << 10).
  rewrite !nz_fld by lia. rewrite P.
  unfold HFLG_CPL, HFLG_CS32, HFLG_SS32, HFLG_PE_MODE, HFLG_CR0_EM, HFLG_CR0_TS, HFLG_CR0_NE, HFLG_CR0_MP, HFLG_CR4_OSFXSR, HFLG_CR4_VME, HFLG_CR4_PVI, HFLG_CR4_OSXMMEXCPT, zero_bit.
  each; bits; rewrite ?orb_true_r; reflexivity.
Qed.
Print Assumptions C22_sync_protected.

(** ... and after reset, so that every run starts with the right mode flags. *)
Theorem C22_boot : forall X m, mode_ok X (sync X (reset X m)) /\ vm X (sync X (reset X m)) = false.
Proof. intros X m. split; [| reflexivity]. unfold mode_ok, mode_bits. each; reflexivity. Qed.
Print Assumptions C22_boot.

(** A history that meets the hypotheses: from reset, an interrupt, loads of DS and SS,
    LMSW to protected mode. *)
Definition booted : st flat := sync flat (reset flat (fun _ => 0)).
Definition after (o : op) (s : st flat) : st flat := match exec flat o s with Ok _ _ _ t | Exc _ _ t | PFault _ _ t => t | Abort _ _ => s end.
Definition aborts (o : op) (s : st flat) : bool := match exec flat o s with Abort _ _ => true | _ => false end.
Lemma after_ends o s : aborts o s = false -> ends flat (exec flat o s) (after o s).
Proof. unfold aborts, after. destruct (exec flat o s); cbn; easy. Qed.
Example C22_example :
  let s1 := after (Deliver 0 false) booted in let s2 := after (MovSel DS 0x1000) s1 in
  let s3 := after (MovSel SS 0x2000) s2 in let s4 := after (Lmsw 1) s3 in
  ran flat booted s4 /\ Z.testbit (hfl flat s4) 4 = true /\ Z.testbit (hfl flat s4) 22 = true /\ Z.testbit (hfl flat s4) 24 = false.
Proof.
  cbv zeta. split; [| vm_compute; auto].
  apply (ran_op _ _ (Deliver 0 false) (after (Deliver 0 false) booted)); [apply after_ends; vm_compute; reflexivity | vm_compute; discriminate |].
  apply (ran_op _ _ (MovSel DS 0x1000) (after (MovSel DS 0x1000) (after (Deliver 0 false) booted))); [apply after_ends; vm_compute; reflexivity | discriminate |].
  apply (ran_op _ _ (MovSel SS 0x2000) (after (MovSel SS 0x2000) (after (MovSel DS 0x1000) (after (Deliver 0 false) booted)))); [apply after_ends; vm_compute; reflexivity | discriminate |].
  eapply (ran_op _ _ (Lmsw 1)); [apply after_ends; vm_compute; reflexivity | discriminate | apply ran_nil].
Qed.

(** From reset: an interrupt to 0000:0000, then a far jump to segment 1000h.  The base
    of CS is then 10000h, but the mode flags still say it is zero. *)
Theorem C22_refuted_far_jump : exists s1 s2,
  ends flat (exec flat (Deliver 0 false) booted) s1 /\ ends flat (exec flat (JmpFar 0x1000 2 0) s1) s2 /\
  base (seg flat s2 CS) = 0x10000 /\ Z.testbit (hfl flat s2) 22 = true.
Proof.
  exists (after (Deliver 0 false) booted), (after (JmpFar 0x1000 2 0) (after (Deliver 0 false) booted)).
  split; [apply after_ends; vm_compute; reflexivity |]. split; [apply after_ends; vm_compute; reflexivity |]. vm_compute. auto.
Qed.
Print Assumptions C22_refuted_far_jump.

(** The same for IRET in real mode, when the saved segment is not zero. *)
Theorem C22_refuted_iret : exists s1 s2,
  ends flat (exec flat (Deliver 0 false) booted) s1 /\ ends flat (exec flat (Iret 2) s1) s2 /\
  base (seg flat s2 CS) = 0xF0000 /\ Z.testbit (hfl flat s2) 22 = true.
Proof.
  exists (after (Deliver 0 false) booted), (after (Iret 2) (after (Deliver 0 false) booted)).
  split; [apply after_ends; vm_compute; reflexivity |]. split; [apply after_ends; vm_compute; reflexivity |]. vm_compute. auto.
Qed.
Print Assumptions C22_refuted_iret.

(** An interrupt from virtual 8086 mode, with CS = SS = 0, to a handler whose code
    segment has base 10000h. *)
Definition vm86_machine : st flat :=
  set_xidx flat 13 (mkst flat 0x7000 0x100 0x20002 0 0 (0x7E00010 .| 3)
    (fun r => match r with LDTR => mkseg 0 0 0 0 | TR => mkseg 0x50 0x3000 0x67 0x8B00 | CS => mkseg 0 0 0xFFFF 0xFB00 | _ => mkseg 0 0 0xFFFF 0xF300 end)
    0x1000 0x4F 0x2000 0x7FF 0x11 0 0 0 0x400 0 0 0 EXP_INVALID []
    (qwords 0x2068 [0x00128E0000083456] (qwords 0x1008 [0x00CF9A010000FFFF] m0))).
Theorem C22_refuted_vm86_interrupt : exists s2,
  mode_ok flat vm86_machine /\ ends flat (exec flat (Deliver 0 false) vm86_machine) s2 /\
  vm flat s2 = false /\ base (seg flat s2 CS) = 0x10000 /\ Z.testbit (hfl flat s2) 22 = true.
Proof.
  exists (after (Deliver 0 false) vm86_machine).
  split; [unfold mode_ok, mode_bits; each; reflexivity |]. split; [apply after_ends; vm_compute; reflexivity |]. vm_compute. auto.
Qed.
Print Assumptions C22_refuted_vm86_interrupt.

Lemma exc_inv (o : out flat unit) : (match o with Exc _ _ _ => true | _ => false end) = true -> exists s, o = Exc flat _ s.
Proof. destruct o; try discriminate. eauto. Qed.
(** cpu_sync_state takes the privilege level from CS even in real mode: after a jump to
    segment 0003h, a second cpu_run continues at level 3 and MOV to CR0 faults. *)
Theorem C22_refuted_sync : exists s1,
  ends flat (exec flat (JmpFar 3 2 0) booted) s1 /\ pe flat s1 = false /\
  (exists u s2, exec flat (MovCr 0 0x60000011) s1 = Ok flat _ u s2) /\
  (exists s2, exec flat (MovCr 0 0x60000011) (sync flat s1) = Exc flat _ s2).
Proof.
  exists (after (JmpFar 3 2 0) booted). split; [apply after_ends; vm_compute; reflexivity |]. split; [reflexivity |].
  set (s1 := after (JmpFar 3 2 0) booted). split.
  - destruct (ok_inv (exec flat (MovCr 0 0x60000011) s1) (fun _ => true)) as (u & s2 & E & _); [vm_compute; reflexivity |]. now exists u, s2.
  - apply exc_inv. vm_compute. reflexivity.
Qed.
Print Assumptions C22_refuted_sync.

(** ** C25: control register writes *)

(** A refused write gives #GP(0) and changes nothing else. *)
Theorem C25_refused : forall X n v s,
  ring X s <> 0 \/ (n = 0 /\ cr0_bad v = true) \/ (n = 4 /\ exists i, 11 <= i < 32 /\ Z.testbit v i = true) ->
  mov_cr X n v s = Exc X _ (set_xcode X 0 (set_xidx X 13 s)).
Proof.
  intros X n v s H. unfold mov_cr. rewrite cpl_mod. unfold nz at 1. destruct (Z.eqb_spec (ring X s) 0) as [R | R]; [| reflexivity]. cbn [negb].
  destruct H as [H | [[-> H] | [-> (i & Hi & B)]]]; [contradiction | |].
  - change (0 =? 0) with true. cbv iota. unfold update_cr0. change (0 =? 0) with true. cbn [andb].
    assert (E : ((v .& CR0_PE =? 0) && ((v .& CR0_PG) >> 31 =? 1)) || ((v .& CR0_CD =? 0) && ((v .& CR0_NW) >> 29 =? 1)) = cr0_bad v).
    { unfold cr0_bad, CR0_PG, CR0_CD, CR0_NW. change CR0_PE with (1 << 0).
      pose proof (nz_fld v 0 ltac:(lia)) as A. pose proof (nz_fld v 30 ltac:(lia)) as C. unfold nz in A, C.
      apply (f_equal negb) in A, C. rewrite negb_involutive in A, C. rewrite A, C.
      assert (F : forall k, 0 <= k -> ((v .& (1 << k)) >> k =? 1) = Z.testbit v k).
      { intros k Hk. rewrite Z.shiftr_land, Z.shiftr_shiftl_l, Z.sub_diag by lia. rewrite Z.shiftl_0_r.
        change 1 with (Z.ones 1) at 1. rewrite Z.land_ones by lia. change (2 ^ 1) with 2. rewrite <- Z.bit0_mod, Z.shiftr_spec by lia. rewrite Z.add_0_l. now destruct (Z.testbit v k). }
      rewrite !F by lia. reflexivity. }
    rewrite E, H. reflexivity.
  - change (4 =? 0) with false. change (4 =? 2) with false. change (4 =? 3) with false. change (4 =? 4) with true. cbv iota.
    unfold update_cr4. replace (nz (v .& CR4_RES_MASK)) with true; [reflexivity |]. symmetry. unfold nz.
    destruct (Z.eqb_spec (v .& CR4_RES_MASK) 0) as [E | E]; [| reflexivity]. exfalso.
    apply (f_equal (fun x => Z.testbit x i)) in E. cbv beta in E. rewrite Z.land_spec, B, Z.bits_0 in E.
    assert (M : forall i, 11 <= i < 32 -> Z.testbit CR4_RES_MASK i = true).
    { clear. intros i H. assert (i = 11 \/ i = 12 \/ i = 13 \/ i = 14 \/ i = 15 \/ i = 16 \/ i = 17 \/ i = 18 \/ i = 19 \/ i = 20 \/ i = 21 \/ i = 22 \/ i = 23 \/ i = 24
        \/ i = 25 \/ i = 26 \/ i = 27 \/ i = 28 \/ i = 29 \/ i = 30 \/ i = 31) as K by lia.
      repeat (destruct K as [-> | K]; [reflexivity |]). subst i. reflexivity. }
    rewrite M in E by lia. discriminate.
Qed.
Print Assumptions C25_refused.

(** An accepted write to CR0 stores the writable bits with ET forced, and flushes the
    whole TLB if paging is switched, or if WP changes with paging on.  Nothing but CR0,
    the flushes and the mode flags changes. *)
Definition bit_differs (a b i : Z) : bool := xorb (Z.testbit a i) (Z.testbit b i).
Lemma bits32 i (P : Z -> Prop) : 0 <= i < 32 -> Forall P (map Z.of_nat (seq 0 32)) -> P i.
Proof.
  intros H F. rewrite Forall_forall in F. apply F. apply in_map_iff. exists (Z.to_nat i). split; [lia |]. apply in_seq. lia.
Qed.
Lemma land_eqb a b k : 0 <= k -> (a .& (1 << k) =? b .& (1 << k)) = negb (bit_differs a b k).
Proof.
  intros Hk. assert (F : forall x, x .& (1 << k) = Z.b2z (Z.testbit x k) << k).
  { intros x. apply Z.bits_inj'. intros n Hn. rewrite Z.land_spec, !Z.shiftl_spec by lia.
    destruct (Z.eq_dec n k) as [-> | N].
    - rewrite Z.sub_diag. cbn. destruct (Z.testbit x k); reflexivity.
    - assert (Z.testbit 1 (n - k) = false) as ->. { destruct (Z.ltb_spec n k); [apply Z.testbit_neg_r; lia |]. change 1 with (2 ^ 0). apply Z.pow2_bits_false. lia. }
      rewrite andb_false_r. symmetry. destruct (Z.testbit x k); [| apply Z.bits_0]. cbn [Z.b2z].
      destruct (Z.ltb_spec n k); [apply Z.testbit_neg_r; lia |]. change 1 with (2 ^ 0). apply Z.pow2_bits_false. lia. }
  rewrite !F. unfold bit_differs. destruct (Z.testbit a k), (Z.testbit b k); cbn [xorb negb Z.b2z]; rewrite ?Z.shiftl_0_l; try apply Z.eqb_refl;
  apply Z.eqb_neq; rewrite Z.shiftl_1_l; pose proof (Z.pow_pos_nonneg 2 k); lia.
Qed.
Theorem C25_cr0 : forall X v s, ring X s = 0 -> cr0_bad v = false ->
  exists h c, mov_cr X 0 v s =
    Ok X _ tt (set_cr0 X c (set_hfl X h (set_flushes X
      (if bit_differs (cr0 X s) v 31 || (bit_differs (cr0 X s) v 16 && Z.testbit v 31) then true :: flushes X s else flushes X s) s))) /\
  forall i, 0 <= i < 32 -> Z.testbit c i = cr0_stored v i.
Proof.
  intros X v s R G. unfold mov_cr. rewrite cpl_mod, R. change (nz 0) with false. change (0 =? 0) with true. cbv iota.
  destruct (update_cr0 X 0 v s) as [s' |] eqn:U.
  2: { exfalso. assert (M : mov_cr X 0 v s = Exc X _ (set_xcode X 0 (set_xidx X 13 s))).
       { unfold mov_cr. rewrite cpl_mod, R. change (nz 0) with false. change (0 =? 0) with true. cbv iota. now rewrite U. }
       unfold update_cr0 in U. match type of U with (if ?b then _ else _) = _ => destruct b eqn:B end; [| discriminate].
       change (0 =? 0) with true in B. cbn [andb] in B. clear - B G.
       unfold cr0_bad in G. change CR0_PE with (1 << 0) in B. unfold CR0_PG, CR0_CD, CR0_NW in B.
       assert (F : forall k, 0 <= k -> (v .& (1 << k) =? 0) = negb (Z.testbit v k)) by (intros k Hk; rewrite <- (nz_fld v k) by lia; unfold nz; now rewrite negb_involutive).
       assert (F1 : forall k, 0 <= k -> ((v .& (1 << k)) >> k =? 1) = Z.testbit v k).
       { intros k Hk. rewrite Z.shiftr_land, Z.shiftr_shiftl_l, Z.sub_diag by lia. rewrite Z.shiftl_0_r.
         change 1 with (Z.ones 1) at 1. rewrite Z.land_ones by lia. change (2 ^ 1) with 2. rewrite <- Z.bit0_mod, Z.shiftr_spec by lia. rewrite Z.add_0_l. now destruct (Z.testbit v k). }
       rewrite !F, !F1 in B by lia. congruence. }
  unfold update_cr0 in U. match type of U with (if ?b then _ else _) = _ => destruct b eqn:B end; [discriminate |].
  change (0 =? 0) with true in U. change (0 =? 2) with false in U. change (0 =? 1) with false in U. cbn [negb andb] in U. cbv zeta in U. apply some_inj in U.
  unfold CR0_PG, CR0_WP in U. rewrite !land_eqb, !nz_fld in U by lia. rewrite !negb_involutive in U.
  assert (E : s' = set_cr0 X (v .& CR0_FLG_MASK .| CR0_ET) (set_hfl X (hfl X s') (set_flushes X
      (if bit_differs (cr0 X s) v 31 || (bit_differs (cr0 X s) v 16 && Z.testbit v 31) then true :: flushes X s else flushes X s) s))).
  { rewrite <- U at 1. destruct (bit_differs (cr0 X s) v 31 || _); subst s'; cbn [hfl set_cr0]; destruct s; reflexivity. }
  exists (hfl X s'), (v .& CR0_FLG_MASK .| CR0_ET). split; [f_equal; exact E |].
  intros i Hi. apply (bits32 i (fun i => Z.testbit (v .& CR0_FLG_MASK .| CR0_ET) i = cr0_stored v i) Hi).
  cbn [seq map Z.of_nat]. unfold CR0_FLG_MASK, CR0_ET. each; unfold cr0_stored; bits; cbn; rewrite ?orb_true_r, ?andb_true_r, ?orb_false_r; reflexivity.
Qed.
Print Assumptions C25_cr0.

(** A write to CR3 stores the directory address, PWT and PCD; with paging on it flushes
    the TLB, sparing global pages if they are enabled. *)
Theorem C25_cr3 : forall X v s, ring X s = 0 ->
  exists c, mov_cr X 3 v s = Ok X _ tt (set_cr3 X c (set_flushes X
      (if Z.testbit (cr0 X s) 31 then negb (Z.testbit (cr4 X s) 7) :: flushes X s else flushes X s) s)) /\
  forall i, 0 <= i < 32 -> Z.testbit c i = ((12 <=? i) || (i =? 3) || (i =? 4)) && Z.testbit v i.
Proof.
  intros X v s R. unfold mov_cr. rewrite cpl_mod, R. change (nz 0) with false.
  change (3 =? 0) with false. change (3 =? 2) with false. change (3 =? 3) with true. cbv iota.
  exists (v .& CR3_FLG_MASK). split.
  - unfold update_cr3. unfold CR0_PG. change CR4_PGE with (1 << 7). rewrite !nz_fld by lia.
    destruct (Z.testbit (cr0 X s) 31); destruct s; reflexivity.
  - intros i Hi. apply (bits32 i (fun i => Z.testbit (v .& CR3_FLG_MASK) i = ((12 <=? i) || (i =? 3) || (i =? 4)) && Z.testbit v i) Hi).
    cbn [seq map Z.of_nat]. unfold CR3_FLG_MASK. each; bits; cbn; reflexivity.
Qed.
Print Assumptions C25_cr3.

(** A write to CR4 without reserved bits stores the value and flushes the whole TLB if
    PSE or PGE changes; setting PAE ends the emulation. *)
Theorem C25_cr4 : forall X v s, ring X s = 0 -> 0 <= v < 2 ^ 11 ->
  if Z.testbit v 5 then mov_cr X 4 v s = Abort X _
  else exists h, mov_cr X 4 v s = Ok X _ tt (set_cr4 X v (set_hfl X h (set_flushes X
      (if bit_differs (cr4 X s) v 4 || bit_differs (cr4 X s) v 7 then true :: flushes X s else flushes X s) s))).
Proof.
  intros X v s R H. unfold mov_cr. rewrite cpl_mod, R. change (nz 0) with false.
  change (4 =? 0) with false. change (4 =? 2) with false. change (4 =? 3) with false. change (4 =? 4) with true. cbv iota.
  unfold update_cr4. assert (E : v .& CR4_RES_MASK = 0).
  { change CR4_RES_MASK with (Z.ones 21 << 11). apply Z.bits_inj'. intros n Hn. rewrite Z.land_spec, Z.bits_0, Z.shiftl_spec by lia.
    destruct (Z.ltb_spec n 11); [rewrite (Z.testbit_neg_r _ (n - 11)) by lia; apply andb_false_r |].
    replace (Z.testbit v n) with false; [reflexivity |]. symmetry. rewrite Z.testbit_false by lia.
    rewrite Z.div_small; [reflexivity |]. split; [lia |]. apply Z.lt_le_trans with (2 ^ 11); [lia |]. apply Z.pow_le_mono_r; lia. }
  rewrite E. change (nz 0) with false. cbv iota. change CR4_PAE with (1 << 5). rewrite nz_fld by lia.
  destruct (Z.testbit v 5); [reflexivity |]. cbv zeta.
  assert (EQ : (cr4 X s .& (CR4_PSE .| CR4_PGE) =? v .& (CR4_PSE .| CR4_PGE)) = negb (bit_differs (cr4 X s) v 4 || bit_differs (cr4 X s) v 7)).
  { pose proof (land_eqb (cr4 X s) v 4 ltac:(lia)) as A. pose proof (land_eqb (cr4 X s) v 7 ltac:(lia)) as B.
    rewrite negb_orb, <- A, <- B. change CR4_PSE with (1 << 4). change CR4_PGE with (1 << 7).
    apply eq_true_iff_eq. rewrite andb_true_iff, !Z.eqb_eq. split.
    - intros Q. split; [apply (f_equal (fun x => x .& (1 << 4))) in Q | apply (f_equal (fun x => x .& (1 << 7))) in Q];
        rewrite <- !Z.land_assoc in Q; exact Q.
    - intros [Q1 Q2]. now rewrite !Z.land_lor_distr_r, Q1, Q2. }
  rewrite EQ, negb_involutive. destruct (_ || _); destruct s; eexists; reflexivity.
Qed.
Print Assumptions C25_cr4.

Example C25_example :
  ring flat (machine 0 2 m0) = 0 /\ cr0_bad 0x80010011 = false /\ cr0_bad 0x80000010 = true /\
  cr0 flat (after (MovCr 0 0x80010011) (machine 0 2 m0)) = 0x80010011 /\ flushes flat (after (MovCr 0 0x80010011) (machine 0 2 m0)) = [true] /\
  cr0 flat (after (MovCr 0 0xC0000051) (machine 0 2 m0)) = 0xC0000011.
Proof. vm_compute. repeat split. Qed.
