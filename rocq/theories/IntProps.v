(** * Properties of INT3, INT n and INTO *)

From Coq Require Import ZArith Bool List Lia ZifyBool.
From Verif Require Import SegModel SegSpec SegBits SegProofs SegFar SegRet SegCall SegProps ExcSpec ExcProofs ExcEsc ExcDel ExcProps IntModel.
From Verif Require HostModel AluModel AluSpec LazyFlagsProofs.
Import ListNotations.
Local Open Scope Z_scope.

(** ** Vocabulary *)

(** OF in EFLAGS as the guest sees it *)
Definition overflow (X : memsys) (s : st X) : bool := Z.testbit (read_eflags X s) 11.
(** INTO does something only if OF is set *)
Definition taken (X : memsys) (k : swint) (s : st X) : Prop := match k with Into => overflow X s = true | _ => True end.
(** the vector *)
Definition vector (k : swint) (v : Z) : Prop :=
  match k with Int3 => v = 3 | Into => v = 4 | IntN i => 0 <= v < 256 /\ exists q, i = v + 256 * q end.
Definition protected (X : memsys) (s : st X) : bool := Z.testbit (hfl X s) 4.
Definition vme (X : memsys) (s : st X) : bool := Z.testbit (hfl X s) 19.
(** an INT n in virtual 8086 mode *)
Definition vm86_intn (X : memsys) (k : swint) (s : st X) : bool := match k with IntN _ => vm X s | _ => false end.

(** exception [i] with error code [c] is raised instead: no register, flag or segment has changed,
    except that EIP is [ip] *)
Definition faults (X : memsys) (n : nat) (r : delivered X) (s : st X) (ip m i c : Z) (mm : M X) : Prop :=
  r = raise X n 0 false (set_xaddr X m (set_xcode X c (set_xidx X i (set_mem X mm (set_eip X ip s))))).

(** ** Bits *)

(** the stored flags word holds no status flags: they are kept elsewhere (C05) *)
Definition clean (X : memsys) (s : st X) : Prop := Z.land (ef X s) 0x8D5 = 0.

Lemma of_bit X s : clean X s -> (ld_of (laux X s) =? 0) = negb (overflow X s).
Proof.
  intros H. pose proof (LazyFlagsProofs.read_flags (flagctx X s) H) as R.
  apply (f_equal AluSpec.f_of) in R. unfold overflow, read_eflags. unfold AluSpec.flags_of_eflags, LazyFlagsProofs.lazy_flags in R. cbn [AluSpec.f_of HostModel.aux flagctx] in R.
  rewrite R. unfold ld_of. set (a := laux X s). change 0x80000000 with (1 << 31). rewrite z_fld by lia. f_equal.
  rewrite Z.lxor_spec. unfold w32. rewrite !Z.mod_pow2_bits_low by lia. rewrite xorb_comm. f_equal.
  replace (a mod 2 ^ 32 + a mod 2 ^ 32) with (2 * (a mod 2 ^ 32)) by lia. change 31 with (Z.succ 30). rewrite Z.testbit_even_succ by lia.
  now rewrite Z.mod_pow2_bits_low by lia.
Qed.

Lemma vec_unique k v : vector k v -> swint_vec k = v.
Proof.
  destruct k as [| i |]; cbn [vector swint_vec]; try congruence. intros (R & q & ->). rewrite Z.mul_comm, Z.mod_add by lia. now apply Z.mod_small.
Qed.
Lemma idx_soft k : (swint_idx k =? 0) = false. Proof. now destruct k. Qed.
Lemma idx_intn k : (swint_idx k =? 2) = match k with IntN _ => true | _ => false end. Proof. now destruct k. Qed.

Lemma exec_taken X n k next s : clean X s -> taken X k s ->
  exec_int X n k next s = raise X n (swint_idx k) false (swint_regs X k next s).
Proof. intros C T. destruct k; try reflexivity. cbn [exec_int swint_idx]. rewrite (of_bit X s C). cbn [taken] in T. now rewrite T. Qed.

Lemma bind_step X {A B} (f : st X -> out X A) (k : A -> st X -> out X B) s a s1 : f s = Ok X A a s1 -> bind X f k s = k a s1.
Proof. intros H. unfold bind. now rewrite H. Qed.
Lemma soft_start X k s : start X (swint_idx k) false s = Some s.
Proof. unfold start. now rewrite idx_soft. Qed.

Lemma pe_eq X s : nz (hfl X s .& HFLG_PE_MODE) = protected X s.
Proof. unfold protected. change HFLG_PE_MODE with (1 << 4). now rewrite nz_fld by lia. Qed.
Lemma vm_part X s : ((ef X s .& VM_MASK) .| (hfl X s .& HFLG_CR4_VME)) = (if vm X s then 2 ^ 17 else 0) + (if vme X s then 2 ^ 19 else 0).
Proof.
  unfold vm, vme. change VM_MASK with (1 << 17). change HFLG_CR4_VME with (1 << 19). rewrite !land_bit by lia.
  destruct (Z.testbit (ef X s) 17), (Z.testbit (hfl X s) 19); reflexivity.
Qed.
Lemma gp_test X s k : (swint_idx k =? 2) && ((ef X s .& VM_MASK) .| (hfl X s .& HFLG_CR4_VME) =? VM_MASK) && ((ef X s .& IOPL_MASK) >> 12 <? 3) =
  vm86_intn X k s && negb (vme X s) && (iopl X s <? 3).
Proof. rewrite vm_part, idx_intn, iopl_eq. unfold vm86_intn. destruct k, (vm X s), (vme X s); reflexivity. Qed.
Lemma red_test X s k : (swint_idx k =? 2) && ((ef X s .& VM_MASK) .| (hfl X s .& HFLG_CR4_VME) =? VM_MASK .| HFLG_CR4_VME) = vm86_intn X k s && vme X s.
Proof. rewrite vm_part, idx_intn. unfold vm86_intn. destruct k, (vm X s), (vme X s); reflexivity. Qed.

(** ** C76: software interrupts *)

(** INTO with OF clear does nothing but go on. *)
Theorem C76_into : forall X n next s, clean X s -> overflow X s = false ->
  exec_int X n Into next s = Delivered X (set_eip X next s).
Proof. intros X n next s C O. cbn [exec_int]. rewrite (of_bit X s C), O. reflexivity. Qed.
Print Assumptions C76_into.

(** Protected mode: the outcome is either that the handler of the vector was entered,
    through a gate whose DPL allows it, with the address of the next instruction saved
    and without an error code; or that another exception was raised, with all
    registers unchanged (EIP aside); or the unsupported task gate.  INT n in virtual
    8086 mode is below. *)
Theorem C76_protected_partial : forall X n k v next s, clean X s -> taken X k s -> vector k v ->
  protected X s = true -> vm86_intn X k s = false -> 0 <= esp X s < 2 ^ 32 ->
  (exists s', exec_int X (S n) k next s = Delivered X s' /\
     entered X (set_eip X next s) true [] v 0 (read_eflags X s) s') \/
  (exists mm i c a, faults X n (exec_int X (S n) k next s) s next a i c mm /\ (i = 10 \/ i = 11 \/ i = 13 \/ i = 14)) \/
  exec_int X (S n) k next s = Aborted X.
Proof.
  intros X n k v next s C T V P NV E. rewrite (exec_taken _ _ _ _ _ C T). cbn [raise]. rewrite soft_start.
  pose proof (vec_unique k v V) as VE. set (s0 := swint_regs X k next s).
  destruct (deliver X (swint_idx k) false s0) as [u s' | s' | s' |] eqn:D.
  - left. exists s'. split; [reflexivity |].
    assert (G := C24_entry_partial X (swint_idx k) false s0 u s' E P).
    assert (NR : vm X s0 = false \/ swint_idx k <> 2 \/ Z.testbit (hfl X s0) 19 = false).
    { destruct k; [right; left; discriminate | left; exact NV | right; left; discriminate]. }
    specialize (G NR D). rewrite idx_soft in G. unfold codes in G. rewrite idx_soft in G. cbn [negb andb] in G.
    change (xidx X s0) with (swint_vec k) in G. rewrite VE in G. exact G.
  - right; left. pose proof (C23_failed_attempt X (swint_idx k) false s0 s' (or_introl D)) as (m & c & i & a & -> & Hi).
    exists m, i, c, a. split; [| exact Hi]. unfold faults. reflexivity.
  - right; left. pose proof (C23_failed_attempt X (swint_idx k) false s0 s' (or_intror D)) as (m & c & i & a & -> & Hi).
    exists m, i, c, a. split; [| exact Hi]. unfold faults. reflexivity.
  - right; right. reflexivity.
Qed.
Print Assumptions C76_protected_partial.

(** Refusals by the gate: beyond the table, not an interrupt or trap gate, DPL below
    the privilege level: #GP(8v+2); not present: #NP(8v+2).  (Task gates are not
    supported.) *)
Theorem C76_refused : forall X n k v next s, clean X s -> taken X k s -> vector k v ->
  protected X s = true -> vm86_intn X k s = false ->
  (idtl X s < v * 8 + 7 -> faults X n (exec_int X (S n) k next s) s next 0 13 (v * 8 + 2) (mem X s)) /\
  (forall m g, idt_gate X s v m g -> gate_kind g <> 5 ->
     (int_gate g || trap_gate g = false \/ dpl_of g < ring X s -> faults X n (exec_int X (S n) k next s) s next 0 13 (v * 8 + 2) m) /\
     (int_gate g || trap_gate g = true -> ring X s <= dpl_of g -> is_present g = false ->
        faults X n (exec_int X (S n) k next s) s next 0 11 (v * 8 + 2) m)).
Proof.
  intros X n k v next s C T V P NV. rewrite (exec_taken _ _ _ _ _ C T). cbn [raise]. rewrite soft_start.
  pose proof (vec_unique k v V) as VE. set (s0 := swint_regs X k next s).
  assert (D : deliver X (swint_idx k) false s0 = deliver_pe X (swint_idx k) false 0 v 0 (read_eflags X s0) s0).
  { unfold deliver. cbv zeta. rewrite pe_eq, gp_test, red_test. change (protected X s0) with (protected X s). rewrite P.
    change (vm86_intn X k s0) with (vm86_intn X k s). rewrite NV. cbn [andb]. change (xidx X s0) with (swint_vec k). now rewrite VE. }
  rewrite D. unfold deliver_pe. rewrite (bind_step X (get X) _ s0 s0 s0 eq_refl). cbv zeta. rewrite idx_soft.
  change (idtl X s0) with (idtl X s). change (idtb X s0) with (idtb X s).
  split.
  - intros L. destruct (Z.ltb_spec (idtl X s) (v * 8 + 7)); [| lia]. cbn [raise_exp]. unfold faults, raise_exp. rewrite Z.add_0_r.
    reflexivity.
  - intros m g (L & R) K5. destruct (Z.ltb_spec (idtl X s) (v * 8 + 7)); [lia |].
    assert (RD : mread X 8 2 (idtb X s + v * 8) s0 = Ok X _ g (set_mem X m s0)).
    { unfold mread. rewrite cpl_mod. unfold w32. change (ring X s0) with (ring X s). change (mem X s0) with (mem X s). now rewrite R. }
    assert (G0 : 0 <= g) by (apply (rd_range X) in R; lia).
    rewrite (bind_step _ _ _ _ _ _ RD). rewrite kind_eq by exact G0. destruct (Z.eqb_spec (gate_kind g) 5); [contradiction |].
    assert (KT : ((gate_kind g =? 6) || (gate_kind g =? 14) || (gate_kind g =? 7) || (gate_kind g =? 15)) = int_gate g || trap_gate g)
      by (unfold int_gate, trap_gate; now rewrite !orb_assoc).
    rewrite KT, dpl_eq, cpl_mod. change (ring X s0) with (ring X s). cbn [negb andb].
    split.
    + intros Q. destruct (int_gate g || trap_gate g); cbn [negb].
      * destruct Q as [Q | Q]; [discriminate |]. destruct (Z.ltb_spec (dpl_of g) (ring X s)); [| lia]. reflexivity.
      * unfold raise_exp, faults. rewrite Z.add_0_r. reflexivity.
    + intros -> DP NP. cbn [negb]. destruct (Z.ltb_spec (dpl_of g) (ring X s)); [lia |].
      unfold is_present in NP. change SEG_DESC_P with (1 << 47). rewrite z_fld, NP by lia. cbn [negb]. unfold raise_exp, faults. rewrite Z.add_0_r. reflexivity.
Qed.
Print Assumptions C76_refused.

(** Real mode *)
Definition real_entered (X : memsys) (s : st X) (v next : Z) (s' : st X) : Prop :=
  exists m e, v * 4 + 3 <= idtl X s /\ rd X (ring X s) 0 4 ((idtb X s + v * 4) mod 2 ^ 32) (mem X s) = (m, MVal e) /\
    pushed X (ring X s) 0 2 (2 ^ 16) (base (seg X s SS)) [read_eflags X s; sel (seg X s CS); next] (esp X s) m (mem X s') /\
    esp X s' = new_esp (2 ^ 16) (esp X s) (esp X s - 6) /\ eip X s' = e mod 2 ^ 16 /\
    sel (seg X s' CS) = e / 2 ^ 16 /\ base (seg X s' CS) = e / 2 ^ 16 * 16 /\ (forall r, r <> CS -> seg X s' r = seg X s r) /\
    (forall i, 0 <= i < 32 -> Z.testbit (ef X s') i = Z.testbit (ef X s) i && negb (existsb (Z.eqb i) [8; 9; 16; 18])).

Lemma failed X n k next s s' : clean X s -> taken X k s ->
  deliver X (swint_idx k) false (swint_regs X k next s) = Exc X _ s' \/ deliver X (swint_idx k) false (swint_regs X k next s) = PFault X _ s' ->
  exists mm i c a, faults X n (exec_int X (S n) k next s) s next a i c mm /\ (i = 10 \/ i = 11 \/ i = 13 \/ i = 14).
Proof.
  intros C T D. pose proof (C23_failed_attempt X (swint_idx k) false _ s' D) as (m & c & i & a & E & Hi).
  exists m, i, c, a. split; [| exact Hi]. rewrite (exec_taken _ _ _ _ _ C T). cbn [raise]. rewrite soft_start.
  unfold faults. destruct D as [-> | ->]; rewrite E; reflexivity.
Qed.

Theorem C76_real : forall X n k v next s, clean X s -> taken X k s -> vector k v -> protected X s = false -> 0 <= esp X s < 2 ^ 32 ->
  (exists s', exec_int X (S n) k next s = Delivered X s' /\ real_entered X s v next s') \/
  (exists mm i c a, faults X n (exec_int X (S n) k next s) s next a i c mm /\ (i = 10 \/ i = 11 \/ i = 13 \/ i = 14)).
Proof.
  intros X n k v next s C T V P E.
  destruct (deliver X (swint_idx k) false (swint_regs X k next s)) as [u s' | s' | s' |] eqn:D.
  - left. exists s'. split. { rewrite (exec_taken _ _ _ _ _ C T). cbn [raise]. now rewrite soft_start, D. }
    destruct (C24_real X (swint_idx k) false (swint_regs X k next s) u s' E P D) as (m & e & H). exists m, e.
    change (xidx X (swint_regs X k next s)) with (swint_vec k) in H. rewrite (vec_unique k v V) in H. exact H.
  - right. eapply failed; eauto.
  - right. eapply failed; eauto.
  - exfalso. unfold deliver in D. cbv zeta in D. rewrite pe_eq in D. change (protected X (swint_regs X k next s)) with (protected X s) in D. rewrite P in D.
    destruct (_ <? _); [discriminate |]. revert D. unfold bind at 1. pose proof (memonly_read X 4 0 (idtb X (swint_regs X k next s) + xidx X (swint_regs X k next s) * 4) (swint_regs X k next s)) as M.
    destruct (mread _ _ _ _ _) as [e s1 | s1 | s1 |]; try discriminate; [| destruct M].
    unfold bind at 1. match goal with |- context [ipushes X ?a ?b ?c ?d ?f ?g ?h] => pose proof (memonly_ipushes X a b c d f g h) as M2; destruct (ipushes X a b c d f g h) as [? ? | ? | ? |] end; try discriminate.
    destruct M2.
Qed.
Print Assumptions C76_real.
Theorem C76_real_refused : forall X n k v next s, clean X s -> taken X k s -> vector k v -> protected X s = false ->
  idtl X s < v * 4 + 3 -> exists c, faults X n (exec_int X (S n) k next s) s next 0 13 c (mem X s).
Proof.
  intros X n k v next s C T V P L. rewrite (exec_taken _ _ _ _ _ C T). cbn [raise]. rewrite soft_start. unfold deliver. cbv zeta.
  rewrite pe_eq. change (protected X (swint_regs X k next s)) with (protected X s). rewrite P.
  change (xidx X (swint_regs X k next s)) with (swint_vec k). rewrite (vec_unique k v V). change (idtl X (swint_regs X k next s)) with (idtl X s).
  destruct (Z.ltb_spec (idtl X s) (v * 4 + 3)); [| lia]. exists (v * 8 + 2). unfold faults. cbn [raise_exp]. unfold raise_exp.
  reflexivity.
Qed.
Print Assumptions C76_real_refused.

(** Virtual 8086 mode without extensions: INT n needs IOPL 3. *)
Theorem C76_vm86 : forall X n i next s, clean X s -> protected X s = true -> vm X s = true -> vme X s = false -> iopl X s <> 3 ->
  faults X n (exec_int X (S n) (IntN i) next s) s next 0 13 0 (mem X s).
Proof.
  intros X n i next s C P V E I. rewrite (exec_taken X (S n) (IntN i) next s C Logic.I). cbn [raise]. rewrite soft_start. unfold deliver. cbv zeta.
  rewrite pe_eq, gp_test. change (protected X (swint_regs X (IntN i) next s)) with (protected X s). rewrite P.
  unfold vm86_intn. change (vm X (swint_regs X (IntN i) next s)) with (vm X s). change (vme X (swint_regs X (IntN i) next s)) with (vme X s).
  change (iopl X (swint_regs X (IntN i) next s)) with (iopl X s). rewrite V, E. cbn [andb negb].
  assert (B : 0 <= iopl X s < 4) by (apply Z.mod_pos_bound; lia). destruct (Z.ltb_spec (iopl X s) 3); [| lia]. reflexivity.
Qed.
Print Assumptions C76_vm86.

(** *** The interrupt redirection of virtual 8086 mode extensions *)

(** the bit for vector [v] in the 32 bytes below the I/O permission bitmap *)
Definition redirect_bit (X : memsys) (s : st X) (v : Z) (m : M X) (b : bool) : Prop :=
  exists m1 off byte, rd X (ring X s) 0 2 ((base (seg X s TR) + 102) mod 2 ^ 32) (mem X s) = (m1, MVal off) /\
    rd X (ring X s) 0 1 ((base (seg X s TR) + off - 32 + v / 8) mod 2 ^ 32) m1 = (m, MVal byte) /\ b = Z.testbit byte (v mod 8).
(** the flags word that is saved: with IOPL below 3, VIF instead of IF, and IOPL 3 *)
Definition vme_image (X : memsys) (s : st X) (img : Z) : Prop :=
  forall i, 0 <= i < 16 -> Z.testbit img i =
    if iopl X s =? 3 then Z.testbit (read_eflags X s) i
    else if i =? 9 then Z.testbit (read_eflags X s) 19
    else if (i =? 12) || (i =? 13) then true else Z.testbit (read_eflags X s) i.


Definition redirected (X : memsys) (s : st X) (v next : Z) (m : M X) (s' : st X) : Prop :=
  exists m1 img e, let w := stack_width (Z.testbit (hfl X s) 3) in
    vme_image X s img /\ pushed X (ring X s) 0 2 w (base (seg X s SS)) [img; sel (seg X s CS); next] (esp X s) m m1 /\
    rd X (ring X s) 0 4 (v * 4) m1 = (mem X s', MVal e) /\
    esp X s' = new_esp w (esp X s) (esp X s - 6) /\ eip X s' = e mod 2 ^ 16 /\
    sel (seg X s' CS) = e / 2 ^ 16 /\ base (seg X s' CS) = e / 2 ^ 16 * 16 /\ (forall r, r <> CS -> seg X s' r = seg X s r) /\
    ring X s' = ring X s /\
    (forall i, 0 <= i < 32 -> i <> 19 -> Z.testbit (ef X s') i =
       if i =? 8 then false else if i =? 9 then Z.testbit (ef X s) i && negb (iopl X s =? 3) else Z.testbit (ef X s) i).

Lemma low16_or a b i : 0 <= i < 16 -> Z.testbit (((a .& VIF_MASK) >> 10) .| (b .& not32 (IF_MASK .| IOPL_MASK)) .| IOPL_MASK) i =
  (if i =? 9 then Z.testbit a 19 else if (i =? 12) || (i =? 13) then true else Z.testbit b i).
Proof.
  intros Hi. rewrite !Z.lor_spec, Z.shiftr_spec, !Z.land_spec by lia. unfold not32.
  change 0xFFFFFFFF with (Z.ones 32). rewrite Z.ldiff_spec, Z.ones_spec_low by lia. change VIF_MASK with (2 ^ 19).
  change (IF_MASK .| IOPL_MASK) with ((2 ^ 12 .| 2 ^ 13) .| 2 ^ 9). change IOPL_MASK with (2 ^ 12 .| 2 ^ 13).
  rewrite !Z.lor_spec, !Z.pow2_bits_eqb by lia. cbn [andb].
  destruct (Z.eqb_spec i 9); [subst i; cbn; now rewrite andb_true_r, andb_false_r, !orb_false_r |].
  destruct (Z.eqb_spec i 12); [subst i; cbn; now rewrite !orb_true_r |]. destruct (Z.eqb_spec i 13); [subst i; cbn; now rewrite !orb_true_r |].
  cbn [orb]. destruct (Z.eqb_spec 19 (i + 10)); [lia |]. destruct (Z.eqb_spec 9 i); [lia |]. destruct (Z.eqb_spec 12 i); [lia |]. destruct (Z.eqb_spec 13 i); [lia |].
  cbn [orb negb]. now rewrite andb_false_r, andb_true_r, orb_false_r.
Qed.

(** INT n in virtual 8086 mode with CR4.VME set, redirection bit clear: the handler in
    the 8086 table is entered without leaving the task.  Missing: VIF afterwards, see
    the refutation below. *)
Theorem C76_redirect_partial : forall X n i v next s m, clean X s -> vector (IntN i) v -> protected X s = true -> vm X s = true -> vme X s = true ->
  0 <= esp X s < 2 ^ 32 -> redirect_bit X s v m false ->
  (exists s', exec_int X (S n) (IntN i) next s = Delivered X s' /\ redirected X s v next m s') \/
  (exists mm c a, faults X n (exec_int X (S n) (IntN i) next s) s next a 14 c mm).
Proof.
  intros X n i v next s m C V P VM VE HE (m1 & off & byte & R1 & R2 & B). rewrite (exec_taken X (S n) (IntN i) next s C Logic.I). cbn [raise]. rewrite soft_start.
  set (s0 := swint_regs X (IntN i) next s).
  assert (D : deliver X (swint_idx (IntN i)) false s0 = deliver_vme X v 0 (read_eflags X s) (iopl X s) (set_mem X m s0)).
  { unfold deliver. cbv zeta. rewrite pe_eq, gp_test, red_test. change (protected X s0) with (protected X s). rewrite P.
    unfold vm86_intn. change (vm X s0) with (vm X s). change (vme X s0) with (vme X s). rewrite VM, VE. cbn [andb negb].
    assert (E1 : mread X 2 0 (base (seg X s0 TR) + 102) s0 = Ok X _ off (set_mem X m1 s0)).
    { unfold mread. rewrite cpl_mod. unfold w32. change (ring X s0) with (ring X s). change (mem X s0) with (mem X s). change (seg X s0) with (seg X s). now rewrite R1. }
    rewrite (bind_step _ _ _ _ _ _ E1). change (xidx X s0) with (swint_vec (IntN i)). rewrite (vec_unique _ _ V).
    assert (E2 : mread X 1 0 (base (seg X s0 TR) + off - 32 + v / 8) (set_mem X m1 s0) = Ok X _ byte (set_mem X m s0)).
    { unfold mread. rewrite cpl_mod. unfold w32. change (ring X (set_mem X m1 s0)) with (ring X s). change (mem X (set_mem X m1 s0)) with m1. change (seg X s0) with (seg X s). now rewrite R2. }
    rewrite (bind_step _ _ _ _ _ _ E2). assert (V8 : 0 <= v mod 8) by (apply Z.mod_pos_bound; lia).
    rewrite z_fld, <- B by exact V8. cbn [negb]. rewrite iopl_eq. reflexivity. }
  assert (G : match deliver_vme X v 0 (read_eflags X s) (iopl X s) (set_mem X m s0) with
              | Ok _ _ _ s' => redirected X s v next m s'
              | PFault _ _ s' => exists mm c a, s' = pf_st X mm c a s0
              | _ => False
              end);
  [| rewrite D; destruct (deliver_vme X v 0 (read_eflags X s) (iopl X s) (set_mem X m s0)) as [u s' | s' | s' |];
     [left; exists s'; split; [reflexivity | exact G] | destruct G | | destruct G];
     destruct G as (mm & c & a & ->); right; exists mm, c, a; reflexivity].
  clear D. unfold deliver_vme. rewrite (bind_step X (get X) _ (set_mem X m s0) (set_mem X m s0) (set_mem X m s0) eq_refl). cbv zeta.
  set (img := if iopl X s <? 3 then _ else _).
  assert (IMG : vme_image X s img).
  { intros j Hj. unfold img. assert (IB : 0 <= iopl X s < 4) by (apply Z.mod_pos_bound; lia).
    destruct (Z.ltb_spec (iopl X s) 3), (Z.eqb_spec (iopl X s) 3); try (exfalso; lia); [now apply low16_or | reflexivity]. }
  change (hfl X (set_mem X m s0)) with (hfl X s). change HFLG_SS32 with (1 << 3). rewrite !nz_fld by lia.
  change (if Z.testbit (hfl X s) 3 then 4294967295 else 65535) with (mask_of (Z.testbit (hfl X s) 3)).
  set (big := Z.testbit (hfl X s) 3) in *.
  unfold bind at 1. change (seg X (set_mem X m s0)) with (seg X s). change (esp X (set_mem X m s0)) with (esp X s). change (eip X (set_mem X m s0)) with next.
  pose proof (memonly_ipushes X 2 0 (mask_of big) (base (seg X s SS)) [img; sel (seg X s CS); next] (esp X s) (set_mem X m s0)) as MP.
  pose proof (fails_ipushes X 2 0 (mask_of big) (base (seg X s SS)) [img; sel (seg X s CS); next] (esp X s) (set_mem X m s0)) as FP.
  destruct (ipushes X 2 0 (mask_of big) _ _ _ _) as [e s1 | s1 | s1 |] eqn:IP; [| | | exact MP].
  - destruct (pushes_inv X 2 0 big _ _ (esp X s) (esp X s) _ _ _ eq_refl IP) as (m2 & -> & PS & EE). clear MP FP.
    unfold bind at 1. pose proof (memonly_read X 4 0 (v * 4) (set_mem X m2 (set_mem X m s0))) as MR. pose proof (fails_read X 4 0 (v * 4) (set_mem X m2 (set_mem X m s0))) as FR.
    destruct (mread X 4 0 _ _) as [ve s2 | s2 | s2 |] eqn:RV; [| | | exact MR].
    + destruct (read_inv _ _ _ _ _ _ _ RV) as (m3 & -> & RD & VR). unfold upd.
      destruct V as [V0 V1]. rewrite Z.mod_small in RD by lia.
      exists m2, img, ve. cbv zeta. split; [exact IMG |]. split; [exact PS |].
      change (v >> 16) with (Z.shiftr v 16).
      rewrite fin_mem, fin_esp, fin_eip, fin_seg, fin_ring, fin_ef. cbn [mem set_mem set_ef set_eip put_seg set_seg set_esp eip esp seg ef sr_eqb]. unfold put_seg; cbn [mem set_mem set_ef set_eip set_seg set_esp eip esp seg ef sr_eqb sel base].
      split; [exact RD |]. split; [apply esp_eq; [exact HE | exact EE] |].
      split. { change 65535 with (Z.ones 16). now rewrite Z.land_ones by lia. }
      split; [now rewrite Z.shiftr_div_pow2 by lia |]. split; [now rewrite Z.shiftr_div_pow2, Z.shiftl_mul_pow2 by lia |].
      split; [intros r Hr; destruct r; try reflexivity; contradiction |]. split; [reflexivity |].
      intros j Hj H19. change (ef X s0) with (ef X s). rewrite Z.land_spec. unfold not32. change 4294967295 with (Z.ones 32). rewrite Z.ldiff_spec, Z.ones_spec_low by lia.
      cbn [andb]. destruct (Z.eqb_spec (iopl X s) 3).
      * change (TF_MASK .| (IF_MASK .| VIF_MASK)) with (2 ^ 8 .| (2 ^ 9 .| 2 ^ 19)). rewrite !Z.lor_spec, !Z.pow2_bits_eqb by lia.
        destruct (Z.eqb_spec j 8); [subst j; cbn; apply andb_false_r |]. destruct (Z.eqb_spec j 9); [subst j; cbn; reflexivity |].
        destruct (Z.eqb_spec 8 j); [lia |]. destruct (Z.eqb_spec 9 j); [lia |]. destruct (Z.eqb_spec 19 j); [lia |]. cbn. apply andb_true_r.
      * change TF_MASK with (2 ^ 8). rewrite !Z.pow2_bits_eqb by lia. destruct (Z.eqb_spec j 8); [subst j; cbn; apply andb_false_r |].
        destruct (Z.eqb_spec 8 j); [lia |]. cbn [negb]. rewrite !andb_true_r. now destruct (Z.eqb_spec j 9).
    + unfold mread in RV. destruct (rd X _ _ _ _ _) as [? [? | ? ?]] in RV; discriminate RV.
    + destruct FR as (mm & c & a & ->). exists mm, c, a. reflexivity.
  - destruct FP as (mm & c & a & -> & _). clear - IP. revert IP. cbn [ipushes]. unfold ipush, mwrite, bind, ret. cbv zeta.
    repeat (match goal with |- context [wr X ?a ?b ?c ?d ?e ?f] => destruct (wr X a b c d e f) as [? [[? ?] |]] end; try (intros Q; discriminate Q)).
  - destruct FP as (mm & c & a & ->). exists mm, c, a. reflexivity.
Qed.
Print Assumptions C76_redirect_partial.

(** Redirection bit set: as without extensions, IOPL 3 is needed, and then the handler
    is that of the protected mode table. *)
Theorem C76_not_redirected : forall X n i v next s m, clean X s -> vector (IntN i) v -> protected X s = true -> vm X s = true -> vme X s = true ->
  0 <= esp X s < 2 ^ 32 -> redirect_bit X s v m true ->
  if iopl X s =? 3 then
    (exists s', exec_int X (S n) (IntN i) next s = Delivered X s' /\
       entered X (set_mem X m (set_eip X next s)) true [] v 0 (read_eflags X s) s') \/
    (exists mm i' c a, faults X n (exec_int X (S n) (IntN i) next s) s next a i' c mm /\ (i' = 10 \/ i' = 11 \/ i' = 13 \/ i' = 14)) \/
    exec_int X (S n) (IntN i) next s = Aborted X
  else faults X n (exec_int X (S n) (IntN i) next s) s next 0 13 0 m.
Proof.
  intros X n i v next s m C V P VM VE HE (m1 & off & byte & R1 & R2 & B).
  pose proof (fun s' => failed X n (IntN i) next s s' C Logic.I) as FA.
  rewrite (exec_taken X (S n) (IntN i) next s C Logic.I) in *. cbn [raise] in *. rewrite soft_start in *.
  set (s0 := swint_regs X (IntN i) next s) in *.
  assert (D : deliver X (swint_idx (IntN i)) false s0 = if iopl X s =? 3 then deliver_pe X 2 false 0 v 0 (read_eflags X s) (set_mem X m s0)
                                                        else raise_exp X 0 EXP_GP (set_mem X m s0)).
  { unfold deliver. cbv zeta. rewrite pe_eq, gp_test, red_test. change (protected X s0) with (protected X s). rewrite P.
    unfold vm86_intn. change (vm X s0) with (vm X s). change (vme X s0) with (vme X s). rewrite VM, VE. cbn [andb negb].
    assert (E1 : mread X 2 0 (base (seg X s0 TR) + 102) s0 = Ok X _ off (set_mem X m1 s0)).
    { unfold mread. rewrite cpl_mod. unfold w32. change (ring X s0) with (ring X s). change (mem X s0) with (mem X s). change (seg X s0) with (seg X s). now rewrite R1. }
    rewrite (bind_step _ _ _ _ _ _ E1). change (xidx X s0) with (swint_vec (IntN i)). rewrite (vec_unique _ _ V).
    assert (E2 : mread X 1 0 (base (seg X s0 TR) + off - 32 + v / 8) (set_mem X m1 s0) = Ok X _ byte (set_mem X m s0)).
    { unfold mread. rewrite cpl_mod. unfold w32. change (ring X (set_mem X m1 s0)) with (ring X s). change (mem X (set_mem X m1 s0)) with m1. change (seg X s0) with (seg X s). now rewrite R2. }
    rewrite (bind_step _ _ _ _ _ _ E2). assert (V8 : 0 <= v mod 8) by (apply Z.mod_pos_bound; lia).
    rewrite z_fld, <- B by exact V8. cbn [negb]. rewrite iopl_eq. change (iopl X s0) with (iopl X s). destruct (iopl X s =? 3); reflexivity. }
  destruct (iopl X s =? 3).
  - destruct (deliver X (swint_idx (IntN i)) false s0) as [u s' | s' | s' |] eqn:DD.
    + left. exists s'. split; [reflexivity |]. symmetry in D. exact (deliver_pe_sum X 2 false 0 v 0 (read_eflags X s) (set_mem X m s0) s' u HE D).
    + right; left. apply (FA s'). now left.
    + right; left. apply (FA s'). now right.
    + right; right. reflexivity.
  - rewrite D. reflexivity.
Qed.
Print Assumptions C76_not_redirected.

(** *** Where the code differs *)
Definition result (d : delivered flat) : option (st flat) := match d with Delivered _ s => Some s | _ => None end.
Lemma result_inv d p : match result d with Some s => p s | None => false end = true -> exists s, d = Delivered flat s /\ p s = true.
Proof. destruct d as [s | | |]; try discriminate. intros H. now exists s. Qed.

(** A fault must save the address of the instruction that caused it.  An INT 13 at
    0x100 in ring 3 is refused by its gate (DPL 0) with #GP(13*8+2), but the handler of
    #GP finds 0x102, the address of the next instruction, on its stack: an operating
    system that skips or restarts the instruction goes wrong. *)
Theorem C76_refuted_fault_eip : exists s s' g, clean flat s /\ ring flat s = 3 /\ eip flat s = 0x100 /\
  idt_gate flat s 13 (mem flat s) g /\ dpl_of g < ring flat s /\
  exec_int flat 5 (IntN 13) 0x102 s = Delivered flat s' /\ eip flat s' = gate_off32 g /\ ring flat s' = 0 /\
  le 4 (esp flat s') (mem flat s') = 13 * 8 + 2 /\ le 4 (esp flat s' + 4) (mem flat s') = 0x102.
Proof.
  set (s := machine 3 2 m1). set (p := fun s' : st flat => (eip flat s' =? 0x123456) && (ring flat s' =? 0) && (le 4 (esp flat s') (mem flat s') =? 13 * 8 + 2)
     && (le 4 (esp flat s' + 4) (mem flat s') =? 0x102)).
  destruct (result_inv (exec_int flat 5 (IntN 13) 0x102 s) p) as (s' & E & Q); [vm_compute; reflexivity |].
  unfold p in Q. apply andb_true_iff in Q as [Q Q4]. apply andb_true_iff in Q as [Q Q3]. apply andb_true_iff in Q as [Q1 Q2].
  apply Z.eqb_eq in Q1, Q2, Q3, Q4. exists s, s', 0x00128E0000083456.
  split; [reflexivity |]. split; [reflexivity |]. split; [reflexivity |]. split; [apply flat_gate; vm_compute; reflexivity |].
  split; [vm_compute; reflexivity |]. split; [exact E |]. split; [exact Q1 |]. split; [exact Q2 |]. split; [exact Q3 | exact Q4].
Qed.
Print Assumptions C76_refuted_fault_eip.

(** CR2 changes on page faults only.  INT 14 clears it. *)
Theorem C76_refuted_cr2 : exists s s', clean flat s /\ cr2 flat s = 0x1234 /\ exec_int flat 5 (IntN 14) 0x102 s = Delivered flat s' /\
  eip flat s' = 0x123456 /\ cr2 flat s' = 0.
Proof.
  set (s := set_cr2 flat 0x1234 (machine 0 2 m1)). set (p := fun s' : st flat => (eip flat s' =? 0x123456) && (cr2 flat s' =? 0)).
  destruct (result_inv (exec_int flat 5 (IntN 14) 0x102 s) p) as (s' & E & Q); [vm_compute; reflexivity |].
  unfold p in Q. apply andb_true_iff in Q as [Q1 Q2]. apply Z.eqb_eq in Q1, Q2. exists s, s'.
  split; [reflexivity |]. split; [reflexivity |]. split; [exact E |]. split; [exact Q1 | exact Q2].
Qed.
Print Assumptions C76_refuted_cr2.

(** A redirected INT n with IOPL below 3 must clear VIF, so that the handler runs with
    virtual interrupts off; VIF stays set. *)
Definition in_vme (s : st flat) : st flat := set_hfl flat (hfl flat s .| HFLG_CR4_VME) s.
Lemma vme_bit s v b : le 2 ((base (seg flat s TR) + 102) mod 2 ^ 32) (mem flat s) = 0 ->
  Z.testbit (le 1 ((base (seg flat s TR) + 0 - 32 + v / 8) mod 2 ^ 32) (mem flat s) mod 2 ^ 8) (v mod 8) = b -> redirect_bit flat s v (mem flat s) b.
Proof.
  intros A B. exists (mem flat s), 0, (le 1 ((base (seg flat s TR) + 0 - 32 + v / 8) mod 2 ^ 32) (mem flat s) mod 2 ^ 8).
  cbn [rd flat]. unfold flat_rd. change (Z.to_nat 2) with 2%nat. change (Z.to_nat 1) with 1%nat. rewrite A. split; [reflexivity |]. split; [reflexivity | now symmetry].
Qed.
Theorem C76_refuted_vif : exists s s', clean flat s /\ protected flat s = true /\ vm flat s = true /\ vme flat s = true /\ iopl flat s = 0 /\
  redirect_bit flat s 33 (mem flat s) false /\ Z.testbit (ef flat s) 19 = true /\
  exec_int flat 5 (IntN 33) 0x102 s = Delivered flat s' /\ vm flat s' = true /\ Z.testbit (ef flat s') 19 = true.
Proof.
  set (s := in_vme (machine 3 0xA0002 m1)). set (p := fun s' : st flat => vm flat s' && Z.testbit (ef flat s') 19).
  destruct (result_inv (exec_int flat 5 (IntN 33) 0x102 s) p) as (s' & E & Q); [vm_compute; reflexivity |].
  unfold p in Q. apply andb_true_iff in Q as [Q1 Q2]. exists s, s'.
  split; [reflexivity |]. split; [reflexivity |]. split; [reflexivity |]. split; [reflexivity |]. split; [reflexivity |].
  split; [apply vme_bit; vm_compute; reflexivity |]. split; [reflexivity |]. split; [exact E |]. split; [exact Q1 | exact Q2].
Qed.
Print Assumptions C76_refuted_vif.

(** the cases of the theorems *)
Definition reaches (k : swint) (next : Z) (s : st flat) (p : st flat -> bool) : bool :=
  match result (exec_int flat 5 k next s) with Some s' => p s' | None => false end.
Example C76_hyp :
  (clean flat (machine 3 2 m1) /\ vector (IntN 0x120) 32 /\ protected flat (machine 3 2 m1) = true /\ vm86_intn flat (IntN 32) (machine 3 2 m1) = false) /\
  reaches (IntN 32) 0x102 (machine 3 2 m1) (fun s => (ring flat s =? 0) && (le 4 (esp flat s) (mem flat s) =? 0x102)) = true /\
  reaches Int3 0x101 (in_real (machine 0 2 (qwords 0x2008 [0x0000000012345678] (qwords 0x2008 [0x1234567800000000] m0))))
     (fun s => (eip flat s =? 0) && (esp flat s =? 0x6FFA)) = true /\
  overflow flat (machine 0 2 m1) = false /\ overflow flat (set_laux flat 0x40000000 (machine 0 2 m1)) = true /\
  (iopl flat (in_vme (machine 3 0x23002 m1)) = 3 /\ (let s := in_vme (machine 3 0x23002 (put_le 1 (0x3000 - 32 + 4) 1 m1)) in redirect_bit flat s 32 (mem flat s) true)) /\
  reaches (IntN 32) 0x102 (in_vme (machine 3 0x23002 (put_le 1 (0x3000 - 32 + 4) 1 m1))) (fun s => (ring flat s =? 0) && negb (vm flat s)) = true.
Proof.
  split. { split; [reflexivity |]. split; [split; [lia |]; now exists 1 |]. split; reflexivity. }
  split; [vm_compute; reflexivity |]. split; [vm_compute; reflexivity |]. split; [vm_compute; reflexivity |]. split; [vm_compute; reflexivity |].
  split; [split; [vm_compute; reflexivity |]; intros s; apply vme_bit; vm_compute; reflexivity |]. vm_compute; reflexivity.
Qed.
