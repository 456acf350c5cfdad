(** * Properties of exception and interrupt delivery *)

From Coq Require Import ZArith Bool List Lia ZifyBool.
From Verif Require Import SegModel SegSpec SegBits SegProofs SegFar SegRet SegCall SegProps ExcSpec ExcProofs ExcEsc ExcDel.
Import ListNotations.
Local Open Scope Z_scope.

(** ** The machine of SegProps.v with an IDT

    Vector 13 is a 32-bit interrupt gate, 14 a 32-bit trap gate, 6 a 16-bit interrupt
    gate whose reserved upper offset half is not zero, 7 a gate to a data segment; all
    to ring 0. *)
Definition idt : list Z :=
  [0; 0; 0; 0; 0; 0; 0x5555860000081234; 0x00008E0000101234; 0; 0; 0; 0; 0; 0x00128E0000083456; 0x00128F0000083456; 0; 0; 0;
   0; 0; 0; 0; 0; 0; 0; 0; 0; 0; 0; 0; 0; 0; 0x0012EE0000083456].
Definition m1 : Z -> Z := qwords 0x2000 idt m0.
Definition raising (v c : Z) (s : st flat) : st flat := set_xidx flat v (set_xcode flat c s).

Lemma flat_gate s v g : (v * 8 + 7 <=? idtl flat s) = true -> le 8 ((idtb flat s + v * 8) mod 2 ^ 32) (mem flat s) mod 2 ^ 64 = g ->
  idt_gate flat s v (mem flat s) g.
Proof. intros H <-. split; [lia | reflexivity]. Qed.

(** ** C23: nested exceptions *)

(** What happens to an exception raised while another one is being delivered is the
    table of the architecture. *)
Theorem C23_table : forall X s,
  match escalate (class_of (oldexp X s)) (class_of (xidx X s)), start X 0 false s with
  | Serially, Some s' => s' = (match class_of (xidx X s) with Benign => s | _ => set_oldexp X (xidx X s) s end)
  | AsDoubleFault, Some s' => s' = set_oldexp X 8 (set_xidx X 8 (set_xcode X 0 s))
  | Shutdown, None => True
  | _, _ => False
  end.
Proof. exact check_table. Qed.
Print Assumptions C23_table.

(** Delivery always ends, after at most five attempts, whatever memory and the
    descriptor tables contain. *)
Theorem C23_terminates : forall X intn hw s n, (5 <= n)%nat ->
  raise X n intn hw s <> OutOfFuel X /\ raise X n intn hw s = raise X 5 intn hw s.
Proof.
  intros X intn hw s n H. split; [now apply raise_ends |].
  replace n with ((n - 5) + 5)%nat by lia. apply raise_more. apply raise_ends. lia.
Qed.
Print Assumptions C23_terminates.

(** The machine shuts down only because the delivery of a double fault failed. *)
Theorem C23_shutdown : forall X n intn hw s, oldexp X s <> 8 -> raise X n intn hw s = TripleFault X ->
  exists sd s', xidx X sd = 8 /\ (deliver X 0 false sd = Exc X _ s' \/ deliver X 0 false sd = PFault X _ s').
Proof.
  intros X n intn hw s H T. destruct (shutdown X n intn hw s T) as [[E _] | [[E _] | (sd & E & [[s' F] | [s' F]])]]; try contradiction;
  exists sd, s'; auto.
Qed.
Print Assumptions C23_shutdown.

(** A delivery attempt that fails leaves every register as it was; it reports #TS, #NP,
    #GP or #PF. *)
Theorem C23_failed_attempt : forall X intn hw s s',
  deliver X intn hw s = Exc X _ s' \/ deliver X intn hw s = PFault X _ s' ->
  exists m c i a, s' = set_xaddr X a (set_xcode X c (set_xidx X i (set_mem X m s))) /\ (i = 10 \/ i = 11 \/ i = 13 \/ i = 14).
Proof.
  intros X intn hw s s' H. pose proof (deliver_fails X intn hw s) as F. destruct H as [H | H]; rewrite H in F; cbn in F.
  - destruct F as (m & c & i & -> & Hi). exists m, c, i, (xaddr X s). split; [now destruct s |]. intuition.
  - destruct F as (m & c & a & ->). exists m, c, 14, a. auto.
Qed.
Print Assumptions C23_failed_attempt.

(** A completed delivery forgets the exceptions before it. *)
Theorem C23_fresh : forall X n intn hw s s', raise X n intn hw s = Delivered X s' -> oldexp X s' = EXP_INVALID.
Proof.
  intros X. assert (D : forall intn hw s u s', deliver X intn hw s = Ok X _ u s' -> oldexp X s' = EXP_INVALID).
  { intros intn hw s u s' H. assert (P : forall c i a o t u t', deliver_pe X intn hw c i a o t = Ok X _ u t' -> oldexp X t' = EXP_INVALID).
    { intros c i a o t v t' E. unfold deliver_pe in E. unfold bind at 1, get at 1 in E. cbv zeta in E.
      repeat match type of E with
      | (if ?b then _ else _) _ = Ok _ _ _ _ => destruct b; try discriminate
      | bind _ (upd _ _) _ _ = _ => fail
      | bind _ _ _ _ = Ok _ _ _ _ => apply bind_ok in E as (? & ? & _ & E)
      | (let '(_, _) := ?p in _) _ = _ => destruct p
      | upd _ _ _ = Ok _ _ _ _ => apply upd_inv in E; subst t'
      | raise_exp _ _ _ _ = _ => discriminate
      | abort _ _ = _ => discriminate
      end; cbv zeta; apply fin_old. }
    unfold deliver in H. cbv zeta in H. destruct (nz (hfl X s .& HFLG_PE_MODE)).
    - destruct (_ && _ && _); [discriminate |]. destruct (_ && _); [| now apply P in H].
      apply bind_ok in H as (? & ? & _ & H). apply bind_ok in H as (? & ? & _ & H). destruct (_ =? 0).
      + unfold deliver_vme in H. unfold bind at 1, get at 1 in H. cbv zeta in H.
        apply bind_ok in H as (? & ? & _ & H). apply bind_ok in H as (? & ? & _ & H). apply upd_inv in H. subst s'. apply fin_old.
      + destruct (negb _); [discriminate |]. now apply P in H.
    - destruct (_ <? _); [discriminate |]. apply bind_ok in H as (? & ? & _ & H). apply bind_ok in H as (? & ? & _ & H).
      apply upd_inv in H. subst s'. destruct (_ =? EXP_DB); reflexivity. }
  induction n as [| n IH]; intros intn hw s s' H; [discriminate |]. cbn [raise] in H.
  destruct (start X intn hw s) as [s1 |]; [| discriminate].
  destruct (deliver X intn hw s1) as [u s2 | s2 | s2 |] eqn:E; try discriminate; [| eapply IH; eauto | eapply IH; eauto].
  injection H as <-. eapply D; eauto.
Qed.
Print Assumptions C23_fresh.

(** #UD is delivered; with an empty IDT it becomes #GP, then #DF, then shutdown; a #GP
    whose gate is fine is delivered after a #UD whose gate is not. *)
Definition entered_at (d : delivered flat) : option (Z * Z) := match d with Delivered _ s => Some (eip flat s, esp flat s) | _ => None end.
Definition shut_down (d : delivered flat) : bool := match d with TripleFault _ => true | _ => false end.
Example C23_example :
  let s := raising 6 0 (machine 0 2 m1) in
  entered_at (raise flat 5 0 false s) = Some (0x55551234, 0x6FFA) /\
  shut_down (raise flat 5 0 false (set_idtl flat 0 s)) = true /\ (oldexp flat s =? 8) = false /\
  entered_at (raise flat 5 0 false (raising 3 0 (machine 0 2 m1))) = Some (0x123456, 0x6FF0).
Proof. vm_compute. repeat split. Qed.

(** ** C24: entering a handler *)

(** In protected mode, a completed delivery went through a present gate of the right
    type to a present segment of no lower privilege, and the saved state, the new
    stack, the flags and the new CS:EIP are as described by [entered].  INT n in
    virtual 8086 mode with CR4.VME set (which may use the 8086 table) is left out. *)
Theorem C24_entry_partial : forall X intn hw s u s', 0 <= esp X s < 2 ^ 32 -> Z.testbit (hfl X s) 4 = true ->
  (vm X s = false \/ intn <> 2 \/ Z.testbit (hfl X s) 19 = false) ->
  deliver X intn hw s = Ok X _ u s' ->
  entered X s (negb (intn =? 0)) (codes intn hw (xcode X s) (xidx X s)) (xidx X s) (xaddr X s) (read_eflags X s) s'.
Proof.
  intros X intn hw s u s' E P V H. unfold deliver in H. cbv zeta in H.
  change HFLG_PE_MODE with (1 << 4) in H. rewrite nz_fld, P in H by lia.
  destruct (_ && _ && _); [discriminate |].
  destruct ((intn =? 2) && ((ef X s .& VM_MASK) .| (hfl X s .& HFLG_CR4_VME) =? VM_MASK .| HFLG_CR4_VME)) eqn:Q.
  - exfalso. apply andb_true_iff in Q as [Q1 Q2]. apply Z.eqb_eq in Q1, Q2.
    assert (B17 := f_equal (fun x => Z.testbit x 17) Q2). assert (B19 := f_equal (fun x => Z.testbit x 19) Q2). cbv beta in B17, B19.
    rewrite Z.lor_spec, !Z.land_spec in B17, B19. change (Z.testbit VM_MASK 17) with true in B17. change (Z.testbit HFLG_CR4_VME 17) with false in B17.
    change (Z.testbit VM_MASK 19) with false in B19. change (Z.testbit HFLG_CR4_VME 19) with true in B19.
    change (Z.testbit (VM_MASK .| HFLG_CR4_VME) 17) with true in B17. change (Z.testbit (VM_MASK .| HFLG_CR4_VME) 19) with true in B19.
    rewrite andb_false_r, ?orb_false_r, ?andb_true_r in B17, B19. cbn [orb] in B19.
    unfold vm in V. destruct (Z.testbit (ef X s) 17), (Z.testbit (hfl X s) 19); try discriminate.
    destruct V as [V | [V | V]]; [discriminate | contradiction | discriminate].
  - now apply deliver_pe_sum in H.
Qed.
Print Assumptions C24_entry_partial.

(** Real mode: the vector is read from the table, FLAGS, CS and IP are pushed as words,
    IF, TF, AC and RF are cleared, CS:IP is the vector. *)
Theorem C24_real : forall X intn hw s u s', 0 <= esp X s < 2 ^ 32 -> Z.testbit (hfl X s) 4 = false ->
  deliver X intn hw s = Ok X _ u s' ->
  exists m v, xidx X s * 4 + 3 <= idtl X s /\
    rd X (ring X s) 0 4 ((idtb X s + xidx X s * 4) mod 2 ^ 32) (mem X s) = (m, MVal v) /\
    pushed X (ring X s) 0 2 (2 ^ 16) (base (seg X s SS)) [read_eflags X s; sel (seg X s CS); eip X s] (esp X s) m (mem X s') /\
    esp X s' = new_esp (2 ^ 16) (esp X s) (esp X s - 6) /\ eip X s' = v mod 2 ^ 16 /\
    sel (seg X s' CS) = v / 2 ^ 16 /\ base (seg X s' CS) = v / 2 ^ 16 * 16 /\ (forall r, r <> CS -> seg X s' r = seg X s r) /\
    (forall i, 0 <= i < 32 -> Z.testbit (ef X s') i = Z.testbit (ef X s) i && negb (existsb (Z.eqb i) [8; 9; 16; 18])).
Proof.
  intros X intn hw s u s' E P H. unfold deliver in H. cbv zeta in H.
  change HFLG_PE_MODE with (1 << 4) in H. rewrite nz_fld, P in H by lia.
  destruct (Z.ltb_spec (idtl X s) (xidx X s * 4 + 3)) as [| IL]; [discriminate |].
  apply bind_ok in H as (v & s1 & R & H). destruct (read_inv _ _ _ _ _ _ _ R) as (m & -> & RD & VR).
  apply bind_ok in H as (e & s2 & PP & H). change 0xFFFF with (mask_of false) in PP, H at 1.
  destruct (pushes_inv _ _ _ _ _ _ _ (esp X s) _ _ _ eq_refl PP) as (m' & -> & PS & EE). apply upd_inv in H. cbv zeta in H.
  exists m, v. split; [exact IL |]. split; [exact RD |]. 
  change (v >> 16) with (Z.shiftr v 16) in H.
  assert (F : mem X s' = m' /\ esp X s' = (esp X s .& not32 0xFFFF) .| (e .& 0xFFFF) /\ eip X s' = v .& 0xFFFF /\
              seg X s' = (fun q => if sr_eqb q CS then mkseg (v >> 16) ((v >> 16) << 4) (limit (seg X s CS)) (sflags (seg X s CS)) else seg X s q) /\
              ef X s' = ef X s .& not32 (AC_MASK .| RF_MASK .| IF_MASK .| TF_MASK)).
  { subst s'. destruct (_ =? EXP_DB); repeat split. }
  clear H. destruct F as (F1 & F2 & F3 & F4 & F5). rewrite F1, F2, F3, F4, F5. cbn [sr_eqb].
  split; [exact PS |]. split. { change 0xFFFF with (mask_of false). rewrite (esp_eq false (esp X s) (esp X s - 6) e E); [reflexivity |]. exact EE. }
  split. { change 0xFFFF with (Z.ones 16). now rewrite Z.land_ones by lia. }
  split; [cbn [sel]; now rewrite Z.shiftr_div_pow2 by lia |]. split; [cbn [base]; now rewrite Z.shiftr_div_pow2, Z.shiftl_mul_pow2 by lia |].
  split; [intros r Hr; destruct r; try reflexivity; contradiction |].
  intros i Hi. rewrite Z.land_spec. f_equal. unfold not32. change 0xFFFFFFFF with (Z.ones 32). rewrite Z.ldiff_spec, Z.ones_spec_low by lia. cbn [andb].
  f_equal. change (AC_MASK .| RF_MASK .| IF_MASK .| TF_MASK) with ((2 ^ 18 .| 2 ^ 16 .| 2 ^ 9) .| 2 ^ 8).
  rewrite !Z.lor_spec, !Z.pow2_bits_eqb by lia. cbn [existsb]. lia.
Qed.
Print Assumptions C24_real.

Definition in_real (s : st flat) : st flat := set_hfl flat 0x7E00000 (set_cr0 flat 0x10 (set_idtb flat 0x2000 s)).
Example C24_example :
  Z.testbit (hfl flat (machine 3 2 m1)) 4 = true /\ vm flat (machine 3 2 m1) = false /\
  ok (deliver flat 0 false (raising 13 0x40 (machine 3 0x202 m1)))
     (fun s => (eip flat s =? 0x123456) && (esp flat s =? 0x8000 - 24) && (ring flat s =? 0) && (sel (seg flat s CS) =? 0x08)
               && (ef flat s =? 2) && (sel (seg flat s SS) =? 0x10)
               && (le 4 (0x8000 - 24) (mem flat s) =? 0x40) && (le 4 (0x8000 - 20) (mem flat s) =? 0x100)
               && (le 4 (0x8000 - 8) (mem flat s) =? 0x7000) && (le 4 (0x8000 - 4) (mem flat s) =? 0x23)) = true /\
  ok (deliver flat 2 false (raising 13 0 (machine 3 2 m1))) (fun _ => true) = false /\      (* INT 13 needs DPL 3 *)
  ok (deliver flat 2 false (raising 32 0 (machine 3 2 m1))) (fun s => esp flat s =? 0x8000 - 20) = true /\
  ok (deliver flat 0 false (raising 13 0 (machine 3 0x20202 m1)))
     (fun s => (esp flat s =? 0x8000 - 40) && (sel (seg flat s DS) =? 0) && (ef flat s =? 2)) = true /\
  ok (deliver flat 0 false (raising 0x18 0 (in_real (machine 0 2 (qwords 0x2060 [0x12345678] m0)))))
     (fun s => (eip flat s =? 0x5678) && (sel (seg flat s CS) =? 0x1234)) = true.
Proof. vm_compute. repeat split. Qed.

(** A 16-bit gate has a 16-bit offset; its upper half is reserved, but ends up in EIP. *)
Theorem C24_refuted_16bit_gate : exists s s' g u, idt_gate flat s (xidx flat s) (mem flat s) g /\ gate32 g = false /\
  gate_usable flat s false g = true /\ deliver flat 0 false s = Ok flat _ u s' /\ eip flat s' <> gate_off16 g.
Proof.
  set (s := raising 6 0 (machine 0 2 m1)).
  destruct (ok_inv (deliver flat 0 false s) (fun s => negb (eip flat s =? 0x1234)) ltac:(vm_compute; reflexivity)) as (u & s' & E & Q).
  exists s, s', 0x5555860000081234, u. split; [apply flat_gate; vm_compute; reflexivity |].
  split; [reflexivity |]. split; [vm_compute; reflexivity |]. split; [exact E |].
  change (gate_off16 0x5555860000081234) with 0x1234. lia.
Qed.
Print Assumptions C24_refuted_16bit_gate.

(** A gate to a data segment must give #GP; the data segment is loaded into CS. *)
Theorem C24_refuted_code_type : exists s s' g c u, idt_gate flat s (xidx flat s) (mem flat s) g /\
  descriptor flat s (gate_sel g) (mem flat s) c /\ is_code c = false /\
  deliver flat 0 false s = Ok flat _ u s' /\ seg flat s' CS = decode (gate_sel g) c.
Proof.
  set (s := raising 7 0 (machine 0 2 m1)).
  destruct (ok_inv (deliver flat 0 false s) (fun s => let d := decode 0x10 0x00CF92000000FFFF in let r := seg flat s CS in
     (sel r =? sel d) && (base r =? base d) && (limit r =? limit d) && (sflags r =? sflags d)) ltac:(vm_compute; reflexivity)) as (u & s' & E & Q).
  exists s, s', 0x00008E0000101234, 0x00CF92000000FFFF, u. split; [apply flat_gate; vm_compute; reflexivity |].
  split; [apply flat_desc; vm_compute; reflexivity |]. split; [reflexivity |]. split; [exact E |].
  change (gate_sel 0x00008E0000101234) with 0x10. cbv zeta in Q. destruct (seg flat s' CS) as [a b c d]. cbn [sel base limit sflags] in Q.
  unfold decode in *. cbn [sel base limit sflags] in Q. f_equal; lia.
Qed.
Print Assumptions C24_refuted_code_type.

(** From virtual 8086 mode the selector is cut to twelve bits. *)
Theorem C24_refuted_vm86_selector : exists s s' g u, vm flat s = true /\ idt_gate flat s (xidx flat s) (mem flat s) g /\
  deliver flat 0 false s = Ok flat _ u s' /\ sel (seg flat s' CS) <> errcode (gate_sel g).
Proof.
  set (s := set_gdtl flat 0xFFFF (raising 0 0 (machine 3 0x20002 (qwords 0x2000 [0x00008E0080081234] (qwords 0x9008 [0x00CF9A000000FFFF] m0))))).
  destruct (ok_inv (deliver flat 0 false s) (fun s => sel (seg flat s CS) =? 0x008) ltac:(vm_compute; reflexivity)) as (u & s' & E & Q).
  exists s, s', 0x00008E0080081234, u. split; [reflexivity |]. split; [apply flat_gate; vm_compute; reflexivity |]. split; [exact E |].
  change (errcode (gate_sel 0x00008E0080081234)) with 0x8008. lia.
Qed.
Print Assumptions C24_refuted_vm86_selector.

(** The inner stack pointer is read from the TSS with the rights of the interrupted
    program.  [guarded] is flat memory in which user accesses to the page of the TSS
    fault: an interrupt in ring 3 cannot be delivered. *)
Definition user (c p : Z) : bool := (c =? 3) && (p =? 0).
Definition tss_page (a : Z) : bool := a / 2 ^ 12 =? 3.
Definition guard_rd (c p n a : Z) (m : Z -> Z) : (Z -> Z) * mres :=
  if user c p && tss_page a then (m, MFault 5 a) else flat_rd c p n a m.
Lemma guard_range c p n a m m' v : guard_rd c p n a m = (m', MVal v) -> 0 <= v < 2 ^ (8 * n).
Proof. unfold guard_rd. destruct (_ && _); [discriminate |]. apply flat_range. Qed.
Definition guarded : memsys :=
  mkmem (Z -> Z) guard_rd (fun c p n a v m => if user c p && tss_page a then (m, Some (7, a)) else (put_le n a v m, None)) guard_range.
Definition on_guarded (s : st flat) : st guarded :=
  mkst guarded (esp flat s) (eip flat s) (ef flat s) (lres flat s) (laux flat s) (hfl flat s) (seg flat s) (gdtb flat s) (gdtl flat s) (idtb flat s)
    (idtl flat s) (cr0 flat s) (cr2 flat s) (cr3 flat s) (cr4 flat s) (dr7 flat s) (xcode flat s) (xidx flat s) (xaddr flat s) (oldexp flat s) (flushes flat s) (mem flat s).
Lemma guarded_gate s v g : (v * 8 + 7 <=? idtl guarded s) = true ->
  le 8 ((idtb guarded s + v * 8) mod 2 ^ 32) (mem guarded s) mod 2 ^ 64 = g -> idt_gate guarded s v (mem guarded s) g.
Proof.
  intros H <-. split; [lia |]. cbn [rd guarded]. unfold guard_rd, user. change (2 =? 0) with false. now rewrite andb_false_r.
Qed.
Lemma guarded_tss s e ss : tss32 guarded s = true -> (11 <=? limit (seg guarded s TR)) = true ->
  le 4 ((base (seg guarded s TR) + 4) mod 2 ^ 32) (mem guarded s) mod 2 ^ 32 = e ->
  le 2 ((base (seg guarded s TR) + 4 + 4) mod 2 ^ 32) (mem guarded s) mod 2 ^ 16 = ss ->
  tss_stack guarded s 2 0 (mem guarded s) (mem guarded s) e ss.
Proof.
  intros T L <- <-. unfold tss_stack. rewrite T. cbv zeta. split; [lia |]. exists (mem guarded s).
  cbn [rd guarded]. unfold guard_rd, user. change (2 =? 0) with false. rewrite !andb_false_r. split; reflexivity.
Qed.
Theorem C24_refuted_tss_rights : exists s, ring guarded s = 3 /\ vm guarded s = false /\
  (exists g, idt_gate guarded s (xidx guarded s) (mem guarded s) g /\ gate_usable guarded s false g = true) /\
  (exists e ss, tss_stack guarded s 2 0 (mem guarded s) (mem guarded s) e ss /\ ss = 0x10) /\
  exists s', deliver guarded 0 true s = PFault guarded _ s'.
Proof.
  exists (on_guarded (raising 13 0 (machine 3 0x202 m1))). split; [reflexivity |]. split; [reflexivity |]. split.
  { exists 0x00128E0000083456. split; [apply guarded_gate |]; vm_compute; reflexivity. }
  split. { exists 0x8000, 0x10. split; [| reflexivity]. apply guarded_tss; vm_compute; reflexivity. }
  assert (W : (match deliver guarded 0 true (on_guarded (raising 13 0 (machine 3 0x202 m1))) with PFault _ _ _ => true | _ => false end) = true) by (vm_compute; reflexivity).
  destruct (deliver _ _ _ _) as [u s' | s' | s' |]; try discriminate. now exists s'.
Qed.
Print Assumptions C24_refuted_tss_rights.
