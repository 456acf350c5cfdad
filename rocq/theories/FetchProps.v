(** * Instruction fetching, translated blocks and the debugger's listing (C81, C82, C83) *)

From Coq Require Import ZArith Bool List Lia.
Import ListNotations.
From Verif Require Import FetchModel FetchSpec FetchProofs.
Local Open Scope Z_scope.

(** ** A small instruction set and guests for the examples *)
Definition nop := mkI 0x90 false.
Definition mov := mkI 0xB8 false.
Definition jmp := mkI 0xEB true.
Definition cpuid := mkI 0xA2 false.
(** state 0: at the opcode; n > 0: n immediate bytes to come; -1: displacement of JMP; -2: after 0F *)
Definition toy_next (s b : Z) : zstep Z :=
  if s =? 0 then
    if b =? 0x90 then Done nop else if b =? 0x66 then More 0 else if b =? 0xB8 then More 4
    else if b =? 0xEB then More (-1) else if b =? 0x0F then More (-2) else Bad
  else if s =? -1 then Done jmp
  else if s =? -2 then if b =? 0xA2 then Done cpuid else Bad
  else if s =? 1 then Done mov else More (s - 1).
Definition toy : decoder := mkdec Z 0 toy_next.

(** frames for pages, bytes of RAM (NOPs where nothing else is said), breakpoints *)
Definition guest (f : Z -> option Z) (m : Z -> option Z) (bp : Z -> option Z) : world :=
  mkw (fun a => match f (page a) with Some q => Xok (4096 * (q mod 2 ^ 20) + off a) | None => Xpf 4 end)
      (fun p => 2 ^ 32 - p) (fun p => match m p with Some b => b | None => 0x90 end) bp false.
Lemma guest_paged : forall f m bp, paged (guest f m bp).
Proof.
  intros f m bp a b p Ha Hb E; cbn [guest xl]; rewrite E; destruct (f (page b)) as [q |]; [| discriminate].
  intros X; assert (p = 4096 * (q mod 2 ^ 20) + off a) as -> by congruence; destruct (page_off a) as (Ea & Ra); destruct (page_off b) as (Eb & Rb).
  pose proof (Z.mod_pos_bound q (2 ^ 20) ltac:(lia)).
  destruct (page_eq (4096 * (q mod 2 ^ 20) + off a) _ _ eq_refl Ra) as (P & O).
  repeat split; [apply f_equal; lia | lia | lia | auto].
Qed.
Lemma guest_backed : forall f m bp, backed (guest f m bp).
Proof.
  intros f m bp a p Ha; cbn [guest xl avail]; destruct (f (page a)) as [q |]; [| discriminate].
  intros X; assert (p = 4096 * (q mod 2 ^ 20) + off a) as -> by congruence; destruct (page_off a) as (Ea & Ra); pose proof (Z.mod_pos_bound q (2 ^ 20) ltac:(lia)); lia.
Qed.
Definition nobp : Z -> option Z := fun _ => None.
Definition bytes (l : list (Z * Z)) (p : Z) : option Z := match find (fun e => fst e =? p) l with Some e => Some (snd e) | None => None end.

(** ** C81: what is executed at an address is the instruction that lies there *)
Theorem C81_block_partial : forall w d fl vpc dr6 b, paged w -> backed w -> 0 <= vpc < 2 ^ 32 ->
  translate w d fl vpc None dr6 = Some b -> straight w d vpc (ins b) (fin b).
Proof. intros; eapply translate_ok; eauto. Qed.
Print Assumptions C81_block_partial.

(** for a whole history, while every page code was executed from is followed by one that can be fetched *)
Theorem C81_history_partial : forall l l1 q b l2, rounds None l = l1 ++ (q, b) :: l2 ->
  (forall r, In r l -> paged (q_w r) /\ backed (q_w r) /\ 0 <= q_vpc r < 2 ^ 32) ->
  (forall r c, In (r, c) l1 -> next_mapped (q_w r) (q_vpc r)) ->
  straight (q_w q) (q_d q) (q_vpc q) (ins b) (fin b).
Proof.
  induction l as [| r l IH]; intros l1 q b l2; cbn [rounds]; [destruct l1; discriminate |].
  intros E Hs Hm; destruct (translate (q_w r) (q_d r) (q_fl r) (q_vpc r) None (q_dr6 r)) as [c |] eqn:T; [| destruct l1; discriminate].
  destruct (Hs r (or_introl eq_refl)) as (S1 & S2 & S3); destruct (translate_ok _ _ _ _ _ _ S1 S2 S3 T) as (T1 & T2).
  destruct l1 as [| [r' c'] l1]; cbn [app] in E; injection E as E1 E2 E3.
  - subst q b; auto.
  - subst r' c'; destruct (Hm r c (or_introl eq_refl)) as (p & X); rewrite (T2 p X) in E3.
    apply (IH l1 q b l2 E3); [intros; apply Hs; right; auto | intros r0 c0 H; apply (Hm r0 c0); right; auto].
Qed.
Print Assumptions C81_history_partial.

(** two pages in swapped frames; MOV EAX, imm32 lies across the boundary, JMP ends the block *)
Definition two (m : list (Z * Z)) : world := guest (fun p => if p =? 1 then Some 7 else if p =? 2 then Some 3 else None) (bytes m) nobp.
Definition movs : list (Z * Z) := [(0x7FFD, 0xB8); (0x7FFE, 1); (0x7FFF, 2); (0x3000, 3); (0x3001, 4); (0x3002, 0xEB); (0x3003, 0xFE)].
Example C81_block_sat : exists b, paged (two movs) /\ backed (two movs) /\ translate (two movs) toy 0 0x1FFC None 0 = Some b /\
  ins b = [(0x1FFC, nop, 1); (0x1FFD, mov, 5)] /\ fin b = Tlink /\ cross b = true.
Proof. eexists; split; [apply guest_paged |]; split; [apply guest_backed |]; vm_compute; repeat split; reflexivity. Qed.
Example C81_history_sat : exists q1 b1 q2 b2, rounds None [mkr (two movs) toy 0 0x1FFC 0; mkr (two movs) toy 0 0x2002 0] = [(q1, b1); (q2, b2)] /\
  next_mapped (q_w q1) (q_vpc q1) /\ ins b2 = [(0x2002, jmp, 2)] /\ fin b2 = Tterm.
Proof.
  do 4 eexists; split; [unfold rounds; change (translate _ toy _ 0x1FFC None _) with (Some (mkb [(0x1FFC, nop, 1); (0x1FFD, mov, 5)] Tlink true None 0));
    cbn [exp' q_w q_d q_fl q_vpc q_dr6]; reflexivity |].
  split; [exists 0x3000; reflexivity |]; split; reflexivity.
Qed.

(** once a page fault has been recorded for a page after code, no instruction that crosses a page is
    ever executed again, whatever is mapped since: it raises the old fault *)
Theorem C81_refuted_forever : forall w d fl vpc i n a c dr6, paged w -> backed w -> 0 <= vpc < 2 ^ 32 ->
  afetch w d vpc = Aok i n -> page (w32 (vpc + n - 1)) <> page vpc ->
  exists b, translate w d fl vpc (Some (a, c)) dr6 = Some b /\ ins b = [] /\ fin b = Texc PF_ c a /\ exp' b = Some (a, c).
Proof.
  intros w d fl vpc i n a c dr6 Hp Hb Hv Hf Hc; unfold translate.
  assert (Hh : hits w vpc = None) by (unfold afetch in Hf; destruct (hits w vpc); [discriminate | auto]); rewrite Hh.
  destruct (xl w vpc) as [pc | x] eqn:X.
  - destruct (stale w d vpc pc i n a c (Z.testbit fl 7) dr6 4096 Hp Hb Hv X Hf Hc) as (e & -> & ->).
    eexists; split; [reflexivity | cbn [ins fin exp']; auto].
  - unfold afetch in Hf; rewrite Hh in Hf; cbn [arun] in Hf; rewrite X in Hf; discriminate.
Qed.
Print Assumptions C81_refuted_forever.

(** and for this it is enough that code runs, without any fault, close to a page that is not mapped *)
Definition alone : world := guest (fun p => if p =? 1 then Some 7 else None) (bytes [(0x7FFC, 0xEB); (0x7FFD, 0xFE)]) nobp.
Theorem C81_refuted_recorded : exists q1 b1 q2 b2 i n, rounds None [q1; q2] = [(q1, b1); (q2, b2)] /\
  paged (q_w q1) /\ backed (q_w q1) /\ paged (q_w q2) /\ backed (q_w q2) /\
  ins b1 = [(0x1FFC, jmp, 2)] /\ fin b1 = Tterm /\
  afetch (q_w q2) (q_d q2) (q_vpc q2) = Aok i n /\ ins b2 = [] /\ fin b2 = Texc PF_ 4 0x2000.
Proof.
  exists (mkr alone toy 0 0x1FFC 0), (mkb [(0x1FFC, jmp, 2)] Tterm false (Some (0x2000, 4)) 0).
  exists (mkr (two movs) toy 0 0x1FFD 0), (mkb [] (Texc PF_ 4 0x2000) true (Some (0x2000, 4)) 0), mov, 5.
  split; [| split; [apply guest_paged | split; [apply guest_backed | split; [apply guest_paged | split; [apply guest_backed |]]]]].
  - unfold rounds; cbn [q_w q_d q_fl q_vpc q_dr6].
    change (translate alone toy 0 0x1FFC None 0) with (Some (mkb [(0x1FFC, jmp, 2)] Tterm false (Some (0x2000, 4)) 0)); cbn [exp'].
    change (translate (two movs) toy 0 0x1FFD (Some (0x2000, 4)) 0) with (Some (mkb [] (Texc PF_ 4 0x2000) true (Some (0x2000, 4)) 0)); reflexivity.
  - repeat split; reflexivity.
Qed.
Print Assumptions C81_refuted_recorded.

(** an instruction across two adjacent regions of RAM or ROM ends the emulator *)
Theorem C81_refuted_adjacent_regions : exists w i n b, paged w /\ (forall a p, xl w a = Xok p -> 0 < avail w p) /\
  afetch w toy 0x1000 = Aok i n /\ translate w toy 0 0x1000 None 0 = Some b /\ fin b = Tabort.
Proof.
  exists (mkw (fun a => Xok (4096 * (page a mod 2 ^ 20) + off a)) (fun p => if p <? 0x1002 then 0x1002 - p else Z.max 1 (2 ^ 32 - p)) (fun p => if p =? 0x1000 then 0xB8 else 0) nobp false), mov, 5.
  eexists; split; [| split; [| split; [reflexivity | split; reflexivity]]].
  - apply (guest_paged (fun p => Some p) (fun p => Some (if p =? 0x1000 then 0xB8 else 0)) nobp).
  - intros a p _; cbn [avail]; destruct (Z.ltb_spec p 0x1002); lia.
Qed.
Print Assumptions C81_refuted_adjacent_regions.

(** DR6 already shows a breakpoint while the instructions before it are still to be executed *)
Theorem C81_refuted_early_dr6 : exists w b, paged w /\ backed w /\ hits w 0x1000 = None /\ translate w toy 0 0x1000 None 0 = Some b /\
  ins b = [(0x1000, nop, 1); (0x1001, nop, 1)] /\ fin b = Texc DB_ 0 0 /\ dr6' b = 1.
Proof.
  exists (guest (fun p => Some p) (fun _ => None) (fun a => if a =? 0x1002 then Some 0 else None)); eexists.
  split; [apply guest_paged |]; split; [apply guest_backed |]; split; [reflexivity |]; split; [reflexivity |]; repeat split; reflexivity.
Qed.
Print Assumptions C81_refuted_early_dr6.

(** A debug exception ends the block exactly when RF is clear and the address after its last
    instruction is armed, DR6 gets the bit of the register, and no instruction at an armed
    address is part of the block *)
Definition after_ins (vpc : Z) (l : list (Z * instr * Z)) : Z := fold_left (fun _ x => match x with (a, _, n) => w32 (a + n) end) l vpc.
Lemma tloop_bp : forall fuel w d vpc pc one e dr6 b, tloop fuel w d vpc pc one e dr6 = Some b ->
  (forall x, In x (ins b) -> rf w = false -> wp w (fst (fst x)) = None) /\
  (forall c a, fin b = Texc DB_ c a -> rf w = false /\ exists i, wp w (after_ins vpc (ins b)) = Some i /\ dr6' b = Z.lor dr6 (Z.shiftl 1 i)) /\
  ((forall c a, fin b <> Texc DB_ c a) -> dr6' b = dr6).
Proof.
  induction fuel as [| f IH]; intros w d vpc pc one e dr6 b H; cbn [tloop] in H; [discriminate |].
  unfold hits in H; destruct (if rf w then None else wp w vpc) as [i |] eqn:Hh.
  { assert (b = mkb [] (Texc DB_ 0 0) true e (Z.lor dr6 (Z.shiftl 1 i))) by congruence; subst b; cbn [ins fin dr6'].
    split; [intros x [] |]; split; [| intro Hn; destruct (Hn 0 0); reflexivity].
    intros c a _; destruct (rf w); [discriminate |]; split; [reflexivity | exists i; split; [exact Hh | reflexivity]]. }
  assert (Hn : rf w = false -> wp w vpc = None) by (intro E; rewrite E in Hh; exact Hh).
  assert (K : forall l t c e', (forall x, In x l -> fst (fst x) = vpc) -> (forall c a, t <> Texc DB_ c a) -> b = mkb l t c e' dr6 ->
    (forall x, In x (ins b) -> rf w = false -> wp w (fst (fst x)) = None) /\
    (forall c a, fin b = Texc DB_ c a -> rf w = false /\ exists i, wp w (after_ins vpc (ins b)) = Some i /\ dr6' b = Z.lor dr6 (Z.shiftl 1 i)) /\
    ((forall c a, fin b <> Texc DB_ c a) -> dr6' b = dr6)).
  { intros l t c e' Hl Ht ->; cbn [ins fin dr6']; split; [intros x Hx E; rewrite (Hl x Hx); exact (Hn E) |].
    split; [intros c0 a E; destruct (Ht c0 a E) | reflexivity]. }
  destruct (ram_fetch w vpc pc e) as [bs e1].
  assert (L0 : forall x : Z * instr * Z, In x [] -> fst (fst x) = vpc) by (intros x []).
  destruct (decode d bs) as [i n | | |].
  - assert (L1 : forall x : Z * instr * Z, In x [(vpc, i, n)] -> fst (fst x) = vpc) by (intros x [<- | []]; reflexivity).
    destruct (i_term i); [apply (K [(vpc, i, n)] Tterm (negb (page vpc =? page (w32 (vpc + n - 1)))) e1 L1); [discriminate | congruence] |].
    destruct (_ || _ || _); [apply (K [(vpc, i, n)] Tlink (negb (page vpc =? page (w32 (vpc + n - 1)))) e1 L1); [discriminate | congruence] |].
    destruct (tloop f w d (w32 (vpc + n)) (w32 (pc + n)) one e1 dr6) as [b' |] eqn:Ht; [| discriminate].
    assert (b = consb (vpc, i, n) b') by congruence; subst b; destruct (IH _ _ _ _ _ _ _ _ Ht) as (H1 & H2 & H3).
    cbn [consb ins fin dr6']; split; [intros x [<- | Hx]; [exact Hn | exact (H1 x Hx)] |]; split; [exact H2 | exact H3].
  - apply (K [] (Texc UD_ 0 0) false e1 L0); [discriminate | congruence].
  - destruct e1 as [[a c] |]; [apply (K [] (Texc PF_ c a) true (Some (a, c)) L0); [discriminate | congruence] | apply (K [] Tabort false None L0); [discriminate | congruence]].
  - destruct (code_addr w (w32 (vpc + 15)) e1) as [p [[a c] |]];
      [apply (K [] (Texc PF_ c a) true (Some (a, c)) L0); [discriminate | congruence] | apply (K [] (Texc GP_ 0 0) false None L0); [discriminate | congruence]].
Qed.
Theorem C81_breakpoint : forall w d fl vpc e dr6 b, translate w d fl vpc e dr6 = Some b ->
  (forall a i n, In (a, i, n) (ins b) -> rf w = false -> wp w a = None) /\
  (forall c a, fin b = Texc DB_ c a -> rf w = false /\ exists i, wp w (after_ins vpc (ins b)) = Some i /\ dr6' b = Z.lor dr6 (Z.shiftl 1 i)) /\
  ((forall c a, fin b <> Texc DB_ c a) -> dr6' b = dr6) /\
  (forall i, rf w = false -> wp w vpc = Some i -> ins b = [] /\ fin b = Texc DB_ 0 0 /\ dr6' b = Z.lor dr6 (Z.shiftl 1 i)).
Proof.
  intros w d fl vpc e dr6 b H.
  assert (H4 : forall i, rf w = false -> wp w vpc = Some i -> ins b = [] /\ fin b = Texc DB_ 0 0 /\ dr6' b = Z.lor dr6 (Z.shiftl 1 i)).
  { intros i E1 E2; unfold translate, hits in H; rewrite E1, E2 in H.
    assert (b = mkb [] (Texc DB_ 0 0) true e (Z.lor dr6 (Z.shiftl 1 i))) by congruence; subst b; split; [reflexivity | split; reflexivity]. }
  unfold translate, hits in H; destruct (if rf w then None else wp w vpc) as [i |] eqn:Hh.
  - assert (b = mkb [] (Texc DB_ 0 0) true e (Z.lor dr6 (Z.shiftl 1 i))) by congruence; subst b; cbn [ins fin dr6'] in *.
    split; [intros a j n [] |]; split; [| split; [intro Hn; destruct (Hn 0 0); reflexivity | exact H4]].
    intros c a _; destruct (rf w); [discriminate |]; split; [reflexivity | exists i; split; [exact Hh | reflexivity]].
  - destruct (xl w vpc) as [pc | c].
    + destruct (tloop_bp _ _ _ _ _ _ _ _ _ H) as (H1 & H2 & H3).
      split; [intros a i n Hi E; exact (H1 _ Hi E) |]; split; [exact H2 | split; [exact H3 | exact H4]].
    + assert (b = mkb [] (Texc PF_ c vpc) true e dr6) by congruence; subst b; cbn [ins fin dr6'] in *.
      split; [intros a j n [] |]; split; [intros c0 a E; discriminate E | split; [reflexivity | exact H4]].
Qed.
Print Assumptions C81_breakpoint.
Example C81_breakpoint_sat : exists w b, rf w = false /\ translate w toy 0 0x1000 None 0 = Some b /\ length (ins b) = 2%nat /\ fin b = Texc DB_ 0 0 /\
  exists w' b', rf w' = true /\ wp w' 0x1002 = wp w 0x1002 /\ translate w' toy 0x80 0x1002 None 0 = Some b' /\ length (ins b') = 1%nat /\ fin b' = Tlink.
Proof.
  exists (guest (fun p => Some p) (fun _ => None) (fun a => if a =? 0x1002 then Some 0 else None)); eexists.
  split; [reflexivity |]; split; [reflexivity |]; split; [reflexivity |]; split; [reflexivity |].
  set (g := guest _ _ _); exists (mkw (xl g) (avail g) (rd g) (wp g) true); eexists; repeat split; reflexivity.
Qed.

(** ** C82: a translated block *)
(** translation always ends *)
Theorem C82_total : forall w d fl vpc e dr6, 0 <= vpc < 2 ^ 32 -> exists b, translate w d fl vpc e dr6 = Some b.
Proof.
  intros w d fl vpc e dr6 Hv; unfold translate; destruct (hits w vpc); [eauto |]; destruct (xl w vpc) as [pc | c]; [| eauto].
  destruct (tloop 4097 w d vpc pc (Z.testbit fl 7) e dr6) eqn:T; [eauto |].
  exfalso; revert T; apply tloop_total; auto; destruct (page_off vpc); lia.
Qed.
Print Assumptions C82_total.

(** the instructions of a block that is kept lie one after the other in the page of its address,
    whatever the memory and whatever was recorded before *)
Theorem C82_one_page : forall w d fl vpc e dr6 b, 0 <= vpc < 2 ^ 32 -> translate w d fl vpc e dr6 = Some b -> cached fl b = true ->
  in_a_row vpc (ins b) /\ off vpc + size_of (ins b) <= 4096.
Proof.
  intros w d fl vpc e dr6 b Hv; unfold translate, cached; destruct (hits w vpc); [intros E; injection E as <-; discriminate |].
  destruct (xl w vpc) as [pc | c]; [| intros E; injection E as <-; discriminate].
  intros T C; apply andb_true_iff in C; destruct C as (C & _); apply negb_true_iff in C.
  destruct (tloop_page _ _ _ _ _ _ _ _ _ Hv T) as (A & _ & B & _); auto.
Qed.
Print Assumptions C82_one_page.
Example C82_one_page_sat : exists b, translate (two [(0x7FFE, 0xEB); (0x7FFF, 0)]) toy 0 0x1FF0 None 0 = Some b /\ cached 0 b = true /\ length (ins b) = 15%nat /\ 0xFF0 + size_of (ins b) = 4096.
Proof. eexists; split; [reflexivity | vm_compute; auto]. Qed.

(** with TF or RF set, or when the debugger or the emulator asks for one instruction, a block holds
    at most one and is not kept *)
Lemma bitof : forall x n m, 0 <= n -> 0 <= m -> Z.testbit (Z.land x (2 ^ n)) m = (n =? m) && Z.testbit x n.
Proof.
  intros x n m Hn Hm; rewrite Z.land_spec, Z.pow2_bits_eqb by auto; destruct (Z.eqb_spec n m) as [-> |]; [rewrite andb_true_r; auto | apply andb_false_r].
Qed.
Lemma flag_bits : forall h c e k, 0 <= k < 8 -> Z.testbit (disas_flags h c e) k =
  ((k =? 0) && Z.testbit h 2) || ((k =? 1) && Z.testbit h 3) || ((k =? 4) && Z.testbit h 4) ||
  ((k =? 7) && (Z.testbit c 7 || Z.testbit c 10 || Z.testbit e 16 || Z.testbit e 8)).
Proof.
  intros h c e k Hk; unfold disas_flags; change 256 with (2 ^ 8); rewrite Z.mod_pow2_bits_low by lia.
  rewrite !Z.lor_spec, !Z.shiftr_spec, !bitof by lia.
  assert (K : k = 0 \/ k = 1 \/ k = 2 \/ k = 3 \/ k = 4 \/ k = 5 \/ k = 6 \/ k = 7) by lia.
  destruct K as [-> | [-> | [-> | [-> | [-> | [-> | [-> | ->]]]]]]]; cbn [Z.add Pos.add Z.eqb Pos.eqb Pos.add_carry Pos.succ andb orb];
    destruct (Z.testbit h 2), (Z.testbit h 3), (Z.testbit h 4), (Z.testbit c 7), (Z.testbit c 10), (Z.testbit e 16), (Z.testbit e 8); reflexivity.
Qed.
Theorem C82_single : forall w d h c f vpc e dr6 b, 0 <= vpc < 2 ^ 32 ->
  translate w d (disas_flags h c f) vpc e dr6 = Some b ->
  Z.testbit f 8 = true \/ Z.testbit f 16 = true \/ Z.testbit c 10 = true \/ Z.testbit c 7 = true ->
  (length (ins b) <= 1)%nat /\ cached (disas_flags h c f) b = false.
Proof.
  intros w d h c f vpc e dr6 b Hv T H; unfold translate in T.
  assert (B : Z.testbit (disas_flags h c f) 7 = true).
  { rewrite flag_bits by lia; cbn [Z.eqb Pos.eqb andb orb].
    destruct H as [-> | [-> | [-> | ->]]]; rewrite ?orb_true_r; reflexivity. }
  unfold cached; rewrite B, andb_false_r; split; auto.
  destruct (hits w vpc); [injection T as <-; cbn [ins length]; lia |].
  destruct (xl w vpc) as [pc | x]; [| injection T as <-; cbn [ins length]; lia].
  rewrite B in T; destruct (tloop_page _ _ _ _ _ _ _ _ _ Hv T) as (_ & _ & _ & L); auto.
Qed.
Print Assumptions C82_single.
Example C82_single_sat : exists b, translate (two movs) toy (disas_flags 0x14 0 0x102) 0x1FF0 None 0 = Some b /\ ins b = [(0x1FF0, nop, 1)].
Proof. eexists; split; reflexivity. Qed.

(** the decoder works in the mode of the code and stack segments; the flags of the block itself start clear *)
Theorem C82_mode : forall h c f, (Z.testbit h 4 = true \/ Z.testbit h 2 = false) ->
  decoder_mode (disas_flags h c f) =
    Some (if Z.testbit h 4 then if Z.testbit h 2 then Legacy32 else Legacy16 else Real16, if Z.testbit h 3 then 32 else 16) /\
  Z.testbit (disas_flags h c f) 2 = false /\ Z.testbit (disas_flags h c f) 5 = false.
Proof.
  intros h c f H; set (fl := disas_flags h c f).
  assert (B : forall k, 0 <= k < 8 -> Z.testbit fl k = ((k =? 0) && Z.testbit h 2) || ((k =? 1) && Z.testbit h 3) || ((k =? 4) && Z.testbit h 4) ||
    ((k =? 7) && (Z.testbit c 7 || Z.testbit c 10 || Z.testbit f 16 || Z.testbit f 8))) by (intros; apply flag_bits; auto).
  assert (S : forall n, 0 <= n -> Z.land fl (2 ^ n) = if Z.testbit fl n then 2 ^ n else 0).
  { intros n Hn; apply Z.bits_inj'; intros m Hm; rewrite bitof by auto; destruct (Z.testbit fl n); [rewrite andb_true_r, Z.pow2_bits_eqb by auto; auto | rewrite andb_false_r, Z.bits_0; auto]. }
  split; [| rewrite !B by lia; cbn [Z.eqb Pos.eqb andb orb]; auto].
  unfold decoder_mode; change 1 with (2 ^ 0) at 1; rewrite (S 0), (S 4) by lia; change (Z.land fl 2) with (Z.land fl (2 ^ 1)); rewrite (S 1) by lia.
  rewrite !B by lia; cbn [Z.eqb Pos.eqb andb orb]; rewrite !orb_false_r.
  destruct H as [-> | ->]; [destruct (Z.testbit h 2) | destruct (Z.testbit h 4)]; destruct (Z.testbit h 3); reflexivity.
Qed.
Print Assumptions C82_mode.

(** a block that ends in bytes that do not decode is kept although some of these bytes lie in the
    next page: a guest that differs only there would still run it *)
Theorem C82_refuted_undecodable_tail : exists w w' b, paged w /\ backed w /\ paged w' /\ backed w' /\
  (forall a, xl w a = xl w' a) /\ (forall p, page p = 7 -> rd w p = rd w' p) /\ xl w 0x1FFF = Xok 0x7FFF /\
  translate w toy 0 0x1FFF None 0 = Some b /\ cached 0 b = true /\ fin b = Texc UD_ 0 0 /\ afetch w' toy 0x1FFF = Aok cpuid 2.
Proof.
  exists (two [(0x7FFF, 0x0F); (0x3000, 0xFF)]), (two [(0x7FFF, 0x0F); (0x3000, 0xA2)]), (mkb [] (Texc UD_ 0 0) false None 0).
  split; [apply guest_paged |]; split; [apply guest_backed |]; split; [apply guest_paged |]; split; [apply guest_backed |].
  split; [reflexivity |]; split; [| repeat split; reflexivity].
  intros p Hp; cbn [two guest rd]; unfold bytes; cbn [find fst snd].
  destruct (0x7FFF =? p); [reflexivity |]; destruct (Z.eqb_spec 0x3000 p) as [E |]; [| reflexivity].
  rewrite <- E in Hp; discriminate Hp.
Qed.
Print Assumptions C82_refuted_undecodable_tail.

(** ** C83: the debugger's listing *)
Lemma disas_ok : forall n w d vpc pc e, paged w -> backed w -> 0 <= vpc < 2 ^ 32 -> xl w vpc = Xok pc -> upto w vpc e ->
  listing true w d vpc (disas_loop n w d vpc pc e).
Proof.
  induction n as [| n IH]; intros w d vpc pc e Hp Hb Hv Hx Hu; cbn [disas_loop]; [constructor |].
  pose proof (one_ok w d vpc pc e Hp Hb Hv Hx Hu) as O; destruct (ram_fetch w vpc pc e) as (bs & e1); destruct O as (U & O).
  destruct (decode d bs) as [i l | | |] eqn:D; try constructor.
  pose proof (decode_len _ _ _ _ D) as Ln; destruct (page_off vpc) as (_ & R).
  replace (w32 (w32 (vpc + l) - 1)) with (w32 (vpc + (l - 1))) by (replace (w32 (vpc + l) - 1) with (w32 (vpc + l) + - 1) by lia; rewrite w32_w32; f_equal; lia).
  rewrite page_test by (auto; lia); destruct (Z.ltb_spec (l - 1) (4096 - off vpc)).
  - destruct (Z.eq_dec l (4096 - off vpc)) as [El | El].
    + apply li_stop with l; auto; destruct (next_page vpc l Hv ltac:(lia)) as (_ & -> & _); lia.
    + apply li_cons with l; auto.
      destruct (same_page vpc l Hv ltac:(lia)) as (W & P & O').
      destruct (Hp vpc (vpc + l) pc Hv) as (X2 & Pr & Po); auto; [rewrite <- W; apply w32_range |].
      assert (W2 : w32 (pc + l) = pc + l) by (destruct (same_page pc l Pr ltac:(lia)); auto).
      assert (Nx : w32 (w32 (vpc + l) + (4096 - off (w32 (vpc + l)))) = w32 (vpc + (4096 - off vpc))) by (rewrite w32_w32, W, O'; f_equal; lia).
      apply IH; auto; [apply w32_range | rewrite W, W2, X2; f_equal; lia |].
      destruct e1 as [[a c] |]; cbn [upto] in *; auto; rewrite Nx; destruct U as (-> & U1 & U2); repeat split; auto; rewrite W, O'; lia.
  - apply li_cons with l; auto.
    unfold code_addr; destruct (xl w (w32 (vpc + l))) as [p2 | c2] eqn:X2; [| constructor].
    assert (e1 = None) as ->.
    { destruct e1 as [[a c] |]; auto; cbn [upto] in U; destruct U as (-> & U1 & U2).
      destruct (next_page vpc l Hv ltac:(lia)) as (_ & _ & _ & P).
      destruct (Hp _ (w32 (vpc + (4096 - off vpc))) p2 (w32_range (vpc + l))) as (X3 & _); auto; [apply w32_range | congruence]. }
    apply IH; auto; try apply w32_range; exact I.
Qed.
(** if the uninitialised variable does not happen to say "page fault", the listing is right up to the first
    instruction that ends with its page *)
Theorem C83_listing_partial : forall n w d vpc, paged w -> backed w -> 0 <= vpc < 2 ^ 32 -> listing true w d vpc (disas n w d vpc None).
Proof.
  intros n w d vpc Hp Hb Hv; unfold disas, code_addr; destruct (xl w vpc) as [pc | c] eqn:X; [| constructor].
  apply disas_ok; auto; exact I.
Qed.
Print Assumptions C83_listing_partial.
Example C83_listing_sat : disas 4 (two movs) toy 0x1FFC None = [(0x1FFC, nop); (0x1FFD, mov); (0x2002, jmp); (0x2004, nop)].
Proof. reflexivity. Qed.

(** after an instruction that ends with its page the listing goes on in the next physical page *)
Theorem C83_refuted_page_end : exists w, paged w /\ backed w /\ ~ listing false w toy 0x1FFF (disas 2 w toy 0x1FFF None) /\
  disas 2 w toy 0x1FFF None = [(0x1FFF, nop); (0x2000, nop)] /\ afetch w toy 0x2000 = Aok jmp 2.
Proof.
  exists (two [(0x3000, 0xEB)]); split; [apply guest_paged |]; split; [apply guest_backed |].
  assert (E : disas 2 (two [(0x3000, 0xEB)]) toy 0x1FFF None = [(0x1FFF, nop); (0x2000, nop)]) by reflexivity.
  split; [| split; [exact E | reflexivity]].
  rewrite E; intros L; inversion L as [| ? ? ? ? ? S | a i n l A L']; [discriminate | subst].
  assert (n = 1) as -> by (vm_compute in A; congruence).
  change (w32 (0x1FFF + 1)) with 0x2000 in L'; inversion L' as [| ? ? ? ? ? S | a' i' n' l' A' L'']; [discriminate | subst].
  vm_compute in A'; discriminate.
Qed.
Print Assumptions C83_refuted_page_end.

(** and with an unlucky stack there is no listing at all *)
Theorem C83_refuted_uninitialised : exists w junk, paged w /\ backed w /\ disas 4 w toy 0x1FFC junk = [] /\ disas 4 w toy 0x1FFC None <> [].
Proof.
  exists (two movs), (Some (0, 0)); split; [apply guest_paged |]; split; [apply guest_backed |]; split; [reflexivity | discriminate].
Qed.
Print Assumptions C83_refuted_uninitialised.
