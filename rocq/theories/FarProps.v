(** * Properties of far CALL, RETF and IRET frames *)

From Coq Require Import ZArith Bool List Lia ZifyBool.
From Verif Require Import SegModel SegSpec SegBits SegProofs SegFar SegRet SegCall SegProps ExcSpec ExcDel FarSpec FarProofs.
Import ListNotations.
Local Open Scope Z_scope.

(** ** C62: the frame of a far CALL, and the way back *)

(** A direct far CALL pushes the selector of the caller and then the return offset. *)
Theorem C62_direct_partial : forall X sl call n ret s u s' m d, n = 2 \/ n = 4 -> (Z.testbit (hfl X s) 3 = true -> n = 4) -> 0 <= sl < 2 ^ 16 ->
  lcall_pe X sl call n ret s = Ok X _ u s' -> descriptor X s sl m d -> is_system d = false ->
  exists m1, pushed X (ring X s) 0 n (own_width X s) (base (seg X s SS)) [sel (seg X s CS); ret] (esp X s) m m1 /\
    accessed X (ring X s) d (desc_addr X s sl) m1 (mem X s') /\ esp X s' mod own_width X s = (esp X s - 2 * n) mod own_width X s.
Proof.
  intros X sl call n ret s u s' m d Hn Hb Hs H D SY. destruct (direct_frame X sl call n ret s s' u m d Hn Hb Hs H D SY) as (m1 & A & B & C & _).
  exists m1. now repeat split.
Qed.
Print Assumptions C62_direct_partial.

(** Missing: 16-bit calls on a 32-bit stack, which lose the upper half of ESP. *)
Theorem C62_refuted_direct16 : exists s u s', Z.testbit (hfl flat s) 3 = true /\
  lcall_pe flat 0x08 0x9999 2 0x105 s = Ok flat _ u s' /\ esp flat s = 0x17000 /\ esp flat s' = 0x6FFC /\
  le 2 0x6FFE (mem flat s') = 0x08 /\ le 2 0x16FFE (mem flat s') = 0.
Proof.
  assert (H : ok (lcall_pe flat 0x08 0x9999 2 0x105 (set_esp flat 0x17000 (machine 0 2 m0)))
    (fun s => (esp flat s =? 0x6FFC) && (le 2 0x6FFE (mem flat s) =? 8) && (le 2 0x16FFE (mem flat s) =? 0)) = true) by (vm_compute; reflexivity).
  apply ok_inv in H as (u & s' & H & Q). exists (set_esp flat 0x17000 (machine 0 2 m0)), u, s'. rewrite !andb_true_iff, !Z.eqb_eq in Q. destruct Q as [[Q1 Q2] Q3].
  split; [reflexivity |]. split; [exact H |]. split; [reflexivity |]. split; [exact Q1 |]. split; [exact Q2 | exact Q3].
Qed.
Print Assumptions C62_refuted_direct16.

(** A CALL through a gate that keeps the ring uses the size of the gate. *)
Theorem C62_gate_same : forall X sl call n0 ret s u s' m g m1 c, 0 <= sl < 2 ^ 16 -> lcall_pe X sl call n0 ret s = Ok X _ u s' ->
  descriptor X s sl m g -> is_system g = true -> descriptor X (set_mem X m s) (gate_sel g) m1 c ->
  is_conforming c = true \/ ring X s <= dpl_of c ->
  exists m2, pushed X (ring X s) 0 (call_size g) (own_width X s) (base (seg X s SS)) [sel (seg X s CS); ret] (esp X s) m1 m2 /\
    accessed X (ring X s) c (desc_addr X s (gate_sel g)) m2 (mem X s') /\
    esp X s' mod own_width X s = (esp X s - 2 * call_size g) mod own_width X s.
Proof.
  intros X sl call n0 ret s u s' m g m1 c Hs H D SY DC K. pose proof (gate_frame X sl call n0 ret s s' u m g m1 c Hs H D SY DC) as F. cbv zeta in F.
  replace (negb (is_conforming c) && (dpl_of c <? ring X s)) with false in F; [exact F |].
  destruct K as [-> | K]; [reflexivity |]. destruct (Z.ltb_spec (dpl_of c) (ring X s)); [lia | now rewrite andb_false_r].
Qed.
Print Assumptions C62_gate_same.

(** A CALL through a gate into an inner ring switches to the stack the TSS names and
    pushes there SS and ESP of the caller, the parameters (the last one first), CS and
    the return offset. *)
Theorem C62_gate_inner_partial : forall X sl call n0 ret s u s' m g m1 c, 0 <= sl < 2 ^ 16 -> lcall_pe X sl call n0 ret s = Ok X _ u s' ->
  descriptor X s sl m g -> is_system g = true -> descriptor X (set_mem X m s) (gate_sel g) m1 c ->
  is_conforming c = false -> dpl_of c < ring X s ->
  exists m2 m3 e ss sd, tss_stack X s 0 (dpl_of c) m1 m2 e ss /\ is_null ss = false /\ descriptor X (set_mem X m2 s) ss m3 sd /\
    stack_ok (dpl_of c) ss sd = true /\ is_present sd = true /\ seg X s' SS = decode ss sd /\
    let n := call_size g in let w := stack_width (is_big sd) in
    (call_params g = O \/ w = own_width X s ->
     exists m4 m5 m6 m7, pushed X (ring X s) 2 n w (base_of sd) [sel (seg X s SS); esp X s] e m3 m4 /\
       copied X s n w (base_of sd) (call_params g) (e - 2 * n) m4 m5 /\
       pushed X (ring X s) 2 n w (base_of sd) [sel (seg X s CS); ret] (e - n * (2 + Z.of_nat (call_params g))) m5 m6 /\
       accessed X (ring X s) sd (desc_addr X s ss) m6 m7 /\
       accessed X (ring X s) c (desc_addr X s (gate_sel g)) m7 (mem X s') /\
       esp X s' mod w = (e - n * (4 + Z.of_nat (call_params g))) mod w).
Proof.
  intros X sl call n0 ret s u s' m g m1 c Hs H D SY DC K L. pose proof (gate_frame X sl call n0 ret s s' u m g m1 c Hs H D SY DC) as F. cbv zeta in F.
  rewrite K in F. cbn [negb andb] in F. apply Z.ltb_lt in L. rewrite L in F. exact F.
Qed.
Print Assumptions C62_gate_inner_partial.

(** Missing: parameters when one stack is 16-bit and the other 32-bit.  The offset on
    the stack of the caller is then cut to the width of the inner one: here the caller's
    ESP is 0x17000 and the parameter pushed comes from 0x7000. *)
Definition gdtp (ss : Z) : list Z :=
  [0; 0x00CF9A000000FFFF; ss; 0x00CFFA000000FFFF; 0x00CFF2000000FFFF; 0x00CF9E000000FFFF; 0x0001EC0100082345].
Definition mp (ss : Z) : Z -> Z :=
  put_le 4 0x7000 0x22222222 (put_le 4 0x17000 0x11111111 (qwords 0x1000 (gdtp ss) (qwords 0x3000 [0x0000800000000000; 0x10] (fun _ => 0)))).
Theorem C62_refuted_param_width : exists s u s', Z.testbit (hfl flat s) 3 = true /\ base (seg flat s SS) = 0 /\
  lcall_pe flat 0x33 0 4 0x105 s = Ok flat _ u s' /\ call_params 0x0001EC0100082345 = 1%nat /\
  descriptor flat s 0x33 (mem flat s) 0x0001EC0100082345 /\
  le 4 (esp flat s) (mem flat s) = 0x11111111 /\ le 4 (base (seg flat s' SS) + esp flat s' + 8) (mem flat s') = 0x22222222.
Proof.
  assert (H : ok (lcall_pe flat 0x33 0 4 0x105 (set_esp flat 0x17000 (machine 3 2 (mp 0x008F92000000FFFF))))
    (fun s => le 4 (base (seg flat s SS) + esp flat s + 8) (mem flat s) =? 0x22222222) = true) by (vm_compute; reflexivity).
  apply ok_inv in H as (u & s' & H & Q). exists (set_esp flat 0x17000 (machine 3 2 (mp 0x008F92000000FFFF))), u, s'.
  split; [reflexivity |]. split; [reflexivity |]. split; [exact H |]. split; [reflexivity |].
  split. { apply flat_desc; vm_compute; reflexivity. } split; [vm_compute; reflexivity |]. now apply Z.eqb_eq in Q.
Qed.
Print Assumptions C62_refuted_param_width.

Example C62_gate_example :    (* one parameter, both stacks 32-bit *)
  ok (lcall_pe flat 0x33 0 4 0x105 (machine 3 2 (mp 0x00CF92000000FFFF)))
    (fun s => (esp flat s =? 0x7FEC) && (le 4 0x7FEC (mem flat s) =? 0x105) && (le 4 0x7FF0 (mem flat s) =? 0x1B) && (le 4 0x7FF4 (mem flat s) =? 0x22222222)
      && (le 4 0x7FF8 (mem flat s) =? 0x7000) && (le 4 0x7FFC (mem flat s) =? 0x23)) = true /\
  is_conforming 0x00CF9A000000FFFF = false /\ dpl_of 0x00CF9A000000FFFF < ring flat (machine 3 2 m0) /\
  ok (lcall_pe flat 0x1B 0x9999 4 0x105 (machine 3 2 m0))
    (fun s => (esp flat s =? 0x6FF8) && (le 4 0x6FF8 (mem flat s) =? 0x105) && (le 4 0x6FFC (mem flat s) =? 0x1B)) = true.
Proof. vm_compute. auto. Qed.

(** RETF pops the offset and the selector, and if it leaves the ring the stack pointer
    of the caller; an immediate operand is added to the stack pointer on top. *)
Theorem C62_retf_partial : forall X n imm s u s', n = 2 \/ n = 4 -> (Z.testbit (hfl X s) 3 = true -> n = 4) -> 0 <= esp X s < 2 ^ 32 ->
  retf_pe X n imm s = Ok X _ u s' ->
  exists ip cs m, pops X s n 0 [ip; cs] (mem X s) m /\ eip X s' = ip /\ sel (seg X s' CS) = cs mod 2 ^ 16 /\
    if ring X s <? cs mod 4 then imm = 0 -> returned X s n 2 m (cs mod 2 ^ 16) s'
    else seg X s' SS = seg X s SS /\ esp X s' = new_esp (own_width X s) (esp X s) (esp X s + n * 2 + imm).
Proof.
  intros X n imm s u s' Hn Hb He H. unfold retf_pe in H. unfold bind at 1, get at 1 in H. apply bind_ok in H as (u1 & s1 & H1 & H). apply upd_inv in H.
  destruct (lret_frame X n s s1 u1 Hn Hb He H1) as (ip & cs & m & P & IP & SG & R). exists ip, cs, m. split; [exact P |].
  rewrite ss32_eq in H. assert (OW : own_width X s = 2 ^ 32 \/ own_width X s = 2 ^ 16) by (unfold own_width, stack_width; destruct (Z.testbit (hfl X s) 3); auto).
  assert (SE : seg X s' = seg X s1 /\ eip X s' = eip X s1) by (subst s'; destruct (Z.testbit (hfl X s) 3); split; reflexivity). destruct SE as [SE EI].
  rewrite SE, EI. split; [exact IP |]. split; [exact SG |]. unfold returned in R. rewrite rpl16 in R.
  destruct (ring X s <? cs mod 4) eqn:RC.
  - intros ->. unfold returned. rewrite rpl16, RC. destruct R as (a0 & a1 & a2 & nsp & ss & d & sd & R1 & R2 & R3 & R4 & R5 & R6 & R7).
    exists a0, a1, a2, nsp, ss, d, sd. rewrite SE. repeat (split; [assumption |]).
    assert (ER : 0 <= esp X s1 < 2 ^ 32). { rewrite R7. apply new_esp_range; [| exact He]. unfold stack_width. destruct (is_big sd); auto. }
    rewrite <- R7. subst s'. rewrite Z.add_0_r. destruct (Z.testbit (hfl X s) 3); cbn [esp set_esp]; unfold w32, w16.
    + now apply Z.mod_small.
    + change 0xFFFF0000 with (not32 (mask_of false)). change (esp X s1 mod 2 ^ 16) with (esp X s1 mod stack_width false). rewrite <- mask_mod.
      rewrite (esp_eq false _ _ _ ER eq_refl). unfold new_esp. change (stack_width false) with (2 ^ 16).
      pose proof (Z.div_mod (esp X s1) (2 ^ 16) ltac:(lia)). lia.
  - destruct R as [R1 R2]. split; [exact R1 |]. rewrite <- (new_esp_add _ _ _ _ OW He), <- R2.
    subst s'. unfold own_width, stack_width. destruct (Z.testbit (hfl X s) 3); reflexivity.
Qed.
Print Assumptions C62_retf_partial.

(** Missing: the immediate operand when the ring changes (and 16-bit returns on a
    32-bit stack).  The parameters have to be skipped before the stack pointer of the
    caller is popped, but they are not: after a CALL through a gate with one parameter,
    the RETF 4 that releases it takes the parameter for ESP and ESP for SS, and faults. *)
Theorem C62_refuted_retf_params : exists s u s1 s2, ring flat s = 3 /\ lcall_pe flat 0x33 0 4 0x105 s = Ok flat _ u s1 /\ ring flat s1 = 0 /\
  call_params 0x0001EC0100082345 = 1%nat /\ descriptor flat s 0x33 (mem flat s) 0x0001EC0100082345 /\
  retf_pe flat 4 4 s1 = Exc flat _ s2 /\ xidx flat s2 = EXP_GP /\ xcode flat s2 = esp flat s.
Proof.
  assert (H : ok (lcall_pe flat 0x33 0 4 0x105 (machine 3 2 (mp 0x00CF92000000FFFF)))
    (fun s => (ring flat s =? 0) && match retf_pe flat 4 4 s with Exc _ _ s2 => (xidx flat s2 =? EXP_GP) && (xcode flat s2 =? 0x7000) | _ => false end) = true) by (vm_compute; reflexivity).
  apply ok_inv in H as (u & s1 & H & Q). apply andb_true_iff in Q as [Q0 Q]. apply Z.eqb_eq in Q0. destruct (retf_pe flat 4 4 s1) as [| s2 | |] eqn:R; try discriminate Q.
  apply andb_true_iff in Q as [Q1 Q2]. apply Z.eqb_eq in Q1, Q2.
  exists (machine 3 2 (mp 0x00CF92000000FFFF)), u, s1, s2. split; [reflexivity |]. split; [exact H |]. split; [exact Q0 |]. split; [reflexivity |].
  split. { apply flat_desc; vm_compute; reflexivity. } split; [exact R |]. split; [exact Q1 | exact Q2].
Qed.
Print Assumptions C62_refuted_retf_params.

(** IRET outside VM86 mode: also the flags, and the data segments of a VM86 task. *)
Theorem C62_iret_partial : forall X n s u s', n = 2 \/ n = 4 -> (Z.testbit (hfl X s) 3 = true -> n = 4) -> 0 <= esp X s < 2 ^ 32 -> vm X s = false ->
  iret_pe X n s = Ok X _ u s' ->
  exists ip cs fl m, pops X s n 0 [ip; cs; fl] (mem X s) m /\ eip X s' = ip /\ sel (seg X s' CS) = cs mod 2 ^ 16 /\
    if Z.testbit fl 17 then
      exists nsp ss es ds fs gs m1, pops X s 4 3 [nsp; ss; es; ds; fs; gs] m m1 /\ esp X s' = nsp /\
        (forall r q, In (r, q) [(CS, cs); (SS, ss); (ES, es); (DS, ds); (FS, fs); (GS, gs)] ->
           sel (seg X s' r) = q mod 2 ^ 16 /\ base (seg X s' r) = q mod 2 ^ 16 * 16 /\ limit (seg X s' r) = 0xFFFF)
    else returned X s n 3 m (cs mod 2 ^ 16) s'.
Proof. intros X n s u s'. apply iret_frame. Qed.
Print Assumptions C62_iret_partial.

Example C62_return_example :
  ok (retf_pe flat 4 0x10 (machine 3 2 (frame [0x1234; 0x1B]))) (fun s => (esp flat s =? 0x7018) && (eip flat s =? 0x1234)) = true /\
  ok (retf_pe flat 4 0 (machine 0 2 (frame [0x1234; 0x1B; 0x6000; 0x23]))) (fun s => (esp flat s =? 0x6000) && (sel (seg flat s SS) =? 0x23)) = true /\
  ok (iret_pe flat 4 (machine 0 2 (frame [0x1234; 0x1B; 2; 0x6000; 0x23]))) (fun s => (esp flat s =? 0x6000) && (sel (seg flat s SS) =? 0x23)) = true /\
  ok (iret_pe flat 4 (machine 0 2 (frame [0x1234; 0x1B; 0x20002; 0x6000; 0x23; 1; 2; 3; 4])))
    (fun s => (esp flat s =? 0x6000) && (sel (seg flat s SS) =? 0x23) && (base (seg flat s GS) =? 0x40)) = true.
Proof. vm_compute. auto. Qed.

(** *** There and back on flat memory *)
Lemma put_hit n a v m i : 0 <= i < n -> n <= 2 ^ 32 -> put_le n a v m ((a + i) mod 2 ^ 32) = v / 2 ^ (8 * i) mod 2 ^ 8.
Proof.
  intros Hi Hn. unfold put_le. cbv zeta. replace (((a + i) mod 2 ^ 32 - a) mod 2 ^ 32) with i.
  - destruct (Z.ltb_spec i n); [reflexivity | lia].
  - rewrite Zminus_mod_idemp_l. replace (a + i - a) with i by lia. rewrite Z.mod_small; lia.
Qed.
Lemma le_hit k : forall n a v m i, 0 <= i -> i + Z.of_nat k <= n -> n <= 2 ^ 32 ->
  le k (a + i) (put_le n a v m) = v / 2 ^ (8 * i) mod 2 ^ (8 * Z.of_nat k).
Proof.
  induction k as [| k IH]; intros n a v m i Hi Hk Hn; cbn [le]; [change (8 * Z.of_nat 0) with 0; symmetry; apply Z.mod_1_r |].
  rewrite put_hit by lia. replace (a + i + 1) with (a + (i + 1)) by lia. rewrite IH by lia. rewrite Z.mod_mod by lia.
  replace (8 * Z.of_nat (S k)) with (8 + 8 * Z.of_nat k) by lia. rewrite Z.pow_add_r by lia. rewrite Z.rem_mul_r by lia.
  f_equal. f_equal. f_equal. rewrite Z.div_div by lia. f_equal. rewrite <- Z.pow_add_r by lia. f_equal. lia.
Qed.
Lemma le_miss k : forall b n a v m, (forall j, 0 <= j < Z.of_nat k -> n <= (b + j - a) mod 2 ^ 32) -> le k b (put_le n a v m) = le k b m.
Proof.
  induction k as [| k IH]; intros b n a v m H; cbn [le]; [reflexivity |]. f_equal.
  - f_equal. unfold put_le. cbv zeta. rewrite Zminus_mod_idemp_l. specialize (H 0 ltac:(lia)). rewrite Z.add_0_r in H. destruct (Z.ltb_spec ((b - a) mod 2 ^ 32) n); [lia | reflexivity].
  - f_equal. apply IH. intros j Hj. replace (b + 1 + j) with (b + (j + 1)) by lia. apply H. lia.
Qed.
Lemma le_mod k : forall b m, le k (b mod 2 ^ 32) m = le k b m.
Proof.
  assert (G : forall b b' m, b mod 2 ^ 32 = b' mod 2 ^ 32 -> le k b m = le k b' m).
  { induction k as [| k IH]; intros b b' m E; cbn [le]; [reflexivity |]. rewrite E. f_equal. f_equal. apply IH.
    rewrite <- Zplus_mod_idemp_l, E, Zplus_mod_idemp_l. reflexivity. }
  intros b m. apply G. apply Z.mod_mod. lia.
Qed.
Lemma flat_rd4 c p a m m' v : rd flat c p 4 a m = (m', MVal v) -> m' = m /\ le 4 a m mod 2 ^ 32 = v.
Proof.
  intros H. pose proof (f_equal fst H) as H1. pose proof (f_equal snd H) as H2. split; [now symmetry |].
  change (MVal (le 4 a m mod 2 ^ 32) = MVal v) in H2. congruence.
Qed.
Lemma item_ring (c : Z) (b e k : Z) : ((b + (e - k) mod 2 ^ 32) mod 2 ^ 32) = (b + e - k) mod 2 ^ 32.
Proof. rewrite Zplus_mod_idemp_r. f_equal. lia. Qed.

(** The RETF after a direct 32-bit far CALL comes back to the caller: same code segment,
    offset after the CALL, same ring, same stack.  The frame must not lie on the
    descriptor of the called segment, whose accessed bit is set in between. *)
Theorem C62_round_trip : forall sl call ret s u s1 v s2 d, 0 <= sl < 2 ^ 16 -> 0 <= ret < 2 ^ 32 -> 0 <= esp flat s < 2 ^ 32 ->
  Z.testbit (hfl flat s) 3 = true -> 0 <= sel (seg flat s CS) < 2 ^ 16 -> rpl (sel (seg flat s CS)) = ring flat s ->
  descriptor flat s sl (mem flat s) d -> is_system d = false ->
  (forall j, 0 <= j < 8 -> 8 <= (base (seg flat s SS) + esp flat s - 8 + j - desc_addr flat s sl) mod 2 ^ 32) ->
  lcall_pe flat sl call 4 ret s = Ok flat _ u s1 -> lret_pe flat 4 s1 = Ok flat _ v s2 ->
  eip flat s2 = ret /\ sel (seg flat s2 CS) = sel (seg flat s CS) /\ ring flat s2 = ring flat s /\
  seg flat s2 SS = seg flat s SS /\ esp flat s2 = esp flat s.
Proof.
  intros sl call ret s u s1 v s2 d Hs Hr He B3 Hcs HR D SY DJ HC HL.
  assert (HB : Z.testbit (hfl flat s) 3 = true -> 4 = 4) by reflexivity.
  destruct (direct_frame flat sl call 4 ret s s1 u _ d (or_intror eq_refl) HB Hs HC D SY) as (m1 & (ma & W1 & mb & W2 & ->) & AC & ES & HF & ER).
  destruct (C51_direct flat sl call s u s1 _ d Hs D SY (or_intror (ex_intro _ 4 (ex_intro _ ret HC)))) as (_ & _ & _ & RG & SSE).
  assert (OW : own_width flat s = 2 ^ 32) by (unfold own_width, stack_width; now rewrite B3). rewrite OW in *.
  assert (E1 : esp flat s1 = (esp flat s - 8) mod 2 ^ 32) by (change (2 * 4) with 8 in ES; rewrite <- ES; symmetry; now apply Z.mod_small).
  assert (HB1 : Z.testbit (hfl flat s1) 3 = true -> 4 = 4) by reflexivity.
  destruct (lret_frame flat 4 s1 s2 v (or_intror eq_refl) HB1 ER HL) as (ip & cs & m & (mc & R1 & md & R2 & _) & IP & SG & RT).
  apply flat_rd4 in R1 as [-> R1]. apply flat_rd4 in R2 as [_ R2]. apply (f_equal fst) in W1, W2. cbn [wr flat fst] in W1, W2.
  change (2 ^ (8 * 4)) with (2 ^ 32) in *.
  set (b := base (seg flat s SS)) in *. set (e := esp flat s) in *.
  assert (I0 : stack_item flat s1 4 0 = (b + e - 8) mod 2 ^ 32).
  { unfold stack_item, stack_mod. rewrite HF, B3. change (4 =? 4) with true. cbn [andb]. cbv iota. rewrite SSE, E1. fold b e.
    rewrite Z.mul_0_r, Z.add_0_r, Z.mod_mod, Zplus_mod_idemp_l by lia. f_equal. lia. }
  assert (I1 : stack_item flat s1 4 (0 + 1) = (b + e - 4) mod 2 ^ 32).
  { unfold stack_item, stack_mod. rewrite HF, B3. change (4 =? 4) with true. cbn [andb]. cbv iota. rewrite SSE, E1. fold b e.
    rewrite (Zplus_mod_idemp_l (e - 8) (4 * (0 + 1))), Zplus_mod_idemp_l. f_equal. lia. }
  change (0 + 1) with 1 in I1. rewrite I0 in R1. change (0 + 1) with 1 in R2. rewrite I1 in R2. rewrite (item_ring 0) in W1. replace (e - 4 - 4) with (e - 8) in W2 by lia. rewrite (item_ring 0) in W2.
  assert (ACC : forall a, (a = (b + e - 8) mod 2 ^ 32 \/ a = (b + e - 4) mod 2 ^ 32) -> le 4 a (mem flat s1) = le 4 a mb).
  { intros a Ha. unfold accessed in AC. destruct (negb (is_system d) && negb (Z.testbit d 40)); [| now rewrite AC].
    cbn [wr flat] in AC. apply (f_equal fst) in AC. cbn [fst] in AC. rewrite <- AC. apply le_miss. intros j Hj. change (Z.of_nat 4) with 4 in Hj.
    assert (DA : (desc_addr flat s sl) mod 2 ^ 32 = desc_addr flat s sl) by (unfold desc_addr; apply Z.mod_mod; lia). rewrite DA.
    destruct Ha as [-> | ->].
    - rewrite <- Z.add_sub_assoc, Zplus_mod_idemp_l, Z.add_sub_assoc. apply DJ. lia.
    - rewrite <- Z.add_sub_assoc, Zplus_mod_idemp_l, Z.add_sub_assoc. specialize (DJ (4 + j) ltac:(lia)). replace (b + e - 4 + j) with (b + e - 8 + (4 + j)) by lia. exact DJ. }
  rewrite ACC in R1, R2 by auto. clear ACC AC. subst mb.
  assert (V1 : ip = ret).
  { rewrite <- R1. rewrite <- (Z.add_0_r ((b + e - 8) mod 2 ^ 32)) at 1. rewrite le_hit by (cbn; lia). change (8 * 0) with 0. rewrite Z.pow_0_r, Z.div_1_r.
    change (8 * Z.of_nat 4) with 32. rewrite !Z.mod_mod by lia. now apply Z.mod_small. }
  assert (V2 : cs = sel (seg flat s CS)).
  { rewrite <- R2. rewrite le_miss.
    - subst ma. rewrite <- (Z.add_0_r ((b + e - 4) mod 2 ^ 32)) at 1. rewrite le_hit by (cbn; lia). change (8 * 0) with 0. rewrite Z.pow_0_r, Z.div_1_r.
      change (8 * Z.of_nat 4) with 32. rewrite !Z.mod_mod by lia. apply Z.mod_small. lia.
    - intros j Hj. change (Z.of_nat 4) with 4 in Hj. rewrite <- Z.add_sub_assoc, Zplus_mod_idemp_l, Z.add_sub_assoc, Zminus_mod_idemp_r.
      replace (b + e - 4 + j - (b + e - 8)) with (4 + j) by lia. rewrite Z.mod_small by lia. lia. }
  rewrite V2 in SG, RT. rewrite (Z.mod_small (sel (seg flat s CS)) (2 ^ 16) Hcs) in SG, RT. split; [congruence |]. split; [exact SG |].
  destruct (C18_retf flat 4 s1 v s2 (or_intror eq_refl) HL) as (ip' & cs' & m' & _ & _ & S' & R' & _).
  assert (RR : ring flat s2 = ring flat s).
  { rewrite R'. assert (RP : cs' mod 4 = (cs' mod 2 ^ 16) mod 4) by (symmetry; exact (rpl16 cs')). rewrite RP, <- S', SG. exact HR. }
  split; [exact RR |]. unfold returned in RT. rewrite HR, RG, Z.ltb_irrefl in RT. destruct RT as [RT1 RT2].
  split; [now rewrite RT1 |]. rewrite RT2. unfold own_width, stack_width. rewrite HF, B3. unfold new_esp. rewrite E1.
  rewrite Z.div_small by (apply Z.mod_pos_bound; lia). rewrite Zplus_mod_idemp_l. replace (e - 8 + 4 * 2) with e by lia. rewrite Z.mod_small by exact He. lia.
Qed.
Print Assumptions C62_round_trip.

Example C62_round_trip_example :
  ok (lcall_pe flat 0x1B 0x9999 4 0x105 (machine 3 2 m0)) (fun s => ok (lret_pe flat 4 s) (fun s2 => (eip flat s2 =? 0x105) && (esp flat s2 =? 0x7000))) = true /\
  (let s := machine 3 2 m0 in forall j, 0 <= j < 8 -> 8 <= (base (seg flat s SS) + esp flat s - 8 + j - desc_addr flat s 0x1B) mod 2 ^ 32) /\
  descriptor flat (machine 3 2 m0) 0x1B m0 0x00CFFA000000FFFF /\ rpl (sel (seg flat (machine 3 2 m0) CS)) = ring flat (machine 3 2 m0).
Proof.
  split; [vm_compute; reflexivity |]. split.
  - intros s j Hj. change (base (seg flat s SS) + esp flat s - 8 + j - desc_addr flat s 27) with (0x6FF8 + j - 0x1018). rewrite Z.mod_small; lia.
  - split; [apply (flat_desc (machine 3 2 m0)); vm_compute; reflexivity | reflexivity].
Qed.
