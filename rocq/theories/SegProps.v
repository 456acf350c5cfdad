(** * Properties of segment loads and far transfers *)

From Coq Require Import ZArith Bool List Lia ZifyBool.
From Verif Require Import SegModel SegSpec SegBits SegProofs SegFar SegRet SegCall.
Import ListNotations.
Local Open Scope Z_scope.

(** ** A concrete machine for the examples and refutations

    Flat memory without page faults; a GDT with the usual flat segments, a ring 0
    conforming code segment and three call gates of DPL 3. *)
Fixpoint le (n : nat) (a : Z) (m : Z -> Z) : Z :=
  match n with O => 0 | S k => m (a mod 2 ^ 32) mod 2 ^ 8 + 2 ^ 8 * le k (a + 1) m end.
Definition put_le (n a v : Z) (m : Z -> Z) : Z -> Z :=
  fun q => let k := (q - a) mod 2 ^ 32 in if k <? n then v / 2 ^ (8 * k) mod 2 ^ 8 else m q.
Lemma le_range n : forall a m, 0 <= le n a m < 2 ^ (8 * Z.of_nat n).
Proof.
  induction n as [| n IH]; intros a m; [cbn; lia |]. cbn [le]. specialize (IH (a + 1) m).
  pose proof (Z.mod_pos_bound (m (a mod 2 ^ 32)) (2 ^ 8) ltac:(lia)).
  replace (8 * Z.of_nat (S n)) with (8 + 8 * Z.of_nat n) by lia. rewrite Z.pow_add_r by lia. nia.
Qed.
Definition flat_rd (c p n a : Z) (m : Z -> Z) : (Z -> Z) * mres :=
  (m, if n <? 0 then MFault 0 a else MVal (le (Z.to_nat n) a m mod 2 ^ (8 * n))).
Lemma flat_range c p n a m m' v : flat_rd c p n a m = (m', MVal v) -> 0 <= v < 2 ^ (8 * n).
Proof.
  unfold flat_rd. destruct (Z.ltb_spec n 0); [discriminate |]. intros E. injection E as _ <-.
  apply Z.mod_pos_bound. apply Z.pow_pos_nonneg; lia.
Qed.
Definition flat : memsys := mkmem (Z -> Z) flat_rd (fun _ _ n a v m => (put_le n a v m, None)) flat_range.

Definition qwords (b : Z) (l : list Z) (m : Z -> Z) : Z -> Z :=
  fun q => if (b <=? q) && (q <? b + 8 * Z.of_nat (length l))
           then nth (Z.to_nat ((q - b) / 8)) l 0 / 2 ^ (8 * ((q - b) mod 8)) mod 2 ^ 8 else m q.
Definition gdt : list Z :=
  [0; 0x00CF9A000000FFFF; 0x00CF92000000FFFF; 0x00CFFA000000FFFF; 0x00CFF2000000FFFF;   (* 08 10 18 20 *)
   0x00CF9E000000FFFF;                                                                  (* 28: conforming, DPL 0 *)
   0x0001EC0000082345; 0x0001EC0000282345; 0x0001E40000082345;                          (* 30, 38, 40: gates *)
   0x0000000000001234].                                                                 (* 48: not present *)
Definition m0 : Z -> Z := qwords 0x1000 gdt (qwords 0x3000 [0x0000800000000000; 0x10] (fun _ => 0)).
Definition code_of (c : Z) : segr := if c =? 0 then decode 0x08 0x00CF9A000000FFFF else decode 0x1B 0x00CFFA000000FFFF.
Definition data_of (c : Z) : segr := if c =? 0 then decode 0x10 0x00CF92000000FFFF else decode 0x23 0x00CFF2000000FFFF.
Definition machine (c efl : Z) (m : Z -> Z) : st flat :=
  mkst flat 0x7000 0x100 efl 0 0 (0x7E0001C .| c)
    (fun r => match r with CS => code_of c | LDTR => mkseg 0 0 0 0 | TR => mkseg 0x50 0x3000 0x67 0x8B00 | _ => data_of c end)
    0x1000 0x4F 0x2000 0x7FF 0x11 0 0 0 0x400 0 0 0 EXP_INVALID [] m.

Lemma machine_tables c efl m : tables_ok flat (machine c efl m).
Proof. unfold tables_ok, machine. cbn. lia. Qed.

Definition ok {A} (o : out flat A) (p : st flat -> bool) : bool := match o with Ok _ _ _ s => p s | _ => false end.
Lemma ok_inv (o : out flat unit) p : ok o p = true -> exists u s', o = Ok flat _ u s' /\ p s' = true.
Proof. destruct o as [u s | | |]; try discriminate. intros H. now exists u, s. Qed.

Lemma flat_desc s sl d : le 8 ((tbl_base flat s sl + index sl * 8) mod 2 ^ 32) (mem flat s) mod 2 ^ 64 = d ->
  descriptor flat s sl (mem flat s) d.
Proof. intros <-. reflexivity. Qed.

(** ** C16: descriptors *)

(** Loading a segment register decodes the descriptor found at index*8 in the table
    chosen by the TI bit. *)
Theorem C16_decode : forall X s r sl u s', r <> CS -> r <> LDTR -> r <> TR -> 0 <= sl < 2 ^ 16 -> is_null sl = false -> tables_ok X s ->
  mov_sel_pe X r sl s = Ok X _ u s' ->
  in_table X s sl = true /\ exists m d, descriptor X s sl m d /\ seg X s' r = decode sl d.
Proof.
  intros X s r sl u s' R1 R2 R3 Hs N T H.
  destruct (sr_eqb r SS) eqn:E.
  - destruct r; try discriminate. pose proof (stack_load X s sl Hs T) as L. rewrite H in L.
    destruct L as (_ & _ & IT & m & d & D & _ & _ & G). split; [exact IT |]. now exists m, d.
  - assert (D : data_reg r) by (destruct r; try discriminate; unfold data_reg; auto; contradiction).
    pose proof (data_load X s r sl D Hs T) as L. rewrite H in L. destruct L as (_ & _ & [[N2 _] | (_ & IT & m & d & DD & _ & _ & _ & G)]); [congruence |].
    split; [exact IT |]. now exists m, d.
Qed.
Print Assumptions C16_decode.

(** A selector beyond the limit gives #GP(selector) and changes nothing else. *)
Theorem C16_limit : forall X s r sl, r <> CS -> r <> LDTR -> r <> TR -> 0 <= sl < 2 ^ 16 -> is_null sl = false -> tables_ok X s ->
  in_table X s sl = false ->
  mov_sel_pe X r sl s = Exc X _ (set_xcode X (errcode sl) (set_xidx X EXP_GP s)).
Proof.
  intros X s r sl R1 R2 R3 Hs N T IT.
  assert (RD : read_seg_desc X false sl s = Exc X _ (set_xcode X (errcode sl) (set_xidx X EXP_GP s))).
  { rewrite desc_eq by assumption. rewrite IT. unfold exc_st. now rewrite set_mem_id. }
  destruct r; try contradiction; cbn [mov_sel_pe]; unfold check_ss_desc_priv, check_seg_desc_priv, bind; rewrite ?(null_eq sl (proj1 Hs)), ?N, RD; reflexivity.
Qed.
Print Assumptions C16_limit.

Example C16_example : tables_ok flat (machine 3 2 m0) /\ is_null 0x20 = false /\ in_table flat (machine 3 2 m0) 0x20 = true /\
  ok (mov_sel_pe flat DS 0x20 (machine 3 2 m0)) (fun s => (base (seg flat s DS) =? 0) && (limit (seg flat s DS) =? 0xFFFFFFFF)) = true /\
  in_table flat (machine 3 2 m0) 0x50 = false.
Proof. split; [apply machine_tables |]. vm_compute. auto. Qed.

(** A table that wraps around the end of the linear space: the sum of base and limit
    is compared after wrapping, so a selector well within the limit is refused. *)
Theorem C16_refuted_wrap : exists s sl d, 0 <= sl < 2 ^ 16 /\ is_null sl = false /\ in_table flat s sl = true /\
  descriptor flat s sl (mem flat s) d /\ data_type_ok d = true /\ data_priv_ok (ring flat s) sl d = true /\ is_present d = true /\
  exists s', mov_sel_pe flat DS sl s = Exc flat _ s' /\ xidx flat s' = EXP_GP.
Proof.
  set (s := set_gdtb flat 0xFFFFF000 (set_gdtl flat 0xFFFF (machine 0 2 (qwords 0xFFFFF000 gdt (fun _ => 0))))).
  exists s, 0x10, 0x00CF92000000FFFF. split; [lia |]. split; [reflexivity |]. split; [vm_compute; reflexivity |]. split.
  { apply flat_desc; vm_compute; reflexivity. }
  split; [vm_compute; reflexivity |]. split; [vm_compute; reflexivity |]. split; [vm_compute; reflexivity |].
  eexists. split; [reflexivity |]. reflexivity.
Qed.
Print Assumptions C16_refuted_wrap.

(** ** C17: privilege of segment loads *)

(** The outcome of loading DS, ES, FS or GS, with the rule the code implements. *)
Definition data_load_outcome (priv : Z -> Z -> Z -> bool) (X : memsys) (s : st X) (r : sr) (sl : Z) : Prop :=
  match mov_sel_pe X r sl s with
  | Ok _ _ _ s' =>
      (forall q, q <> r -> seg X s' q = seg X s q) /\ ring X s' = ring X s /\
      ((is_null sl = true /\ seg X s' r = mkseg 0 0 0 0) \/
       (is_null sl = false /\ in_table X s sl = true /\
        exists m d, descriptor X s sl m d /\ data_type_ok d = true /\ priv (ring X s) sl d = true /\
          is_present d = true /\ seg X s' r = decode sl d))
  | Exc _ _ s' =>
      is_null sl = false /\ exists m i, s' = set_xcode X (errcode sl) (set_xidx X i (set_mem X m s)) /\
      ((in_table X s sl = false /\ i = EXP_GP) \/
       (in_table X s sl = true /\ exists d, descriptor X s sl m d /\
          if data_type_ok d && priv (ring X s) sl d then is_present d = false /\ i = EXP_NP else i = EXP_GP))
  | PFault _ _ s' => is_null sl = false /\ seg X s' = seg X s /\ hfl X s' = hfl X s /\ xidx X s' = EXP_PF
  | Abort _ _ => False
  end.

Theorem C17_data_implemented : forall X s r sl, r = DS \/ r = ES \/ r = FS \/ r = GS -> 0 <= sl < 2 ^ 16 -> tables_ok X s ->
  data_load_outcome data_priv_weak X s r sl.
Proof. exact data_load. Qed.
Print Assumptions C17_data_implemented.

(** The architectural rule holds for a selector whose RPL is the CPL; missing: the
    general case, refuted below. *)
Theorem C17_data_partial : forall X s r sl, r = DS \/ r = ES \/ r = FS \/ r = GS -> 0 <= sl < 2 ^ 16 -> tables_ok X s ->
  rpl sl = ring X s -> data_load_outcome data_priv_ok X s r sl.
Proof.
  intros X s r sl Hr Hs T E. pose proof (data_load X s r sl Hr Hs T) as L.
  assert (W : forall d, data_priv_weak (ring X s) sl d = data_priv_ok (ring X s) sl d).
  { intros d. unfold data_priv_weak, data_priv_ok. rewrite E. now destruct (is_conforming d), (ring X s <=? dpl_of d). }
  unfold data_load_outcome. destruct (mov_sel_pe X r sl s) as [u s' | s' | s' |].
  - destruct L as (A & B & [C | (N & IT & m & d & D & TY & PW & P & G)]); (split; [exact A |]; split; [exact B |]); [now left |].
    right. split; [exact N |]. split; [exact IT |]. exists m, d. rewrite <- W. now repeat split.
  - destruct L as (N & m & i & E' & C). split; [exact N |]. exists m, i. split; [exact E' |].
    destruct C as [C | (IT & d & D & C)]; [now left |]. right. split; [exact IT |]. exists d. split; [exact D |]. now rewrite <- W.
  - exact L.
  - exact L.
Qed.
Print Assumptions C17_data_partial.

(** Ring 3 loads a ring 0 data segment through a selector of RPL 0. *)
Theorem C17_refuted_rpl : exists s sl d s' u, ring flat s = 3 /\ tables_ok flat s /\ descriptor flat s sl (mem flat s) d /\
  data_priv_ok (ring flat s) sl d = false /\ mov_sel_pe flat DS sl s = Ok flat _ u s' /\ seg flat s' DS = decode sl d /\ dpl_of d = 0.
Proof.
  set (s := machine 3 2 m0). set (d := 0x00CF92000000FFFF).
  assert (H : ok (mov_sel_pe flat DS 0x10 s) (fun s' => true) = true) by (vm_compute; reflexivity).
  apply ok_inv in H as (u & s' & H & _).
  assert (D : descriptor flat s 0x10 (mem flat s) d).
  { apply flat_desc; vm_compute; reflexivity. }
  exists s, 0x10, d, s', u. split; [reflexivity |]. split; [apply machine_tables |]. split; [exact D |]. split; [reflexivity |].
  split; [exact H |]. split; [| reflexivity].
  pose proof (data_load flat s DS 0x10 (or_introl eq_refl) ltac:(lia) (machine_tables _ _ _)) as L. rewrite H in L.
  destruct L as (_ & _ & [[N _] | (_ & _ & m & d' & D' & _ & _ & _ & G)]); [discriminate |]. rewrite G. f_equal.
  unfold descriptor in D, D'. rewrite D in D'. now injection D'.
Qed.
Print Assumptions C17_refuted_rpl.

(** SS: the architectural rule, exactly. *)
Theorem C17_stack : forall X s sl, 0 <= sl < 2 ^ 16 -> tables_ok X s ->
  match mov_sel_pe X SS sl s with
  | Ok _ _ _ s' =>
      (forall q, q <> SS -> seg X s' q = seg X s q) /\ is_null sl = false /\ in_table X s sl = true /\
      exists m d, descriptor X s sl m d /\ stack_ok (ring X s) sl d = true /\ is_present d = true /\ seg X s' SS = decode sl d
  | Exc _ _ s' =>
      exists m i c, s' = set_xcode X c (set_xidx X i (set_mem X m s)) /\
      ((is_null sl = true /\ i = EXP_GP /\ c = 0) \/
       (is_null sl = false /\ c = errcode sl /\
        ((in_table X s sl = false /\ i = EXP_GP) \/
         (in_table X s sl = true /\ exists d, descriptor X s sl m d /\
            if stack_ok (ring X s) sl d then is_present d = false /\ i = EXP_SS else i = EXP_GP))))
  | PFault _ _ s' => is_null sl = false /\ seg X s' = seg X s /\ hfl X s' = hfl X s /\ xidx X s' = EXP_PF
  | Abort _ _ => False
  end.
Proof. exact stack_load. Qed.
Print Assumptions C17_stack.

Example C17_example : rpl 0x23 = ring flat (machine 3 2 m0) /\
  ok (mov_sel_pe flat ES 0x23 (machine 3 2 m0)) (fun s => sel (seg flat s ES) =? 0x23) = true /\
  ok (mov_sel_pe flat ES 0x13 (machine 3 2 m0)) (fun _ => true) = false /\
  ok (mov_sel_pe flat SS 0x10 (machine 0 2 m0)) (fun s => sel (seg flat s SS) =? 0x10) = true /\
  ok (mov_sel_pe flat SS 0x20 (machine 0 2 m0)) (fun _ => true) = false.
Proof. vm_compute. auto. Qed.

Lemma rpl16 v : rpl (v mod 2 ^ 16) = v mod 4.
Proof. unfold rpl. symmetry. apply Znumtheory.Zmod_div_mod; [lia | lia |]. exists (2 ^ 14). reflexivity. Qed.

(** ** C18: far returns never raise privilege *)

Theorem C18_retf : forall X n s u s', n = 2 \/ n = 4 -> lret_pe X n s = Ok X _ u s' ->
  exists ip cs m, pops X s n 0 [ip; cs] (mem X s) m /\ eip X s' = ip /\ sel (seg X s' CS) = cs mod 2 ^ 16 /\
    ring X s' = cs mod 4 /\ ring X s <= ring X s' /\ ef X s' = ef X s.
Proof.
  intros X n s u s' Hn H. destruct (retf_sum X n s s' u Hn H) as (ip & cs & m & m1 & d & P & CC & R & SG & IP & EF).
  exists ip, cs, m. split; [exact P |]. split; [exact IP |]. split; [now rewrite SG |].
  destruct CC as (_ & _ & _ & _ & _ & RL & _). change (ring X (set_mem X m s)) with (ring X s) in RL.
  assert (M4 : rpl (cs mod 2 ^ 16) = cs mod 4).
  { apply rpl16. }
  rewrite R, M4 in *. now repeat split.
Qed.
Print Assumptions C18_retf.

(** RETF n (with an immediate) is RETF for this purpose *)
Theorem C18_retf_imm : forall X n imm s u s', n = 2 \/ n = 4 -> retf_pe X n imm s = Ok X _ u s' ->
  exists ip cs m, pops X s n 0 [ip; cs] (mem X s) m /\ eip X s' = ip /\ sel (seg X s' CS) = cs mod 2 ^ 16 /\
    ring X s' = cs mod 4 /\ ring X s <= ring X s'.
Proof.
  intros X n imm s u s' Hn H. unfold retf_pe in H. unfold bind at 1, get in H. apply bind_ok in H as (u1 & s1 & H1 & H).
  apply upd_inv in H. destruct (C18_retf X n s u1 s1 Hn H1) as (ip & cs & m & P & IP & SG & R & L & _).
  exists ip, cs, m. split; [exact P |]. rewrite H. destruct (nz _); now repeat split.
Qed.
Print Assumptions C18_retf_imm.

(** IRET: to protected mode, or to VM86 mode (always ring 3) when VM is set in the
    popped flags, or within VM86 mode *)
Theorem C18_iret : forall X n s u s', n = 2 \/ n = 4 -> vm X s = false -> iret_pe X n s = Ok X _ u s' ->
  ring X s <= ring X s' /\
  exists ip cs fl m, pops X s n 0 [ip; cs; fl] (mem X s) m /\ eip X s' = ip /\ sel (seg X s' CS) = cs mod 2 ^ 16 /\
    ring X s' = if Z.testbit fl 17 then 3 else cs mod 4.
Proof.
  intros X n s u s' Hn V H. destruct (iret_sum X n s s' u Hn V H) as (ip & cs & fl & m & P & Q).
  assert (M4 : rpl (cs mod 2 ^ 16) = cs mod 4).
  { apply rpl16. }
  destruct (Z.testbit fl 17) eqn:F.
  - destruct Q as (R & SG & IP & _ & _). split; [rewrite R; pose proof (ring_range X s); lia |]. exists ip, cs, fl, m. rewrite F. now repeat split.
  - destruct Q as (s1 & m1 & d & CC & -> & R & SG & IP & EF). destruct CC as (_ & _ & _ & _ & _ & RL & _). change (ring X (set_mem X m s)) with (ring X s) in RL.
    rewrite !wef_ring, wef_seg. rewrite R, M4 in *. split; [exact RL |]. exists ip, cs, fl, m. rewrite F, SG. now repeat split.
Qed.
Print Assumptions C18_iret.

Theorem C18_iret_vm86 : forall X n s u s', vm X s = true -> iret_pe X n s = Ok X _ u s' -> ring X s' = ring X s.
Proof.
  intros X n s u s' V H. unfold iret_pe in H. unfold bind at 1, get at 1 in H. rewrite vm_eq, V in H.
  destruct (_ =? 3) in H; [| discriminate]. unfold iret_real in H. unfold bind at 1, get at 1 in H.
  apply bind_ok in H as (p1 & s1 & P1 & H). destruct (memonly_ok _ _ _ _ _ P1 (memonly_pop _ _ _ _)) as [m1 ->].
  apply bind_ok in H as (p2 & s2 & P2 & H). destruct (memonly_ok _ _ _ _ _ P2 (memonly_pop _ _ _ _)) as [m2 ->].
  apply bind_ok in H as (p3 & s3 & P3 & H). destruct (memonly_ok _ _ _ _ _ P3 (memonly_pop _ _ _ _)) as [m3 ->].
  apply upd_inv in H. now rewrite H.
Qed.
Print Assumptions C18_iret_vm86.

(** a return from ring 0 to ring 3 *)
Definition frame (l : list Z) : Z -> Z :=
  fun q => if (0x7000 <=? q) && (q <? 0x7000 + 4 * Z.of_nat (length l))
           then nth (Z.to_nat ((q - 0x7000) / 4)) l 0 / 2 ^ (8 * ((q - 0x7000) mod 4)) mod 2 ^ 8 else m0 q.
Example C18_example :
  ok (lret_pe flat 4 (machine 0 2 (frame [0x1234; 0x1B; 0x6000; 0x23]))) (fun s => (ring flat s =? 3) && (eip flat s =? 0x1234) && (esp flat s =? 0x6000)) = true /\
  ok (lret_pe flat 4 (machine 3 2 (frame [0x1234; 0x08]))) (fun _ => true) = false /\
  ok (iret_pe flat 4 (machine 0 2 (frame [0x1234; 0x1B; 0x202; 0x6000; 0x23]))) (fun s => (ring flat s =? 3) && Z.testbit (ef flat s) 9) = true.
Proof. vm_compute. auto. Qed.

(** ** C50: a far return lands in a segment the privilege rules allow *)

(** The code segment is checked except for the DPL of a nonconforming one. *)
Theorem C50_target_partial : forall X n s u s', n = 2 \/ n = 4 -> lret_pe X n s = Ok X _ u s' ->
  exists ip cs m m1 d, pops X s n 0 [ip; cs] (mem X s) m /\ cs_checked X (set_mem X m s) (cs mod 2 ^ 16) d m1 /\
    seg X s' CS = decode (cs mod 2 ^ 16) d.
Proof.
  intros X n s u s' Hn H. destruct (retf_sum X n s s' u Hn H) as (ip & cs & m & m1 & d & P & CC & _ & SG & _ & _).
  exists ip, cs, m, m1, d. split; [exact P |]. split; [exact CC | exact SG].
Qed.
Print Assumptions C50_target_partial.

(** Missing: the DPL of a nonconforming segment.  Ring 3 returns into the ring 0 code
    segment. *)
Theorem C50_refuted_dpl : exists s u s', lret_pe flat 4 s = Ok flat _ u s' /\ ring flat s = 3 /\ ring flat s' = 3 /\
  sflags (seg flat s' CS) / 2 ^ 13 mod 4 = 0 /\ Z.testbit (sflags (seg flat s' CS)) 10 = false.
Proof.
  assert (H : ok (lret_pe flat 4 (machine 3 2 (frame [0x1234; 0x0B])))
     (fun s => (ring flat s =? 3) && (sflags (seg flat s CS) / 2 ^ 13 mod 4 =? 0) && negb (Z.testbit (sflags (seg flat s CS)) 10)) = true) by (vm_compute; reflexivity).
  apply ok_inv in H as (u & s' & H & Q). exists (machine 3 2 (frame [0x1234; 0x0B])), u, s'. split; [exact H |]. split; [reflexivity |].
  destruct (Z.testbit _ 10); [now rewrite andb_false_r in Q |]. split; [lia |]. split; [lia | reflexivity].
Qed.
Print Assumptions C50_refuted_dpl.

(** ** C19: IRET and the I/O privilege level *)

Theorem C19_partial : forall X n s u s', n = 2 \/ n = 4 -> 0 < ring X s -> iret_pe X n s = Ok X _ u s' -> vm X s' = vm X s ->
  iopl X s' = iopl X s /\ (Z.testbit (ef X s') 9 <> Z.testbit (ef X s) 9 -> ring X s <= iopl X s).
Proof.
  intros X n s u s' Hn R H V. destruct (vm X s) eqn:V0.
  - unfold iret_pe in H. unfold bind at 1, get at 1 in H. rewrite vm_eq, V0, iopl_eq in H.
    destruct (Z.eqb_spec (iopl X s) 3) as [I | I]; [| discriminate]. unfold iret_real in H. unfold bind at 1, get at 1 in H.
    apply bind_ok in H as (p1 & s1 & P1 & H). destruct (memonly_ok _ _ _ _ _ P1 (memonly_pop _ _ _ _)) as [m1 ->].
    apply bind_ok in H as (p2 & s2 & P2 & H). destruct (memonly_ok _ _ _ _ _ P2 (memonly_pop _ _ _ _)) as [m2 ->].
    apply bind_ok in H as (p3 & s3 & P3 & H). destruct (memonly_ok _ _ _ _ _ P3 (memonly_pop _ _ _ _)) as [m3 ->].
    apply upd_inv in H. cbv beta zeta in H. change (nz (ef X (set_mem X m3 (set_mem X m2 (set_mem X m1 s))) .& VM_MASK)) with (nz (ef X s .& VM_MASK)) in H.
    rewrite vm_eq, V0 in H. rewrite H. split.
    + rewrite !iopl_bits. rewrite !wef_bit by lia. destruct (n =? 2); reflexivity.
    + intros _. rewrite I. pose proof (ring_range X s). lia.
  - destruct (iret_sum X n s s' u Hn V0 H) as (ip & cs & fl & m & P & Q). destruct (Z.testbit fl 17) eqn:F.
    + destruct Q as (_ & _ & _ & _ & B). unfold vm in V. rewrite (B 17) in V by lia. rewrite F in V. discriminate.
    + destruct Q as (s1 & m1 & d & CC & -> & R1 & SG & IP & EF).
      assert (R0 : (ring X s =? 0) = false) by lia. split.
      * rewrite !iopl_bits, !wef_bit by lia. rewrite EF. unfold iret_mask. rewrite R0.
        destruct (n =? 2), (ring X s <=? iopl X s); reflexivity.
      * rewrite wef_bit by lia. rewrite EF. unfold iret_mask. rewrite R0. destruct (Z.leb_spec (ring X s) (iopl X s)) as [L | L]; [intros _; exact L |].
        destruct (n =? 2); change (Z.testbit _ 9) with false at 1; cbv iota; intros G; now destruct G.
Qed.
Print Assumptions C19_partial.

(** Ring 3 pops a flags image with VM set: it gets VM, IOPL 3 and IF. *)
Theorem C19_refuted_vm : exists s u s', ring flat s = 3 /\ vm flat s = false /\ iopl flat s = 0 /\ iret_pe flat 4 s = Ok flat _ u s' /\
  vm flat s' = true /\ iopl flat s' = 3 /\ Z.testbit (ef flat s') 9 <> Z.testbit (ef flat s) 9.
Proof.
  set (s := machine 3 2 (frame [0x10; 0x100; 0x23202; 0x80; 0x200; 1; 2; 3; 4])).
  assert (H : ok (iret_pe flat 4 s) (fun s => vm flat s && (iopl flat s =? 3) && Z.testbit (ef flat s) 9) = true) by (vm_compute; reflexivity).
  apply ok_inv in H as (u & s' & H & Q). exists s, u, s'. split; [reflexivity |]. split; [reflexivity |]. split; [reflexivity |]. split; [exact H |].
  rewrite !andb_true_iff in Q. destruct Q as [[Q1 Q2] Q3]. split; [exact Q1 |]. split; [lia |]. rewrite Q3. discriminate.
Qed.
Print Assumptions C19_refuted_vm.

Example C19_example :
  ok (iret_pe flat 4 (machine 3 2 (frame [0x10; 0x1B; 0x3302]))) (fun s => (iopl flat s =? 0) && negb (Z.testbit (ef flat s) 9) && negb (vm flat s) && Z.testbit (ef flat s) 8) = true.
Proof. vm_compute. reflexivity. Qed.

(** ** C20: segments dropped on a return to an outer ring *)

(** every data segment register is kept or nulled, by the flags the code looks at *)
Theorem C20_partial : forall X n s u s' r, n = 2 \/ n = 4 -> r = DS \/ r = ES \/ r = FS \/ r = GS ->
  lret_pe X n s = Ok X _ u s' -> ring X s < ring X s' ->
  sflags (seg X s r) mod 4 = sflags (seg X s r) / 2 ^ 13 mod 4 ->
  seg X s' r = if dropped (ring X s') (sflags (seg X s r)) then mkseg 0 0 0 0 else seg X s r.
Proof.
  intros X n s u s' r Hn Hr H L E. unfold lret_pe in H. unfold bind at 1, get at 1 in H.
  apply bind_ok in H as (p1 & s1 & P1 & H). destruct (memonly_ok _ _ _ _ _ P1 (memonly_pop _ _ _ _)) as [m1 ->].
  apply bind_ok in H as (p2 & s2 & P2 & H). destruct (memonly_ok _ _ _ _ _ P2 (memonly_pop _ _ _ _)) as [m2 ->].
  assert (Hcs : 0 <= w16 (fst p2) < 2 ^ 16) by (apply Z.mod_pos_bound; lia).
  destruct (tail_segs X _ _ _ _ _ _ _ r Hcs Hr H) as [Q | ->].
  - exfalso. rewrite Q in L. exact (Z.lt_irrefl _ L).
  - change (seg X (set_mem X m2 (set_mem X m1 s))) with (seg X s). unfold dropped_code, dropped. now rewrite E.
Qed.
Print Assumptions C20_partial.

Definition with_ds (v : segr) (s : st flat) : st flat := set_seg flat (fun r => match r with DS => v | _ => seg flat s r end) s.
(** The bits the code takes for the DPL are bits 0 and 1 of the flags word, which are
    bits 32 and 33 of the descriptor: base bits 16 and 17.  A ring 0 data segment whose
    base has both set survives a return to ring 3 (the other way round, a ring 3 segment
    with those bits clear is dropped). *)
Theorem C20_refuted_kept : exists s u s' d, lret_pe flat 4 s = Ok flat _ u s' /\ ring flat s = 0 /\ ring flat s' = 3 /\
  seg flat s DS = decode 0x10 d /\ stack_ok 0 0x10 d = true /\ seg flat s' DS = decode 0x10 d.
Proof.
  set (d := 0x00CF92030000FFFF).
  assert (H : ok (lret_pe flat 4 (with_ds (decode 0x10 d) (machine 0 2 (frame [0x1234; 0x1B; 0x6000; 0x23]))))
    (fun s => (ring flat s =? 3) && (sel (seg flat s DS) =? 0x10) && (base (seg flat s DS) =? 0x30000) && (limit (seg flat s DS) =? 0xFFFFFFFF) && (sflags (seg flat s DS) =? d / 2 ^ 32)) = true) by (vm_compute; reflexivity).
  apply ok_inv in H as (u & s' & H & Q). exists (with_ds (decode 0x10 d) (machine 0 2 (frame [0x1234; 0x1B; 0x6000; 0x23]))), u, s', d. split; [exact H |].
  split; [reflexivity |]. rewrite !andb_true_iff, !Z.eqb_eq in Q. destruct Q as ((((Q1 & Q2) & Q3) & Q4) & Q5). split; [exact Q1 |].
  split; [reflexivity |]. split; [reflexivity |]. destruct (seg flat s' DS) as [a b c e]. cbn [sel base limit sflags] in *. subst a b c e. reflexivity.
Qed.
Print Assumptions C20_refuted_kept.
Theorem C20_refuted_dropped : exists s u s', lret_pe flat 4 s = Ok flat _ u s' /\ ring flat s = 0 /\ ring flat s' = 3 /\
  dropped 3 (sflags (seg flat s DS)) = false /\ seg flat s DS = decode 0x23 0x00CFF2000000FFFF /\ sel (seg flat s' DS) = 0.
Proof.
  assert (H : ok (lret_pe flat 4 (with_ds (decode 0x23 0x00CFF2000000FFFF) (machine 0 2 (frame [0x1234; 0x1B; 0x6000; 0x23]))))
    (fun s => (ring flat s =? 3) && (sel (seg flat s DS) =? 0)) = true) by (vm_compute; reflexivity).
  apply ok_inv in H as (u & s' & H & Q). eexists _, u, s'. split; [exact H |].
  split; [reflexivity |]. split; [lia |]. split; [vm_compute; reflexivity |]. split; [reflexivity | lia].
Qed.
Print Assumptions C20_refuted_dropped.
Example C20_example :    (* base bits 16-17 clear and DPL 0: dropped, as it should be *)
  ok (lret_pe flat 4 (machine 0 2 (frame [0x1234; 0x1B; 0x6000; 0x23]))) (fun s => (ring flat s =? 3) && (sel (seg flat s DS) =? 0)) = true /\
  sflags (data_of 0) mod 4 = sflags (data_of 0) / 2 ^ 13 mod 4 /\ dropped 3 (sflags (data_of 0)) = true.
Proof. vm_compute. auto. Qed.

(** ** C21: call gates *)

(** A completed far CALL through a gate continues at the selector and the 32-bit offset
    in the gate.  Missing: the 16-bit offset of a 16-bit gate, see below. *)
Theorem C21_call_partial : forall X sl call n ret s u s', 0 <= sl < 2 ^ 16 -> lcall_pe X sl call n ret s = Ok X _ u s' ->
  forall m d, descriptor X s sl m d -> is_system d = true ->
  gate_ok (ring X s) sl d = true /\ sel (seg X s' CS) / 4 = gate_sel d / 4 /\ eip X s' = gate_off32 d /\
  (gate_off32 d < 2 ^ 16 -> eip X s' = gate_off16 d) /\
  exists m1 c, descriptor X (set_mem X m s) (gate_sel d) m1 c /\ is_system c = false /\ is_code c = true /\ is_present c = true /\
    dpl_of c <= ring X s.
Proof.
  intros X sl call n ret s u s' Hs H m d D SY. destruct (lcall_sum X sl call n ret s s' u Hs H) as (N & EF & SGS & m' & d' & D' & C).
  unfold descriptor in D, D'. rewrite D in D'. injection D' as <- <-. destruct C as [(OK & _) | (OK & m1 & c & N2 & DC & SC & IC & PC & DL & IP & CSG & R & _)].
  - unfold direct_ok in OK. rewrite SY in OK. discriminate.
  - split; [exact OK |]. split.
    { rewrite CSG. cbn [decode sel]. unfold errcode. rewrite Z.div_add_l by lia. pose proof (dpl_range c). rewrite (Z.div_small (dpl_of c)) by lia. lia. }
    split; [exact IP |]. split.
    { intros L. rewrite IP. unfold gate_off32, gate_off16 in *. pose proof (Z.mod_pos_bound d (2 ^ 16) ltac:(lia)).
      pose proof (Z.mod_pos_bound (d / 2 ^ 48) (2 ^ 16) ltac:(lia)). lia. }
    exists m1, c. now repeat split.
Qed.
Print Assumptions C21_call_partial.

(** A 16-bit gate: the upper half of the offset is not cut off. *)
Theorem C21_refuted_gate16 : exists s u s' d, lcall_pe flat 0x40 0 4 0x105 s = Ok flat _ u s' /\
  descriptor flat s 0x40 (mem flat s) d /\ type_of d = 4 /\ eip flat s' <> gate_off16 d.
Proof.
  assert (H : ok (lcall_pe flat 0x40 0 4 0x105 (machine 3 2 m0)) (fun s => eip flat s =? 0x12345) = true) by (vm_compute; reflexivity).
  apply ok_inv in H as (u & s' & H & Q). exists (machine 3 2 m0), u, s', 0x0001E40000082345. split; [exact H |]. split.
  { apply flat_desc; vm_compute; reflexivity. }
  split; [reflexivity |]. apply Z.eqb_eq in Q. rewrite Q. discriminate.
Qed.
Print Assumptions C21_refuted_gate16.

(** A far JMP through a gate continues at the offset in the instruction, with the gate's
    own selector in CS. *)
Theorem C21_refuted_jmp : exists s u s' d, ljmp_pe flat 0x30 4 0x9999 s = Ok flat _ u s' /\
  descriptor flat s 0x30 (mem flat s) d /\ gate_ok (ring flat s) 0x30 d = true /\
  eip flat s' = 0x9999 /\ gate_off32 d = 0x12345 /\ sel (seg flat s' CS) / 4 <> gate_sel d / 4.
Proof.
  assert (H : ok (ljmp_pe flat 0x30 4 0x9999 (machine 0 2 m0)) (fun s => (eip flat s =? 0x9999) && (sel (seg flat s CS) =? 0x30)) = true) by (vm_compute; reflexivity).
  apply ok_inv in H as (u & s' & H & Q). exists (machine 0 2 m0), u, s', 0x0001EC0000082345. split; [exact H |]. split.
  { apply flat_desc; vm_compute; reflexivity. }
  split; [reflexivity |]. apply andb_true_iff in Q as [Q1 Q2]. apply Z.eqb_eq in Q1, Q2. split; [exact Q1 |]. split; [reflexivity |]. rewrite Q2. discriminate.
Qed.
Print Assumptions C21_refuted_jmp.

(** What a far JMP through a gate does check: the gate and the segment it names, and the
    loaded code segment is that one (apart from the selector). *)
Theorem C21_jmp_partial : forall X sl jmp s u s', 0 <= sl < 2 ^ 16 -> ljmp_pe X sl 4 jmp s = Ok X _ u s' ->
  forall m d, descriptor X s sl m d -> is_system d = true ->
  gate_ok (ring X s) sl d = true /\ exists m1 c, descriptor X (set_mem X m s) (gate_sel d) m1 c /\ direct_ok (ring X s) 0 c = true /\
    base (seg X s' CS) = base_of c /\ limit (seg X s' CS) = limit_of c.
Proof.
  intros X sl jmp s u s' Hs H m d D SY. destruct (ljmp_sum X sl 4 jmp s s' u eq_refl Hs H) as (N & _ & _ & _ & _ & m' & d' & D' & C).
  unfold descriptor in D, D'. rewrite D in D'. injection D' as <- <-. destruct C as [(OK & _) | (OK & m1 & c & N2 & DC & OKC & IP & CSG)].
  - unfold direct_ok in OK. rewrite SY in OK. discriminate.
  - split; [exact OK |]. exists m1, c. rewrite CSG. now repeat split.
Qed.
Print Assumptions C21_jmp_partial.

Example C21_example :
  ok (lcall_pe flat 0x33 0x9999 4 0x105 (machine 3 2 m0))
    (fun s => (eip flat s =? 0x12345) && (sel (seg flat s CS) =? 0x08) && (ring flat s =? 0) && (sel (seg flat s SS) =? 0x10) && (esp flat s =? 0x7FF0)) = true.
Proof. vm_compute. reflexivity. Qed.

(** ** C51: the privilege level across far jumps and calls *)

(** JMP and direct CALL keep the privilege level and the stack segment. *)
Theorem C51_jmp : forall X sl jmp s u s', 0 <= sl < 2 ^ 16 -> ljmp_pe X sl 4 jmp s = Ok X _ u s' ->
  ring X s' = ring X s /\ ef X s' = ef X s /\ esp X s' = esp X s /\ forall r, r <> CS -> seg X s' r = seg X s r.
Proof. intros X sl jmp s u s' Hs H. destruct (ljmp_sum X sl 4 jmp s s' u eq_refl Hs H) as (_ & A & B & C & D & _). auto. Qed.
Print Assumptions C51_jmp.
Theorem C51_direct : forall X sl jmp s u s' m d, 0 <= sl < 2 ^ 16 -> descriptor X s sl m d -> is_system d = false ->
  (ljmp_pe X sl 4 jmp s = Ok X _ u s' \/ exists n ret, lcall_pe X sl jmp n ret s = Ok X _ u s') ->
  direct_ok (ring X s) sl d = true /\ eip X s' = jmp /\ seg X s' CS = decode (errcode sl + ring X s) d /\ ring X s' = ring X s /\
  seg X s' SS = seg X s SS.
Proof.
  intros X sl jmp s u s' m d Hs D SY [H | (n & ret & H)].
  - destruct (ljmp_sum X sl 4 jmp s s' u eq_refl Hs H) as (N & R & _ & _ & SG & m' & d' & D' & C).
    unfold descriptor in D, D'. rewrite D in D'. injection D' as <- <-. destruct C as [(OK & IP & CSG) | (OK & _)].
    + rewrite (SG SS) by discriminate. auto. + unfold gate_ok in OK. rewrite SY in OK. discriminate.
  - destruct (lcall_sum X sl jmp n ret s s' u Hs H) as (N & _ & _ & m' & d' & D' & C).
    unfold descriptor in D, D'. rewrite D in D'. injection D' as <- <-. destruct C as [(OK & IP & CSG & R & SG) | (OK & _)].
    + auto. + unfold gate_ok in OK. rewrite SY in OK. discriminate.
Qed.
Print Assumptions C51_direct.

(** A CALL through a gate to a nonconforming segment enters the ring of that segment,
    which is not an outer one, and switches to the stack the TSS has for it exactly if
    the ring changes. *)
Theorem C51_gate_partial : forall X sl call n ret s u s' m g m1 c, 0 <= sl < 2 ^ 16 -> lcall_pe X sl call n ret s = Ok X _ u s' ->
  descriptor X s sl m g -> is_system g = true -> descriptor X (set_mem X m s) (gate_sel g) m1 c -> is_conforming c = false ->
  ring X s' = dpl_of c /\ ring X s' <= ring X s /\
  if ring X s' <? ring X s
  then exists e ss m2 m3 sd, read_stack_ptr_from_tss X (ring X s') 0 (set_mem X m1 s) = Ok X _ (e, ss) (set_mem X m2 s) /\
         descriptor X (set_mem X m2 s) ss m3 sd /\ stack_ok (ring X s') ss sd = true /\ is_present sd = true /\ seg X s' SS = decode ss sd
  else seg X s' SS = seg X s SS.
Proof.
  intros X sl call n ret s u s' m g m1 c Hs H D SY DC NC. destruct (lcall_sum X sl call n ret s s' u Hs H) as (N & EF & SGS & m' & d' & D' & C).
  unfold descriptor in D, D'. rewrite D in D'. injection D' as <- <-. destruct C as [(OK & _) | (OK & m1' & c' & N2 & DC' & SC & IC & PC & DL & IP & CSG & R & SW)].
  - unfold direct_ok in OK. rewrite SY in OK. discriminate.
  - unfold descriptor in DC, DC'. rewrite DC in DC'. injection DC' as <- <-. rewrite NC in SW. cbn [negb andb] in SW. rewrite R. split; [reflexivity |]. split; [exact DL |].
    destruct (dpl_of c <? ring X s); [| exact SW]. destruct SW as (e & ss & m2 & m4 & sd & T & _ & DS & SO & P & G).
    exists e, ss, m2, m4, sd. now repeat split.
Qed.
Print Assumptions C51_gate_partial.

(** Missing: conforming targets, whose CPL should stay the same.  Ring 3 calls through a
    gate into a conforming segment of DPL 0 and runs at ring 0, on its own stack. *)
Theorem C51_refuted_conforming : exists s u s' g c, ring flat s = 3 /\ lcall_pe flat 0x3B 0 4 0x105 s = Ok flat _ u s' /\
  descriptor flat s 0x3B (mem flat s) g /\ descriptor flat s (gate_sel g) (mem flat s) c /\ is_conforming c = true /\
  ring flat s' = 0 /\ seg flat s' SS = seg flat s SS.
Proof.
  assert (H : ok (lcall_pe flat 0x3B 0 4 0x105 (machine 3 2 m0)) (fun s => (ring flat s =? 0) && (sel (seg flat s CS) =? 0x28)) = true) by (vm_compute; reflexivity).
  apply ok_inv in H as (u & s' & H & Q). exists (machine 3 2 m0), u, s', 0x0001EC0000282345, 0x00CF9E000000FFFF.
  assert (D1 : descriptor flat (machine 3 2 m0) 0x3B (mem flat (machine 3 2 m0)) 0x0001EC0000282345) by (apply flat_desc; vm_compute; reflexivity).
  assert (D2 : descriptor flat (machine 3 2 m0) 0x28 (mem flat (machine 3 2 m0)) 0x00CF9E000000FFFF) by (apply flat_desc; vm_compute; reflexivity).
  split; [reflexivity |]. split; [exact H |]. split; [exact D1 |]. split; [exact D2 |]. split; [reflexivity |].
  apply andb_true_iff in Q as [Q1 _]. split; [now apply Z.eqb_eq |].
  destruct (lcall_sum flat 0x3B 0 4 0x105 _ s' u ltac:(lia) H) as (_ & _ & _ & m' & d' & D' & C). unfold descriptor in D1, D2, D'. rewrite D1 in D'. injection D' as <- <-.
  destruct C as [(OK & _) | (OK & m1' & c' & N2 & DC' & SC & IC & PC & DL & IP & CSG & R & SW)]; [vm_compute in OK; discriminate OK |].
  assert (DC2 : descriptor flat (machine 3 2 m0) 0x28 m1' c') by exact DC'. unfold descriptor in DC2. rewrite D2 in DC2. injection DC2 as E1 E2.
  rewrite <- E2 in SW. exact SW.
Qed.
Print Assumptions C51_refuted_conforming.

Example C51_example :    (* the gate of C21_example leads to a nonconforming segment *)
  is_conforming 0x00CF9A000000FFFF = false /\ gate_ok 3 0x33 0x0001EC0000082345 = true /\ gate_sel 0x0001EC0000082345 = 0x08 /\
  ok (ljmp_pe flat 0x1B 4 0x9999 (machine 3 2 m0)) (fun s => (eip flat s =? 0x9999) && (ring flat s =? 3)) = true.
Proof. vm_compute. auto. Qed.
