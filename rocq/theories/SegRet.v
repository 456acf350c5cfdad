(** * RETF and IRET: completed executions *)

From Coq Require Import ZArith Bool List Lia ZifyBool.
From Verif Require HostModel AluModel AluSpec LazyFlagsProofs FlagsApiProofs.
From Verif Require Import SegModel SegSpec SegBits SegProofs SegFar.
Import ListNotations.
Local Open Scope Z_scope.

Section Ret.
Context (X : memsys).
Notation st := (st X).
Implicit Types s : st.

Lemma vm_eq s : nz (ef X s .& VM_MASK) = vm X s.
Proof. change VM_MASK with (1 << 17). apply nz_fld. lia. Qed.
Lemma iopl_eq s : (ef X s .& IOPL_MASK) >> 12 = iopl X s.
Proof. change IOPL_MASK with (Z.ones 2 << 12). rewrite fieldr by lia. unfold iopl. change (2 ^ (12 - 12)) with 1. change (2 ^ 2) with 4. lia. Qed.
Lemma iopl_bits s : iopl X s = (if Z.testbit (ef X s) 12 then 1 else 0) + (if Z.testbit (ef X s) 13 then 2 else 0).
Proof.
  unfold iopl. set (x := ef X s). rewrite <- Z.shiftr_div_pow2 by lia. set (y := x >> 12).
  assert (B0 : Z.testbit x 12 = Z.testbit y 0) by (unfold y; now rewrite Z.shiftr_spec by lia).
  assert (B1 : Z.testbit x 13 = Z.testbit y 1) by (unfold y; now rewrite Z.shiftr_spec by lia).
  rewrite B0, B1. rewrite <- (Z.mod_pow2_bits_low y 2 0), <- (Z.mod_pow2_bits_low y 2 1) by lia. change (2 ^ 2) with 4.
  destruct (four (y mod 4) (Z.mod_pos_bound y 4 ltac:(lia))) as [-> | [-> | [-> | ->]]]; reflexivity.
Qed.

(** one bit of EFLAGS after write_eflags_helper *)
Lemma wef_bit v m s i : 0 <= i < 32 -> i <> 1 ->
  Z.testbit (ef X (write_eflags_helper X v m s)) i = if Z.testbit m i then Z.testbit v i else Z.testbit (ef X s) i.
Proof.
  intros Hi H1. unfold write_eflags_helper, AluModel.write_eflags_helper. cbn [ef set_laux set_lres set_ef HostModel.eflags HostModel.set_eflags flagctx].
  rewrite !Z.lor_spec, !Z.land_spec. rewrite LazyFlagsProofs.w32_bit by lia. rewrite Z.lnot_spec by lia.
  replace (Z.testbit 2 i) with false. 2:{ symmetry. change 2 with (2 ^ 1). apply Z.pow2_bits_false. lia. }
  destruct (Z.testbit m i); rewrite ?andb_true_r, ?andb_false_r, ?orb_false_r; reflexivity.
Qed.
Lemma wef_seg v m s : seg X (write_eflags_helper X v m s) = seg X s. Proof. reflexivity. Qed.
Lemma wef_ring v m s : ring X (write_eflags_helper X v m s) = ring X s. Proof. reflexivity. Qed.

(** ** lret_tail, summarised *)
Lemma ef_load r sl d s : ef X (load_desc X r sl d s) = ef X s. Proof. now destruct r. Qed.

Lemma tail_sum n ip cs e1 s s' u : 0 <= cs < 2 ^ 16 -> lret_tail X n ip cs e1 s = Ok X _ u s' ->
  exists m d, cs_checked X s cs d m /\ ring X s' = rpl cs /\ seg X s' CS = decode cs d /\ eip X s' = ip /\ ef X s' = ef X s.
Proof.
  intros Hcs H. destruct (tail_inv _ _ _ _ _ _ _ _ Hcs H) as (m0 & m & d & CC & RR & [[E ->] | (L & p1 & p2 & m1 & m2 & m3 & sd & P1 & P2 & N2 & D & SR & SO & PR & e' & -> & EE)]);
    exists m0, d; (split; [exact CC |]).
  - unfold load_desc at 1. rewrite ring_cs. split; [reflexivity |]. split; [now apply decode_eq |]. split; [reflexivity |]. now rewrite ef_load.
  - unfold validated. rewrite !ring_validate by discriminate. rewrite !validate_frame by discriminate. rewrite !validate_eip, !validate_ef.
    split; [apply ring_cs |]. split; [now apply decode_eq |]. split; [reflexivity |]. unfold outer_pre. cbn [ef set_eip set_esp]. now rewrite !ef_load.
Qed.

Lemma retf_sum n s s' u : n = 2 \/ n = 4 -> lret_pe X n s = Ok X _ u s' ->
  exists ip cs m m1 d, pops X s n 0 [ip; cs] (mem X s) m /\
    cs_checked X (set_mem X m s) (cs mod 2 ^ 16) d m1 /\
    ring X s' = rpl (cs mod 2 ^ 16) /\ seg X s' CS = decode (cs mod 2 ^ 16) d /\ eip X s' = ip /\ ef X s' = ef X s.
Proof.
  intros Hn H. unfold lret_pe in H. unfold bind at 1, get at 1 in H.
  apply bind_ok in H as ([ip e1] & s1 & P1 & H). apply bind_ok in H as ([cs e2] & s2 & P2 & H). cbn [fst snd] in *.
  assert (E0 : esp X s mod stack_mod X s n = (esp X s + n * 0) mod stack_mod X s n) by (f_equal; lia).
  destruct (pop_inv _ _ _ _ _ _ _ 0 Hn E0 P1) as (m1 & -> & R1 & E1).
  destruct (pop_inv _ _ _ (set_mem X m1 s) _ _ _ (0 + 1) Hn E1 P2) as (m2 & -> & R2 & E2).
  change (set_mem X m2 (set_mem X m1 s)) with (set_mem X m2 s) in H.
  assert (Hcs : 0 <= cs mod 2 ^ 16 < 2 ^ 16) by (apply Z.mod_pos_bound; lia).
  destruct (tail_sum _ _ _ _ _ _ _ Hcs H) as (m & d & CC & R & SG & IP & EF).
  exists ip, cs, m2, m, d. split. { exists m1. split; [exact R1 |]. exists m2. split; [exact R2 | reflexivity]. }
  split; [exact CC |]. split; [exact R |]. split; [exact SG |]. split; [exact IP | exact EF].
Qed.

(** IRET outside VM86 mode and not to VM86 mode *)
Definition iret_mask (s : st) (n : Z) : Z :=
  (if n =? 2 then NT_MASK .| DF_MASK .| TF_MASK
   else if ring X s =? 0 then ID_MASK .| AC_MASK .| RF_MASK .| NT_MASK .| DF_MASK .| TF_MASK .| (VIP_MASK .| VIF_MASK .| VM_MASK .| IOPL_MASK)
   else ID_MASK .| AC_MASK .| RF_MASK .| NT_MASK .| DF_MASK .| TF_MASK)
  .| (if ring X s <=? iopl X s then IF_MASK else 0).

Lemma iret_sum n s s' u : n = 2 \/ n = 4 -> vm X s = false -> iret_pe X n s = Ok X _ u s' ->
  exists ip cs fl m, pops X s n 0 [ip; cs; fl] (mem X s) m /\
  if Z.testbit fl 17 then
    ring X s' = 3 /\ sel (seg X s' CS) = cs mod 2 ^ 16 /\ eip X s' = ip /\ n = 4 /\
    forall i, 0 <= i < 32 -> i <> 1 -> Z.testbit (ef X s') i =
      if Z.testbit (TF_MASK .| AC_MASK .| ID_MASK .| IF_MASK .| IOPL_MASK .| VM_MASK .| NT_MASK .| VIF_MASK .| VIP_MASK) i
      then Z.testbit fl i else Z.testbit (ef X s) i
  else
    exists s1 m1 d, cs_checked X (set_mem X m s) (cs mod 2 ^ 16) d m1 /\ s' = write_eflags_helper X fl (iret_mask s n) s1 /\
      ring X s1 = rpl (cs mod 2 ^ 16) /\ seg X s1 CS = decode (cs mod 2 ^ 16) d /\ eip X s1 = ip /\ ef X s1 = ef X s.
Proof.
  intros Hn V H. unfold iret_pe in H. unfold bind at 1, get at 1 in H. rewrite vm_eq, V in H.
  destruct (nz (ef X s .& NT_MASK)); [discriminate |].
  apply bind_ok in H as ([ip e1] & s1 & P1 & H). apply bind_ok in H as ([cs e2] & s2 & P2 & H). apply bind_ok in H as ([fl e3] & s3 & P3 & H). cbn [fst snd] in *.
  assert (E0 : esp X s mod stack_mod X s n = (esp X s + n * 0) mod stack_mod X s n) by (f_equal; lia).
  destruct (pop_inv _ _ _ _ _ _ _ 0 Hn E0 P1) as (m1 & -> & R1 & E1).
  destruct (pop_inv _ _ _ (set_mem X m1 s) _ _ _ (0 + 1) Hn E1 P2) as (m2 & -> & R2 & E2).
  destruct (pop_inv _ _ _ (set_mem X m2 s) _ _ _ (0 + 1 + 1) Hn E2 P3) as (m3 & -> & R3 & E3).
  change (set_mem X m3 (set_mem X m2 (set_mem X m1 s))) with (set_mem X m3 s) in H.
  assert (Hcs : 0 <= cs mod 2 ^ 16 < 2 ^ 16) by (apply Z.mod_pos_bound; lia).
  exists ip, cs, fl, m3. split. { exists m1. split; [exact R1 |]. exists m2. split; [exact R2 |]. exists m3. now split. }
  change VM_MASK with (1 << 17) in H at 1. rewrite nz_fld in H by lia. destruct (Z.testbit fl 17) eqn:VF.
  - assert (N4 : n = 4).
    { destruct Hn as [-> | ->]; [| reflexivity]. apply (rd_range X) in R3. exfalso.
      rewrite (Z.bits_above_log2 fl 17) in VF; [discriminate | lia |].
      destruct (Z.eq_dec fl 0) as [-> | NZ]; [cbn; lia |]. apply Z.log2_lt_pow2; [lia |]. change (2 ^ (8 * 2)) with (2 ^ 16) in R3. lia. }
    repeat (apply bind_ok in H as ([? ?] & ? & ?P & H); apply memonly_ok with (1 := P) in P || idtac).
    all: repeat match goal with P : stack_pop X 4 _ ?t = Ok X _ _ ?s2 |- _ =>
      let m := fresh "mm" in destruct (memonly_ok _ _ _ _ _ P (memonly_pop _ _ _ _)) as [m ->]; clear P end.
    apply upd_inv in H. subst s'. cbn [fst snd]. split; [| split; [| split; [| split]]].
    + rewrite ring_hfl. rewrite land3, Z.land_lor_distr_l, <- Z.land_assoc. change (not32 HFLG_CPL .& 3) with 0. now rewrite Z.land_0_r.
    + reflexivity.
    + reflexivity.
    + exact N4.
    + intros i Hi H1. change (Z.testbit (ef X (write_eflags_helper X fl (TF_MASK .| AC_MASK .| ID_MASK .| IF_MASK .| IOPL_MASK .| VM_MASK .| NT_MASK .| VIF_MASK .| VIP_MASK) s)) i = 
         if Z.testbit (TF_MASK .| AC_MASK .| ID_MASK .| IF_MASK .| IOPL_MASK .| VM_MASK .| NT_MASK .| VIF_MASK .| VIP_MASK) i then Z.testbit fl i else Z.testbit (ef X s) i).
      now apply wef_bit.
  - cbv zeta in H. apply bind_ok in H as (u1 & s4 & HT & H). apply upd_inv in H.
    destruct (tail_sum _ _ _ _ _ _ _ Hcs HT) as (m & d & CC & R & SG & IP & EF).
    exists s4, m, d. split; [exact CC |]. split; [| now repeat split].
    rewrite H. f_equal. rewrite cpl_mod, iopl_eq. unfold iret_mask. change (2 =? 2) with true.
    destruct (ring X s <=? iopl X s), (ring X s =? 0), (n =? 2); rewrite ?Z.lor_0_r; reflexivity.
Qed.

End Ret.
