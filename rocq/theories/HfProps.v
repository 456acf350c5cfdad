(** * C84: the x87 instructions compute the documented function of the guest's registers,
    under the guest's control word, and leave the host's unit as it was *)

From Coq Require Import ZArith Bool List Lia.
From Verif Require Import FpuModel FpuSpec FpuProofs FpuProps FpuProps2 FpuProps3 HfModel HfSpec HfProofs.
Import ListNotations.
Local Open Scope Z_scope.

(** ** The results *)

Lemma done_agrees A E i w s m : sane A -> fexec E (doc A (hcc w) i) (g w) = FDone s m true ->
  exists w', hexec A E i w = HDone w' m /\ g w' = s /\ host_kept w w'.
Proof.
  intros SA H. pose proof (refines A E i w SA) as R. rewrite H in R.
  destruct (hexec A E i w) as [w' m' | | | |]; try contradiction. destruct R as (R1 & R2 & R3).
  exists w'. now rewrite R2.
Qed.

(** FADD, FSUB, FSUBR, FMUL, FDIV, FDIVR between registers: opcode byte D8 has the
    destination ST(0), DC and DE have the destination ST(i), and DE pops. *)
Theorem C84_arith_register : forall A E w o opc i a b, sane A -> opc = 0xD8 \/ opc = 0xDC \/ opc = 0xDE ->
  ready E (g w) -> wf (g w) -> synced (g w) -> 0 <= i < 8 -> st (g w) 0 = Some a -> st (g w) i = Some b ->
  exists w', hexec A E (HarithSt o opc i) w = HDone w' None /\ host_kept w w' /\
    let '(v, e, c) := if opc =? 0xD8 then documented A o (working_cw (g w)) (hcc w) (OReg a) (OReg b)
                      else documented A o (working_cw (g w)) (hcc w) (OReg b) (OReg a) in
    computed (g w) (if opc =? 0xD8 then 0 else i) v (Z.lor e c) (opc =? 0xDE) (g w').
Proof.
  intros A E w o opc i a b SA HO R W SY Hi H0 HI. unfold synced in SY. rewrite <- SY.
  pose proof (C28_arith_register_partial E (g w) (form opc) i
    (fun d s cw => sw3 (documented A o cw (hcc w) (OReg d) (OReg s))) R W Hi) as (s' & X & Y).
  destruct (done_agrees A E (HarithSt o opc i) w s' None SA X) as (w' & P & Q & K). exists w'.
  split; [exact P |]. split; [exact K |]. rewrite Q.
  destruct HO as [-> | [-> | ->]]; unfold form in Y;
    repeat match goal with |- context [?x =? ?y] => let z := eval vm_compute in (x =? y) in change (x =? y) with z end;
    repeat match type of Y with context [?x =? ?y] => let z := eval vm_compute in (x =? y) in change (x =? y) with z in Y end;
    cbv iota in *; rewrite H0, HI in Y.
  - destruct (documented A o (frp (g w)) (hcc w) (OReg a) (OReg b)) as [[v e] c]. exact Y.
  - destruct (documented A o (frp (g w)) (hcc w) (OReg b) (OReg a)) as [[v e] c]. exact Y.
  - destruct (documented A o (frp (g w)) (hcc w) (OReg b) (OReg a)) as [[v e] c]. exact Y.
Qed.
Print Assumptions C84_arith_register.

(** the memory operand of the arithmetic instructions by opcode byte *)
Definition memory_form (opc m : Z) (x : operand) : Prop :=
  (opc = 0xD8 /\ x = OFloat 4 m) \/ (opc = 0xDC /\ x = OFloat 8 m) \/
  (opc = 0xDA /\ x = OInt 4 m) \/ (opc = 0xDE /\ x = OInt 2 m).

Theorem C84_arith_memory : forall A E w o opc m x a, sane A -> memory_form opc m x ->
  ready E (g w) -> wf (g w) -> synced (g w) -> st (g w) 0 = Some a ->
  exists w', hexec A E (HarithMem o opc (Some m)) w = HDone w' None /\ host_kept w w' /\
    let '(v, e, c) := documented A o (working_cw (g w)) (hcc w) (OReg a) x in
    computed (g w) 0 v (Z.lor e c) false (g w').
Proof.
  intros A E w o opc m x a SA HO R W SY H0. unfold synced in SY. rewrite <- SY.
  set (h := fun d m cw => sw3 (documented A o cw (hcc w) (OReg d) (mem_operand opc m))).
  destruct (proj1 (C28_compute_st0 E (g w) (FarithMem (Some m) h) R W) a H0 _ _ (st0_mem _ m h a)) as (s' & X & Y).
  destruct (done_agrees A E (HarithMem o opc (Some m)) w s' None SA X) as (w' & P & Q & K). exists w'.
  split; [exact P |]. split; [exact K |]. rewrite Q. unfold h in Y.
  assert (M : mem_operand opc m = x) by (destruct HO as [(-> & ->) | [(-> & ->) | [(-> & ->) | (-> & ->)]]]; reflexivity).
  rewrite M in Y. destruct (documented A o (frp (g w)) (hcc w) (OReg a) x) as [[v e] c]. exact Y.
Qed.
Print Assumptions C84_arith_memory.

(** FCOM, FCOMP and FCOMPP compare ST(0) with the operand, in that order; the condition
    codes the guest sees are those of that comparison. *)
Theorem C84_compare : forall A E w i n a b, sane A -> ready E (g w) -> wf (g w) -> synced (g w) ->
  st (g w) 0 = Some a -> st (g w) i = Some b ->
  exists w', hexec A E (HcomSt i n) w = HDone w' None /\ host_kept w w' /\
    let '(e, c) := a_cmp A (working_cw (g w)) (hcc w) (OReg a) (OReg b) in
    ((unmasked (g w) (Z.lor e c) /\ same_stack (g w) (g w')) \/ (~ unmasked (g w) (Z.lor e c) /\ popped_n n (g w) (g w'))).
Proof.
  intros A E w i n a b SA R W SY H0 HI. unfold synced in SY. rewrite <- SY.
  pose proof (C28_compare E (g w) _ _ n _ R W (compares_st (g w) i n
    (fun a b cw => let '(e, c) := a_cmp A cw (hcc w) (OReg a) (OReg b) in Z.lor e c))) as (s' & X & Y).
  destruct (done_agrees A E (HcomSt i n) w s' None SA X) as (w' & P & Q & K). exists w'.
  split; [exact P |]. split; [exact K |]. rewrite H0, HI in Y. cbv zeta in Y. rewrite Q.
  destruct (a_cmp A (frp (g w)) (hcc w) (OReg a) (OReg b)) as [e c]. exact Y.
Qed.
Print Assumptions C84_compare.
Theorem C84_compare_memory : forall A E w opc m n a, sane A -> opc = 0xD8 \/ opc = 0xDC ->
  ready E (g w) -> wf (g w) -> synced (g w) -> st (g w) 0 = Some a ->
  exists w', hexec A E (HcomMem opc (Some m) n) w = HDone w' None /\ host_kept w w' /\
    let '(e, c) := a_cmp A (working_cw (g w)) (hcc w) (OReg a) (OFloat (if opc =? 0xD8 then 4 else 8) m) in
    ((unmasked (g w) (Z.lor e c) /\ same_stack (g w) (g w')) \/ (~ unmasked (g w) (Z.lor e c) /\ popped_n n (g w) (g w'))).
Proof.
  intros A E w opc m n a SA HO R W SY H0. unfold synced in SY. rewrite <- SY.
  pose proof (C28_compare E (g w) _ _ n _ R W (compares_mem (g w) m n
    (fun a m cw => let '(e, c) := a_cmp A cw (hcc w) (OReg a) (OFloat (if opc =? 0xD8 then 4 else 8) m) in Z.lor e c))) as (s' & X & Y).
  destruct (done_agrees A E (HcomMem opc (Some m) n) w s' None SA X) as (w' & P & Q & K). exists w'.
  split; [exact P |]. split; [exact K |]. rewrite H0 in Y. cbv zeta in Y. rewrite Q.
  destruct (a_cmp A (frp (g w)) (hcc w) (OReg a) (OFloat (if opc =? 0xD8 then 4 else 8) m)) as [e c]. exact Y.
Qed.
Print Assumptions C84_compare_memory.

(** FSQRT, and FPATAN: the arctangent of ST(1) over ST(0) replaces ST(1) and ST(0) is popped *)
Theorem C84_sqrt_patan : forall A E w a, sane A -> ready E (g w) -> wf (g w) -> synced (g w) -> st (g w) 0 = Some a ->
  (exists w', hexec A E Hsqrt w = HDone w' None /\ host_kept w w' /\
     let '(v, e, c) := a_un A Usqrt (working_cw (g w)) (hcc w) a in computed (g w) 0 v (Z.lor e c) false (g w')) /\
  (forall b, st (g w) 1 = Some b ->
   exists w', hexec A E Hpatan w = HDone w' None /\ host_kept w w' /\
     let '(v, e, c) := a_patan A (working_cw (g w)) (hcc w) b a in computed (g w) 1 v (Z.lor e c) true (g w')).
Proof.
  intros A E w a SA R W SY H0. unfold synced in SY. rewrite <- SY. split.
  - set (h := fun x cw => sw3 (a_un A Usqrt cw (hcc w) x)).
    destruct (proj1 (C28_compute_st0 E (g w) (Fsqrt h) R W) a H0 _ _ (st0_sqrt _ h a)) as (s' & X & Y).
    destruct (done_agrees A E Hsqrt w s' None SA X) as (w' & P & Q & K). exists w'.
    split; [exact P |]. split; [exact K |]. rewrite Q. unfold h in Y.
    destruct (a_un A Usqrt (frp (g w)) (hcc w) a) as [[v e] c]. exact Y.
  - intros b H1. pose proof (C28_patan E (g w) (fun y x cw => sw3 (a_patan A cw (hcc w) y x)) R W) as (s' & X & Y).
    destruct (done_agrees A E Hpatan w s' None SA X) as (w' & P & Q & K). exists w'.
    split; [exact P |]. split; [exact K |]. rewrite Q. rewrite H0, H1 in Y.
    destruct (a_patan A (frp (g w)) (hcc w) b a) as [[v e] c]. exact Y.
Qed.
Print Assumptions C84_sqrt_patan.

(** FSIN, FCOS and FSINCOS for operands in range *)
Definition c2 (sw : Z) : bool := Z.testbit sw 10.
Theorem C84_sine_cosine_partial : forall A E w a, sane A -> ready E (g w) -> wf (g w) -> synced (g w) -> st (g w) 0 = Some a ->
  (forall u v e c, a_un A u (working_cw (g w)) (hcc w) a = (v, e, c) -> c2 (Z.lor e c) = false ->
   exists w', hexec A E (Htrig u) w = HDone w' None /\ host_kept w w' /\
     ((unmasked (g w) (Z.lor e c) /\ same_stack (g w) (g w')) \/
      (~ unmasked (g w) (Z.lor e c) /\ replaced 0 v (g w) (g w')))) /\
  (forall sn cs e c, a_sincos A (working_cw (g w)) (hcc w) a = (sn, cs, e, c) -> c2 (Z.lor e c) = false -> st (g w) 7 = None ->
   exists w', hexec A E Hsincos w = HDone w' None /\ host_kept w w' /\
     ((unmasked (g w) (Z.lor e c) /\ same_stack (g w) (g w')) \/
      (~ unmasked (g w) (Z.lor e c) /\ then_ (replaced 0 sn) (pushed cs) (g w) (g w')))).
Proof.
  intros A E w a SA R W SY H0. unfold synced in SY. rewrite <- SY. split.
  - intros u v e c H HC. set (h := fun x cw => sw3 (a_un A u cw (hcc w) x)).
    pose proof (C28_trig E (g w) h R W) as (s' & r & X & Y). rewrite H0 in Y.
    assert (HV : h a (frp (g w)) = (v, Z.lor e c)) by (unfold h; now rewrite H).
    rewrite HV in Y. unfold c2 in HC. rewrite HC in Y.
    assert (r = true).
    { cbn [fexec] in X. rewrite (ready_start E (g w)) in X by exact R. unfold stack_underflow_reg in X.
      set (t := clear_c2 (clear_c1 (update_ptr E (g w)))) in X. destruct (is_tag_empty t 0); [cbn [fst snd] in X; congruence |]. cbn [fst snd] in X.
      assert (C : core_eq (g w) t) by now repeat split.
      rewrite (load_st t 0 a W ltac:(now rewrite (core_st _ _ _ C))) in X. change (frp t) with (frp (g w)) in X. rewrite HV in X.
      unfold post_check in X. destruct (post_unmasked EXP_ALL (Z.lor e c) t); [congruence |].
      rewrite c2_post in X. unfold SW_C2 in X. change 1024 with (2 ^ 10) in X. rewrite nz_bit in X by lia. rewrite HC in X. congruence. }
    subst r. destruct (done_agrees A E (Htrig u) w s' None SA X) as (w' & P & Q & K). exists w'.
    split; [exact P |]. split; [exact K |]. rewrite Q. exact Y.
  - intros sn cs e c H HC H7. set (h := fun x cw => let '(sn, cs, e, c) := a_sincos A cw (hcc w) x in (sn, cs, Z.lor e c)).
    pose proof (C28_sincos E (g w) h R W) as (s' & r & X & Y). rewrite H0, H7 in Y.
    assert (HV : h a (frp (g w)) = (sn, cs, Z.lor e c)) by (unfold h; now rewrite H).
    rewrite HV in Y. unfold c2 in HC. rewrite HC in Y.
    assert (r = true).
    { cbn [fexec] in X. rewrite (ready_start E (g w)) in X by exact R. unfold stack_fault_fsincos in X.
      set (t := clear_c2 (clear_c1 (update_ptr E (g w)))) in X. destruct (is_tag_empty t 0 || negb (is_tag_empty t (-1))); [cbn [fst snd] in X; congruence |]. cbn [fst snd] in X.
      assert (C : core_eq (g w) t) by now repeat split.
      rewrite (load_st t 0 a W ltac:(now rewrite (core_st _ _ _ C))) in X. change (frp t) with (frp (g w)) in X. rewrite HV in X.
      unfold post_check in X. destruct (post_unmasked EXP_ALL (Z.lor e c) t); [congruence |].
      rewrite c2_post in X. unfold SW_C2 in X. change 1024 with (2 ^ 10) in X. rewrite nz_bit in X by lia. rewrite HC in X. congruence. }
    subst r. destruct (done_agrees A E Hsincos w s' None SA X) as (w' & P & Q & K). exists w'.
    split; [exact P |]. split; [exact K |]. rewrite Q. exact Y.
Qed.
Print Assumptions C84_sine_cosine_partial.

(** FLD and FILD push the converted operand, FST and FIST write the converted ST(0). *)
Theorem C84_load : forall A E w (int : bool) b m, sane A -> ready E (g w) -> wf (g w) -> synced (g w) -> st (g w) 7 = None ->
  exists w', hexec A E (HldMem int b (Some m)) w = HDone w' None /\ host_kept w w' /\
    let '(v, e, c) := a_load A (working_cw (g w)) (hcc w) (if int then OInt b m else OFloat b m) in
    if negb int && Z.testbit (Z.lor e c) 0 && negb (im (g w)) then same_stack (g w) (g w') else pushed v (g w) (g w').
Proof.
  intros A E w int b m SA R W SY H7. unfold synced in SY. rewrite <- SY.
  set (h := fun m cw => sw3 (a_load A cw (hcc w) (if int then OInt b m else OFloat b m))).
  assert (L : loads (FldMem int (Some m) h) (frp (g w)) (fst (h m (frp (g w)))) (if int then 0 else snd (h m (frp (g w))))).
  { destruct int; constructor. }
  pose proof (C28_load E (g w) _ _ _ R W L) as (s' & X & Y). rewrite H7 in Y.
  destruct (done_agrees A E (HldMem int b (Some m)) w s' None SA X) as (w' & P & Q & K). exists w'.
  split; [exact P |]. split; [exact K |]. rewrite Q. unfold h in Y.
  destruct (a_load A (frp (g w)) (hcc w) (if int then OInt b m else OFloat b m)) as [[v e] c]. destruct int; exact Y.
Qed.
Print Assumptions C84_load.
Theorem C84_store : forall A E w (int : bool) b addr edx qnan (pop : bool) a, sane A -> ready E (g w) -> wf (g w) -> synced (g w) ->
  st (g w) 0 = Some a -> edx = addr ->
  let '(v, e, c) := a_store A int b (working_cw (g w)) (hcc w) a in
  ~ unmasked (g w) (Z.lor e c) ->
  exists w', hexec A E (HstMem int b addr edx qnan true pop) w = HDone w' (Some (addr, v)) /\ host_kept w w' /\
    (if pop then popped (g w) (g w') else same_stack (g w) (g w')).
Proof.
  intros A E w int b addr edx qnan pop a SA R W SY H0 HE. unfold synced in SY. rewrite <- SY.
  pose proof (C28_store_memory_partial E (g w) addr edx qnan true pop (fun v cw => sw3 (a_store A int b cw (hcc w) v)) R W HE) as Y.
  rewrite H0 in Y. cbv beta in Y. destruct (a_store A int b (frp (g w)) (hcc w) a) as [[v e] c]. cbn [sw3] in Y. intros U.
  destruct Y as [(Y & _) | [(_ & _ & s' & X & Y) | (_ & Y & _)]]; [contradiction | | discriminate].
  destruct (done_agrees A E (HstMem int b addr edx qnan true pop) w s' _ SA X) as (w' & P & Q & K). exists w'.
  split; [exact P |]. split; [exact K |]. rewrite Q. exact Y.
Qed.
Print Assumptions C84_store.

(** ** Histories *)

(** the guest's unit keeps the word given to the host in step with the control word *)
Definition ctl (s : fpu) : Z * Z := (fctrl s, frp s).
Lemma ctl_over s : ctl (snd (stack_overflow s)) = ctl s.
Proof. unfold stack_overflow. destruct (negb _); [destruct (masked s) |]; reflexivity. Qed.
Lemma ctl_under i d p s : ctl (snd (stack_underflow_reg i d p s)) = ctl s.
Proof. unfold stack_underflow_reg. destruct (is_tag_empty s i); [destruct (masked s), p |]; reflexivity. Qed.
Lemma ctl_iter n f s : (forall s, ctl (f s) = ctl s) -> ctl (Nat.iter n f s) = ctl s.
Proof. intros F. induction n; [reflexivity |]. cbn [Nat.iter nat_rect]. change (nat_rect _ s (fun _ => f) n) with (Nat.iter n f s). now rewrite F. Qed.
Lemma ctl_fcom a b n s : ctl (snd (stack_fault_fcom a b n s)) = ctl s.
Proof.
  unfold stack_fault_fcom. destruct (a || b); [| reflexivity]. cbn [snd].
  match goal with |- ctl (stack_fault _ (if ?m then Nat.iter n fpu_pop ?u else _)) = _ => destruct m; [exact (ctl_iter n fpu_pop u (fun _ => eq_refl)) | reflexivity] end.
Qed.
Lemma ctl_sincos s : ctl (snd (stack_fault_fsincos s)) = ctl s.
Proof. unfold stack_fault_fsincos. destruct (_ || _); [| reflexivity]. destruct (masked s), (is_tag_empty s 0); reflexivity. Qed.
Lemma ctl_patan s : ctl (snd (stack_fault_fpatan s)) = ctl s.
Proof. unfold stack_fault_fpatan. destruct (_ || _); [destruct (masked s) |]; reflexivity. Qed.
Lemma ctl_fxch i s : ctl (snd (stack_fault_fxch i s)) = ctl s.
Proof. unfold stack_fault_fxch. destruct (_ || _); [| reflexivity]. destruct (masked s); [destruct (is_tag_empty s 0), (is_tag_empty s i) |]; reflexivity. Qed.

Lemma synced_ctl s t : ctl t = ctl s -> synced s -> synced t.
Proof. unfold ctl, synced, working_cw. intros H. assert (fctrl t = fctrl s) by congruence. assert (frp t = frp s) by congruence. congruence. Qed.

Ltac kept := apply (synced_ctl _ _ eq_refl); assumption.
Lemma synced_exec E i s : synced s -> okd synced (fexec E i s).
Proof.
  intros H. assert (H1 : synced (clear_c1 (update_ptr E s))) by kept.
  assert (H2 : synced (clear_c2 (clear_c1 (update_ptr E s)))) by kept.
  destruct i; cbn [fexec]; unfold check_emms, check_mmx, check_nm, check_unmasked.
  all: repeat match goal with
    | |- okd _ (if e_em ?e || e_ts ?e then _ else _) => destruct (e_em e || e_ts e); [assumption |]
    | |- okd _ (if e_ne ?e then _ else _) => destruct (e_ne e); [| exact I]
    | |- okd _ (if nz (Z.land (fstatus ?x) SW_ES) then _ else _) => destruct (nz (Z.land (fstatus x) SW_ES)); [assumption |]
    | |- okd _ (match ?x with Some _ => _ | None => _ end) => destruct x; [| assumption]
    end.
  all: repeat match goal with |- okd _ (if fst ?r then _ else _) =>
     let K := fresh "K" in
     assert (K : synced (snd r)) by (first [apply (synced_ctl _ _ (ctl_over _)) | apply (synced_ctl _ _ (ctl_under _ _ _ _))
        | apply (synced_ctl _ _ (ctl_fcom _ _ _ _)) | apply (synced_ctl _ _ (ctl_sincos _)) | apply (synced_ctl _ _ (ctl_patan _)) | apply (synced_ctl _ _ (ctl_fxch _ _))]; first [assumption | kept]);
     destruct (fst r); [exact K |]; revert K; generalize (snd r); intros ? K end.
  all: unfold post_check.
  all: repeat match goal with |- okd _ (match ?r with pair _ _ => _ end) => destruct r end.
  all: repeat match goal with |- okd _ (if ?b then _ else _) => destruct b end.
  all: cbn [okd]; repeat match goal with |- synced (if ?b then _ else _) => destruct b | |- synced (match ?f with ToSt0 => _ | _ => _ end) => destruct f end.
  all: try assumption; try kept.
  - destruct (nz i); kept.
  - destruct pop; kept.
  - destruct (h _ _) as [v sw]. destruct (post_unmasked _ _ _); [kept |]. destruct wok; [| kept]. destruct pop; kept.
  - refine (synced_ctl _ _ (ctl_iter _ _ _ _) _); [reflexivity | kept].
  - refine (synced_ctl _ _ (ctl_iter _ _ _ _) _); [reflexivity | kept].
  - reflexivity.
  - reflexivity.
  - reflexivity.
Qed.

Lemma after_ends A E i w w' : sane A -> after (hexec A E i w) = Some w' ->
  ends (fexec E (doc A (hcc w) i) (g w)) (g w').
Proof.
  intros SA H. pose proof (refines A E i w SA) as R.
  destruct (hexec A E i w), (fexec E (doc A (hcc w) i) (g w)); cbn [agrees after] in *; try contradiction; try discriminate;
    (assert (w0 = w') by congruence); subst w0; cbn [ends]; intuition congruence.
Qed.

(** Whatever was executed since the reset, the host is given the guest's precision and
    rounding with all exceptions masked. *)
Theorem C84_control_word : forall A p w w', sane A -> wf (g w) -> synced (g w) -> hrun A p w = Some w' ->
  wf (g w') /\ synced (g w') /\ Z.land (frp (g w')) 0x3F = 0x3F /\
  Z.land (frp (g w')) 0xFFC0 = Z.land (fctrl (g w')) 0xFFC0.
Proof.
  intros A p w w' SA W S H.
  assert (X : wf (g w') /\ synced (g w')).
  { revert w W S H. induction p as [| (E, i) p IH]; intros w W S H; cbn [hrun] in H.
    - assert (w = w') by congruence. subst. now split.
    - destruct (after (hexec A E i w)) as [w1 |] eqn:HA; [| discriminate].
      pose proof (after_ends A E i w w1 SA HA) as HE.
      apply (IH w1); [exact (okd_ends _ _ _ (wf_exec E _ _ W) HE) | exact (okd_ends _ _ _ (synced_exec E _ _ S) HE) | exact H]. }
  destruct X as (X1 & X2). split; [exact X1 |]. split; [exact X2 |]. unfold synced, working_cw in X2. rewrite X2. split.
  - apply Z.bits_inj'. intros n Hn. rewrite Z.land_spec, Z.lor_spec. now destruct (Z.testbit 63 n), (Z.testbit (fctrl (g w')) n).
  - rewrite Z.land_lor_distr_l. change (Z.land 63 65472) with 0. apply Z.lor_0_r.
Qed.
Print Assumptions C84_control_word.

(** the operand in ST(0) is out of the range of FSIN, FCOS or FSINCOS *)
Definition out_of_range (A : arith) (i : hinstr) (w : world) : bool :=
  match st (g w) 0 with
  | None => false
  | Some v =>
      match i with
      | Htrig u => let '(_, _, c) := a_un A u (frp (g w)) (hcc w) v in nz (Z.land c SW_C2)
      | Hsincos => let '(_, _, _, c) := a_sincos A (frp (g w)) (hcc w) v in nz (Z.land c SW_C2)
      | _ => false
      end
  end.
Fixpoint in_range (A : arith) (p : list (fenv * hinstr)) (w : world) : Prop :=
  match p with
  | [] => True
  | (E, i) :: p => out_of_range A i w = false /\ forall w', after (hexec A E i w) = Some w' -> in_range A p w'
  end.

Lemma load_some t : wf t -> is_tag_empty t 0 = false -> st t 0 = Some (load_stx t 0).
Proof.
  intros W H. rewrite is_empty_st in H. destruct (st t 0) as [v |] eqn:S; [| discriminate]. now rewrite (load_st t 0 v W S).
Qed.
Lemma lost_range A E i w s m : sane A -> wf (g w) -> fexec E (doc A (hcc w) i) (g w) = FDone s m false -> out_of_range A i w = true.
Proof.
  intros SA W H. destruct (match i with Htrig _ | Hsincos => true | _ => false end) eqn:T.
  2: { pose proof (refines A E i w SA) as R. rewrite H in R. exfalso. revert T H. clear R.
       destruct i; try discriminate; intros _; cbn [doc fexec]; unfold check_nm, check_unmasked, check_emms, post_check.
       all: repeat match goal with
         | |- (if ?b then _ else _) = _ -> _ => destruct b
         | |- (match ?x with Some _ => _ | None => _ end) = _ -> _ => destruct x
         | |- (match ?x with pair _ _ => _ end) = _ -> _ => destruct x
         | |- (let f := _ in _) = _ -> _ => cbv zeta
         end; try discriminate. }
  destruct i; try discriminate T; cbn [doc fexec] in H; unfold check_nm, check_unmasked in H.
  all: destruct (e_em E || e_ts E); [discriminate |]; destruct (e_ne E); [| discriminate];
    destruct (nz (Z.land (fstatus (g w)) SW_ES)); [discriminate |].
  - unfold stack_underflow_reg in H. set (t := clear_c2 (clear_c1 (update_ptr E (g w)))) in *.
    assert (C : core_eq (g w) t) by now repeat split.
    destruct (is_tag_empty t 0) eqn:TE; cbn [fst snd] in H; [discriminate |].
    pose proof (load_some t W TE) as L. rewrite (core_st _ _ _ C) in L. unfold out_of_range. rewrite L.
    pose proof (proj1 SA u (frp (g w)) (hcc w) (load_stx t 0)) as S. change (frp t) with (frp (g w)) in H.
    destruct (a_un A u (frp (g w)) (hcc w) (load_stx t 0)) as [[v e] c]. cbn [sw3] in H. unfold post_check in H.
    destruct (post_unmasked _ _ t); [discriminate |]. rewrite c2_post, (c2_of _ _ S) in H.
    destruct (nz (Z.land c SW_C2)); [reflexivity | discriminate].
  - unfold stack_fault_fsincos in H. set (t := clear_c2 (clear_c1 (update_ptr E (g w)))) in *.
    assert (C : core_eq (g w) t) by now repeat split.
    destruct (is_tag_empty t 0) eqn:TE; cbn [orb] in H; [discriminate |].
    destruct (negb (is_tag_empty t (-1))); cbn [fst snd] in H; [discriminate |].
    pose proof (load_some t W TE) as L. rewrite (core_st _ _ _ C) in L. unfold out_of_range. rewrite L.
    pose proof (proj2 SA (frp (g w)) (hcc w) (load_stx t 0)) as S. change (frp t) with (frp (g w)) in H.
    destruct (a_sincos A (frp (g w)) (hcc w) (load_stx t 0)) as [[[sn cs] e] c]. destruct S as (S & _). unfold post_check in H.
    destruct (post_unmasked _ _ t); [discriminate |]. rewrite c2_post, (c2_of _ _ S) in H.
    destruct (nz (Z.land c SW_C2)); [reflexivity | discriminate].
Qed.

(** As long as no FSIN, FCOS or FSINCOS meets an operand out of range, every program
    leaves the host's unit with the control word it had, and with no guest value on its
    register stack; and the emitted code never overflows that stack. *)
Theorem C84_host_partial : forall A p w w', sane A -> wf (g w) -> in_range A p w -> hrun A p w = Some w' ->
  hcw w' = hcw w /\ (hs w' = [] \/ hs w' = hs w).
Proof.
  intros A p w w' SA W I H. revert w W I H. induction p as [| (E, i) p IH]; intros w W I H; cbn [hrun] in H.
  - assert (w = w') by congruence. subst. split; [reflexivity | now right].
  - destruct I as (I1 & I2). destruct (after (hexec A E i w)) as [w1 |] eqn:HA; [| discriminate].
    pose proof (after_ends A E i w w1 SA HA) as HE.
    destruct (IH w1 (okd_ends _ _ _ (wf_exec E _ _ W) HE) (I2 w1 eq_refl) H) as (J1 & J2).
    assert (K : host_kept w w1).
    { pose proof (refines A E i w SA) as R. pose proof (lost_range A E i w) as L.
      destruct (hexec A E i w), (fexec E (doc A (hcc w) i) (g w)); cbn [agrees after] in *; try contradiction; try discriminate;
        (assert (w0 = w1) by congruence); subst w0; try tauto.
      destruct host_restored; [tauto |]. specialize (L _ _ SA W eq_refl). congruence. }
    destruct K as (K1 & K2). split; [congruence |]. destruct J2 as [J2 | J2]; [now left |]. rewrite J2. exact K2.
Qed.
Print Assumptions C84_host_partial.

Theorem C84_no_host_fault : forall A E i w, sane A -> hexec A E i w <> HFault.
Proof.
  intros A E i w SA H. pose proof (refines A E i w SA) as R. rewrite H in R. exact R.
Qed.
Print Assumptions C84_no_host_fault.

(** With an operand out of range the full statement is false: the host goes on with the
    guest's control word, the operand stays on its register stack, and no later x87
    instruction brings the host's control word back. *)
Theorem C84_refuted_host : forall A E u w v, sane A -> ready E (g w) -> wf (g w) -> synced (g w) ->
  st (g w) 0 = Some v -> u <> Usqrt -> out_of_range A (Htrig u) w = true ->
  let '(_, e, c) := a_un A u (frp (g w)) (hcc w) v in Z.land (Z.lor e c) 0x3F = 0 ->
  exists w1, hexec A E (Htrig u) w = HDone w1 None /\ hcw w1 = working_cw (g w) /\ hs w1 = [v] /\
    forall p w', in_range A p w1 -> hrun A p w1 = Some w' -> hcw w' = working_cw (g w).
Proof.
  intros A E u w v SA R W SY H0 NU OR. unfold synced in SY. unfold out_of_range in OR. rewrite H0 in OR.
  pose proof (proj1 SA u (frp (g w)) (hcc w) v) as S.
  destruct (a_un A u (frp (g w)) (hcc w) v) as [[x e] c] eqn:HU. intros Z0.
  assert (X : exists w1, hexec A E (Htrig u) w = HDone w1 None /\ hcw w1 = frp (g w) /\ hs w1 = [v] /\ wf (g w1)).
  { destruct w as [s st0 cw ex cc sv0]. cbn [g hcc] in *. hs. destruct R as (R1 & R2 & R3 & R4).
    rewrite R1, R2, R3, pending_es, R4. cbn [orb]. unfold stack_underflow_reg.
    set (t := clear_c2 (clear_c1 (update_ptr E s))). assert (C : core_eq s t) by now repeat split.
    rewrite is_empty_st, (core_st _ _ _ C), H0. rewrite (load_st t 0 v W ltac:(now rewrite (core_st _ _ _ C))).
    change (frp t) with (frp s). rewrite HU. change (Z.lor 0 e) with e. rewrite (not_unmasked _ t Z0), c2_post, (c2_of _ _ S), OR.
    eexists. split; [reflexivity |]. split; [reflexivity |]. split; [destruct u; [congruence | reflexivity | reflexivity] | exact W]. }
  destruct X as (w1 & X1 & X2 & X3 & X4). exists w1. rewrite <- SY. split; [exact X1 |]. split; [exact X2 |]. split; [exact X3 |].
  intros p w' I H. rewrite <- X2. now apply (C84_host_partial A p w1 w').
Qed.
Print Assumptions C84_refuted_host.

(** *** Witnesses *)

(** an arithmetic that adds and subtracts integers, with operands of 2^63 and more out of range *)
Definition val (x : operand) : Z := match x with OReg v | OInt _ v | OFloat _ v => v end.
Definition toy : arith := mkarith
  (fun o _ _ x y => (match o with Badd => val x + val y | Bsub => val x - val y | Bmul => val x * val y | Bdiv => val x / val y end, 0, 0))
  (fun _ _ _ x => if 2 ^ 63 <=? x then (x, 0, 0x400) else (x + 1, 0, 0))
  (fun _ _ x => if 2 ^ 63 <=? x then (x, x, 0, 0x400) else (x + 1, x + 2, 0, 0))
  (fun _ _ y x => (y - x, 0, 0))
  (fun _ _ x y => (0, if val x <? val y then 0x100 else if val x =? val y then 0x4000 else 0))
  (fun _ _ x => (val x, 0, 0)) (fun _ _ _ _ v => (v, 0, 0)) (fun c _ => c).
Lemma toy_sane : sane toy.
Proof.
  split.
  - intros u cw cc x. cbn [a_un toy]. destruct (2 ^ 63 <=? x); reflexivity.
  - intros cw cc x. cbn [a_sincos toy]. destruct (2 ^ 63 <=? x); (split; [reflexivity |]); [reflexivity | discriminate].
Qed.
Definition E0 : fenv := mkfenv false false true 0 0 0 None.
Definition unit7 (a b : Z) : fpu :=
  mkfpu (upd (upd (fun _ => 0) 0 b) 7 a) (fun k => if (k =? 7) || (k =? 0) then 0 else 3) 7 0xF7F 0 0xF7F (mkptrs 0 0 0 0 0) (fun _ => 0) 0 0.
Definition world7 (a b : Z) : world := mkworld (unit7 a b) [] 0x37F 0 0 0.

Example C84_ready : ready E0 (unit7 100 3) /\ wf (unit7 100 3) /\ synced (unit7 100 3) /\ st (unit7 100 3) 0 = Some 100 /\ st (unit7 100 3) 1 = Some 3.
Proof.
  split; [now repeat split |]. split; [split; [cbn; lia |] | now repeat split].
  intros k _. cbn. destruct (_ || _); lia.
Qed.
Definition top_after (o : hout) : option (option Z * option Z * Z) :=
  match o with HDone w _ => Some (st (g w) 0, st (g w) 1, hcw w) | _ => None end.
Example C84_fsub_d8 : top_after (hexec toy E0 (HarithSt Fsub 0xD8 1) (world7 100 3)) = Some (Some 97, Some 3, 0x37F).
Proof. vm_compute. reflexivity. Qed.
Example C84_fsub_dc : top_after (hexec toy E0 (HarithSt Fsub 0xDC 1) (world7 100 3)) = Some (Some 100, Some (-97), 0x37F).
Proof. vm_compute. reflexivity. Qed.
Example C84_fsubrp : top_after (hexec toy E0 (HarithSt Fsubr 0xDE 1) (world7 100 3)) = Some (Some 97, None, 0x37F).
Proof. vm_compute. reflexivity. Qed.
Example C84_fsin_lost : top_after (hexec toy E0 (Htrig Usin) (world7 (2 ^ 64) 3)) = Some (Some (2 ^ 64), Some 3, 0xF7F).
Proof. vm_compute. reflexivity. Qed.
Example C84_lost_for_good :
  let p := [(E0, Htrig Usin); (E0, Hxch 1); (E0, HarithSt Fadd 0xD8 1); (E0, Hninit)] in
  match hrun toy p (world7 (2 ^ 64) 3) with Some w' => hcw w' | None => 0 end = 0xF7F /\ hcw (world7 (2 ^ 64) 3) = 0x37F.
Proof. vm_compute. now split. Qed.
Example C84_continue : forall w, in_range toy [(E0, Hxch 1); (E0, HarithSt Fadd 0xD8 1); (E0, Hninit)] w.
Proof.
  intros w. cbn [in_range].
  assert (O : forall i w, match i with Htrig _ | Hsincos => false | _ => true end = true -> out_of_range toy i w = false)
    by (clear; intros i w; unfold out_of_range; destruct (st (g w) 0), i; intros HH; first [discriminate HH | reflexivity]).
  split; [now apply O |]. intros w2 _. split; [now apply O |]. intros w3 _. split; [now apply O | easy].
Qed.
Example C84_out : out_of_range toy (Htrig Usin) (world7 (2 ^ 64) 3) = true.
Proof. vm_compute. reflexivity. Qed.

(** Every instruction, including the loads of registers and constants, the exchange and
    the sign change: the emitted host code gives the guest exactly what the instruction
    with the documented function gives ([C28] says what that is). *)
Theorem C84_instructions : forall A E i w, sane A -> agrees w (hexec A E i w) (fexec E (doc A (hcc w) i) (g w)).
Proof. intros A E i w SA. now apply refines. Qed.
Print Assumptions C84_instructions.
