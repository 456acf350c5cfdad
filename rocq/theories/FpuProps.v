(** * Properties of the x87 stack instructions and of the status and tag words *)

From Coq Require Import ZArith Bool List Lia.
From Verif Require Import FpuModel FpuSpec FpuProofs.
Import ListNotations.
Local Open Scope Z_scope.

(** the instruction is neither trapped by CR0 nor by a pending exception *)
Definition ready (E : fenv) (s : fpu) : Prop :=
  e_em E = false /\ e_ts E = false /\ e_ne E = true /\ pending s = false.

Section Common.
Variables (E : fenv) (s : fpu).
Notation s0 := (clear_c1 (update_ptr E s)).
Lemma start_core : core_eq s s0.
Proof. now repeat split. Qed.
Lemma start_st i : st s0 i = st s i.
Proof. apply core_st, start_core. Qed.
Lemma start_im : im s0 = im s.
Proof. reflexivity. Qed.
Lemma start_bits b : 0 <= b < 16 -> b <> 9 -> Z.testbit (fstatus s0) b = if no_cc b then true else Z.testbit (fstatus s) b.
Proof.
  intros H N. unfold clear_c1, no_cc, SW_C1, not16. cbn [fstatus set_fstatus update_ptr set_ptr].
  change (Z.lxor 0xFFFF 0x200) with 0xFDFF. rewrite Z.land_spec. revert N.
  apply (bits16 b); [exact H | ..]; intros N; try lia; repeat tb; apply andb_true_r.
Qed.
Lemma start_bits2 b : 0 <= b < 16 -> b <> 9 -> b <> 10 -> Z.testbit (fstatus (clear_c2 s0)) b = Z.testbit (fstatus s) b.
Proof.
  intros H N M. unfold clear_c2, SW_C2, not16. cbn [fstatus set_fstatus].
  change (Z.lxor 0xFFFF 0x400) with 0xFBFF. rewrite Z.land_spec, start_bits by assumption. unfold no_cc. revert M.
  apply (bits16 b); [exact H | ..]; intros M; try lia; repeat tb; apply andb_true_r.
Qed.
Lemma ready_start k : ready E s -> check_nm E s (check_unmasked E s k) = k.
Proof. intros (A & B & C & D). unfold check_nm, check_unmasked. rewrite A, B, C, pending_es, D. reflexivity. Qed.
End Common.

Lemma pushed_from E v s s' : pushed v (clear_c1 (update_ptr E s)) s' -> pushed v s s'.
Proof. apply pushed_core; [apply core_sym, start_core | apply core_refl]. Qed.

(** *** C28: loads *)

(** the loads from memory and of constants, the value [v] they load and the status word
    [sw] the host reports for the conversion *)
Inductive loads : finstr -> Z -> Z -> Z -> Prop :=
| loads_const h cw : loads (FldConst h) cw (h cw) 0
| loads_int m h cw : loads (FldMem true (Some m) h) cw (fst (h m cw)) 0
| loads_mem m h cw : loads (FldMem false (Some m) h) cw (fst (h m cw)) (snd (h m cw)).

Lemma overflow_case E s : wf s -> st s 7 <> None ->
  exists s', stack_overflow (clear_c1 (update_ptr E s)) = (true, s') /\
    (if im s then pushed indefinite s s' else same_stack s s') /\ fault_status true no_cc s s'.
Proof.
  intros W F. set (t := clear_c1 (update_ptr E s)). unfold stack_overflow. rewrite is_empty_st.
  rewrite (st_period t (-1) 7) by reflexivity. unfold t at 1. rewrite start_st. destruct (st s 7) as [x |]; [| congruence].
  cbn [negb]. rewrite masked_im. change (im t) with (im s). eexists. split; [reflexivity |]. split.
  - destruct (im s).
    + apply (pushed_core _ t s (let u := fpu_push t in put_qnan (ftop u) u) _); [apply core_sym, start_core | apply fault_core |].
      apply pushed_qnan. apply W.
    + apply core_same. apply (core_trans _ t); [apply start_core | apply fault_core].
  - apply (fault_bits true).
    + intros b Hb N. rewrite <- (start_bits E s b Hb N). destruct (im s); reflexivity.
    + destruct (im s); reflexivity.
    + reflexivity.
Qed.
Lemma no_overflow E s : st s 7 = None -> stack_overflow (clear_c1 (update_ptr E s)) = (false, clear_c1 (update_ptr E s)).
Proof.
  intros H. unfold stack_overflow. rewrite is_empty_st, (st_period _ (-1) 7), start_st, H by reflexivity. reflexivity.
Qed.
Lemma post_inv1 sw s : post_unmasked EXP_INVALID sw s = Z.testbit sw 0 && negb (im s).
Proof.
  unfold post_unmasked, EXP_INVALID. change 1 with (2 ^ 0). rewrite nz_bit by lia. rewrite Z.land_spec.
  unfold not16, im. rewrite Z.lxor_spec. change (Z.testbit 65535 0) with true. cbn [xorb]. apply andb_comm.
Qed.

(** A load onto a full stack reports overflow: with the exception masked the indefinite
    QNaN is pushed, otherwise the stack is kept.  Otherwise the value is pushed, unless the
    host reports an unmasked invalid operand. *)
Theorem C28_load : forall E s i v sw, ready E s -> wf s -> loads i (frp s) v sw ->
  exists s', fexec E i s = FDone s' None true /\
    match st s 7 with
    | Some _ => (if im s then pushed indefinite s s' else same_stack s s') /\ fault_status true no_cc s s'
    | None => if Z.testbit sw 0 && negb (im s) then same_stack s s' else pushed v s s'
    end.
Proof.
  intros E s i v sw R W L. destruct (st s 7) as [x |] eqn:S7.
  - destruct (overflow_case E s W ltac:(congruence)) as (s' & O & P). exists s'. split; [| exact P].
    inversion L; subst; cbn [fexec]; rewrite (ready_start E s) by exact R; rewrite O; reflexivity.
  - pose proof (no_overflow E s S7) as O. set (t := clear_c1 (update_ptr E s)) in *.
    assert (T : 0 <= ftop t < 8) by apply W.
    inversion L; subst; cbn [fexec]; rewrite (ready_start E s) by exact R; fold t; rewrite O; cbn [fst snd].
    + eexists. split; [reflexivity |]. change (Z.testbit 0 0 && negb (im s)) with false. cbv iota.
      apply (pushed_from E). now apply pushed_store.
    + destruct (h m (frp t)) as [v w] eqn:HV. eexists. split; [reflexivity |]. change (Z.testbit 0 0 && negb (im s)) with false. cbv iota.
      apply (pushed_from E). replace (fst (h m (frp s))) with v by (change (frp s) with (frp t); now rewrite HV). now apply pushed_store.
    + change (frp s) with (frp t). destruct (h m (frp t)) as [v w] eqn:HV. cbn [fst snd]. unfold post_check. rewrite post_inv1. change (im t) with (im s).
      destruct (Z.testbit w 0 && negb (im s)); eexists; (split; [reflexivity |]).
      * apply core_same. now repeat split.
      * apply (pushed_core v t s _ _ (core_sym _ _ (start_core E s)) (core_refl _)).
        apply (pushed_core v (set_fstatus (post_sw w t) t) t _ _ ltac:(now repeat split) (core_refl _)). now apply pushed_store.
Qed.
Print Assumptions C28_load.

Lemma no_underflow E s src dst pop v : st s src = Some v ->
  stack_underflow_reg src dst pop (clear_c1 (update_ptr E s)) = (false, clear_c1 (update_ptr E s)).
Proof. intros H. unfold stack_underflow_reg. rewrite is_empty_st, start_st, H. reflexivity. Qed.
Lemma load_st s i v : wf s -> st s i = Some v -> load_stx s i = v.
Proof.
  intros W H. unfold load_stx. rewrite stx_mod by apply W. unfold st in H. destruct (_ =? 3); congruence.
Qed.
Lemma wf_start E s : wf s -> wf (clear_c1 (update_ptr E s)).
Proof. intros W. exact W. Qed.

(** FLD ST(i) pushes a copy of ST(i), or reports overflow. *)
Theorem C28_load_register_partial : forall E s i v, ready E s -> wf s -> st s i = Some v ->
  exists s', fexec E (FldSt i) s = FDone s' None true /\
    match st s 7 with
    | Some _ => (if im s then pushed indefinite s s' else same_stack s s') /\ fault_status true no_cc s s'
    | None => pushed v s s'
    end.
Proof.
  intros E s i v R W SI. destruct (st s 7) as [x |] eqn:S7.
  - destruct (overflow_case E s W ltac:(congruence)) as (s' & O & P). exists s'. split; [| exact P].
    cbn [fexec]. rewrite (ready_start E s) by exact R. rewrite O. reflexivity.
  - pose proof (no_overflow E s S7) as O. set (t := clear_c1 (update_ptr E s)) in *.
    assert (T : 0 <= ftop t < 8) by apply W.
    cbn [fexec]. rewrite (ready_start E s) by exact R. fold t. rewrite O. cbn [fst snd].
    pose proof (no_underflow E s i 0 false v SI) as U. fold t in U. rewrite U. cbn [fst snd].
    rewrite (load_st t i v (wf_start E s W) ltac:(unfold t; now rewrite start_st)).
    eexists. split; [reflexivity |]. apply (pushed_from E). now apply pushed_store.
Qed.
Print Assumptions C28_load_register_partial.

(** An empty source register: the documented masked response pushes the indefinite QNaN.
    The code overwrites ST(0) instead and does not push. *)
Theorem C28_refuted_load_register : exists E s i s', ready E s /\ wf s /\ 0 <= i < 8 /\ im s = true /\
  st s 7 = None /\ st s i = None /\ st s 0 = Some 5 /\
  fexec E (FldSt i) s = FDone s' None true /\ ftop s' = ftop s /\ st s' 0 = Some indefinite /\
  ~ pushed indefinite s s'.
Proof.
  exists (mkfenv false false true 0 0 0 None), (mkfpu (fun _ => 5) (upd (fun _ => 3) 2 2) 2 0x37F 0 0x37F (mkptrs 0 0 0 0 0) (fun _ => 0) 0 0), 3.
  eexists. split; [now repeat split |]. split.
  { split; [cbn; lia |]. intros k _. cbn. unfold upd. destruct (k =? 2); lia. }
  split; [lia |]. do 4 (split; [reflexivity |]). split; [reflexivity |]. split; [reflexivity |]. split; [reflexivity |].
  intros (T & _). cbn in T. discriminate.
Qed.
Print Assumptions C28_refuted_load_register.

(** *** C28: stores *)
Lemma underflow_case E s src dst (pop : bool) : wf s -> st s src = None -> 0 <= dst < 8 ->
  exists s', stack_underflow_reg src dst pop (clear_c1 (update_ptr E s)) = (true, s') /\
    (if im s then then_ (replaced dst indefinite) (if pop then popped else same_stack) s s' else same_stack s s') /\
    fault_status false no_cc s s'.
Proof.
  intros W F HD. set (t := clear_c1 (update_ptr E s)). unfold stack_underflow_reg. rewrite is_empty_st.
  unfold t at 1. rewrite start_st, F. rewrite masked_im. change (im t) with (im s).
  assert (T : 0 <= ftop t < 8) by apply W.
  eexists. split; [reflexivity |]. split.
  - destruct (im s).
    + exists (put_qnan (idx t dst) t). split.
      * apply (replaced_core _ _ t s _ _ (core_sym _ _ (start_core E s)) (core_refl _)). now apply replaced_qnan.
      * destruct pop.
        -- apply (popped_core (put_qnan (idx t dst) t) _ (tag_pop (put_qnan (idx t dst) t)) _ (core_refl _)).
           ++ rewrite fpu_pop_eq by exact T. apply fault_core.
           ++ now apply popped_tag_pop.
        -- apply core_same, fault_core.
    + apply core_same. apply (core_trans _ t); [apply start_core | apply fault_core].
  - apply (fault_bits false).
    + intros b Hb N. rewrite <- (start_bits E s b Hb N). destruct (im s), pop; reflexivity.
    + destruct (im s), pop; reflexivity.
    + reflexivity.
Qed.
(** FST/FSTP ST(i) copies ST(0) to ST(i) and pops if asked to; an empty ST(0) is reported
    as an underflow, with the indefinite QNaN stored (and popped) if masked. *)
Theorem C28_store_register : forall E s i (pop : bool), ready E s -> wf s -> 0 <= i < 8 ->
  exists s', fexec E (FstSt i pop) s = FDone s' None true /\
    match st s 0 with
    | Some v => then_ (replaced i v) (if pop then popped else same_stack) s s'
    | None => (if im s then then_ (replaced i indefinite) (if pop then popped else same_stack) s s' else same_stack s s') /\
              fault_status false no_cc s s'
    end.
Proof.
  intros E s i pop R W Hi. cbn [fexec]. rewrite (ready_start E s) by exact R. destruct (st s 0) as [v |] eqn:S0.
  - rewrite (no_underflow E s 0 i pop v S0). cbn [fst snd]. set (t := clear_c1 (update_ptr E s)) in *.
    assert (T : 0 <= ftop t < 8) by apply W.
    rewrite (load_st t 0 v (wf_start E s W) ltac:(unfold t; now rewrite start_st)).
    set (u := if nz i then store_tag i v t else t). eexists. split; [reflexivity |].
    exists u. split.
    + apply (replaced_core _ _ t s _ _ (core_sym _ _ (start_core E s)) (core_refl _)). unfold u.
      destruct (Z.eqb_spec i 0) as [-> | N].
      * change (nz 0) with false. cbv iota. split; [reflexivity |]. split; [unfold t; now rewrite start_st | reflexivity].
      * unfold nz. rewrite (proj2 (Z.eqb_neq _ _) N). cbn [negb]. now apply replaced_store.
    + destruct pop; [| apply core_same, core_refl]. apply popped_tag_pop. unfold u. destruct (nz i); exact T.
  - destruct (underflow_case E s 0 i pop W S0 Hi) as (s' & U & P). exists s'. split; [| exact P]. rewrite U. reflexivity.
Qed.
Print Assumptions C28_store_register.

(** host exceptions left unmasked by the guest *)
Definition unmasked (s : fpu) (sw : Z) : Prop := exists b, 0 <= b < 6 /\ Z.testbit sw b = true /\ Z.testbit (fctrl s) b = false.
Lemma post_all sw s : post_unmasked EXP_ALL sw s = true <-> unmasked s sw.
Proof.
  unfold post_unmasked, nz, unmasked, EXP_ALL, not16. rewrite negb_true_iff, Z.eqb_neq. split.
  - intros H. destruct (Z.testbit (Z.land (Z.land (Z.lxor 65535 (fctrl s)) sw) 63) 0) eqn:B0; [exists 0 |
    destruct (Z.testbit (Z.land (Z.land (Z.lxor 65535 (fctrl s)) sw) 63) 1) eqn:B1; [exists 1 |
    destruct (Z.testbit (Z.land (Z.land (Z.lxor 65535 (fctrl s)) sw) 63) 2) eqn:B2; [exists 2 |
    destruct (Z.testbit (Z.land (Z.land (Z.lxor 65535 (fctrl s)) sw) 63) 3) eqn:B3; [exists 3 |
    destruct (Z.testbit (Z.land (Z.land (Z.lxor 65535 (fctrl s)) sw) 63) 4) eqn:B4; [exists 4 |
    destruct (Z.testbit (Z.land (Z.land (Z.lxor 65535 (fctrl s)) sw) 63) 5) eqn:B5; [exists 5 |]]]]]].
    7: { exfalso. apply H. apply Z.bits_inj'. intros n Hn. rewrite Z.bits_0. destruct (Z.ltb_spec n 6).
         - assert (n = 0 \/ n = 1 \/ n = 2 \/ n = 3 \/ n = 4 \/ n = 5) as Q by lia. now intuition subst.
         - rewrite Z.land_spec. change 63 with (Z.ones 6). rewrite Z.ones_spec_high by lia. apply andb_false_r. }
    all: split; [lia |]; repeat match goal with B : Z.testbit (Z.land _ _) _ = true |- _ => rewrite !Z.land_spec, Z.lxor_spec in B;
           apply andb_true_iff in B as [B _]; apply andb_true_iff in B as [B1' B2']; split; [exact B2' |];
           match type of B1' with xorb ?a ?b = true => destruct b; [discriminate | reflexivity] end end.
  - intros (b & Hb & B1 & B2) H. apply (f_equal (fun x => Z.testbit x b)) in H. rewrite Z.bits_0, !Z.land_spec, Z.lxor_spec, B1, B2 in H.
    change 63 with (Z.ones 6) in H. change 65535 with (Z.ones 16) in H. rewrite !Z.ones_spec_low in H by lia. discriminate.
Qed.
Lemma post_spec sw s : if post_unmasked EXP_ALL sw s then unmasked s sw else ~ unmasked s sw.
Proof.
  destruct (post_unmasked EXP_ALL sw s) eqn:Q; [now apply post_all |]. intros U. apply post_all in U. congruence.
Qed.

(** A store to memory writes the converted ST(0) and pops if asked to; an unmasked
    exception of the conversion writes nothing and keeps the stack, as does a page fault.
    An empty ST(0) is an underflow; the indefinite value goes to the address in EDX, which
    the generated code does not reload after a call (hypothesis [edx = addr]: the call has
    preserved it). *)
Theorem C28_store_memory_partial : forall E s addr edx qnan wok (pop : bool) h, ready E s -> wf s -> edx = addr ->
  match st s 0 with
  | Some v =>
      let '(r, sw) := h v (frp s) in
      (unmasked s sw /\ exists s', fexec E (FstMem addr edx qnan wok pop h) s = FDone s' None true /\ same_stack s s') \/
      (~ unmasked s sw /\ wok = true /\ exists s', fexec E (FstMem addr edx qnan wok pop h) s = FDone s' (Some (addr, r)) true /\
        (if pop then popped s s' else same_stack s s')) \/
      (~ unmasked s sw /\ wok = false /\ exists s', fexec E (FstMem addr edx qnan wok pop h) s = FPage s' /\ same_stack s s')
  | None =>
      (im s = false /\ exists s', fexec E (FstMem addr edx qnan wok pop h) s = FDone s' None true /\ same_stack s s' /\ fault_status false no_cc s s') \/
      (im s = true /\ wok = true /\ exists s', fexec E (FstMem addr edx qnan wok pop h) s = FDone s' (Some (addr, qnan)) true /\
        (if pop then popped s s' else same_stack s s') /\ fault_status false no_cc s s') \/
      (im s = true /\ wok = false /\ exists s', fexec E (FstMem addr edx qnan wok pop h) s = FPage s' /\ same_stack s s')
  end.
Proof.
  intros E s addr edx qnan wok pop h R W ->. cbn [fexec]. rewrite (ready_start E s) by exact R.
  rewrite is_empty_st, start_st. set (t := clear_c1 (update_ptr E s)). assert (T : 0 <= ftop t < 8) by apply W.
  destruct (st s 0) as [v |] eqn:S0.
  - rewrite (load_st t 0 v (wf_start E s W) ltac:(unfold t; now rewrite start_st)). change (frp t) with (frp s).
    destruct (h v (frp s)) as [r sw]. pose proof (post_spec sw t) as PS. destruct (post_unmasked EXP_ALL sw t).
    + left. split; [exact PS |]. eexists. split; [reflexivity |]. apply core_same. now repeat split.
    + right. destruct wok; [left | right]; (split; [exact PS |]); (split; [reflexivity |]); eexists; (split; [reflexivity |]).
      * destruct pop; [| apply core_same; now repeat split].
        apply (popped_core (set_fstatus (post_sw sw t) t) s _ _ ltac:(now repeat split) (core_refl _)). now apply popped_tag_pop.
      * apply core_same. now repeat split.
  - rewrite masked_im. change (im t) with (im s). destruct (im s) eqn:I.
    + right. destruct wok; [left | right]; (split; [reflexivity |]); (split; [reflexivity |]); eexists; (split; [reflexivity |]).
      * split.
        -- destruct pop.
           ++ apply (popped_core t s (tag_pop t) _ (core_sym _ _ (start_core E s))); [rewrite fpu_pop_eq by exact T; apply fault_core | now apply popped_tag_pop].
           ++ apply core_same. now repeat split.
        -- apply (fault_bits false); [| destruct pop; reflexivity | reflexivity].
           intros b Hb N. rewrite <- (start_bits E s b Hb N). destruct pop; reflexivity.
      * apply core_same. now repeat split.
    + left. split; [reflexivity |]. eexists. split; [reflexivity |]. split; [apply core_same; now repeat split |].
      apply (fault_bits false); [| reflexivity | reflexivity].
      intros b Hb N. now rewrite <- (start_bits E s b Hb N).
Qed.
Print Assumptions C28_store_memory_partial.

(** If the call has changed EDX the indefinite value is written somewhere else. *)
Theorem C28_refuted_store_memory : exists E s addr edx h s', ready E s /\ wf s /\ st s 0 = None /\ im s = true /\ edx <> addr /\
  fexec E (FstMem addr edx 0x8000 true true h) s = FDone s' (Some (edx, 0x8000)) true.
Proof.
  exists (mkfenv false false true 0 0 0 None), (mkfpu (fun _ => 0) (fun _ => 3) 2 0x37F 0 0x37F (mkptrs 0 0 0 0 0) (fun _ => 0) 0 0), 0x1000, 0x1.
  exists (fun _ _ => (0, 0)). eexists. split; [now repeat split |]. split; [split; cbn; lia |].
  split; [reflexivity |]. split; [reflexivity |]. split; [lia |]. reflexivity.
Qed.
Print Assumptions C28_refuted_store_memory.

(** *** C28: comparisons *)
Definition cc_unordered (b : Z) : bool := (b =? 8) || (b =? 10) || (b =? 14).

Lemma popped_n_core n s t : core_eq s t -> forall s', popped_n n s s' -> forall t', core_eq s' t' -> popped_n n t t'.
Proof.
  intros H. induction n as [| n IH]; cbn.
  - intros s' (A & B) t' H'. split; [destruct H as (_ & _ & ->), H' as (_ & _ & ->); exact A |].
    intros i Hi. rewrite (core_st _ _ _ H'), (core_st _ _ _ H). now apply B.
  - intros s' (m & P & Q) t' H'. exists m. split; [exact (IH m P m (core_refl _)) | exact (popped_core _ _ _ _ (core_refl _) H' Q)].
Qed.
Lemma iter_tag_pop n s : 0 <= ftop s < 8 -> popped_n n s (Nat.iter n tag_pop s) /\ 0 <= ftop (Nat.iter n tag_pop s) < 8.
Proof.
  intros H. induction n as [| n [IH R]]; [split; [apply core_same, core_refl | exact H] |].
  change (Nat.iter (S n) tag_pop s) with (tag_pop (Nat.iter n tag_pop s)).
  split; [| apply pop_range]. exists (Nat.iter n tag_pop s). split; [exact IH | now apply popped_tag_pop].
Qed.
Lemma iter_fpu_pop n s : 0 <= ftop s < 8 -> Nat.iter n fpu_pop s = Nat.iter n tag_pop s.
Proof.
  intros H. induction n as [| n IH]; [reflexivity |].
  change (fpu_pop (Nat.iter n fpu_pop s) = tag_pop (Nat.iter n tag_pop s)). rewrite IH. apply fpu_pop_eq. now apply iter_tag_pop.
Qed.
Lemma iter_pop_rest n s : fstatus (Nat.iter n tag_pop s) = fstatus s /\ fctrl (Nat.iter n tag_pop s) = fctrl s.
Proof. induction n as [| n IH]; cbn; [now split | exact IH]. Qed.

Lemma fcom_fault E s e1 e2 pops : wf s -> e1 || e2 = true ->
  exists s', stack_fault_fcom e1 e2 pops (clear_c1 (update_ptr E s)) = (true, s') /\
    (if im s then popped_n pops s s' else same_stack s s') /\ fault_status false cc_unordered s s'.
Proof.
  intros W F. set (t := clear_c1 (update_ptr E s)). unfold stack_fault_fcom. rewrite F.
  assert (T : 0 <= ftop t < 8) by apply W.
  set (u := set_fstatus (Z.lor (fstatus t) 0x4500) t). rewrite masked_im. change (im u) with (im s).
  eexists. split; [reflexivity |]. rewrite iter_fpu_pop by exact T. split.
  - destruct (im s).
    + apply (popped_n_core pops u s ltac:(now repeat split) (Nat.iter pops tag_pop u)); [now apply iter_tag_pop | apply fault_core].
    + apply core_same. now repeat split.
  - apply (fault_bits false).
    + intros b Hb N. replace (fstatus (if im s then Nat.iter pops tag_pop u else u)) with (fstatus u)
        by (destruct (im s); [symmetry; apply iter_pop_rest | reflexivity]).
      unfold u. cbn [fstatus set_fstatus]. rewrite Z.lor_spec. unfold t. rewrite (start_bits E s b Hb N). unfold no_cc. revert N.
      apply (bits16 b); [exact Hb | ..]; intros N; repeat tb; cbn -[Z.testbit]; rewrite ?orb_true_r, ?orb_false_r; reflexivity.
    + destruct (im s); [exact (proj2 (iter_pop_rest pops u)) | reflexivity].
    + reflexivity.
Qed.

(** what a comparison compares ST(0) with *)
Inductive compares (s : fpu) : finstr -> option Z -> nat -> (Z -> Z -> Z -> Z) -> Prop :=
| compares_st i n h : compares s (FcomSt i n h) (st s i) n h
| compares_mem m n h : compares s (FcomMem (Some m) n h) (Some m) n h.

(** FCOM/FCOMP/FCOMPP pop as often as they say.  If an operand is empty the result is
    "unordered" (C0, C2 and C3 set) and an underflow is reported; the pops happen only if the
    exception is masked.  An unmasked exception of the comparison itself keeps the stack. *)
Theorem C28_compare : forall E s i other n h, ready E s -> wf s -> compares s i other n h ->
  exists s', fexec E i s = FDone s' None true /\
    match st s 0, other with
    | Some a, Some b =>
        let sw := h a b (frp s) in
        (unmasked s sw /\ same_stack s s') \/ (~ unmasked s sw /\ popped_n n s s')
    | _, _ => (if im s then popped_n n s s' else same_stack s s') /\ fault_status false cc_unordered s s'
    end.
Proof.
  intros E s i other n h R W C.
  assert (D : exists e2, e2 = match other with None => true | Some _ => false end /\
    fexec E i s = (let r := stack_fault_fcom (match st s 0 with None => true | _ => false end) e2 n (clear_c1 (update_ptr E s)) in
      if fst r then FDone (snd r) None true else
      post_check EXP_ALL (h (load_stx (snd r) 0) (match other with Some b => b | None => load_stx (snd r) (match i with FcomSt j _ _ => j | _ => 0 end) end) (frp (snd r)))
        (snd r) (fun s => FDone (Nat.iter n tag_pop s) None true))).
  { inversion C as [j n0 h0 |]; subst; cbn [fexec]; rewrite (ready_start E s) by exact R; rewrite !is_empty_st, !start_st.
    - exists (match st s j with None => true | Some _ => false end). split; [reflexivity |].
      cbv zeta. unfold stack_fault_fcom. destruct (st s 0), (st s j) eqn:SJ; try reflexivity.
      cbn [orb fst snd]. rewrite (load_st _ j z0 (wf_start E s W) ltac:(now rewrite start_st)). reflexivity.
    - exists false. split; reflexivity. }
  destruct D as (e2 & He & D). rewrite D. clear D. cbv zeta.
  destruct (match st s 0 with None => true | Some _ => false end || e2) eqn:F.
  - destruct (fcom_fault E s _ _ n W F) as (s' & Q & P). rewrite Q. cbn [fst snd]. exists s'. split; [reflexivity |].
    destruct (st s 0), other; subst; try exact P. discriminate.
  - destruct (st s 0) as [a |] eqn:S0; [| discriminate]. destruct other as [b |]; [| subst; discriminate].
    cbn [orb] in F. subst e2. cbv [stack_fault_fcom orb fst snd].
    set (t := clear_c1 (update_ptr E s)). assert (T : 0 <= ftop t < 8) by apply W.
    rewrite (load_st t 0 a (wf_start E s W) ltac:(unfold t; now rewrite start_st)). change (frp t) with (frp s).
    unfold post_check. pose proof (post_spec (h a b (frp s)) t) as PS. destruct (post_unmasked EXP_ALL (h a b (frp s)) t).
    + eexists. split; [reflexivity |]. left. split; [exact PS |]. apply core_same. now repeat split.
    + eexists. split; [reflexivity |]. right. split; [exact PS |].
      apply (popped_n_core n (set_fstatus (post_sw (h a b (frp s)) t) t) s ltac:(now repeat split) _ (proj1 (iter_tag_pop n (set_fstatus (post_sw (h a b (frp s)) t) t) T)) _ (core_refl _)).
Qed.
Print Assumptions C28_compare.

(** *** C28: arithmetic *)

(** the outcome of a computation whose result goes to ST(d), followed by a pop or not *)
Definition computed (s : fpu) (d v sw : Z) (pop : bool) (s' : fpu) : Prop :=
  (unmasked s sw /\ same_stack s s') \/
  (~ unmasked s sw /\ then_ (replaced d v) (if pop then popped else same_stack) s s').

Lemma replaced_start E i v s s' : replaced i v (clear_c1 (update_ptr E s)) s' -> replaced i v s s'.
Proof. apply replaced_core; [apply core_sym, start_core | apply core_refl]. Qed.

(** the common end of the computations: [post_check] and the store *)
Lemma compute_end s t d v sw (pop : bool) : core_eq s t -> fctrl t = fctrl s -> 0 <= ftop s < 8 -> 0 <= d < 8 ->
  exists s', post_check EXP_ALL sw t (fun s => FDone (if pop then tag_pop (store_tag d v s) else store_tag d v s) None true) = FDone s' None true /\
    computed s d v sw pop s'.
Proof.
  intros H HF T Hd. pose proof (post_spec sw t) as PS. unfold post_check.
  assert (U : unmasked t sw <-> unmasked s sw) by (unfold unmasked; now rewrite HF).
  assert (TT : 0 <= ftop t < 8) by (destruct H as (_ & _ & ->); exact T).
  destruct (post_unmasked EXP_ALL sw t); eexists; (split; [reflexivity |]).
  - left. split; [now apply U |]. apply core_same, (core_trans _ t); [exact H | now repeat split].
  - right. split; [now rewrite <- U |]. set (u := set_fstatus (post_sw sw t) t). exists (store_tag d v u). split.
    + apply (replaced_core d v u s (store_tag d v u) _); [apply core_sym, (core_trans _ t); [exact H | now repeat split] | apply core_refl |].
      now apply replaced_store.
    + destruct pop; [apply popped_tag_pop; exact TT | apply core_same, core_refl].
Qed.

(** FADD/FSUB/FMUL/FDIV with a register operand.  With both operands present the result
    replaces the destination and the popping form pops.  With an empty operand the form
    with destination ST(0) gives the documented response. *)
Theorem C28_arith_register_partial : forall E s f i h, ready E s -> wf s -> 0 <= i < 8 ->
  let dst := match f with ToSt0 => 0 | _ => i end in
  exists s', fexec E (FarithSt f i h) s = FDone s' None true /\
    match st s dst, st s (match f with ToSt0 => i | _ => 0 end) with
    | Some a, Some b => computed s dst (fst (h a b (frp s))) (snd (h a b (frp s))) (match f with ToStiPop => true | _ => false end) s'
    | _, _ => f = ToSt0 ->
        (if im s then replaced 0 indefinite s s' else same_stack s s') /\ fault_status false no_cc s s'
    end.
Proof.
  intros E s f i h R W Hi dst. cbn [fexec]. rewrite (ready_start E s) by exact R.
  set (t := clear_c1 (update_ptr E s)).
  destruct (st s i) as [x |] eqn:SI; [| set (src := i) in SI at 1].
  - pose proof (no_underflow E s i 0 false x SI) as U1. fold t in U1. rewrite U1. cbn [fst snd].
    destruct (st s 0) as [y |] eqn:S0.
    + pose proof (no_underflow E s 0 0 false y S0) as U2. fold t in U2. rewrite U2. cbn [fst snd].
      assert (L0 : load_stx t 0 = y) by (apply load_st; [exact W | unfold t; now rewrite start_st]).
      assert (LI : load_stx t i = x) by (apply load_st; [exact W | unfold t; now rewrite start_st]).
      destruct f; subst dst; cbv iota beta; rewrite ?S0, ?SI, L0, LI; change (frp t) with (frp s);
        match goal with |- context [h ?a ?b (frp s)] => destruct (h a b (frp s)) as [v sw] end; cbn [fst snd].
      * destruct (compute_end s t 0 v sw false (start_core E s) eq_refl (proj1 W) ltac:(lia)) as (s' & Q & P); exists s'; split; [exact Q | exact P].
      * destruct (compute_end s t i v sw false (start_core E s) eq_refl (proj1 W) ltac:(lia)) as (s' & Q & P); exists s'; split; [exact Q | exact P].
      * destruct (compute_end s t i v sw true (start_core E s) eq_refl (proj1 W) ltac:(lia)) as (s' & Q & P); exists s'; split; [exact Q | exact P].
    + destruct (underflow_case E s 0 0 false W S0 ltac:(lia)) as (s' & Q & P1 & P2). fold t in Q. rewrite Q. cbn [fst snd].
      exists s'. split; [reflexivity |].
      assert (X : (if im s then replaced 0 indefinite s s' else same_stack s s') /\ fault_status false no_cc s s').
      { split; [| exact P2]. destruct (im s); [| exact P1]. destruct P1 as (m & (A1 & A2 & A3) & (B1 & B2)).
        split; [congruence |]. split; [rewrite B2 by lia; exact A2 |]. intros j Hj N. rewrite B2 by lia. now apply A3. }
      destruct f; subst dst; cbv iota beta; rewrite ?S0, ?SI; [intros _; exact X | discriminate | discriminate].
  - destruct (underflow_case E s i 0 false W SI ltac:(lia)) as (s' & Q & P1 & P2). fold t in Q. rewrite Q. cbn [fst snd].
    exists s'. split; [reflexivity |].
    assert (X : (if im s then replaced 0 indefinite s s' else same_stack s s') /\ fault_status false no_cc s s').
    { split; [| exact P2]. destruct (im s); [| exact P1]. destruct P1 as (m & (A1 & A2 & A3) & (B1 & B2)).
      split; [congruence |]. split; [rewrite B2 by lia; exact A2 |]. intros j Hj N. rewrite B2 by lia. now apply A3. }
    destruct f; subst dst; cbv iota beta; unfold src in *; rewrite ?SI; [destruct (st s 0); intros _; exact X | discriminate | discriminate].
Qed.
Print Assumptions C28_arith_register_partial.

(** FADDP ST(3) with an empty ST(3): the documented masked response stores the indefinite
    QNaN in ST(3) and pops.  The code overwrites ST(0) and does not pop. *)
Theorem C28_refuted_arith_pop : exists E s h s', ready E s /\ wf s /\ im s = true /\ st s 0 = Some 5 /\ st s 3 = None /\
  fexec E (FarithSt ToStiPop 3 h) s = FDone s' None true /\
  ftop s' = ftop s /\ st s' 0 = Some indefinite /\ st s' 3 = None /\
  ~ then_ (replaced 3 indefinite) popped s s'.
Proof.
  exists (mkfenv false false true 0 0 0 None), (mkfpu (fun _ => 5) (upd (fun _ => 3) 2 2) 2 0x37F 0 0x37F (mkptrs 0 0 0 0 0) (fun _ => 0) 0 0).
  exists (fun _ _ _ => (0, 0)). eexists. split; [now repeat split |]. split.
  { split; [cbn; lia |]. intros k _. cbn. unfold upd. destruct (k =? 2); lia. }
  do 4 (split; [reflexivity |]). split; [reflexivity |]. split; [reflexivity |]. split; [reflexivity |].
  intros (m & (A & _) & (B & _)). cbn in A, B. rewrite A in B. discriminate.
Qed.
Print Assumptions C28_refuted_arith_pop.

(** instructions that compute a new ST(0) from the old one and, perhaps, a memory operand;
    the sign change also belongs here (it raises no exceptions) *)
Inductive st0_op (cw : Z) : finstr -> Z -> Z -> Z -> Prop :=
| st0_mem m h a : st0_op cw (FarithMem (Some m) h) a (fst (h a m cw)) (snd (h a m cw))
| st0_sqrt h a : st0_op cw (Fsqrt h) a (fst (h a cw)) (snd (h a cw)).

Theorem C28_compute_st0 : forall E s i, ready E s -> wf s ->
  (forall v, st s 0 = Some v -> forall r sw, st0_op (frp s) i v r sw ->
     exists s', fexec E i s = FDone s' None true /\ computed s 0 r sw false s') /\
  (st s 0 = None -> (exists v r sw, st0_op (frp s) i v r sw) ->
     exists s', fexec E i s = FDone s' None true /\
       (if im s then replaced 0 indefinite s s' else same_stack s s') /\ fault_status false no_cc s s').
Proof.
  intros E s i R W. split.
  - intros v S0 r sw C. pose proof (no_underflow E s 0 0 false v S0) as U. set (t := clear_c1 (update_ptr E s)) in *.
    assert (L0 : load_stx t 0 = v) by (apply load_st; [exact W | unfold t; now rewrite start_st]).
    destruct C as [m h v | h v]; cbn [fexec]; rewrite (ready_start E s) by exact R; fold t; rewrite U; cbn [fst snd];
      rewrite L0; change (frp t) with (frp s).
    + destruct (h v m (frp s)) as [r sw]; cbn [fst snd]. destruct (compute_end s t 0 r sw false (start_core E s) eq_refl (proj1 W) ltac:(lia)) as (s' & Q & P); exists s'; split; [exact Q | exact P].
    + destruct (h v (frp s)) as [r sw]; cbn [fst snd]. destruct (compute_end s t 0 r sw false (start_core E s) eq_refl (proj1 W) ltac:(lia)) as (s' & Q & P); exists s'; split; [exact Q | exact P].
  - intros S0 (v & r & sw & C). destruct (underflow_case E s 0 0 false W S0 ltac:(lia)) as (s' & Q & P1 & P2).
    exists s'. split; [inversion C; subst; cbn [fexec]; rewrite (ready_start E s) by exact R; rewrite Q; reflexivity |].
    split; [| exact P2]. destruct (im s); [| exact P1]. destruct P1 as (m & (A1 & A2 & A3) & (B1 & B2)).
    split; [congruence |]. split; [rewrite B2 by lia; exact A2 |]. intros j Hj N. rewrite B2 by lia. now apply A3.
Qed.
Print Assumptions C28_compute_st0.
