(** * C34: one controlling thread, and what a snapshot waits for

    [SuspProps] has the properties that hold whatever the threads do and the
    schedules that break the rest.  Here one thread controls the cpu and waits for
    the effect of each call before it makes the next. *)

From Coq Require Import Bool List Arith Lia.
From Verif Require Import SuspModel SuspProps.
Import ListNotations.

(** ** Specification *)

(** what the controlling thread knows *)
Inductive phase :=
| Run    (* the guest runs; cpu_suspend may be called *)
| Req    (* cpu_suspend has returned; waiting for cpu_is_suspended() to answer yes *)
| Held   (* it has; cpu_resume may be called *)
| Rel.   (* cpu_resume has returned; waiting for the guest to execute an instruction *)

(** the states reached by any schedule of the cpu thread and thread [n] *)
Inductive controlled (n : nat) : phase -> gs -> Prop :=
| k_init t : controlled n Run (init t)
| k_cpu ph s : controlled n ph s -> ph <> Rel \/ snd (step Cpu s) <> Some OGuest ->
    controlled n ph (fst (step Cpu s))
| k_guest s : controlled n Rel s -> snd (step Cpu s) = Some OGuest -> controlled n Run (fst (step Cpu s))
| k_suspend s b : controlled n Run s -> snd (step (Api n (Suspend b)) s) <> Some (OReturn n) ->
    controlled n Run (fst (step (Api n (Suspend b)) s))
| k_suspended s b : controlled n Run s -> snd (step (Api n (Suspend b)) s) = Some (OReturn n) ->
    controlled n Req (fst (step (Api n (Suspend b)) s))
| k_seen s : controlled n Req s -> susp s = true -> controlled n Held s
| k_resume s : controlled n Held s -> snd (step (Api n Resume) s) <> Some (OReturn n) ->
    controlled n Held (fst (step (Api n Resume) s))
| k_resumed s : controlled n Held s -> snd (step (Api n Resume) s) = Some (OReturn n) ->
    controlled n Rel (fst (step (Api n Resume) s)).

(** ** Invariant *)

Definition going (c : cpc) : bool := match c with CIdle | CStart3 | CExec | CRead => true | _ => false end.
(** the bit is up exactly until the suspension has been handled *)
Definition waiting (s : gs) : Prop :=
  susp s = true /\ match cpu s with
                   | CTest1 | CTest2 | CThrow1 | CWait => bit s = true
                   | CThrow2 | CIdle | CStart1 => bit s = false
                   | _ => False
                   end.

Definition inv (n : nat) (ph : phase) (s : gs) : Prop :=
  saving s = false /\ (forall m, m <> n -> thr s m = TIdle) /\
  match ph with
  | Run => susp s = false /\ bit s = false /\ going (cpu s) = true /\
           match thr s n with
           | TIdle | PSusp0 _ | PSusp1 _ | PSusp2 => sflag s = false
           | PSusp3 => sflag s = true
           | _ => False
           end
  | Req => thr s n = TIdle /\ sflag s = true /\
           ((susp s = false /\ bit s = true /\ (going (cpu s) = true \/ cpu s = CMark)) \/ waiting s)
  | Held => sflag s = true /\ waiting s /\ match thr s n with TIdle | PRes0 | PRes1 => True | _ => False end
  | Rel => thr s n = TIdle /\ sflag s = false /\
           (waiting s \/
            match cpu s with
            | CStart2 => susp s = true /\ bit s = false
            | CUnmark => susp s = true /\ bit s = true
            | CClear => susp s = false /\ bit s = true
            | CStart3 | CExec => susp s = false /\ bit s = false
            | _ => False
            end)
  end.

Ltac gscbn := cbn [fst snd sflag susp throw saving bit runs cpu thr set_sflag set_susp set_throw set_saving
  set_bit set_runs set_cpu set_thr going].

Lemma inv_cpu n ph s : inv n ph s -> ph <> Rel \/ snd (step Cpu s) <> Some OGuest -> inv n ph (fst (step Cpu s)).
Proof.
  intros (A & B & C) H. cbn [step] in *. unfold inv, waiting, cpu_step in *.
  destruct ph.
  - destruct C as (C1 & C2 & C3 & C4).
    destruct (cpu s) eqn:EC; try discriminate C3; rewrite ?C1, ?C2; gscbn; rewrite ?C1, ?C2; auto 7.
  - destruct C as (C1 & C2 & [(C3 & C4 & C5) | (C3 & C5)]).
    + destruct (cpu s) eqn:EC; try (destruct C5; discriminate); rewrite ?C3, ?C4; gscbn; rewrite ?C3, ?C4; auto 9.
    + destruct (cpu s) eqn:EC; try contradiction C5; try destruct (throw s); rewrite ?C2, ?C3; gscbn; rewrite ?EC; auto 9.
  - destruct C as (C1 & (C2 & C3) & C4).
    destruct (cpu s) eqn:EC; try contradiction C3; try destruct (throw s); rewrite ?C1, ?C2; gscbn; rewrite ?EC; auto 9.
  - destruct C as (C1 & C2 & [(C3 & C5) | C5]).
    + destruct (cpu s) eqn:EC; try contradiction C5; try destruct (throw s); rewrite ?C2, ?C3; gscbn; auto 9.
    + destruct (cpu s) eqn:EC; try contradiction C5; destruct C5 as [C5 C6]; gscbn; auto 9.
      exfalso. destruct H as [H | H]; now apply H.
Qed.

Lemma inv_guest n s : inv n Rel s -> snd (step Cpu s) = Some OGuest -> inv n Run (fst (step Cpu s)).
Proof.
  intros (A & B & C1 & C2 & C3) H. cbn [step] in *. unfold inv, waiting, cpu_step in *.
  destruct (cpu s) eqn:EC; try (now destruct (sflag s)); try discriminate H.
  destruct C3 as [[_ []] | [C3 C4]]. gscbn. rewrite C1. auto 9.
Qed.

Lemma inv_suspend n b s : inv n Run s ->
  inv n (match snd (step (Api n (Suspend b)) s) with Some _ => Req | None => Run end) (fst (step (Api n (Suspend b)) s)).
Proof.
  intros (A & B & C1 & C2 & C3 & C4). cbn [step]. unfold inv, thr_step.
  destruct (thr s n) eqn:T; try contradiction C4; rewrite ?A; gscbn; rewrite ?upd_eq; cbn;
  (split; [assumption |]); (split; [intros m Hm; rewrite upd_ne by assumption; auto |]); auto 9.
Qed.

Lemma inv_resume n s : inv n Held s ->
  inv n (match snd (step (Api n Resume) s) with Some _ => Rel | None => Held end) (fst (step (Api n Resume) s)).
Proof.
  intros (A & B & C1 & C2 & C3). cbn [step]. unfold inv, waiting, thr_step in *.
  destruct (thr s n) eqn:T; try contradiction C3; rewrite ?A; gscbn; rewrite ?upd_eq; cbn;
  (split; [assumption |]); (split; [intros m Hm; rewrite upd_ne by assumption; auto |]); auto 9.
Qed.

Lemma returns_only n c s o : snd (step (Api n c) s) = Some o -> o = OReturn n.
Proof.
  cbn [step]. unfold thr_step. destruct (thr s n);
  repeat match goal with |- context [if ?b then _ else _] => destruct b end; cbn [snd]; congruence.
Qed.

Lemma controlled_inv n ph s : controlled n ph s -> inv n ph s.
Proof.
  induction 1 as [t | ph s H IH N | s H IH G | s b H IH N | s b H IH G | s H IH S | s H IH N | s H IH G].
  - repeat split; auto.
  - now apply inv_cpu.
  - now apply inv_guest.
  - pose proof (inv_suspend n b s IH) as I. destruct (snd (step (Api n (Suspend b)) s)) eqn:E; [| exact I].
    apply returns_only in E as ->. now elim N.
  - pose proof (inv_suspend n b s IH) as I. now rewrite G in I.
  - destruct IH as (A & B & C1 & C2 & C3). repeat split; auto.
    + destruct C3 as [(C3 & _) | (_ & W)]; [congruence | exact W].
    + now rewrite C1.
  - pose proof (inv_resume n s IH) as I. destruct (snd (step (Api n Resume) s)) eqn:E; [| exact I].
    apply returns_only in E as ->. now elim N.
  - pose proof (inv_resume n s IH) as I. now rewrite G in I.
Qed.

Lemma cpu_any n ph s : match ph with Rel => False | _ => True end -> controlled n ph s -> controlled n ph (fst (step Cpu s)).
Proof. intros H K. apply k_cpu; [exact K |]. left. intros ->. exact H. Qed.

(** ** Theorems *)

Lemma cpu_first k s : trace (repeat Cpu (S k)) s =
  match snd (step Cpu s) with Some o => o :: trace (repeat Cpu k) (fst (step Cpu s)) | None => trace (repeat Cpu k) (fst (step Cpu s)) end.
Proof. reflexivity. Qed.

Lemma run_first k s : run (repeat Cpu (S k)) s = run (repeat Cpu k) (fst (step Cpu s)).
Proof. reflexivity. Qed.

(** *** Suspended means suspended: from the moment cpu_is_suspended() has answered
    yes until cpu_resume returns, at any number of further steps of the cpu thread,
    no instruction is executed and the answer stays yes. *)
Theorem C34_controlled_held : forall n s k, controlled n Held s ->
  guest (trace (repeat Cpu k) s) = 0 /\ susp (run (repeat Cpu k) s) = true.
Proof.
  intros n s k H. revert s H. induction k as [| k IH]; intros s H.
  - destruct (controlled_inv _ _ _ H) as (_ & _ & _ & (W & _) & _). split; [reflexivity | exact W].
  - assert (N : snd (step Cpu s) <> Some OGuest).
    { destruct (controlled_inv _ _ _ H) as (_ & _ & F & (W & C) & _). cbn [step]. unfold cpu_step.
      destruct (cpu s); try contradiction C; rewrite ?F, ?W; discriminate. }
    destruct (IH _ (k_cpu n Held s H (or_intror N))) as [G R]. split; [| exact R].
    rewrite cpu_first. destruct (snd (step Cpu s)) as [[| |] |]; try exact G. now elim N.
Qed.
Print Assumptions C34_controlled_held.

(** *** A suspend request takes effect: at most one more instruction, and five steps
    of the cpu thread later it is suspended *)
Theorem C34_controlled_suspend : forall n s k, controlled n Req s ->
  guest (trace (repeat Cpu k) s) <= 1 /\ (k >= 5 -> susp (run (repeat Cpu k) s) = true).
Proof.
  intros n s k H.
  assert (G : forall k s c, controlled n Req s ->
    match cpu s with CIdle => if susp s then 0 else 5 | CStart3 => 4 | CExec => 3 | CRead => 2 | CMark => 1 | _ => 0 end = c ->
    guest (trace (repeat Cpu k) s) <= (if 2 <? c then 1 else 0) /\ (k >= c -> susp (run (repeat Cpu k) s) = true)).
  { clear. induction k as [| k IH]; intros s c H Hc.
    - cbn [repeat trace]. split; [cbn; lia |]. intros K.
      destruct (controlled_inv _ _ _ H) as (_ & _ & _ & F & [(A & B & C) | W]); [| apply W].
      assert (c = 0) as -> by lia. rewrite A in Hc. destruct (cpu s); destruct C; discriminate.
    - pose proof (cpu_any n Req s I H) as H'.
      specialize (IH _ _ H' eq_refl). rewrite run_first, cpu_first. revert IH. clear H'.
      destruct (controlled_inv _ _ _ H) as (_ & _ & _ & F & [(A & B & C) | (W & C)]).
      + cbn [step]. unfold cpu_step. destruct (cpu s); try (destruct C; discriminate); rewrite ?A, ?B in *; gscbn;
        rewrite ?A; intros [I1 I2]; subst c; cbn [Nat.ltb Nat.leb] in *; split; try assumption;
        try (intros K; apply I2; lia).
        unfold guest in *. cbn [filter is_guest length]. lia.
      + cbn [step]. unfold cpu_step. destruct (cpu s) eqn:EC; try contradiction C; rewrite ?W, ?F in *; try destruct (throw s); gscbn;
        rewrite ?W, ?EC; intros [I1 I2]; subst c; cbn [Nat.ltb Nat.leb] in *; split;
        try (intros K; apply I2; lia); try (unfold guest in *; cbn [filter is_guest length]; lia). }
  destruct (G k s _ H eq_refl) as [G1 G2]. split.
  - destruct (2 <? _); lia.
  - intros K. apply G2. destruct (cpu s); try destruct (susp s); lia.
Qed.
Print Assumptions C34_controlled_suspend.

(** *** A resume request takes effect: eight steps of the cpu thread later the guest
    has executed an instruction (a paused cpu needs cpu_run to be called: the first
    of these steps when it is idle) *)
Lemma rel_cpu n s o : controlled n Rel s -> snd (step Cpu s) = o ->
  match o with Some OGuest => True | _ => controlled n Rel (fst (step Cpu s)) end.
Proof.
  intros H E. destruct o as [[| |] |]; try exact I; apply k_cpu; try exact H; right; rewrite E; discriminate.
Qed.

Theorem C34_controlled_resume : forall n s k, controlled n Rel s -> k >= 8 ->
  guest (trace (repeat Cpu k) s) >= 1.
Proof.
  intros n s k H Hk.
  assert (G : forall k s, controlled n Rel s ->
    k >= match cpu s with CExec => 1 | CClear | CStart3 => 2 | CUnmark | CStart2 => 3 | CWait | CStart1 => 4
         | CTest2 | CIdle => 5 | CTest1 | CThrow2 => 6 | CThrow1 => 7 | _ => 8 end ->
    guest (trace (repeat Cpu k) s) >= 1).
  { clear. induction k as [| k IH]; intros s H Hk; [destruct (cpu s); lia |].
    rewrite cpu_first. destruct (snd (step Cpu s)) as [o |] eqn:E.
    - destruct o; [unfold guest; cbn [filter is_guest length]; lia | |];
      pose proof (rel_cpu n s _ H E) as H'; specialize (IH _ H');
      apply IH; clear IH H'; revert E Hk;
      destruct (controlled_inv _ _ _ H) as (_ & _ & _ & F & [(W & C) | C]);
      cbn [step]; unfold cpu_step; destruct (cpu s); try contradiction C; rewrite ?F, ?W; try destruct (throw s); gscbn;
      intros; try discriminate; lia.
    - pose proof (rel_cpu n s _ H E) as H'; specialize (IH _ H');
      apply IH; clear IH H'; revert E Hk;
      destruct (controlled_inv _ _ _ H) as (_ & _ & _ & F & [(W & C) | C]);
      cbn [step]; unfold cpu_step; destruct (cpu s); try contradiction C; rewrite ?F, ?W; try destruct (throw s); gscbn;
      intros; try discriminate; lia. }
  apply (G k s H). destruct (cpu s); lia.
Qed.
Print Assumptions C34_controlled_resume.

(** *** Between suspensions the guest runs on, never suspended by an earlier request *)
Theorem C34_controlled_running : forall n s k, controlled n Run s ->
  guest (trace (repeat Cpu (2 * k + 2)) s) >= k /\ susp (run (repeat Cpu k) s) = false.
Proof.
  intros n s k H.
  assert (P0 : forall j s, controlled n Run s -> susp (run (repeat Cpu j) s) = false).
  { clear. induction j as [| j IH]; intros s H; [apply (controlled_inv _ _ _ H) |].
    exact (IH _ (cpu_any n Run s I H)). }
  split; [| now apply P0].
  assert (G : forall j s, controlled n Run s -> forall k,
    j + 2 >= 2 * k + match cpu s with CIdle => 3 | CStart3 | CRead => 2 | _ => 1 end ->
    guest (trace (repeat Cpu j) s) >= k).
  { clear. induction j as [| j IH]; intros s H k Hk; [destruct (cpu s); lia |].
    destruct k as [| k]; [lia |].
    pose proof (cpu_any n Run s I H) as H'. specialize (IH _ H').
    rewrite cpu_first. revert IH. clear H'.
    destruct (controlled_inv _ _ _ H) as (_ & _ & A & B & C & _). cbn [step]. unfold cpu_step.
    destruct (cpu s) eqn:EC; try discriminate C; rewrite ?A, ?B; gscbn; intros IH; try (apply IH; lia).
    specialize (IH k ltac:(lia)). unfold guest in *. cbn [filter is_guest length]. lia. }
  apply (G _ _ H). destruct (cpu s); lia.
Qed.
Print Assumptions C34_controlled_running.

(** *** The calls of the controlling thread never block: each step of a call brings
    it nearer to its return, five steps of cpu_suspend and three of cpu_resume *)
Theorem C34_controlled_calls : forall n s b,
  (controlled n Run s -> returned n (trace (repeat (Api n (Suspend b)) 5) s) = true) /\
  (controlled n Held s -> returned n (trace (repeat (Api n Resume) 3) s) = true).
Proof.
  intros n s b.
  assert (L : forall c k s, saving s = false -> (forall m, in_snapshot (thr s m) = false) -> no_snapshot (Api n c) = true ->
    thr s n <> TIdle -> k >= left_steps (thr s n) -> returned n (trace (repeat (Api n c) k) s) = true).
  { intros c k s0 A O E N K. apply C34_suspend_resume_return; try assumption.
    - apply forallb_forall. intros x Hx. apply repeat_spec in Hx as ->. exact E.
    - replace (steps_of n (repeat (Api n c) k)) with k; [exact K |].
      unfold steps_of. clear. induction k as [| k IH]; [reflexivity |].
      cbn [repeat filter]. rewrite Nat.eqb_refl. cbn [length]. now rewrite <- IH. }
  assert (R : forall o s0 e t, returned n (trace t (fst (step e s0))) = true -> snd (step e s0) = o ->
    returned n (trace (e :: t) s0) = true).
  { intros o s0 e t X Y. cbn [trace]. rewrite Y. destruct o; [| exact X].
    unfold returned in *. cbn [existsb]. rewrite X. apply orb_true_r. }
  split; intros H; destruct (controlled_inv _ _ _ H) as (A & B & C).
  - destruct C as (_ & _ & _ & C).
    assert (O : forall m, in_snapshot (thr s m) = false).
    { intros m. destruct (Nat.eq_dec m n) as [-> | N]; [| now rewrite B].
      destruct (thr s n); try contradiction C; reflexivity. }
    destruct (thr s n) eqn:T; try contradiction C; try (apply L; auto; rewrite T; cbn; (discriminate || lia)).
    eapply (R _ s (Api n (Suspend b)) (repeat (Api n (Suspend b)) 4)); [| reflexivity].
    assert (E1 : fst (step (Api n (Suspend b)) s) = set_thr n (PSusp0 b) s) by (cbn [step]; unfold thr_step; now rewrite T).
    rewrite E1. apply L; auto; gscbn; rewrite ?upd_eq; cbn; try discriminate; try lia.
    intros m. unfold upd. destruct (Nat.eqb m n); auto.
  - destruct C as (_ & _ & C).
    assert (O : forall m, in_snapshot (thr s m) = false).
    { intros m. destruct (Nat.eq_dec m n) as [-> | N]; [| now rewrite B].
      destruct (thr s n); try contradiction C; reflexivity. }
    destruct (thr s n) eqn:T; try contradiction C; try (apply L; auto; rewrite T; cbn; (discriminate || lia)).
    eapply (R _ s (Api n Resume) (repeat (Api n Resume) 2)); [| reflexivity].
    assert (E1 : fst (step (Api n Resume) s) = set_thr n PRes0 s) by (cbn [step]; unfold thr_step; now rewrite T).
    rewrite E1. apply L; auto; gscbn; rewrite ?upd_eq; cbn; try discriminate; try lia.
    intros m. unfold upd. destruct (Nat.eqb m n); auto.
Qed.
Print Assumptions C34_controlled_calls.

(** two complete rounds, one of each kind of suspension *)
Example C34_controlled_example : exists s, controlled 3 Held s /\ cpu s = CIdle /\ throw s = true.
Proof.
  assert (K : forall ph s, controlled 3 ph s -> ph <> Rel -> forall k, controlled 3 ph (run (repeat Cpu k) s)).
  { intros ph s H N k. revert s H. induction k as [| k IH]; intros s H; [exact H |].
    apply IH. apply k_cpu; auto. }
  assert (S5 : forall b s, controlled 3 Run s -> thr s 3 = TIdle -> saving s = false ->
                controlled 3 Req (run (repeat (Api 3 (Suspend b)) 5) s)).
  { intros b s H T A.
    assert (Q : forall j s, controlled 3 Run s -> thr s 3 = j -> saving s = false -> j = TIdle \/ j = PSusp0 b \/ j = PSusp1 b \/ j = PSusp2 ->
      controlled 3 Run (fst (step (Api 3 (Suspend b)) s))).
    { intros j s' H' T' A' J. apply k_suspend; [assumption |]. cbn [step]. unfold thr_step. rewrite T'.
      destruct J as [-> | [-> | [-> | ->]]]; rewrite ?A'; discriminate. }
    pose proof (Q _ _ H T A (or_introl eq_refl)) as H1.
    set (s1 := fst (step (Api 3 (Suspend b)) s)) in H1.
    assert (E1 : s1 = set_thr 3 (PSusp0 b) s) by (unfold s1; cbn [step]; unfold thr_step; now rewrite T).
    pose proof (Q (PSusp0 b) _ H1 ltac:(now rewrite E1) ltac:(now rewrite E1) ltac:(auto)) as H2.
    set (s2 := fst (step (Api 3 (Suspend b)) s1)) in H2.
    assert (E2 : s2 = set_thr 3 (PSusp1 b) s1) by (unfold s2; cbn [step]; unfold thr_step; rewrite E1; cbn [thr set_thr saving]; rewrite A; reflexivity).
    pose proof (Q (PSusp1 b) _ H2 ltac:(now rewrite E2) ltac:(now rewrite E2, E1) ltac:(auto)) as H3.
    set (s3 := fst (step (Api 3 (Suspend b)) s2)) in H3.
    assert (E3 : s3 = set_thr 3 PSusp2 (set_throw b s2)) by (unfold s3; cbn [step]; unfold thr_step; now rewrite E2).
    pose proof (Q PSusp2 _ H3 ltac:(now rewrite E3) ltac:(now rewrite E3, E2, E1) ltac:(auto)) as H4.
    set (s4 := fst (step (Api 3 (Suspend b)) s3)) in H4.
    assert (E4 : s4 = set_thr 3 PSusp3 (set_sflag true s3)) by (unfold s4; cbn [step]; unfold thr_step; now rewrite E3).
    exact (k_suspended 3 s4 b H4 ltac:(cbn [step]; unfold thr_step; now rewrite E4)). }
  assert (H1 := K Run _ (k_init 3 false) ltac:(discriminate) 3).
  assert (H2 := S5 false _ H1 eq_refl eq_refl).
  assert (H3 := K Req _ H2 ltac:(discriminate) 4).
  assert (H4 := k_seen 3 _ H3 eq_refl).
  assert (H5 := k_resume 3 _ H4 ltac:(discriminate)).
  assert (H6 := k_resume 3 _ H5 ltac:(discriminate)).
  assert (H7 := k_resumed 3 _ H6 eq_refl).
  assert (H8 := k_cpu 3 Rel _ H7 ltac:(right; discriminate)).
  assert (H9 := k_cpu 3 Rel _ H8 ltac:(right; discriminate)).
  assert (H10 := k_cpu 3 Rel _ H9 ltac:(right; discriminate)).
  assert (H11 := k_guest 3 _ H10 eq_refl).
  assert (H12 := S5 true _ H11 eq_refl eq_refl).
  assert (H13 := K Req _ H12 ltac:(discriminate) 6).
  assert (H14 := k_seen 3 _ H13 eq_refl).
  eexists. split; [exact H14 | split; reflexivity].
Qed.

(** ** Snapshots *)

(** *** A snapshot begins to copy only when the cpu says it is suspended or is not
    running *)
Theorem C34_copy_begins_suspended : forall s e n,
  copies (thr s n) = false -> copies (thr (fst (step e s)) n) = true -> susp s = true \/ runs s = false.
Proof.
  intros s e n H0 H1. destruct e as [| m c].
  - exfalso. revert H1. cbn [step]. unfold cpu_step. destruct (cpu s); try destruct (sflag s); gscbn; congruence.
  - destruct (Nat.eq_dec n m) as [<- | N].
    + revert H1. cbn [step]. unfold thr_step. destruct (thr s n) eqn:T; try discriminate H0.
      all: repeat match goal with |- context [if ?b then _ else _] => destruct b eqn:? end; gscbn; rewrite ?upd_eq, ?T; cbn [copies];
        try discriminate; auto.
      destruct c; discriminate.
    + rewrite (stopped_other (Api m c) s n) in H1 by congruence. congruence.
Qed.
Print Assumptions C34_copy_begins_suspended.

(** *** In every history the cpu counts as running exactly while the cpu thread is in
    the part of cpu_run that executes the guest; a snapshot of a cpu that is not
    running completes without help from the cpu thread and changes no request *)
Definition executing (c : cpc) : bool :=
  match c with CIdle | CStart1 | CStart2 | CStart3 => false | _ => true end.

Lemma runs_step e s : runs s = executing (cpu s) -> runs (fst (step e s)) = executing (cpu (fst (step e s))).
Proof.
  intros H. destruct e as [| m c]; cbn [step].
  - unfold cpu_step. destruct (cpu s) eqn:EC; try destruct (sflag s); try destruct (susp s); try destruct (bit s);
    try destruct (throw s); gscbn; rewrite ?EC, ?H; reflexivity.
  - unfold thr_step. destruct (thr s m);
    repeat match goal with |- context [if ?b then _ else _] => destruct b eqn:? end; gscbn; congruence.
Qed.

Theorem C34_snapshot_not_running : forall t0 history n c,
  let s := run history (init t0) in
  runs s = executing (cpu s) /\
  (executing (cpu s) = false -> thr s n = PSnapIn ->
   trace (repeat (Api n c) 3) s = [OReturn n] /\
   let s' := run (repeat (Api n c) 3) s in
   sflag s' = sflag s /\ susp s' = susp s /\ throw s' = throw s /\ bit s' = bit s /\ cpu s' = cpu s /\
   saving s' = false).
Proof.
  intros t0 history n c s. assert (R : runs s = executing (cpu s)).
  { unfold s. assert (G : forall evs s, runs s = executing (cpu s) -> runs (run evs s) = executing (cpu (run evs s))).
    { induction evs as [| e t IH]; intros s0 H; [exact H |]. apply IH. now apply runs_step. }
    now apply G. }
  split; [exact R |]. intros X T. rewrite X in R. clearbody s. cbn [repeat trace run step]. 
  assert (E1 : thr_step n c s = (set_thr n PDirect s, None)) by (unfold thr_step; now rewrite T, R).
  rewrite E1. cbn [fst snd].
  assert (E2 : thr_step n c (set_thr n PDirect s) = (set_thr n PEnd (set_thr n PDirect s), None)).
  { unfold thr_step. gscbn. now rewrite upd_eq. }
  rewrite E2. cbn [fst snd].
  assert (E3 : thr_step n c (set_thr n PEnd (set_thr n PDirect s)) =
               (set_thr n TIdle (set_saving false (set_thr n PEnd (set_thr n PDirect s))), Some (OReturn n))).
  { unfold thr_step. gscbn. now rewrite upd_eq. }
  rewrite E3. cbn [fst snd]. repeat split.
Qed.
Print Assumptions C34_snapshot_not_running.

(** *** A snapshot of a suspended cpu keeps calls of cpu_resume and cpu_suspend that
    are made meanwhile waiting: until the snapshot returns the guest executes
    nothing, whatever the other threads call *)
Definition kept_out (p : tpc) : bool :=
  match p with TIdle | PSusp0 _ | PRes0 | PSnap0 | PSnapW => true | _ => false end.
Definition copying_held (p : tpc) : bool :=
  match p with PSnapIn | PDirect | PS1 | PS2 true | PSpin true _ | PSaving true _ | PEnd => true | _ => false end.

Theorem C34_snapshot_excludes_resume : forall evs s m,
  sflag s = true -> susp s = true -> held (cpu s) = true -> saving s = true ->
  copying_held (thr s m) = true -> (forall n, n <> m -> kept_out (thr s n) = true) ->
  returned m (trace evs s) = false ->
  guest (trace evs s) = 0 /\ susp (run evs s) = true /\ sflag (run evs s) = true.
Proof.
  induction evs as [| e t IH]; intros s m HF HS HC HV HM HO HR; [auto |].
  assert (ST : let s1 := fst (step e s) in
    snd (step e s) <> Some OGuest /\
    (snd (step e s) = Some (OReturn m) \/
     (sflag s1 = true /\ susp s1 = true /\ held (cpu s1) = true /\ saving s1 = true /\
      copying_held (thr s1 m) = true /\ (forall n, n <> m -> kept_out (thr s1 n) = true)))).
  { cbv zeta. destruct e as [| n c].
    - split.
      + cbn [step]. unfold cpu_step. destruct (cpu s) eqn:EC; try discriminate HC; rewrite ?HF, ?HS; discriminate.
      + right. rewrite stopped_other by exact I.
        assert (T : forall n, thr (fst (step Cpu s)) n = thr s n) by (intros n; now apply stopped_other).
        assert (KO : forall n, n <> m -> kept_out (thr (fst (step Cpu s)) n) = true) by (intros n N; rewrite T; auto).
        repeat split; auto; cbn [step]; unfold cpu_step;
        destruct (cpu s) eqn:EC; try discriminate HC; rewrite ?HF, ?HS; try destruct (throw s); gscbn; rewrite ?EC; auto.
    - assert (OT : forall k, k <> n -> thr (fst (step (Api n c) s)) k = thr s k).
      { intros k N. apply stopped_other. congruence. }
      split; [intros E; apply returns_only in E; discriminate |].
      destruct (Nat.eq_dec n m) as [-> | N].
      + cbn [step]. unfold thr_step. destruct (thr s m) as [ |b|b| | | | | | | | | |f|u|u|u|f u|f u|u| | | ] eqn:T; try discriminate HM;
        try (destruct f; try discriminate HM); rewrite ?HS; try destruct (runs s); try rewrite HF; try (left; reflexivity);
        right; gscbn; rewrite ?upd_eq; repeat split; auto; intros k Nk; rewrite upd_ne by assumption; auto.
      + right. specialize (HO n N) as HOn.
        cbn [step]. unfold thr_step. destruct (thr s n) as [ |b|b| | | | | | | | | |f|u|u|u|f u|f u|u| | | ] eqn:T; try discriminate HOn;
        rewrite ?HV; try (repeat split; now auto);
        gscbn; rewrite ?(upd_ne _ n _ m) by congruence; repeat split; auto;
        (intros k Nk; unfold upd; destruct (Nat.eqb k n); [try reflexivity; destruct c; reflexivity | auto]). }
  cbv zeta in ST. destruct ST as [NG [RT | (A & B & C & D & F & G)]].
  - exfalso. cbn [trace] in HR. rewrite RT in HR. cbn [returned existsb] in HR. now rewrite Nat.eqb_refl in HR.
  - cbn [trace run] in *. destruct (snd (step e s)) as [o |].
    + assert (HR' : returned m (trace t (fst (step e s))) = false).
      { unfold returned in *. cbn [existsb] in HR. now apply orb_false_iff in HR. }
      destruct (IH _ m A B C D F G HR') as (I1 & I2 & I3). destruct o; auto. now elim NG.
    + exact (IH _ m A B C D F G HR).
Qed.
Print Assumptions C34_snapshot_excludes_resume.

(** thread 0 suspends, thread 1 copies, thread 2 calls cpu_resume meanwhile *)
Example C34_excludes_example :
  let s := run ([Cpu; Cpu; Cpu] ++ repeat (Api 0 (Suspend false)) 5 ++ [Cpu; Cpu; Cpu] ++ repeat (Api 1 Snapshot) 6
                ++ repeat (Api 2 Resume) 3) (init false) in
  sflag s = true /\ susp s = true /\ held (cpu s) = true /\ saving s = true /\ copying_held (thr s 1) = true /\
  copies (thr s 1) = true /\ kept_out (thr s 2) = true /\ kept_out (thr s 0) = true.
Proof. repeat split. Qed.

(** a paused cpu and a snapshot *)
Example C34_not_running_example :
  let s := run ([Cpu; Cpu; Cpu] ++ repeat (Api 0 (Suspend true)) 5 ++ repeat Cpu 7 ++ repeat (Api 1 Snapshot) 2) (init false) in
  executing (cpu s) = false /\ thr s 1 = PSnapIn /\ susp s = true.
Proof. repeat split. Qed.
