(** * C34: snapshot, suspend and resume from other threads *)

From Coq Require Import Bool List Arith Lia.
From Verif Require Import SuspModel.
Import ListNotations.

(** ** Specification *)

Definition is_guest (o : obs) : bool := match o with OGuest => true | _ => false end.

(** instructions the guest has executed *)
Definition guest (l : list obs) : nat := length (filter is_guest l).

Definition returned (n : nat) (l : list obs) : bool :=
  existsb (fun o => match o with OReturn m => Nat.eqb m n | _ => false end) l.

(** steps of the cpu thread, of thread [n] *)
Definition cpu_steps (evs : list ev) : nat :=
  length (filter (fun e => match e with Cpu => true | _ => false end) evs).
Definition steps_of (n : nat) (evs : list ev) : nat :=
  length (filter (fun e => match e with Api m _ => Nat.eqb m n | _ => false end) evs).

(** no call of cpu_resume, no snapshot call, is made in a schedule *)
Definition no_resume (e : ev) : bool := match e with Api _ Resume => false | _ => true end.
Definition no_snapshot (e : ev) : bool := match e with Api _ Snapshot => false | _ => true end.

(** is the thread copying the state? *)
Definition copies (p : tpc) : bool :=
  match p with PDirect | PSaving _ _ => true | _ => false end.

(** is the thread inside the region that one snapshot at a time may be in? *)
Definition inside (p : tpc) : bool :=
  match p with
  | PSnapIn | PDirect | PS1 | PS2 _ | PS3 _ | PS4 _ | PS5 _ | PSpin _ _ | PSaving _ _
  | PBack _ | PBRes0 | PBRes1 | PEnd => true
  | _ => false
  end.
Definition in_snapshot (p : tpc) : bool :=
  match p with PSnap0 | PSnapW => true | _ => inside p end.

(** The thread will not clear the suspend flag: it is not in cpu_resume, nor in a
    snapshot that found the cpu not suspended. *)
Definition quiet (p : tpc) : bool :=
  match p with
  | PRes0 | PRes1 | PS2 false | PS3 _ | PS4 _ | PS5 _
  | PSpin false _ | PSaving false _ | PBack _ | PBRes0 | PBRes1 => false
  | _ => true
  end.

(** ** General facts *)

Lemma run_app : forall a b s, run (a ++ b) s = run b (run a s).
Proof. induction a as [|e t IH]; intros b s; [reflexivity | apply IH]. Qed.

Lemma trace_app : forall a b s, trace (a ++ b) s = trace a s ++ trace b (run a s).
Proof.
  induction a as [|e t IH]; intros b s; [reflexivity|].
  cbn [app trace run]. destruct (snd (step e s)); rewrite IH; reflexivity.
Qed.

Lemma upd_eq : forall f n p, upd f n p n = p.
Proof. intros; unfold upd. rewrite Nat.eqb_refl. reflexivity. Qed.
Lemma upd_ne : forall f n p m, m <> n -> upd f n p m = f m.
Proof. intros f n p m H; unfold upd. apply Nat.eqb_neq in H. rewrite H. reflexivity. Qed.

Lemma upd_all : forall (P : tpc -> bool) f n p,
  (forall m, P (f m) = true) -> P p = true -> forall m, P (upd f n p m) = true.
Proof.
  intros P f n p H1 H2 m. unfold upd. destruct (Nat.eqb m n); [exact H2 | apply H1].
Qed.

(** ** A suspended cpu stays suspended *)

(** where the cpu thread is while cpu_is_suspended() answers yes *)
Definition marked (c : cpc) : bool :=
  match c with
  | CTest1 | CTest2 | CThrow1 | CThrow2 | CWait | CUnmark | CIdle | CStart1 | CStart2 => true
  | _ => false
  end.

(** on its way out: it has seen the flag clear and will go on *)
Definition leaving (c : cpc) : bool := match c with CUnmark | CStart2 => true | _ => false end.

Lemma marked_step : forall e s,
  (susp s = true -> marked (cpu s) = true) ->
  susp (fst (step e s)) = true -> marked (cpu (fst (step e s))) = true.
Proof.
  intros e s H. destruct e as [|n c]; cbn [step].
  - unfold cpu_step.
    destruct (cpu s) eqn:C, (susp s) eqn:S, (sflag s) eqn:F, (throw s) eqn:T;
      cbn [fst set_cpu set_susp set_runs set_bit susp cpu]; rewrite ?C, ?S;
      intro K; try discriminate K; try reflexivity; specialize (H eq_refl); discriminate H.
  - assert (E : susp (fst (thr_step n c s)) = susp s /\ cpu (fst (thr_step n c s)) = cpu s).
    { unfold thr_step. destruct (thr s n);
        repeat match goal with |- context [if ?b then _ else _] => destruct b eqn:? end;
        split; cbn [fst susp cpu set_thr set_sflag set_throw set_bit set_saving]; congruence. }
    destruct E as [-> ->]. exact H.
Qed.

Lemma marked_run : forall evs s,
  (susp s = true -> marked (cpu s) = true) ->
  susp (run evs s) = true -> marked (cpu (run evs s)) = true.
Proof.
  induction evs as [|e t IH]; intros s H; [exact H|].
  cbn [run]. apply IH. intro K. exact (marked_step e s H K).
Qed.

Definition held (c : cpc) : bool := marked c && negb (leaving c).

Definition stopped (s : gs) : Prop :=
  sflag s = true /\ susp s = true /\ held (cpu s) = true /\ forall n, quiet (thr s n) = true.

Lemma stopped_step : forall e s, no_resume e = true -> stopped s ->
  stopped (fst (step e s)) /\ snd (step e s) <> Some OGuest.
Proof.
  intros e s HE (HF & HS & HC & HQ). destruct e as [|n c]; cbn [step].
  - unfold cpu_step. destruct (cpu s) eqn:C; try discriminate HC;
      rewrite ?HF, ?HS; try destruct (throw s); cbn [fst snd];
      (split; [repeat split; cbn [sflag susp cpu thr set_cpu set_bit set_runs];
               rewrite ?C; (assumption || reflexivity) | discriminate]).
  - assert (Q := HQ n). unfold thr_step.
    destruct (thr s n) as [ |b|b| | | | | | | | | |f|t|t|t|f t|f t|t| | | ] eqn:T; try discriminate Q;
      try (destruct f; try discriminate Q); rewrite ?HS;
      repeat match goal with |- context [if ?b then _ else _] => destruct b end;
      (split; [repeat split;
               cbn [fst sflag susp cpu thr set_thr set_sflag set_throw set_bit set_saving];
               (assumption || reflexivity ||
                (apply upd_all; [exact HQ | destruct c; (reflexivity || discriminate HE)]) || idtac)
              | discriminate]).
    all: try (rewrite HF; apply upd_all; [exact HQ | reflexivity]).
Qed.

Lemma stopped_run : forall evs s, forallb no_resume evs = true -> stopped s ->
  guest (trace evs s) = 0 /\ stopped (run evs s).
Proof.
  induction evs as [|e t IH]; intros s HE HS; [split; [reflexivity|exact HS]|].
  cbn [forallb] in HE. apply andb_true_iff in HE. destruct HE as [H1 H2].
  destruct (stopped_step e s H1 HS) as [S' NG]. destruct (IH _ H2 S') as [G R].
  cbn [trace run]. split; [|exact R].
  destruct (snd (step e s)) as [o|]; [|exact G].
  destruct o; [exfalso; apply NG; reflexivity| exact G | exact G].
Qed.

(** *** In every history: if cpu_is_suspended() answers yes, the suspend flag is set
    and the cpu thread is not just leaving an earlier suspension, then, until
    cpu_resume is called, the guest executes nothing and cpu_is_suspended() keeps
    answering yes, whatever is called, snapshots included, and even if the client
    calls cpu_run again. *)
Theorem C34_stays_suspended_partial :
  forall t0 history evs,
    let s := run history (init t0) in
    susp s = true -> sflag s = true ->
    leaving (cpu s) = false ->
    (forall n, quiet (thr s n) = true) ->
    forallb no_resume evs = true ->
    guest (trace evs s) = 0 /\ susp (run evs s) = true /\ sflag (run evs s) = true.
Proof.
  intros t0 h evs s HS HF HL HQ HE.
  assert (M : marked (cpu s) = true).
  { apply marked_run; [discriminate | exact HS]. }
  assert (ST : stopped s).
  { repeat split; try assumption. unfold held. rewrite M, HL. reflexivity. }
  destruct (stopped_run evs s HE ST) as [G (A & B & _)]. repeat split; assumption.
Qed.
Print Assumptions C34_stays_suspended_partial.

(** *** Refuted without that exception: after cpu_resume and a second cpu_suspend,
    cpu_is_suspended() still answers yes for the first suspension; the second request
    is then erased and the guest runs, for ever, without any cpu_resume. *)
Definition all_idle (s : gs) : Prop := forall n, thr s n = TIdle.

Definition stale_history : list ev :=
  (* the guest runs; thread 0 suspends it, blocking *)
  [Cpu; Cpu; Cpu] ++ repeat (Api 0 (Suspend false)) 5 ++ [Cpu; Cpu; Cpu]
  (* thread 0 resumes it; the cpu thread sees the flag clear *)
  ++ repeat (Api 0 Resume) 3 ++ [Cpu]
  (* thread 0 suspends it again *)
  ++ repeat (Api 0 (Suspend false)) 5.

Fixpoint cpu_only (n : nat) : list ev :=
  match n with O => [] | S k => Cpu :: Cpu :: cpu_only k end.

Lemma idle_after : forall evs t0 n,
  (forall m c, In (Api m c) evs -> m < n) ->
  forall m, n <= m -> thr (run evs (init t0)) m = TIdle.
Proof.
  intros evs t0 n H.
  assert (G : forall l s, (forall m c, In (Api m c) l -> m < n) ->
             (forall m, n <= m -> thr s m = TIdle) -> forall m, n <= m -> thr (run l s) m = TIdle).
  { induction l as [|e t IH]; intros s HL HS m Hm; [exact (HS m Hm)|].
    cbn [run]. apply IH; [intros m' c' K; apply (HL m' c'); right; exact K| |exact Hm].
    intros m' Hm'. destruct e as [|k c]; cbn [step].
    - unfold cpu_step. destruct (cpu s); try destruct (sflag s); cbn; apply HS, Hm'.
    - assert (K : k < n) by (apply (HL k c); left; reflexivity).
      unfold thr_step. destruct (thr s k);
        repeat match goal with |- context [if ?b then _ else _] => destruct b end;
        cbn [fst set_thr thr set_sflag set_throw set_bit set_saving];
        rewrite ?upd_ne by lia; apply HS, Hm'. }
  intros m Hm. apply (G evs (init t0) H); [intros; reflexivity | exact Hm].
Qed.

Lemma running_on : forall k s, cpu s = CExec -> bit s = false ->
  guest (trace (cpu_only k) s) = k
  /\ cpu (run (cpu_only k) s) = CExec /\ bit (run (cpu_only k) s) = false
  /\ sflag (run (cpu_only k) s) = sflag s /\ thr (run (cpu_only k) s) = thr s.
Proof.
  induction k as [|k IH]; intros s HC HB; [repeat split; assumption|].
  assert (E0 : cpu_step s = (set_cpu CRead s, Some OGuest)) by (unfold cpu_step; rewrite HC; reflexivity).
  assert (E1 : cpu_step (set_cpu CRead s) = (set_cpu CExec (set_cpu CRead s), None)).
  { unfold cpu_step. cbn [cpu set_cpu bit]. rewrite HB. reflexivity. }
  cbn [cpu_only trace run step]. rewrite E0. cbn [fst snd]. rewrite E1. cbn [fst snd].
  destruct (IH (set_cpu CExec (set_cpu CRead s)) eq_refl HB) as (A & B & C & D & F).
  repeat split; try assumption. unfold guest in *. cbn [filter is_guest length]. rewrite A. reflexivity.
Qed.

Theorem C34_refuted_still_running :
  exists history t0,
    let s := run history (init t0) in
    (* thread 0 has returned from its second cpu_suspend and sees the cpu suspended *)
    all_idle s /\ susp s = true /\ sflag s = true
    (* from here on nobody calls anything and the guest executes any number of instructions *)
    /\ forall k, exists evs,
         forallb (fun e => match e with Cpu => true | _ => false end) evs = true
         /\ guest (trace evs s) = k.
Proof.
  exists stale_history, false. cbv zeta.
  split; [|split; [reflexivity|split; [reflexivity|]]].
  - intro n. destruct n as [|n]; [reflexivity|].
    apply (idle_after stale_history false 1); [|lia].
    unfold stale_history. cbn [app repeat In]. intros m c K.
    repeat destruct K as [K|K]; try discriminate K; try (injection K as <- <-; lia). destruct K.
  - intro k. exists (Cpu :: Cpu :: cpu_only k). split.
    + cbn [forallb]. induction k; [reflexivity|exact IHk].
    + set (s := run stale_history (init false)).
      assert (E1 : snd (step Cpu s) = None) by reflexivity.
      assert (E2 : snd (step Cpu (fst (step Cpu s))) = None) by reflexivity.
      cbn [trace]. rewrite E1, E2. apply running_on; reflexivity.
Qed.
Print Assumptions C34_refuted_still_running.

(** ** A suspend request is honoured at once *)

(** the request is up and the cpu thread has not begun to handle an earlier one *)
Definition fresh (c : cpc) : bool := match c with CExec | CRead | CMark => true | _ => false end.

Definition coming (s : gs) : Prop :=
  sflag s = true /\ bit s = true /\ fresh (cpu s) = true /\ forall n, quiet (thr s n) = true.

Definition due (c : cpc) : nat := match c with CExec => 3 | CRead => 2 | CMark => 1 | _ => 0 end.
Definition is_cpu (e : ev) : nat := match e with Cpu => 1 | _ => 0 end.

Lemma coming_step : forall e s, no_resume e = true -> coming s ->
  (coming (fst (step e s)) /\ due (cpu (fst (step e s))) + is_cpu e = due (cpu s)
   /\ (snd (step e s) = Some OGuest -> cpu s = CExec /\ cpu (fst (step e s)) = CRead))
  \/ (e = Cpu /\ cpu s = CMark /\ stopped (fst (step e s)) /\ snd (step e s) = None).
Proof.
  intros e s HE (HF & HB & HC & HQ). destruct e as [|n c]; cbn [step].
  - unfold cpu_step. destruct (cpu s) eqn:C; try discriminate HC; rewrite ?HB.
    + left. cbn [fst snd set_cpu cpu]. repeat split; assumption.
    + left. cbn [fst snd set_cpu cpu]. repeat split; try assumption; discriminate.
    + right. cbn [fst snd]. repeat split; assumption.
  - left. assert (Q := HQ n). unfold thr_step.
    destruct (thr s n) as [ |b|b| | | | | | | | | |f|t|t|t|f t|f t|t| | | ] eqn:T; try discriminate Q;
      try (destruct f; try discriminate Q);
      repeat match goal with |- context [if ?b then _ else _] => destruct b end;
      cbn [fst snd is_cpu sflag bit susp cpu thr set_thr set_sflag set_throw set_bit set_saving];
      (split; [repeat split;
               cbn [fst sflag susp bit cpu thr set_thr set_sflag set_throw set_bit set_saving];
               (assumption || reflexivity ||
                (apply upd_all; [exact HQ | destruct c; (reflexivity || discriminate HE)]) || idtac)
              | split; [lia | discriminate]]).
    all: try (rewrite HF; apply upd_all; [exact HQ | reflexivity]).
Qed.

Lemma coming_run : forall evs s, forallb no_resume evs = true -> coming s ->
  (guest (trace evs s) <= (match cpu s with CExec => 1 | _ => 0 end))
  /\ (cpu_steps evs >= due (cpu s) -> stopped (run evs s)).
Proof.
  induction evs as [|e t IH]; intros s HE HS.
  - cbn. split; [lia|]. destruct HS as (_ & _ & HC & _). destruct (cpu s); try discriminate HC; cbn; lia.
  - cbn [forallb] in HE. apply andb_true_iff in HE. destruct HE as [H1 H2].
    assert (CS : cpu_steps (e :: t) = is_cpu e + cpu_steps t).
    { unfold cpu_steps. cbn [filter]. destruct e; reflexivity. }
    rewrite CS. cbn [trace run].
    destruct (coming_step e s H1 HS) as [(C' & D & G) | (-> & CM & ST & N)].
    + destruct (IH _ H2 C') as [I1 I2]. split.
      * destruct (snd (step e s)) as [o|] eqn:SO.
        -- destruct o as [| |m].
           ++ destruct (G eq_refl) as [G1 G2]. rewrite G2 in I1. rewrite G1.
              unfold guest in *. cbn [filter is_guest length]. lia.
           ++ unfold guest in *; cbn [filter is_guest].
              destruct HS as (_ & _ & HC & _), C' as (_ & _ & HC' & _).
              destruct (cpu s), (cpu (fst (step e s))); try discriminate; cbn in D; lia.
           ++ unfold guest in *; cbn [filter is_guest].
              destruct HS as (_ & _ & HC & _), C' as (_ & _ & HC' & _).
              destruct (cpu s), (cpu (fst (step e s))); try discriminate; cbn in D; lia.
        -- destruct HS as (_ & _ & HC & _), C' as (_ & _ & HC' & _).
           destruct (cpu s), (cpu (fst (step e s))); try discriminate; cbn in D; lia.
      * intro K. apply I2. lia.
    + destruct (stopped_run t _ H2 ST) as [G R]. rewrite N, CM. split; [lia|]. intros _. exact R.
Qed.

(** *** Once cpu_suspend has returned, and unless the cpu thread was already handling
    an earlier suspension, the guest executes at most one more instruction before
    cpu_resume is called, and after three more steps of the cpu thread the cpu is
    suspended.  This holds for every schedule and any number of threads. *)
Theorem C34_suspend_is_prompt_partial :
  forall s evs,
    sflag s = true -> bit s = true ->
    fresh (cpu s) = true ->
    (forall n, quiet (thr s n) = true) ->
    forallb no_resume evs = true ->
    guest (trace evs s) <= 1
    /\ (cpu_steps evs >= 3 -> susp (run evs s) = true).
Proof.
  intros s evs HF HB HC HQ HE.
  assert (K : coming s) by (repeat split; assumption).
  destruct (coming_run evs s HE K) as [G R]. split.
  - destruct (cpu s); lia.
  - intro H. assert (D : cpu_steps evs >= due (cpu s)) by (destruct (cpu s); cbn; lia).
    destruct (R D) as (_ & S & _). exact S.
Qed.
Print Assumptions C34_suspend_is_prompt_partial.

(** ** Calls return *)

Definition outside (p : tpc) : bool := negb (in_snapshot p).

Lemma free_step : forall e s, no_snapshot e = true -> saving s = false ->
  (forall n, outside (thr s n) = true) ->
  saving (fst (step e s)) = false /\ forall n, outside (thr (fst (step e s)) n) = true.
Proof.
  intros e s HE HS HO. destruct e as [|n c]; cbn [step].
  - unfold cpu_step. destruct (cpu s); try destruct (sflag s); split; assumption.
  - assert (O := HO n). unfold thr_step.
    destruct (thr s n) as [ |b|b| | | | | | | | | |f|t|t|t|f t|f t|t| | | ] eqn:T; try discriminate O;
      rewrite ?HS; cbn [fst saving thr set_thr set_sflag set_throw set_bit];
      (split; [assumption|]); apply upd_all; try exact HO; try reflexivity.
    destruct c; (reflexivity || discriminate HE).
Qed.

Definition left_steps (p : tpc) : nat :=
  match p with PSusp0 _ => 4 | PSusp1 _ => 3 | PSusp2 => 2 | PSusp3 => 1
             | PRes0 => 2 | PRes1 => 1 | _ => 0 end.

(** *** cpu_suspend and cpu_resume return after at most four and two steps of the
    calling thread, whatever the other threads do, as long as no snapshot is in
    progress. *)
Theorem C34_suspend_resume_return :
  forall evs s n,
    saving s = false -> (forall m, in_snapshot (thr s m) = false) ->
    forallb no_snapshot evs = true ->
    thr s n <> TIdle ->
    steps_of n evs >= left_steps (thr s n) ->
    returned n (trace evs s) = true.
Proof.
  induction evs as [|e t IH]; intros s n HS HO HE HN HK.
  - exfalso. specialize (HO n). destruct (thr s n); try discriminate HO; cbn in HK; try lia.
    apply HN; reflexivity.
  - cbn [forallb] in HE. apply andb_true_iff in HE. destruct HE as [H1 H2].
    assert (HO' : forall m, outside (thr s m) = true) by (intro m; unfold outside; rewrite HO; reflexivity).
    destruct (free_step e s H1 HS HO') as [S' O'].
    assert (O'' : forall m, in_snapshot (thr (fst (step e s)) m) = false).
    { intro m. specialize (O' m). unfold outside in O'. apply negb_true_iff in O'. exact O'. }
    assert (CS : steps_of n (e :: t) = (match e with Api m _ => if Nat.eqb m n then 1 else 0 | _ => 0 end) + steps_of n t).
    { unfold steps_of. cbn [filter]. destruct e as [|m c]; [reflexivity|]. destruct (Nat.eqb m n); reflexivity. }
    rewrite CS in HK. clear CS. cbn [trace].
    assert (DONE : snd (step e s) = Some (OReturn n) \/
       (thr (fst (step e s)) n <> TIdle /\
        left_steps (thr (fst (step e s)) n) + (match e with Api m _ => if Nat.eqb m n then 1 else 0 | _ => 0 end)
          <= left_steps (thr s n))).
    { destruct e as [|m c].
      - right. cbn [step]. unfold cpu_step.
        destruct (cpu s); try destruct (sflag s); cbn [fst thr set_cpu set_susp set_runs set_bit];
          (split; [exact HN | lia]).
      - destruct (Nat.eqb m n) eqn:MN.
        + apply Nat.eqb_eq in MN. subst m. cbn [step]. unfold thr_step.
          specialize (HO n).
          destruct (thr s n) eqn:T; try discriminate HO; try (exfalso; apply HN; reflexivity);
            rewrite ?HS; cbn [fst snd thr set_thr set_sflag set_throw set_bit]; rewrite ?upd_eq;
            try (left; reflexivity); right; (split; [discriminate | cbn; lia]).
        + right. apply Nat.eqb_neq in MN. cbn [step]. unfold thr_step.
          destruct (thr s m); repeat match goal with |- context [if ?b then _ else _] => destruct b end;
            cbn [fst thr set_thr set_sflag set_throw set_bit set_saving];
            rewrite ?(upd_ne _ _ _ n) by congruence; (split; [exact HN | lia]). }
    destruct DONE as [D | [D1 D2]].
    + rewrite D. unfold returned. cbn [existsb]. rewrite Nat.eqb_refl. reflexivity.
    + specialize (IH _ n S' O'' H2 D1).
      assert (returned n (trace t (fst (step e s))) = true) by (apply IH; lia).
      destruct (snd (step e s)); unfold returned in *; cbn [existsb]; [rewrite H; apply orb_true_r|exact H].
Qed.
Print Assumptions C34_suspend_resume_return.

(** *** A snapshot of a suspended cpu returns after at most six steps of the calling
    thread, from the moment it has the right to copy; the guest executes nothing
    meanwhile ([C34_stays_suspended_partial] covers the snapshot as well). *)
Definition snap_left (p : tpc) : nat :=
  match p with PSnapIn => 6 | PS1 => 5 | PS2 _ => 4 | PSpin _ _ => 3 | PSaving _ _ => 2
             | PDirect => 2 | PEnd => 1 | _ => 0 end.

Lemma stopped_other : forall e s n, (match e with Api m _ => m <> n | _ => True end) ->
  thr (fst (step e s)) n = thr s n.
Proof.
  intros e s n H. destruct e as [|m c]; cbn [step].
  - unfold cpu_step. destruct (cpu s); try destruct (sflag s); reflexivity.
  - unfold thr_step.
    destruct (thr s m); repeat match goal with |- context [if ?b then _ else _] => destruct b end;
      cbn [fst thr set_thr set_sflag set_throw set_bit set_saving];
      rewrite ?(upd_ne _ _ _ n) by congruence; reflexivity.
Qed.

Theorem C34_snapshot_returns_partial :
  forall evs s n,
    sflag s = true -> susp s = true -> held (cpu s) = true ->
    (forall m, quiet (thr s m) = true) ->
    forallb no_resume evs = true ->
    inside (thr s n) = true ->
    steps_of n evs >= 6 ->
    returned n (trace evs s) = true /\ guest (trace evs s) = 0.
Proof.
  intros evs s n H1 H2 H3 H4 HE HI HK.
  assert (ST : stopped s) by (repeat split; assumption).
  split; [|apply (stopped_run evs s HE ST)].
  clear H1 H2 H3 H4.
  assert (HK' : steps_of n evs >= snap_left (thr s n)) by (destruct (thr s n); cbn; lia).
  clear HK. revert s ST HI HK'. induction evs as [|e t IH]; intros s ST HI HK.
  - exfalso. assert (Q := proj2 (proj2 (proj2 ST)) n).
    destruct (thr s n) as [ |b|b| | | | | | | | | |[]|t|t|t|[] t|[] t|t| | | ];
      try discriminate HI; try discriminate Q; cbn in HK; lia.
  - cbn [forallb] in HE. apply andb_true_iff in HE. destruct HE as [E1 E2].
    destruct (stopped_step e s E1 ST) as [ST' _].
    assert (CS : steps_of n (e :: t) = (match e with Api m _ => if Nat.eqb m n then 1 else 0 | _ => 0 end) + steps_of n t).
    { unfold steps_of. cbn [filter]. destruct e as [|m c]; [reflexivity|]. destruct (Nat.eqb m n); reflexivity. }
    rewrite CS in HK. clear CS. cbn [trace].
    assert (DONE : snd (step e s) = Some (OReturn n) \/
       (inside (thr (fst (step e s)) n) = true /\
        snap_left (thr (fst (step e s)) n) + (match e with Api m _ => if Nat.eqb m n then 1 else 0 | _ => 0 end)
          <= snap_left (thr s n))).
    { assert (OTH : (match e with Api m _ => m <> n | _ => True end) \/ exists c, e = Api n c).
      { destruct e as [|m c]; [left; exact I|]. destruct (Nat.eq_dec m n) as [->|K]; [right; eauto | left; exact K]. }
      destruct OTH as [OTH | [c ->]].
      - right. rewrite (stopped_other e s n OTH). split; [exact HI|].
        destruct e as [|m c]; [lia|]. apply Nat.eqb_neq in OTH. rewrite OTH. lia.
      - rewrite Nat.eqb_refl. destruct ST as (F & S & _ & Q). specialize (Q n).
        cbn [step]. unfold thr_step.
        destruct (thr s n) as [ |b|b| | | | | | | | | |[]|t0|t0|t0|[] t0|[] t0|t0| | | ];
          try discriminate HI; try discriminate Q; rewrite ?F, ?S; try destruct (runs s);
          cbn [fst snd thr set_thr set_saving]; rewrite ?upd_eq;
          try (left; reflexivity); right; (split; [reflexivity | cbn; lia]). }
    destruct DONE as [D | [D1 D2]].
    + rewrite D. unfold returned. cbn [existsb]. rewrite Nat.eqb_refl. reflexivity.
    + assert (R : returned n (trace t (fst (step e s))) = true) by (apply IH; [exact E2|exact ST'|exact D1|lia]).
      destruct (snd (step e s)); unfold returned in *; cbn [existsb]; [rewrite R; apply orb_true_r|exact R].
Qed.
Print Assumptions C34_snapshot_returns_partial.

(** *** Refuted: every snapshot that finds the cpu running deadlocks.  The thread
    suspends the cpu, copies, and then waits in cpu_resume for the flag that it holds
    itself.  It never returns, and once the cpu is suspended no guest instruction is
    executed again, whatever the schedule and whoever else calls cpu_suspend or
    cpu_resume (these calls never return either). *)
Definition doomed (p : tpc) : bool :=
  match p with
  | PS2 false | PS3 _ | PS4 _ | PS5 _ | PSpin false _ | PSaving false _ | PBack _ | PBRes0 => true
  | _ => false
  end.

Definition trapped (n : nat) (s : gs) : Prop :=
  saving s = true /\ doomed (thr s n) = true
  /\ forall m, m <> n -> outside (thr s m) = true.

Lemma trapped_step : forall n e s, no_snapshot e = true -> trapped n s ->
  trapped n (fst (step e s)) /\ snd (step e s) <> Some (OReturn n).
Proof.
  intros n e s HE (HS & HD & HO). destruct e as [|m c]; cbn [step].
  - unfold cpu_step. destruct (cpu s); try destruct (sflag s); cbn [fst snd];
      (split; [repeat split; assumption | discriminate]).
  - destruct (Nat.eq_dec m n) as [->|MN].
    + unfold thr_step.
      destruct (thr s n) as [ |b|b| | | | | | | | | |[]|t0|t0|t0|[] t0|[] t0|t0| | | ] eqn:T;
        try discriminate HD; rewrite ?HS; try destruct (susp s);
        cbn [fst snd]; (split; [|discriminate]);
        (split; [assumption|]);
        (split; [cbn [thr set_thr set_throw set_sflag set_bit]; rewrite ?upd_eq, ?T; reflexivity|]);
        intros k Hk; cbn [thr set_thr set_throw set_sflag set_bit];
        rewrite ?upd_ne by exact Hk; apply HO, Hk.
    + assert (O := HO m MN). unfold thr_step.
      destruct (thr s m) as [ |b|b| | | | | | | | | |f|t|t|t|f t|f t|t| | | ] eqn:T; try discriminate O;
        rewrite ?HS; cbn [fst snd];
        (split; [|try discriminate; injection; congruence]);
        (split; [assumption|]);
        (split; [cbn [thr set_thr set_throw set_sflag set_bit]; rewrite ?upd_ne by congruence; exact HD|]);
        intros k Hk; cbn [thr set_thr set_throw set_sflag set_bit];
        try (apply HO, Hk);
        (destruct (Nat.eq_dec k m) as [->|KM];
         [rewrite upd_eq; try reflexivity; destruct c; (reflexivity || discriminate HE)
         | rewrite upd_ne by exact KM; apply HO, Hk]).
Qed.

Theorem C34_refuted_snapshot_deadlocks :
  forall evs s n,
    (* the snapshot of thread [n] has just found the suspend flag clear *)
    thr s n = PS2 false -> saving s = true ->
    (forall m, m <> n -> in_snapshot (thr s m) = false) ->
    forallb no_snapshot evs = true ->
    returned n (trace evs s) = false.
Proof.
  intros evs s n HT HS HO HE.
  assert (TR : trapped n s).
  { split; [exact HS|]. split; [rewrite HT; reflexivity|]. intros m Hm. unfold outside. rewrite (HO m Hm). reflexivity. }
  clear HT HS HO. revert s TR HE. induction evs as [|e t IH]; intros s TR HE; [reflexivity|].
  cbn [forallb] in HE. apply andb_true_iff in HE. destruct HE as [H1 H2].
  destruct (trapped_step n e s H1 TR) as [TR' NR]. specialize (IH _ TR' H2).
  cbn [trace]. destruct (snd (step e s)) as [o|]; [|exact IH].
  unfold returned in *. cbn [existsb]. rewrite IH, orb_false_r.
  destruct o as [| |m]; try reflexivity. apply Nat.eqb_neq. intro K. subst m. apply NR. reflexivity.
Qed.
Print Assumptions C34_refuted_snapshot_deadlocks.

(** The state above is the one every such snapshot reaches, in four steps: *)
Theorem C34_refuted_snapshot_deadlocks_reached :
  forall t0, let s := run ([Cpu; Cpu; Cpu; Cpu] ++ repeat (Api 0 Snapshot) 4) (init t0) in
    thr s 0 = PS2 false /\ saving s = true /\ runs s = true
    /\ (forall m, m <> 0 -> in_snapshot (thr s m) = false)
    (* and this is how it ends *)
    /\ let s' := run (repeat (Api 0 Snapshot) 4 ++ repeat Cpu 4 ++ repeat (Api 0 Snapshot) 3) s in
       thr s' 0 = PBRes0 /\ cpu s' = CWait /\ sflag s' = true
       /\ forall evs, forallb (fun e => match e with Cpu | Api 0 _ => true | _ => false end) evs = true ->
          trace evs s' = [].
Proof.
  intro t0. cbv zeta. split; [reflexivity|]. split; [reflexivity|]. split; [reflexivity|]. split.
  - intros m Hm. rewrite (idle_after _ t0 1); [reflexivity| |lia].
    cbn [app repeat In]. intros k c K.
    repeat destruct K as [K|K]; try discriminate K; try (injection K as <- <-; lia). destruct K.
  - split; [reflexivity|]. split; [reflexivity|]. split; [reflexivity|].
    intros evs HE.
    set (s' := run _ _).
    assert (P : thr s' 0 = PBRes0 /\ cpu s' = CWait /\ sflag s' = true /\ saving s' = true) by (repeat split; reflexivity).
    clearbody s'. destruct P as (P1 & P2 & P3 & P4).
    induction evs as [|e t IH]; [reflexivity|].
    cbn [forallb] in HE. apply andb_true_iff in HE. destruct HE as [H1 H2].
    destruct e as [|[|m] c]; try discriminate H1; cbn [trace step].
    + unfold cpu_step. rewrite P2, P3. cbn [fst snd]. apply IH, H2.
    + unfold thr_step. rewrite P1, P4. cbn [fst snd]. apply IH, H2.
Qed.
Print Assumptions C34_refuted_snapshot_deadlocks_reached.

(** *** Refuted: two snapshots overlap.  The cpu is not running; while thread 0 takes
    a snapshot threads 1 and 2 wait for it; both go on when it is done, and copy at
    the same time. *)
Theorem C34_refuted_overlap :
  exists t0 evs,
    let s := run evs (init t0) in
    copies (thr s 1) = true /\ copies (thr s 2) = true
    /\ forallb (fun e => match e with Api _ Snapshot => true | _ => false end) evs = true.
Proof.
  exists false, ([Api 0 Snapshot; Api 0 Snapshot]
     ++ [Api 1 Snapshot; Api 1 Snapshot; Api 2 Snapshot; Api 2 Snapshot]
     ++ repeat (Api 0 Snapshot) 3
     ++ [Api 1 Snapshot; Api 2 Snapshot; Api 1 Snapshot; Api 2 Snapshot]).
  vm_compute. repeat split.
Qed.
Print Assumptions C34_refuted_overlap.

(** *** Refuted: the guest runs while a snapshot copies its state.  Thread 0 is in
    cpu_resume, past its wait; thread 1 takes a snapshot of the cpu it still finds
    suspended; thread 0 lets the cpu go. *)
Theorem C34_refuted_copy_while_running :
  exists t0 before evs,
    let s := run before (init t0) in
    copies (thr s 1) = true
    /\ guest (trace evs s) = 1
    /\ copies (thr (run evs s) 1) = true.
Proof.
  exists false,
    ([Cpu; Cpu; Cpu] ++ repeat (Api 0 (Suspend false)) 5 ++ [Cpu; Cpu; Cpu]
     ++ [Api 0 Resume; Api 0 Resume] ++ repeat (Api 1 Snapshot) 6),
    [Api 0 Resume; Cpu; Cpu; Cpu; Cpu].
  vm_compute. repeat split.
Qed.
Print Assumptions C34_refuted_copy_while_running.

(** ** Two snapshots do exclude each other if there are no more than two *)

(** Threads 0 and 1 each make one snapshot call and nothing else afterwards; the
    others make none. *)
Definition first_two (e : ev) : bool :=
  match e with Api n Snapshot => Nat.ltb n 2 | Api n _ => Nat.leb 2 n | Cpu => true end.

(** [u]: calls made so far by threads 0 and 1; a thread may call only once *)
Fixpoint once (u0 u1 : bool) (evs : list ev) (s : gs) : bool :=
  match evs with
  | [] => true
  | e :: t =>
      match e with
      | Api 0 _ => match thr s 0 with
                   | TIdle => negb u0 && once true u1 t (fst (step e s))
                   | _ => once u0 u1 t (fst (step e s)) end
      | Api 1 _ => match thr s 1 with
                   | TIdle => negb u1 && once u0 true t (fst (step e s))
                   | _ => once u0 u1 t (fst (step e s)) end
      | _ => once u0 u1 t (fst (step e s))
      end
  end.

(** New, waiting at the door, waiting for the other, inside, done *)
Inductive stage := New | Door | Queue | In | Done.
Definition stage_of (u : bool) (p : tpc) : option stage :=
  match p with
  | TIdle => Some (if u then Done else New)
  | PSnap0 => if u then Some Door else None
  | PSnapW => if u then Some Queue else None
  | _ => if inside p then (if u then Some In else None) else None
  end.

(** the reachable combinations *)
Definition pair_ok (a b : stage) (sv : bool) : bool :=
  match a, b with
  | In, In => false
  | In, (New | Door) | (New | Door), In => sv
  | In, Queue | Queue, In => sv
  | Queue, Queue => false
  | Queue, (New | Door) | (New | Door), Queue => false
  | Queue, Done | Done, Queue => negb sv
  | In, Done | Done, In => true
  | (New | Door | Done), (New | Door | Done) => negb sv
  end.

Definition two (u0 u1 : bool) (s : gs) : Prop :=
  (exists a b, stage_of u0 (thr s 0) = Some a /\ stage_of u1 (thr s 1) = Some b
     /\ pair_ok a b (saving s) = true)
  /\ forall n, 2 <= n -> outside (thr s n) = true.

Lemma stage_in : forall u p, stage_of u p = Some In -> inside p = true.
Proof. intros u p H. destruct p, u; try discriminate H; reflexivity. Qed.

Lemma two_excl : forall u0 u1 s, two u0 u1 s ->
  forall m n, m <> n -> inside (thr s m) = true -> inside (thr s n) = false.
Proof.
  intros u0 u1 s ((a & b & A & B & P) & O) m n MN HI.
  assert (OUT : forall k, 2 <= k -> inside (thr s k) = false).
  { intros k Hk. specialize (O k Hk). unfold outside, in_snapshot in O.
    destruct (thr s k); try discriminate O; reflexivity. }
  assert (X : inside (thr s 0) = true -> inside (thr s 1) = true -> False).
  { intros I0 I1. destruct (thr s 0); try discriminate I0; destruct u0; try discriminate A;
      injection A as <-; destruct (thr s 1); try discriminate I1; destruct u1; try discriminate B;
      injection B as <-; discriminate P. }
  destruct (inside (thr s n)) eqn:IN; [exfalso|reflexivity].
  destruct m as [|[|m]], n as [|[|n]]; try congruence; try (rewrite OUT in IN by lia; discriminate IN);
    try (rewrite OUT in HI by lia; discriminate HI).
  - exact (X HI IN).
  - exact (X IN HI).
Qed.

Lemma two_keep : forall u0 u1 s s', two u0 u1 s ->
  thr s' 0 = thr s 0 -> thr s' 1 = thr s 1 -> saving s' = saving s ->
  (forall n, 2 <= n -> outside (thr s' n) = true) -> two u0 u1 s'.
Proof. intros u0 u1 s s' ((a & b & A & B & P) & O) E0 E1 E2 O'. split; [|exact O'].
  exists a, b. rewrite E0, E1, E2. repeat split; assumption. Qed.

(** a step of one of the two, in terms of stages *)
Lemma one_moves : forall n u other c s,
  stage_of u (thr s n) <> None ->
  let s' := fst (thr_step n c s) in
  (c = Snapshot) ->
  (forall m, m <> n -> thr s' m = thr s m) /\
  match stage_of u (thr s n) with
  | Some New => stage_of true (thr s' n) = Some Door /\ saving s' = saving s
  | Some Door => if saving s then stage_of u (thr s' n) = Some Queue /\ saving s' = true
                 else stage_of u (thr s' n) = Some In /\ saving s' = true
  | Some Queue => if saving s then stage_of u (thr s' n) = Some Queue /\ saving s' = true
                  else stage_of u (thr s' n) = Some In /\ saving s' = false
  | Some In => (stage_of u (thr s' n) = Some In /\ saving s' = saving s)
               \/ (stage_of u (thr s' n) = Some Done /\ saving s' = false)
  | Some Done => stage_of true (thr s' n) = Some Door /\ saving s' = saving s
  | None => other = false
  end.
Proof.
  intros n u other c s HN s' ->. subst s'. unfold thr_step.
  destruct (thr s n) eqn:T; destruct u; cbn [stage_of inside] in HN |- *; try (exfalso; apply HN; reflexivity);
    try destruct (saving s) eqn:SV; try destruct (runs s); try destruct f; try destruct (susp s);
    cbn [fst thr saving set_thr set_saving set_throw set_sflag set_bit]; rewrite ?upd_eq;
    (split; [intros m Hm; rewrite ?upd_ne by exact Hm; reflexivity|]);
    rewrite ?T, ?SV; cbn [stage_of inside]; auto.
Qed.

Lemma two_run : forall evs u0 u1 s,
  two u0 u1 s -> forallb first_two evs = true -> once u0 u1 evs s = true ->
  exists v0 v1, two v0 v1 (run evs s).
Proof.
  induction evs as [|e t IH]; intros u0 u1 s H HE HO; [exists u0, u1; exact H|].
  cbn [forallb] in HE. apply andb_true_iff in HE. destruct HE as [H1 H2]. cbn [run].
  destruct e as [|n c].
  - apply (IH u0 u1); [|exact H2|exact HO].
    apply (two_keep u0 u1 s); [exact H| | | |]; cbn [step]; unfold cpu_step;
      destruct (cpu s); try destruct (sflag s); try reflexivity; apply H.
  - destruct H as ((a & b & A & B & P) & O).
    destruct (le_lt_dec 2 n) as [Hn|Hn].
    + (* another thread, which makes no snapshot *)
      assert (CN : c <> Snapshot).
      { intro K. subst c. cbn in H1. destruct n as [|[|n]]; try lia. discriminate H1. }
      apply (IH u0 u1); [|exact H2|].
      2:{ destruct n as [|[|n]]; try lia. exact HO. }
      split.
      * exists a, b. rewrite !stopped_other by lia. repeat split; try assumption.
        replace (saving (fst (step (Api n c) s))) with (saving s); [exact P|].
        specialize (O n Hn). cbn [step]. unfold thr_step. destruct (thr s n); try discriminate O;
          repeat match goal with |- context [if ?x then _ else _] => destruct x eqn:? end;
          cbn [fst saving set_thr set_sflag set_throw set_bit]; congruence.
      * intros k Hk. destruct (Nat.eq_dec k n) as [->|KN]; [|rewrite stopped_other by congruence; apply O, Hk].
        specialize (O n Hn). cbn [step]. unfold thr_step.
        destruct (thr s n) eqn:T; try discriminate O;
          repeat match goal with |- context [if ?x then _ else _] => destruct x end;
          cbn [fst thr set_thr set_sflag set_throw set_bit]; rewrite ?upd_eq, ?T; try reflexivity.
        destruct c; (reflexivity || congruence).
    + assert (CS : c = Snapshot).
      { destruct c; try reflexivity; cbn [first_two] in H1; apply Nat.leb_le in H1; lia. }
      assert (OO : forall k, 2 <= k -> outside (thr (fst (step (Api n c) s)) k) = true).
      { intros k Hk. rewrite stopped_other by lia. apply O, Hk. }
      assert (CASE : n = 0 \/ n = 1) by lia. destruct CASE as [-> | ->].
      * cbn [step] in OO |- *.
        destruct (one_moves 0 u0 false c s) as [KEEP MV]; [congruence|exact CS|].
        assert (K1 := KEEP 1 ltac:(lia)). rewrite A in MV. cbn [once step] in HO.
        assert (STEP : forall v0 a', stage_of v0 (thr (fst (thr_step 0 c s)) 0) = Some a' ->
                  pair_ok a' b (saving (fst (thr_step 0 c s))) = true ->
                  two v0 u1 (fst (thr_step 0 c s))).
        { intros v0 a' S' P'. split; [exists a', b; rewrite K1; repeat split; assumption | exact OO]. }
        destruct a.
        -- (* New *) assert (T0 : thr s 0 = TIdle /\ u0 = false).
           { destruct (thr s 0), u0; try discriminate A; split; reflexivity. }
           destruct T0 as [T0 ->]. rewrite T0 in HO. cbn [negb andb] in HO.
           destruct MV as [M1 M2]. apply (IH true u1); [|exact H2|exact HO].
           apply (STEP true Door M1). rewrite M2. destruct b; exact P.
        -- assert (T0 : thr s 0 = PSnap0).
           { destruct (thr s 0), u0; try discriminate A; reflexivity. }
           rewrite T0 in HO. apply (IH u0 u1); [|exact H2|exact HO].
           destruct (saving s) eqn:SV; destruct MV as [M1 M2].
           ++ apply (STEP u0 Queue M1). rewrite M2. destruct b; (discriminate P || reflexivity).
           ++ apply (STEP u0 In M1). rewrite M2. destruct b; (discriminate P || reflexivity).
        -- assert (T0 : thr s 0 = PSnapW).
           { destruct (thr s 0), u0; try discriminate A; reflexivity. }
           rewrite T0 in HO. apply (IH u0 u1); [|exact H2|exact HO].
           destruct (saving s) eqn:SV; destruct MV as [M1 M2].
           ++ apply (STEP u0 Queue M1). rewrite M2. destruct b; (discriminate P || reflexivity).
           ++ apply (STEP u0 In M1). rewrite M2. destruct b; (discriminate P || reflexivity).
        -- assert (HO' : once u0 u1 t (fst (thr_step 0 c s)) = true).
           { destruct (thr s 0), u0; try discriminate A; exact HO. }
           apply (IH u0 u1); [|exact H2|exact HO'].
           destruct MV as [[M1 M2]|[M1 M2]].
           ++ apply (STEP u0 In M1). rewrite M2. destruct b; (discriminate P || exact P || reflexivity).
           ++ apply (STEP u0 Done M1). rewrite M2. destruct b; (discriminate P || reflexivity).
        -- exfalso. assert (T0 : thr s 0 = TIdle /\ u0 = true).
           { destruct (thr s 0), u0; try discriminate A; split; reflexivity. }
           destruct T0 as [T0 ->]. rewrite T0 in HO. discriminate HO.
      * cbn [step] in OO |- *.
        destruct (one_moves 1 u1 false c s) as [KEEP MV]; [congruence|exact CS|].
        assert (K0 := KEEP 0 ltac:(lia)). rewrite B in MV. cbn [once step] in HO.
        assert (STEP : forall v1 b', stage_of v1 (thr (fst (thr_step 1 c s)) 1) = Some b' ->
                  pair_ok a b' (saving (fst (thr_step 1 c s))) = true ->
                  two u0 v1 (fst (thr_step 1 c s))).
        { intros v1 b' S' P'. split; [exists a, b'; rewrite K0; repeat split; assumption | exact OO]. }
        destruct b.
        -- assert (T1 : thr s 1 = TIdle /\ u1 = false).
           { destruct (thr s 1), u1; try discriminate B; split; reflexivity. }
           destruct T1 as [T1 ->]. rewrite T1 in HO. cbn [negb andb] in HO.
           destruct MV as [M1 M2]. apply (IH u0 true); [|exact H2|exact HO].
           apply (STEP true Door M1). rewrite M2. destruct a; exact P.
        -- assert (T1 : thr s 1 = PSnap0).
           { destruct (thr s 1), u1; try discriminate B; reflexivity. }
           rewrite T1 in HO. apply (IH u0 u1); [|exact H2|exact HO].
           destruct (saving s) eqn:SV; destruct MV as [M1 M2].
           ++ apply (STEP u1 Queue M1). rewrite M2. destruct a; (discriminate P || reflexivity).
           ++ apply (STEP u1 In M1). rewrite M2. destruct a; (discriminate P || reflexivity).
        -- assert (T1 : thr s 1 = PSnapW).
           { destruct (thr s 1), u1; try discriminate B; reflexivity. }
           rewrite T1 in HO. apply (IH u0 u1); [|exact H2|exact HO].
           destruct (saving s) eqn:SV; destruct MV as [M1 M2].
           ++ apply (STEP u1 Queue M1). rewrite M2. destruct a; (discriminate P || reflexivity).
           ++ apply (STEP u1 In M1). rewrite M2. destruct a; (discriminate P || reflexivity).
        -- assert (HO' : once u0 u1 t (fst (thr_step 1 c s)) = true).
           { destruct (thr s 1), u1; try discriminate B; exact HO. }
           apply (IH u0 u1); [|exact H2|exact HO'].
           destruct MV as [[M1 M2]|[M1 M2]].
           ++ apply (STEP u1 In M1). rewrite M2. destruct a; (discriminate P || exact P || reflexivity).
           ++ apply (STEP u1 Done M1). rewrite M2. destruct a; (discriminate P || reflexivity).
        -- exfalso. assert (T1 : thr s 1 = TIdle /\ u1 = true).
           { destruct (thr s 1), u1; try discriminate B; split; reflexivity. }
           destruct T1 as [T1 ->]. rewrite T1 in HO. discriminate HO.
Qed.

(** *** If threads 0 and 1 take one snapshot each and no other snapshot is taken,
    they never overlap, in any interleaving with any number of threads that suspend
    and resume.  Missing: a third call ([C34_refuted_overlap]). *)
Theorem C34_two_snapshots_partial :
  forall t0 evs,
    forallb first_two evs = true -> once false false evs (init t0) = true ->
    let s := run evs (init t0) in
    forall m n, m <> n -> copies (thr s m) = true -> copies (thr s n) = false.
Proof.
  intros t0 evs H1 H2 s m n MN HC.
  assert (I0 : two false false (init t0)).
  { split; [exists New, New; repeat split | intros; reflexivity]. }
  destruct (two_run evs false false (init t0) I0 H1 H2) as (v0 & v1 & TW).
  assert (CI : forall p, copies p = true -> inside p = true) by (intros []; intro K; try discriminate K; reflexivity).
  pose proof (two_excl v0 v1 s TW m n MN (CI _ HC)) as NI.
  destruct (copies (thr s n)) eqn:E; [|reflexivity]. rewrite (CI _ E) in NI. discriminate NI.
Qed.
Print Assumptions C34_two_snapshots_partial.

(** ** The hypotheses are met *)
Example C34_example_suspended :
  let s := run ([Cpu; Cpu; Cpu] ++ repeat (Api 3 (Suspend true)) 5 ++ [Cpu; Cpu; Cpu]) (init false) in
  susp s = true /\ sflag s = true /\ leaving (cpu s) = false
  /\ guest (trace [Cpu; Cpu; Cpu; Cpu; Cpu; Cpu; Api 5 Snapshot; Api 5 Snapshot] s) = 0.
Proof. repeat split. Qed.

Example C34_example_two :
  once false false (repeat (Api 0 Snapshot) 2 ++ repeat (Api 1 Snapshot) 3 ++ repeat (Api 0 Snapshot) 3
                    ++ repeat (Api 1 Snapshot) 2 ++ [Api 2 (Suspend false)]) (init true) = true
  /\ copies (thr (run (repeat (Api 0 Snapshot) 2 ++ repeat (Api 1 Snapshot) 3 ++ repeat (Api 0 Snapshot) 3
                    ++ repeat (Api 1 Snapshot) 2) (init true)) 1) = true.
Proof. split; reflexivity. Qed.

(** a running guest, a blocking suspend that has just returned, and a snapshot begun
    after it *)
Example C34_example_prompt :
  let s := run ([Cpu; Cpu; Cpu] ++ repeat (Api 3 (Suspend false)) 5) (init false) in
  sflag s = true /\ bit s = true /\ fresh (cpu s) = true /\ runs s = true
  /\ guest (trace [Api 1 Snapshot; Cpu; Api 1 Snapshot; Cpu; Api 1 Snapshot; Cpu; Cpu] s) = 0
  /\ susp (run [Cpu; Cpu; Cpu; Cpu] s) = true
  /\ returned 1 (trace ([Cpu; Cpu; Cpu] ++ repeat (Api 1 Snapshot) 8) s) = true.
Proof. repeat split. Qed.

(** cpu_suspend and cpu_resume interleaved by two threads: both return *)
Example C34_example_return :
  let s := run [Api 0 (Suspend false); Api 1 Resume] (init false) in
  thr s 0 = PSusp0 false /\ thr s 1 = PRes0
  /\ returned 0 (trace [Api 0 Resume; Api 1 Resume; Api 0 Resume; Cpu; Api 1 Resume; Api 0 Resume; Api 0 Resume] s) = true.
Proof. repeat split. Qed.
