(** * C69: a timed run returns when its time is up and not before, and leaves the cpu
      ready for the next call.  C70: a halted cpu waits for an interrupt *)

From Coq Require Import ZArith Bool List Lia.
From Verif Require Import RunModel.
Import ListNotations.
Local Open Scope Z_scope.

(** ** Specification *)

(** the time that passes during a history *)
Fixpoint elapsed (l : list ev) : Z :=
  match l with [] => 0 | Tick d :: t => Zpos d + elapsed t | _ :: t => elapsed t end.
(** the timeout in force after it, [x] before *)
Fixpoint in_force (x : Z) (l : list ev) : Z :=
  match l with [] => x | Req (SetTimeout y) :: t => in_force y t | _ :: t => in_force x t end.

Definition is_ret (o : obs) : bool := match o with ORet _ => true | _ => false end.
Definition is_cpu (e : ev) : bool := match e with Cpu _ => true | _ => false end.
(** no call returns during this *)
Definition silent (l : list obs) : Prop := forall o, In o l -> is_ret o = false.

(** nothing but the cpu thread, the clock and the code cache *)
Definition alone (e : ev) : Prop := match e with Cpu _ | Tick _ | Forget _ => True | _ => False end.
(** nothing is asked of the cpu *)
Definition quiet (s : st) : Prop := abort s = false /\ sbit s = false /\ line s = false.

Definition is_raised (o : obs) : bool := match o with OBlock _ Raised => true | _ => false end.
Definition count {A} (f : A -> bool) (l : list A) : nat := length (filter f l).

(** Has the guest executed HLT and not yet taken an interrupt? Between the two it must not execute
    anything. *)
Fixpoint waits (h : bool) (l : list obs) : Prop :=
  match l with
  | [] => True
  | OBlock _ e :: t => h = false /\ waits (match e with Halts => true | _ => false end) t
  | OIrq :: t => waits false t
  | ORet _ :: t => waits h t
  end.

(** ** The trace of a concatenation *)
Lemma run_app : forall a b s, run (a ++ b) s = run b (run a s).
Proof. induction a as [| e a IH]; intros; [reflexivity |]. cbn [run app]. apply IH. Qed.
Lemma trace_app : forall a b s, trace (a ++ b) s = trace a s ++ trace b (run a s).
Proof. induction a as [| e a IH]; intros; [reflexivity |]. cbn [run trace app]. rewrite IH, app_assoc. reflexivity. Qed.

(** ** What every reachable state satisfies *)
Record inv (s : st) : Prop := mkinv {
  i_out : at_ s = Out -> owner s = None \/ halted s = true;
  i_timed : at_ s <> Out -> timed s = tflag s;
  i_halt : halted s = true -> tflag s = true;
  i_loop : at_ s = Loop -> halted s = true -> exitreq s = true;
  i_block : forall n k, at_ s = Block n k -> halted s = false;
  i_stop : at_ s = Stopped None -> halted s = false;
  i_idle : forall k, at_ s = Idle false k \/ at_ s = Stopped (Some (false, k)) -> halted s = false;
  i_wait : forall b, at_ s = Stopped b -> sbit s = true;
  i_first : forall k, at_ s = Idle true k \/ at_ s = Stopped (Some (true, k)) -> k = true /\ timed s = true;
  i_check : forall k, at_ s = Idle false k \/ at_ s = Stopped (Some (false, k)) -> k = true -> tflag s = true;
  i_block_check : forall n k, at_ s = Block n k -> k = true -> tflag s = true;
  i_code : forall n, code s n = Some true -> tflag s = true
}.

Ltac fin := cbn in *; intros; repeat match goal with
  | H : _ \/ _ |- _ => destruct H
  | H : _ /\ _ |- _ => destruct H
  | H : Some _ = Some _ |- _ => injection H as H
  | H : Idle _ _ = Idle _ _ |- _ => injection H as H
  | H : Block _ _ = Block _ _ |- _ => injection H as H
  | H : Stopped _ = Stopped _ |- _ => injection H as H
  | H : (_, _) = (_, _) |- _ => injection H as H
  end; subst; try congruence; eauto 4; try tauto;
  try (match goal with H : _ <> Out -> ?a = ?b |- ?a = ?b => apply H; discriminate end).

Lemma inv_init : forall t0 b, inv (init t0 b).
Proof. intros. constructor; fin. Qed.


Ltac boolcase := repeat match goal with
  | |- context [if ?b then _ else _] => let E := fresh "E" in destruct b eqn:E; cbn
  | |- context [match ?b with Some _ => _ | None => _ end] => let E := fresh "E" in destruct b eqn:E; cbn
  end.

Lemma inv_step : forall e s, inv s -> inv (fst (step e s)).
Proof.
  intros e s I.
  destruct s as [nw ow tf ti ha ex sd li ab sb ln sf th su ii cd pl].
  destruct I as [I1 I2 I3 I4 I5 I6 I7 I8 I9 I10 I11 I12]. cbn in *.
  destruct e as [t | t x | g | r | d | n].
  - cbn. destruct pl; cbn; try (constructor; fin; fail).
    unfold cpu_run. cbn. destruct tf; cbn; [constructor; fin |]. unfold start. cbn.
    assert (ha = false) by (destruct ha; [discriminate (I3 eq_refl) | reflexivity]). subst.
    destruct su, sf; cbn; constructor; fin.
  - cbn. destruct pl; cbn; try (constructor; fin; fail).
    unfold cpu_run_until, start. cbn. destruct su, sf; cbn; destruct ha; cbn; constructor; fin.
  - destruct g as [b e i pf]. cbn. destruct pl as [| | n k | first k | back |]; cbn.
    + constructor; fin.
    + destruct (ti && ex) eqn:E; cbn.
      * constructor; fin.
      * assert (ha = false).
        { destruct ha; [| reflexivity]. rewrite (I4 eq_refl eq_refl), (I2 ltac:(discriminate)), (I3 eq_refl) in E. discriminate E. }
        subst. destruct (cd b) eqn:C; cbn; constructor; fin.
        match goal with H : context [Nat.eqb ?m b] |- _ => destruct (Nat.eqb m b); [congruence | eauto] end.
    + assert (ha = false) by eauto. subst.
      destruct e; cbn; [| constructor; fin | constructor; fin | constructor; fin].
      unfold block_end, do_suspend, thrown; cbn. boolcase; constructor; fin.
    + assert (J : first = false -> ha = false) by (intros ->; eauto).
      assert (K : first = true -> k = true) by (intros ->; apply (I9 k); auto).
      assert (T : ti = tf) by (apply I2; discriminate).
      assert (L : k = true -> tf = true) by (destruct first; [intros _; rewrite <- T; apply (I9 k); auto | eauto]).
      unfold halt_turn, do_suspend, thrown; cbn. destruct first; boolcase; constructor; fin;
        try (match goal with H : (_ && _) = true |- _ => apply andb_prop in H; destruct H; subst end; eauto);
        try (destruct (K eq_refl); rewrite ?T; auto); try discriminate (J eq_refl).
    + destruct sf; cbn; [constructor; fin |]. destruct back as [[first k] |]; cbn; [| constructor; fin; discriminate (I6 eq_refl)].
      assert (J : first = false -> ha = false) by (intros ->; eauto).
      assert (K : first = true -> k = true) by (intros ->; apply (I9 k); auto).
      assert (T : ti = tf) by (apply I2; discriminate).
      assert (L : k = true -> tf = true) by (destruct first; [intros _; rewrite <- T; apply (I9 k); auto | eauto]).
      unfold halt_turn; cbn. destruct first; boolcase; constructor; fin;
        try (match goal with H : (_ && _) = true |- _ => apply andb_prop in H; destruct H; subst end; eauto);
        try (destruct (K eq_refl); rewrite ?T; auto); try discriminate (J eq_refl).
    + constructor; fin.
  - destruct r; cbn; constructor; fin.
  - cbn. constructor; fin.
  - cbn. constructor; fin.
    match goal with H : context [Nat.eqb ?m n] |- _ => destruct (Nat.eqb m n); [congruence | eauto] end.
Qed.

Lemma inv_run : forall evs s, inv s -> inv (run evs s).
Proof. induction evs as [| e t IH]; intros s I; [exact I |]. apply IH, inv_step, I. Qed.

(** ** C69 *)

Lemma silent_app : forall a b, silent (a ++ b) -> silent a /\ silent b.
Proof. intros a b H. split; intros o I; apply H, in_or_app; auto. Qed.
Lemma silent_ret : forall r, ~ silent [ORet r].
Proof. intros r H. specialize (H (ORet r) (or_introl eq_refl)). discriminate H. Qed.

(** what holds inside a timed run that began at time [t0] with the timeout [x] *)
Definition inside (t0 x : Z) (mid : list ev) (s : st) : Prop :=
  started s = t0 /\ now s = t0 + elapsed mid /\ limit s = in_force x mid /\ timed s = true /\ at_ s <> Out /\
  (exitreq s = true -> at_ s = Loop /\
     exists p q, mid = p ++ q /\ in_force x p <= elapsed p /\ forall e, In e q -> is_cpu e = false).

Lemma elapsed_app : forall a b, elapsed (a ++ b) = elapsed a + elapsed b.
Proof. induction a as [| e a IH]; intros; [reflexivity |]. destruct e; cbn [elapsed app]; rewrite IH; lia. Qed.
Lemma in_force_app : forall a b x, in_force x (a ++ b) = in_force (in_force x a) b.
Proof. induction a as [| e a IH]; intros; [reflexivity |]. destruct e as [| | | r | |]; cbn [in_force app]; try apply IH. destruct r; apply IH. Qed.

Lemma inside_more : forall x mid e, is_cpu e = false ->
  (exists p q, mid = p ++ q /\ in_force x p <= elapsed p /\ forall e, In e q -> is_cpu e = false) ->
  exists p q, mid ++ [e] = p ++ q /\ in_force x p <= elapsed p /\ forall e, In e q -> is_cpu e = false.
Proof.
  intros x mid e He (p & q & -> & L & F). exists p, (q ++ [e]). split; [symmetry; apply app_assoc | split; [exact L |]].
  intros e' I. apply in_app_or in I. destruct I as [I | [<- | []]]; auto.
Qed.

Ltac six := refine (conj _ (conj _ (conj _ (conj _ (conj _ _))))).

Lemma turn_inside : forall t0 x mid g first k hw s,
  started s = t0 -> now s = t0 + elapsed mid -> limit s = in_force x mid -> timed s = true -> exitreq s = false ->
  (silent (snd (halt_turn first k hw s)) -> inside t0 x (mid ++ [Cpu g]) (fst (halt_turn first k hw s))) /\
  (In (ORet Timeout) (snd (halt_turn first k hw s)) -> in_force x mid <= elapsed mid).
Proof.
  intros t0 x mid g first k hw s S1 S2 S3 S4 S5.
  assert (X : in_force x mid <= elapsed mid -> exists p q, mid ++ [Cpu g] = p ++ q /\ in_force x p <= elapsed p /\ forall e, In e q -> is_cpu e = false).
  { intro L. exists (mid ++ [Cpu g]), []. rewrite app_nil_r, elapsed_app, in_force_app. cbn. split; [reflexivity | split; [lia | intros ? []]]. }
  unfold halt_turn. destruct (k && expired s) eqn:E.
  - assert (L : in_force x mid <= elapsed mid).
    { apply andb_prop in E. destruct E as [_ E]. unfold expired in E. apply Z.leb_le in E. lia. }
    specialize (X L). destruct hw; [| destruct first].
    + cbn. split; [intros _ | intros [H | []]; discriminate H]. unfold inside; cbn. rewrite elapsed_app, in_force_app. cbn.
      six; [exact S1 | lia | exact S3 | exact S4 | discriminate | split; [reflexivity | exact X]].
    + cbn. split; [intro Q; exfalso; apply (silent_ret _ Q) | intros _; exact L].
    + cbn. split; [intros _ | intros []]. unfold inside; cbn. rewrite elapsed_app, in_force_app. cbn.
      six; [exact S1 | lia | exact S3 | exact S4 | discriminate | split; [reflexivity | exact X]].
  - destruct hw; cbn.
    + split; [intros _ | intros [H | []]; discriminate H]. unfold inside; cbn. rewrite elapsed_app, in_force_app. cbn.
      six; [exact S1 | lia | exact S3 | exact S4 | discriminate | rewrite S5; discriminate].
    + split; [intros _ | intros []]. unfold inside; cbn. rewrite elapsed_app, in_force_app. cbn.
      six; [exact S1 | lia | exact S3 | exact S4 | discriminate | rewrite S5; discriminate].
Qed.

(** one step inside: it stays inside, or it returns; and a timeout is returned only when the time is up *)
Lemma inside_step : forall t0 x mid e s, inside t0 x mid s ->
  (silent (snd (step e s)) -> inside t0 x (mid ++ [e]) (fst (step e s))) /\
  (In (ORet Timeout) (snd (step e s)) ->
     exists p q, mid = p ++ q /\ in_force x p <= elapsed p /\ forall e, In e q -> is_cpu e = false).
Proof.
  intros t0 x mid e s (A & B & C & D & F & G).
  destruct s as [nw ow tf ti ha ex sd li ab sb ln sf th su ii cd pl]. cbn in *. subst.
  destruct e as [t | t y | g | r | d | n].
  - destruct pl; try congruence; cbn; (split; [intros _ | tauto]); unfold inside; cbn; rewrite elapsed_app, in_force_app; cbn;
      six; try lia; try congruence; intro E; destruct (G E) as [G1 G2]; try congruence; auto using inside_more.
  - destruct pl; try congruence; cbn; (split; [intros _ | tauto]); unfold inside; cbn; rewrite elapsed_app, in_force_app; cbn;
      six; try lia; try congruence; intro E; destruct (G E) as [G1 G2]; try congruence; auto using inside_more.
  - assert (N : forall a : list ev, elapsed (a ++ [Cpu g]) = elapsed a) by (intro; rewrite elapsed_app; cbn; lia).
    assert (M : forall a : list ev, in_force x (a ++ [Cpu g]) = in_force x a) by (intro; rewrite in_force_app; reflexivity).
    assert (X : in_force x mid <= elapsed mid -> exists p q, mid ++ [Cpu g] = p ++ q /\ in_force x p <= elapsed p /\ forall e, In e q -> is_cpu e = false).
    { intro L. exists (mid ++ [Cpu g]), []. rewrite app_nil_r, N, M. split; [reflexivity | split; [exact L | intros ? []]]. }
    assert (Y : in_force x mid <= elapsed mid -> exists p q, mid = p ++ q /\ in_force x p <= elapsed p /\ forall e, In e q -> is_cpu e = false).
    { intro L. exists mid, []. rewrite app_nil_r. split; [reflexivity | split; [exact L | intros ? []]]. }
    assert (EX : forall first k, pl = Idle first k \/ pl = Stopped (Some (first, k)) -> ex = false) by (intros ? ? [-> | ->]; destruct ex; [destruct (G eq_refl); discriminate | reflexivity | destruct (G eq_refl); discriminate | reflexivity]).
    pose proof (turn_inside t0 x mid g) as HT.
    destruct g as [b e i pf]. destruct pl as [| | n k | first k | back |]; try (destruct (F eq_refl)).
    + cbn. destruct ex; cbn; [split; [intro Q; exfalso; apply (silent_ret _ Q) | intros _; apply G; reflexivity] |].
      destruct (cd b); cbn; (split; [intros _ | tauto]); unfold inside; cbn; rewrite N, M; six; congruence.
    + assert (ex = false) by (destruct ex; [destruct (G eq_refl); discriminate | reflexivity]). subst.
      cbn. destruct e as [m | | |]; cbn.
      * unfold block_end, do_suspend, thrown, expired; cbn.
        destruct ab; cbn; [split; [intro Q; exfalso; apply (silent_ret Success); intros o I; apply Q; right; exact I | intros [? | [? | []]]; congruence] |].
        destruct sb; cbn.
        { destruct (th && sf); cbn; [split; [intro Q; exfalso; apply (silent_ret Paused); intros o I; apply Q; right; exact I | intros [? | [? | []]]; congruence] |].
          split; [intros _ | intros [? | []]; congruence]. unfold inside; cbn; rewrite N, M; six; congruence. }
        destruct (ln && i); cbn; [split; [intros _ | intros [? | [? | []]]; congruence]; unfold inside; cbn; rewrite N, M; six; congruence |].
        destruct k; cbn; [destruct (Z.leb_spec (in_force x mid) (t0 + elapsed mid - t0)) |]; cbn.
        { split; [intros _ | intros [? | []]; congruence]. unfold inside; cbn; rewrite N, M. six; [reflexivity .. | discriminate |]. intros _. split; [reflexivity | apply X; lia]. }
        all: destruct (cd m); cbn; (split; [intros _ | intros [? | []]; congruence]); unfold inside; cbn; rewrite N, M; six; congruence.
      * split; [intros _ | intros [? | []]; congruence]. unfold inside; cbn; rewrite N, M; six; congruence.
      * split; [intros _ | intros [? | []]; congruence]. unfold inside; cbn; rewrite N, M; six; congruence.
      * split; [intro Q; exfalso; apply (silent_ret Failed); intros o I; apply Q; right; exact I | intros [? | [? | []]]; congruence].
    + rewrite (EX first k (or_introl eq_refl)) in *. cbn. unfold do_suspend, thrown; cbn.
      destruct ab; cbn; [split; [intro Q; exfalso; apply (silent_ret _ Q) | intros [? | []]; congruence] |].
      destruct sb; cbn.
      { destruct (th && sf); cbn; [split; [intro Q; exfalso; apply (silent_ret _ Q) | intros [? | []]; congruence] |].
        split; [intros _ | tauto]. unfold inside; cbn; rewrite N, M; six; congruence. }
      destruct (ln && ii); cbn.
      { destruct pf; cbn.
        - destruct first; cbn; (split; [intros _ | intuition congruence]); unfold inside; cbn; rewrite N, M; six; congruence.
        - destruct (HT first k true (set_iff i (mkst (t0 + elapsed mid) ow tf true ha false t0 (in_force x mid) false false ln sf th su ii cd (Idle first k))) eq_refl eq_refl eq_refl eq_refl eq_refl) as [H1 H2].
          split; [exact H1 | intro Q; apply Y, H2, Q]. }
      destruct (HT first k false (mkst (t0 + elapsed mid) ow tf true ha false t0 (in_force x mid) false false ln sf th su ii cd (Idle first k)) eq_refl eq_refl eq_refl eq_refl eq_refl) as [H1 H2].
      split; [exact H1 | intro Q; apply Y, H2, Q].
    + cbn. destruct sf; cbn.
      { assert (ex = false) by (destruct ex; [destruct (G eq_refl); discriminate | reflexivity]). subst.
        split; [intros _ | tauto]. unfold inside; cbn; rewrite N, M; six; congruence. }
      destruct back as [[first k] |]; cbn.
      { rewrite (EX first k (or_intror eq_refl)) in *.
        destruct (HT first k false (set_sbit false (set_susp false (mkst (t0 + elapsed mid) ow tf true ha false t0 (in_force x mid) ab sb ln false th su ii cd (Stopped (Some (first, k)))))) eq_refl eq_refl eq_refl eq_refl eq_refl) as [H1 H2].
        split; [exact H1 | intro Q; apply Y, H2, Q]. }
      assert (ex = false) by (destruct ex; [destruct (G eq_refl); discriminate | reflexivity]). subst.
      split; [intros _ | tauto]. unfold inside; cbn; rewrite N, M; six; congruence.
    + cbn. assert (ex = false) by (destruct ex; [destruct (G eq_refl); discriminate | reflexivity]). subst.
      split; [intros _ | tauto]. unfold inside; cbn; rewrite N, M; six; congruence.
  - destruct r; cbn; (split; [intros _ | tauto]); unfold inside; cbn; rewrite elapsed_app, in_force_app; cbn;
      six; try lia; try congruence; intro E; destruct (G E) as [G1 G2]; try congruence; auto using inside_more.
  - cbn; (split; [intros _ | tauto]); unfold inside; cbn; rewrite elapsed_app, in_force_app; cbn;
      six; try lia; try congruence; intro E; destruct (G E) as [G1 G2]; try congruence; auto using inside_more.
  - cbn; (split; [intros _ | tauto]); unfold inside; cbn; rewrite elapsed_app, in_force_app; cbn;
      six; try lia; try congruence; intro E; destruct (G E) as [G1 G2]; try congruence; auto using inside_more.
Qed.

Lemma inside_start : forall t x s, at_ s = Out -> inv s -> silent (snd (step (RunUntil t x) s)) ->
  inside (now s) x [] (fst (step (RunUntil t x) s)).
Proof.
  intros t x s O I. cbn. rewrite O. unfold cpu_run_until, start. cbn.
  destruct (susp s && sflag s); cbn; [intro Q; exfalso; apply (silent_ret _ Q) |]. intros _.
  destruct (halted s); cbn; unfold inside; cbn; six; try reflexivity; try lia; discriminate.
Qed.

Lemma inside_run : forall t0 x mid p s, inside t0 x p s -> silent (trace mid s) -> inside t0 x (p ++ mid) (run mid s).
Proof.
  intros t0 x. induction mid as [| e mid IH]; intros p s I S; [rewrite app_nil_r; exact I |].
  cbn [trace run] in *. apply silent_app in S. destruct S as [S1 S2].
  replace (p ++ e :: mid) with ((p ++ [e]) ++ mid) by (rewrite <- app_assoc; reflexivity).
  apply IH; [| exact S2]. apply inside_step; assumption.
Qed.

(** A timeout is never reported early: when cpu_run_until, called with timeout [x] in any reachable state, returns
    "timeout" at event [e], then at some point before that (after [p]) the time that had passed since the call was at
    least the timeout then in force, and the cpu thread made no further step before returning. *)
Theorem C69_not_early : forall t0 b pre t x mid e,
  let s := run pre (init t0 b) in
  at_ s = Out -> silent (trace (RunUntil t x :: mid) s) ->
  In (ORet Timeout) (snd (step e (run (RunUntil t x :: mid) s))) ->
  exists p q, mid = p ++ q /\ in_force x p <= elapsed p /\ forall e, In e q -> is_cpu e = false.
Proof.
  intros t0 b pre t x mid e s O S R. cbn [run trace] in *. apply silent_app in S. destruct S as [S1 S2].
  assert (I : inv s) by apply inv_run, inv_init.
  pose proof (inside_run _ _ _ _ _ (inside_start t x s O I S1) S2) as J. cbn [app] in J.
  destruct (inside_step _ _ _ e _ J) as [_ K]. exact (K R).
Qed.
Print Assumptions C69_not_early.

(** ** It does return *)

Definition is_run (e : ev) : bool := match e with Run _ => true | _ => false end.

(** without cpu_run, all code has the check of the clock *)
Record checked (s : st) : Prop := mkchecked {
  k_code : forall n k, code s n = Some k -> k = true;
  k_block : forall n k, at_ s = Block n k -> k = true;
  k_idle : forall f k, at_ s = Idle f k \/ at_ s = Stopped (Some (f, k)) -> k = true;
  k_flag : at_ s <> Out -> tflag s = true
}.

Lemma checked_step : forall e s, is_run e = false -> inv s -> checked s -> checked (fst (step e s)).
Proof.
  intros e s R [I1 I2 I3 I4 I5 I6 I7 I8 I9 I10 I11 I12] [K1 K2 K3 K4].
  destruct s as [nw ow tf ti ha ex sd li ab sb ln sf th su ii cd pl]. cbn in *.
  clear I1 I2 I4 I5 I6 I7 I8 I9.
  assert (Z1 : forall n, cd n <> Some false) by (intros n H; discriminate (K1 n false H)).
  destruct e as [t | t x | g | r | d | n]; try discriminate R.
  - cbn. destruct pl; cbn; try (constructor; cbn; assumption).
    unfold cpu_run_until, start. cbn. destruct su, sf; cbn; destruct ha; cbn; constructor; fin.
  - destruct g as [b e i pf]. cbn. destruct pl as [| | n k | first k | back |]; cbn.
    + constructor; cbn; assumption.
    + assert (tf = true) by (apply K4; discriminate). subst. destruct (ti && ex); cbn; [constructor; fin |].
      destruct (cd b) eqn:C; cbn; constructor; fin.
      match goal with H : context [Nat.eqb ?m b] |- _ => destruct (Nat.eqb m b); [congruence | eauto] end.
    + assert (tf = true) by (apply K4; discriminate). assert (k = true) by eauto. subst.
      destruct e; cbn; [| constructor; fin | constructor; fin | constructor; fin].
      unfold block_end, do_suspend, thrown; cbn. boolcase; constructor; fin.
    + assert (tf = true) by (apply K4; discriminate). assert (k = true) by (apply (K3 first); auto). subst.
      unfold halt_turn, do_suspend, thrown; cbn. boolcase; constructor; fin.
    + assert (tf = true) by (apply K4; discriminate). destruct sf; cbn; [constructor; fin |].
      destruct back as [[first k] |]; cbn; [| constructor; fin]. assert (k = true) by (apply (K3 first); auto). subst.
      unfold halt_turn; cbn. boolcase; constructor; fin.
    + constructor; cbn; assumption.
  - destruct r; cbn; constructor; cbn; assumption.
  - cbn. constructor; cbn; assumption.
  - cbn. constructor; fin.
    match goal with H : context [Nat.eqb ?m n] |- _ => destruct (Nat.eqb m n); [congruence | eauto] end.
Qed.

Lemma checked_run : forall evs s, forallb (fun e => negb (is_run e)) evs = true -> inv s -> checked s -> checked (run evs s).
Proof.
  induction evs as [| e t IH]; intros s R I K; [exact K |]. cbn in R. apply andb_prop in R. destruct R as [R1 R2].
  apply negb_true_iff in R1. cbn. apply IH; [exact R2 | apply inv_step, I | apply checked_step; assumption].
Qed.

(** how many steps of the cpu thread are left *)
Definition left_ (s : st) : nat :=
  match at_ s with
  | Out => 0
  | Loop => if exitreq s then 1 else 4
  | Block _ _ => 3
  | Idle _ _ => 2
  | Stopped _ => 5
  | Crashed => 0
  end.

Lemma quiet_step : forall e s, alone e -> quiet s -> expired s = true -> inv s -> checked s -> timed s = true ->
  at_ s <> Out -> at_ s <> Crashed -> silent (snd (step e s)) ->
  quiet (fst (step e s)) /\ expired (fst (step e s)) = true /\ timed (fst (step e s)) = true /\
  at_ (fst (step e s)) <> Out /\ at_ (fst (step e s)) <> Crashed /\
  (count is_cpu [e] + left_ (fst (step e s)) <= left_ s + 2 * count is_raised (snd (step e s)))%nat.
Proof.
  intros e s A (Q1 & Q2 & Q3) X I K T O C S.
  destruct s as [nw ow tf ti ha ex sd li ab sb ln sf th su ii cd pl]. unfold quiet, expired in *. cbn in *. subst.
  destruct e as [t | t x | g | r | d | n]; try destruct A.
  - destruct g as [b e i pf]. cbn in *. destruct pl as [| | n k | first k | back |]; try (destruct (O eq_refl)); try (destruct (C eq_refl)).
    + cbn in *. destruct ex; cbn in *; [exfalso; apply (silent_ret _ S) |].
      destruct (cd b); cbn; repeat split; auto; discriminate.
    + assert (k = true) by (apply (k_block _ K n); reflexivity). subst. destruct e as [m | | |]; cbn in *.
      * unfold block_end, expired in *. cbn in *. rewrite X in *. cbn in *. repeat split; auto; discriminate.
      * repeat split; auto; try discriminate. cbn. destruct ex; cbn; lia.
      * repeat split; auto; discriminate.
      * exfalso. apply (silent_ret Failed). intros o J. apply S. right. exact J.
    + assert (k = true) by (apply (k_idle _ K first); auto). subst. cbn in *. unfold halt_turn, expired in *. cbn in *. rewrite X in *. cbn in *.
      destruct first; cbn in *; [exfalso; apply (silent_ret _ S) |]. repeat split; auto; discriminate.
    + exfalso. discriminate (i_wait _ I back eq_refl).
  - cbn in *. repeat split; auto; [apply Z.leb_le in X; apply Z.leb_le; lia | unfold left_; cbn; lia].
  - cbn in *. repeat split; auto; unfold left_; cbn; lia.
Qed.

Lemma quiet_run : forall q s, Forall alone q -> quiet s -> expired s = true -> inv s -> checked s -> timed s = true ->
  at_ s <> Out -> at_ s <> Crashed -> silent (trace q s) ->
  (count is_cpu q <= left_ s + 2 * count is_raised (trace q s))%nat.
Proof.
  induction q as [| e q IH]; intros s A Q X I K T O C S; [cbn; lia |].
  inversion A as [| e' q' A1 A2]; subst. cbn [trace] in *. apply silent_app in S. destruct S as [S1 S2].
  destruct (quiet_step e s A1 Q X I K T O C S1) as (Q' & X' & T' & O' & C' & L).
  assert (K' : checked (fst (step e s))).
  { apply checked_step; auto. destruct e; try destruct A1; reflexivity. }
  specialize (IH _ A2 Q' X' (inv_step e s I) K' T' O' C' S2).
  unfold count in *. rewrite filter_app, app_length. change (e :: q) with ([e] ++ q). rewrite filter_app, app_length. lia.
Qed.

(** A timed run of a cpu that was never run with cpu_run returns once its time is up: if after [p] the timeout in force
    has passed and nothing is asked of the cpu, the cpu thread makes at most four more steps before cpu_run_until
    returns, plus two for every block of guest code that ends in an exception.
    Missing for the full property: the guest may raise exceptions forever, and cpu_run may have left unchecked code. *)
Theorem C69_returns_partial : forall t0 b pre t x p q,
  let s := run pre (init t0 b) in
  let s1 := run (RunUntil t x :: p) s in
  forallb (fun e => negb (is_run e)) (pre ++ p) = true ->
  at_ s = Out -> silent (trace (RunUntil t x :: p) s) ->
  in_force x p <= elapsed p -> quiet s1 -> at_ s1 <> Crashed -> Forall alone q ->
  silent (trace q s1) ->
  (count is_cpu q <= 4 + 2 * count is_raised (trace q s1))%nat.
Proof.
  intros t0 b pre t x p q s s1 R O S L Q C A Q2.
  rewrite forallb_app in R. apply andb_prop in R. destruct R as [R1 R2].
  assert (I : inv s) by apply inv_run, inv_init. assert (I1 : inv s1) by (apply inv_run, I).
  assert (K : checked s).
  { apply checked_run; [exact R1 | apply inv_init |]. constructor; cbn; intros; try discriminate; try congruence; intuition congruence. }
  assert (K1 : checked s1).
  { apply checked_run; [cbn; exact R2 | exact I | exact K]. }
  cbn [trace] in S. apply silent_app in S. destruct S as [S1 S2].
  pose proof (inside_run _ _ _ _ _ (inside_start t x s O I S1) S2) as J. cbn [app] in J. fold s1 in J.
  destruct J as (J1 & J2 & J3 & J4 & J5 & J6).
  assert (X : expired s1 = true) by (unfold expired; apply Z.leb_le; change (run p (fst (step (RunUntil t x) s))) with s1 in *; lia).
  pose proof (quiet_run q s1 A Q X I1 K1 J4 J5 C Q2) as M.
  assert (left_ s1 <= 4)%nat.
  { unfold left_. destruct (at_ s1) eqn:E; try lia; [destruct (exitreq s1); lia |].
    destruct Q as (_ & Q & _). rewrite (i_wait _ I1 back E) in Q. discriminate Q. }
  lia.
Qed.
Print Assumptions C69_returns_partial.

(** *** Refuted: code that cpu_run translated has no check of the clock, and cpu_run_until does not drop it.  A guest
    loop that ran under cpu_run before keeps cpu_run_until from returning, however much time passes and although it
    raises no exception. *)
Definition go (e : ending) (i : bool) : ev := Cpu (mkchoice 0 e i false).
Definition spin (e : ending) (n : nat) : list ev := concat (repeat [Tick 1; go e true] n).
Definition old_code : list ev := [Run 0; go (Linked 0) true; go (Linked 0) true; Req Exit; go (Linked 0) true].

Lemma elapsed_spin : forall e n, elapsed (spin e n) = Z.of_nat n.
Proof. intro e. induction n as [| n IH]; [reflexivity |]. unfold spin in *. cbn [repeat concat]. rewrite elapsed_app, IH. cbn [elapsed go]. lia. Qed.

Lemma spin_old : forall n s, at_ s = Loop \/ at_ s = Block 0 false -> timed s && exitreq s = false -> quiet s -> code s 0%nat = Some false ->
  silent (trace (spin (Linked 0) n) s) /\ count is_raised (trace (spin (Linked 0) n) s) = 0%nat.
Proof.
  induction n as [| n IH]; intros s A X (Q1 & Q2 & Q3) C; [split; [intros o [] | reflexivity] |].
  destruct s as [nw ow tf ti ha ex sd li ab sb ln sf th su ii cd pl]. cbn in A, X, Q1, Q2, Q3, C. subst.
  unfold spin. cbn [repeat concat]. rewrite trace_app. fold (spin (Linked 0) n).
  destruct A as [-> | ->].
  - cbn. rewrite X. cbn. rewrite C. cbn. apply IH; cbn; auto. repeat split.
  - cbn. unfold block_end. cbn. rewrite C. cbn. unfold count in *. cbn.
    edestruct IH as [H1 H2]; [| | | | split; [intros o [<- | J]; [reflexivity | apply (H1 o J)] | exact H2]]; cbn; auto. repeat split.
Qed.

Theorem C69_refuted_old_code : forall n,
  let s := run old_code (init 0 false) in
  at_ s = Out /\ silent (trace (RunUntil 0 1 :: spin (Linked 0) n) s) /\
  elapsed (spin (Linked 0) n) = Z.of_nat n /\ quiet s /\
  count is_raised (trace (RunUntil 0 1 :: spin (Linked 0) n) s) = 0%nat.
Proof.
  intros n s. split; [reflexivity |].
  assert (Q : quiet s) by (repeat split; reflexivity).
  assert (M : silent (trace (spin (Linked 0) n) (fst (step (RunUntil 0 1) s))) /\ count is_raised (trace (spin (Linked 0) n) (fst (step (RunUntil 0 1) s))) = 0%nat).
  { apply spin_old; [left; reflexivity | reflexivity | repeat split; reflexivity | reflexivity]. }
  destruct M as [M1 M2]. cbn [trace]. replace (snd (step (RunUntil 0 1) s)) with (@nil obs) by reflexivity. cbn [app].
  split; [exact M1 | split; [apply elapsed_spin | split; [exact Q | exact M2]]].
Qed.
Print Assumptions C69_refuted_old_code.

(** *** Refuted: a guest whose blocks all end in exceptions is never interrupted by the timeout. *)
Lemma spin_raised : forall n s, at_ s = Loop \/ (exists k, at_ s = Block 0 k) -> timed s && exitreq s = false ->
  silent (trace (spin Raised n) s).
Proof.
  induction n as [| n IH]; intros s A X; [intros o [] |].
  destruct s as [nw ow tf ti ha ex sd li ab sb ln sf th su ii cd pl]. cbn in A, X.
  unfold spin. cbn [repeat concat]. rewrite trace_app. fold (spin Raised n).
  destruct A as [-> | [k ->]].
  - cbn. rewrite X. destruct (cd 0%nat) as [k |] eqn:C; cbn; apply IH; cbn; eauto.
  - cbn. intros o [<- | J]; [reflexivity |]. revert o J. apply IH; cbn; auto.
Qed.

Theorem C69_refuted_exceptions : forall n,
  silent (trace (RunUntil 0 1 :: spin Raised n) (init 0 false)) /\ elapsed (spin Raised n) = Z.of_nat n.
Proof.
  intro n. split; [| apply elapsed_spin]. cbn [trace]. replace (snd (step (RunUntil 0 1) (init 0 false))) with (@nil obs) by reflexivity.
  cbn [app]. apply spin_raised; [left; reflexivity | reflexivity].
Qed.
Print Assumptions C69_refuted_exceptions.

(** ** After the call *)

(** A cpu that is not running and not halted can be saved and loaded by any thread. *)
Theorem C69_free_partial : forall t0 b evs t, let s := run evs (init t0 b) in
  at_ s = Out -> halted s = false -> snapshot t s = Some Success.
Proof.
  intros t0 b evs t s O H. assert (I : inv s) by apply inv_run, inv_init.
  unfold snapshot. destruct (i_out _ I O) as [-> | K]; [reflexivity | congruence].
Qed.
Print Assumptions C69_free_partial.

(** *** Refuted: when cpu_run_until finds the cpu halted and the time runs out, it returns without giving the cpu back:
    its own thread gets "internal error" from a snapshot, any other waits for a cpu that is not running. *)
Definition halted_twice : list ev :=
  [RunUntil 0 1; go Halts false; go Halts false; Tick 1; go Halts false; go Halts false; RunUntil 0 1; Tick 1; go Halts false].
Theorem C69_refuted_not_free :
  let s := run halted_twice (init 0 false) in
  trace halted_twice (init 0 false) = [OBlock 0 Halts; ORet Timeout; ORet Timeout] /\
  at_ s = Out /\ snapshot 0 s = Some InternalError /\ forall t, t <> 0%nat -> snapshot t s = None.
Proof.
  cbv zeta. split; [reflexivity | split; [reflexivity | split; [reflexivity |]]].
  intros [| t] H; [congruence | reflexivity].
Qed.
Print Assumptions C69_refuted_not_free.

(** A cpu that was run with a timeout is refused by cpu_run from then on. *)
Lemma tflag_step : forall e s, tflag s = true -> tflag (fst (step e s)) = true.
Proof.
  intros e s H. destruct s as [nw ow tf ti ha ex sd li ab sb ln sf th su ii cd pl]. cbn in H. subst.
  destruct e as [t | t x | g | r | d | n]; cbn; [destruct pl; reflexivity | | | destruct r; reflexivity | reflexivity | reflexivity].
  - destruct pl; try reflexivity. unfold cpu_run_until, start; cbn. destruct su, sf, ha; reflexivity.
  - destruct pl as [| | n k | f k | back |]; cbn; unfold halt_turn, block_end, do_suspend, thrown; cbn; try reflexivity;
      try destruct (c_end g); try destruct back as [[? ?] |]; cbn; boolcase; reflexivity.
Qed.
Lemma tflag_run : forall evs s, tflag s = true -> tflag (run evs s) = true.
Proof. induction evs as [| e t IH]; intros s H; [exact H |]. apply IH, tflag_step, H. Qed.

Theorem C69_run_refused : forall t0 b pre t x mid t', let s := run pre (init t0 b) in
  at_ s = Out -> let s1 := run (RunUntil t x :: mid) s in at_ s1 = Out ->
  step (Run t') s1 = (s1, [ORet InvalidParameter]).
Proof.
  intros t0 b pre t x mid t' s O s1 O1.
  assert (tflag s1 = true).
  { unfold s1. cbn [run]. apply tflag_run. cbn. rewrite O. unfold cpu_run_until, start. cbn.
    destruct (susp s && sflag s); cbn; [reflexivity |]. destruct (halted s); reflexivity. }
  clearbody s1. cbn. rewrite O1. unfold cpu_run. rewrite H. reflexivity.
Qed.
Print Assumptions C69_run_refused.

(** ** cpu_exit *)

(** Every call that returns "success" answers one cpu_exit. *)
Definition is_exit (e : ev) : bool := match e with Req Exit => true | _ => false end.
Definition is_success (o : obs) : bool := match o with ORet Success => true | _ => false end.
Definition one (b : bool) : nat := if b then 1 else 0.

Lemma exit_step : forall e s, (count is_success (snd (step e s)) + one (abort (fst (step e s))) <= one (is_exit e) + one (abort s))%nat.
Proof.
  intros e s. destruct s as [nw ow tf ti ha ex sd li ab sb ln sf th su ii cd pl].
  destruct e as [t | t x | g | r | d | n]; cbn.
  - destruct pl; cbn; try lia. unfold cpu_run, start; cbn. destruct tf, su, sf; cbn; lia.
  - destruct pl; cbn; try lia. unfold cpu_run_until, start; cbn. destruct su, sf, ha; cbn; lia.
  - destruct pl as [| | n k | f k | back |]; cbn; unfold halt_turn, block_end, do_suspend, thrown; cbn; try lia;
      try destruct (c_end g); try destruct back as [[? ?] |]; cbn; try lia; try (destruct ab; cbn; [lia |]); boolcase; cbn; lia.
  - destruct r; cbn; destruct ab; cbn; lia.
  - lia.
  - lia.
Qed.

Theorem C69_exit_once : forall t0 b evs,
  (count is_success (trace evs (init t0 b)) <= count is_exit evs)%nat.
Proof.
  assert (M : forall evs s, (count is_success (trace evs s) + one (abort (run evs s)) <= count is_exit evs + one (abort s))%nat).
  { induction evs as [| e t IH]; intro s; [cbn; lia |]. cbn [trace run]. specialize (IH (fst (step e s))).
    pose proof (exit_step e s). unfold count in *. rewrite filter_app, app_length. cbn [filter].
    destruct (is_exit e); cbn [length one] in *; lia. }
  intros. specialize (M evs (init t0 b)). cbn in M. lia.
Qed.
Print Assumptions C69_exit_once.

(** It ends the run: with an exit pending in a cpu that is not stopped, the call returns within three steps of the
    cpu thread, plus two for every block that ends in an exception.  Missing: a guest that raises exceptions forever. *)
Definition left_exit (s : st) : nat :=
  match at_ s with Loop => 3 | Block _ _ => 2 | Idle _ _ => 1 | _ => 0 end.

Theorem C69_exit_partial : forall q s, abort s = true -> Forall alone q ->
  at_ s = Loop \/ (exists n k, at_ s = Block n k) \/ (exists f k, at_ s = Idle f k) -> silent (trace q s) ->
  (count is_cpu q <= 3 + 2 * count is_raised (trace q s))%nat.
Proof.
  assert (M : forall q s, abort s = true -> Forall alone q ->
    at_ s = Loop \/ (exists n k, at_ s = Block n k) \/ (exists f k, at_ s = Idle f k) -> silent (trace q s) ->
    (count is_cpu q <= left_exit s + 2 * count is_raised (trace q s))%nat).
  { induction q as [| e q IH]; intros s A F P S; [cbn; lia |].
    inversion F as [| e' q' F1 F2]; subst. cbn [trace] in *. apply silent_app in S. destruct S as [S1 S2].
    assert (N : abort (fst (step e s)) = true /\
      (at_ (fst (step e s)) = Loop \/ (exists n k, at_ (fst (step e s)) = Block n k) \/ (exists f k, at_ (fst (step e s)) = Idle f k)) /\
      (count is_cpu [e] + left_exit (fst (step e s)) <= left_exit s + 2 * count is_raised (snd (step e s)))%nat).
    { clear IH S2 F F2. destruct s as [nw ow tf ti ha ex sd li ab sb ln sf th su ii cd pl]. cbn in A. subst.
      destruct e as [t | t x | g | r | d | n]; try destruct F1; [| cbn; repeat split; auto; unfold left_exit; cbn; lia ..].
      destruct g as [b e i pf]. cbn in P. destruct P as [-> | [(n & k & ->) | (f & k & ->)]]; cbn in *.
      - destruct (ti && ex); cbn in *; [exfalso; apply (silent_ret _ S1) |].
        destruct (cd b); cbn; (split; [reflexivity | split; [eauto | lia]]).
      - destruct e as [m | | |]; cbn in *.
        + exfalso. apply (silent_ret Success). intros o J. apply S1. right. exact J.
        + repeat split; auto.
        + split; [reflexivity | split; [eauto | unfold left_exit; cbn; lia]].
        + exfalso. apply (silent_ret Failed). intros o J. apply S1. right. exact J.
      - exfalso. apply (silent_ret _ S1). }
    destruct N as (N1 & N2 & N3). specialize (IH _ N1 F2 N2 S2).
    unfold count in *. rewrite filter_app, app_length. change (e :: q) with ([e] ++ q). rewrite filter_app, app_length. lia. }
  intros q s A F P S. specialize (M q s A F P S).
  assert (left_exit s <= 3)%nat by (unfold left_exit; destruct (at_ s); lia). lia.
Qed.
Print Assumptions C69_exit_partial.

(** *** Examples: a timed run that ends in time, one that is changed while it runs, and an exit *)
Example C69_example :
  let c := mkchoice 0 (Linked 1) true false in
  let l := [RunUntil 3 10; Cpu c; Tick 4; Cpu c; Req (SetTimeout 9); Cpu c; Tick 6; Cpu c] in
  forallb (fun e => negb (is_run e)) l = true /\ silent (trace l (init 5 true)) /\
  elapsed (tl l) = 10 /\ in_force 10 (tl l) = 9 /\
  trace (l ++ [Cpu c]) (init 5 true) = trace l (init 5 true) ++ [ORet Timeout] /\
  count is_cpu l = 4%nat /\ quiet (run l (init 5 true)).
Proof.
  cbv zeta. split; [reflexivity | split].
  - match goal with |- silent ?t => let v := eval vm_compute in t in replace t with v by (vm_compute; reflexivity) end.
    intros o H. repeat (destruct H as [<- | H]; [reflexivity |]). destruct H.
  - repeat split; vm_compute; reflexivity.
Qed.
Example C69_example_exit :
  let c := mkchoice 0 (Linked 1) true false in
  let l := [Run 3; Cpu c; Req Exit] in
  abort (run l (init 5 true)) = true /\ at_ (run l (init 5 true)) = Block 0 false /\
  trace (l ++ [Cpu c]) (init 5 true) = [OBlock 0 (Linked 1); ORet Success].
Proof. cbv zeta. repeat split; vm_compute; reflexivity. Qed.

(** ** C70 *)

(** what holds of a cpu whose guest waits for an interrupt ([h]) *)
Definition asleep (h : bool) (s : st) : Prop :=
  h = true ->
  match at_ s with
  | Out => halted s = true
  | Loop => halted s = true
  | Block _ _ => False
  | Idle _ _ | Stopped (Some _) | Crashed => True
  | Stopped None => False
  end.

Definition gentle (e : ev) : bool := match e with Req Exit | Req (Suspend true) => false | _ => true end.
Definition after (h : bool) (l : list obs) : bool :=
  fold_left (fun h o => match o with OBlock _ Halts => true | OBlock _ _ => false | OIrq => false | ORet _ => h end) l h.

Lemma waits_app : forall a b h, waits h a -> waits (after h a) b -> waits h (a ++ b).
Proof.
  induction a as [| o a IH]; intros b h A B; [exact B |]. destruct o as [n e | | r]; cbn [app waits] in *.
  - destruct A as [A1 A2]. split; [exact A1 |]. apply IH; [exact A2 |]. destruct e; exact B.
  - apply IH; assumption.
  - apply IH; assumption.
Qed.

Definition mild (s : st) : Prop := abort s = false /\ (sbit s = true -> throw s = false).

Lemma mild_step : forall e s, gentle e = true -> mild s -> mild (fst (step e s)).
Proof.
  intros e s G [M1 M2]. destruct s as [nw ow tf ti ha ex sd li ab sb ln sf th su ii cd pl]. cbn in *. subst. unfold mild.
  destruct e as [t | t x | g | r | d | n]; cbn.
  - destruct pl; cbn; auto. unfold cpu_run, start; cbn. destruct tf, su, sf; cbn; auto.
  - destruct pl; cbn; auto. unfold cpu_run_until, start; cbn. destruct su, sf, ha; cbn; auto.
  - destruct pl as [| | n k | f k | back |]; cbn; unfold halt_turn, block_end, do_suspend, thrown; cbn; auto;
      try destruct (c_end g); try destruct back as [[? ?] |]; cbn; auto; boolcase; cbn; auto; split; auto; discriminate.
  - destruct r as [| [|] | | | |]; cbn in *; try discriminate G; auto.
  - auto.
  - auto.
Qed.

Lemma asleep_step : forall e s h, gentle e = true -> mild s -> inv s -> asleep h s ->
  waits h (snd (step e s)) /\ asleep (after h (snd (step e s))) (fst (step e s)).
Proof.
  intros e s h G [M1 M2] I A. pose proof (i_halt _ I) as I3. pose proof (i_timed _ I) as I2. pose proof (i_loop _ I) as I4.
  destruct s as [nw ow tf ti ha ex sd li ab sb ln sf th su ii cd pl]. unfold asleep in *. cbn in *. subst.
  destruct e as [t | t x | g | r | d | n]; cbn.
  - destruct pl; cbn; auto. unfold cpu_run, start; cbn. destruct tf; cbn; auto.
    destruct su, sf; cbn; auto; (split; [exact Logic.I |]); intro H; specialize (A H); subst; discriminate (I3 eq_refl).
  - destruct pl; cbn; auto. unfold cpu_run_until, start; cbn. destruct su, sf, ha; cbn; auto; (split; [exact Logic.I |]); intro H; discriminate (A H).
  - destruct g as [b e i pf]. cbn. destruct pl as [| | n k | f k | back |]; cbn; auto.
    + destruct (ti && ex) eqn:E; cbn; auto.
      assert (h = false).
      { destruct h; [| reflexivity]. specialize (A eq_refl). subst. rewrite (I4 eq_refl eq_refl), (I2 ltac:(discriminate)), (I3 eq_refl) in E. discriminate E. }
      subst. destruct (cd b); cbn; (split; [exact Logic.I | discriminate]).
    + assert (h = false) by (destruct h; [destruct (A eq_refl) | reflexivity]). subst.
      destruct e as [m | | |]; cbn; [| repeat split; discriminate | repeat split | repeat split; discriminate].
      unfold block_end, do_suspend; cbn. destruct sb; cbn.
      * rewrite (M2 eq_refl). cbn. repeat split; discriminate.
      * destruct (ln && i); cbn; [repeat split; discriminate |]. destruct (k && _); cbn; [repeat split; discriminate |].
        destruct (cd m); cbn; repeat split; discriminate.
    + unfold halt_turn, do_suspend; cbn. destruct sb; cbn; [rewrite (M2 eq_refl); cbn; auto |].
      destruct (ln && ii); cbn.
      * destruct pf; [destruct f; cbn; (split; [exact Logic.I | auto]); discriminate |]. cbn. split; [exact Logic.I | discriminate].
      * destruct (k && _); cbn; [| auto]. destruct f; cbn; auto.
    + destruct sf; cbn; auto. destruct back as [[f k] |]; cbn; auto.
      unfold halt_turn; cbn. destruct (k && _); cbn; [| auto]. destruct f; cbn; auto.
  - destruct r; cbn; auto.
  - auto.
  - auto.
Qed.

(** After HLT the guest executes nothing until it takes an interrupt, through any number of timeouts and further calls,
    as long as the emulation is neither ended nor made to return by a pause. *)
Theorem C70_waits_partial : forall t0 b evs, forallb gentle evs = true -> waits false (trace evs (init t0 b)).
Proof.
  assert (M : forall evs s h, forallb gentle evs = true -> mild s -> inv s -> asleep h s -> waits h (trace evs s)).
  { induction evs as [| e t IH]; intros s h G M I A; [exact Logic.I |]. cbn in G. apply andb_prop in G. destruct G as [G1 G2].
    destruct (asleep_step e s h G1 M I A) as [A1 A2]. cbn [trace]. apply waits_app; [exact A1 |].
    apply IH; [exact G2 | apply mild_step; assumption | apply inv_step, I | exact A2]. }
  intros t0 b evs G. apply M; [exact G | split; [reflexivity | discriminate] | apply inv_init | discriminate].
Qed.
Print Assumptions C70_waits_partial.

(** *** Refuted: a pause that makes cpu_run return, or cpu_exit, while the guest waits in HLT loses the wait: the next
    call goes on behind the HLT although no interrupt came. *)
Definition sleep_then (r : request) : list ev :=
  [Run 0; go Halts true; go Halts true; Req r; go Halts true; Req Resume; Run 0; Cpu (mkchoice 1 (Linked 2) true false); Cpu (mkchoice 1 (Linked 2) true false)].
Theorem C70_refuted_forgotten : forall r, r = Exit \/ r = Suspend true ->
  exists st, trace (sleep_then r) (init 0 false) = [OBlock 0 Halts; ORet st; OBlock 1 (Linked 2)] /\
  ~ waits false (trace (sleep_then r) (init 0 false)).
Proof.
  intros r [-> | ->]; [exists Success | exists Paused]; (split; [reflexivity |]); cbn; intros (_ & H & _); discriminate H.
Qed.
Print Assumptions C70_refuted_forgotten.

(** *** Refuted: an interrupt that meets a page fault while it is delivered to a cpu that cpu_run_until found halted ends
    the program: nothing catches the C++ exception. *)
Definition fatal_wakeup : list ev :=
  [RunUntil 0 1; go Halts true; go Halts true; Tick 1; go Halts true; go Halts true; Req RaiseLine; RunUntil 0 1;
   Cpu (mkchoice 0 Halts true true)].
Theorem C70_refuted_crash :
  forallb gentle fatal_wakeup = true /\ trace fatal_wakeup (init 0 false) = [OBlock 0 Halts; ORet Timeout] /\
  at_ (run fatal_wakeup (init 0 false)) = Crashed /\
  forall evs, at_ (run evs (run fatal_wakeup (init 0 false))) = Crashed.
Proof.
  split; [reflexivity | split; [reflexivity | split; [reflexivity |]]].
  assert (M : forall evs s, at_ s = Crashed -> at_ (run evs s) = Crashed).
  { induction evs as [| e t IH]; intros s H; [exact H |]. apply IH. destruct e as [t' | t' x | g | r | d | n]; cbn; rewrite ?H; auto.
    - unfold cpu_step. rewrite H. exact H.
    - destruct r; exact H. }
  intro evs. apply M. reflexivity.
Qed.
Print Assumptions C70_refuted_crash.

(** A halted cpu takes an interrupt at the next step if IF is set and nothing else is asked of it, whichever call it waits in. *)
Theorem C70_wakes : forall g s f k, at_ s = Idle f k -> abort s = false -> sbit s = false -> line s = true -> iff s = true ->
  (f = true -> c_pf g = false) ->
  In OIrq (snd (step (Cpu g) s)) /\ at_ (fst (step (Cpu g) s)) = Loop.
Proof.
  intros g s f k A B C D E F. destruct s as [nw ow tf ti ha ex sd li ab sb ln sf th su ii cd pl]. cbn in *. subst. cbn.
  destruct (c_pf g).
  - destruct f; [discriminate (F eq_refl) |]. cbn. auto.
  - unfold halt_turn. cbn. auto.
Qed.
Print Assumptions C70_wakes.

(** and only then: with IF clear the line alone does not wake it *)
Theorem C70_masked : forall g s f k, at_ s = Idle f k -> iff s = false -> ~ In OIrq (snd (step (Cpu g) s)).
Proof.
  intros g s f k A E. destruct s as [nw ow tf ti ha ex sd li ab sb ln sf th su ii cd pl]. cbn in *. subst. cbn.
  unfold halt_turn, do_suspend, thrown. rewrite andb_false_r. cbn.
  destruct ab; cbn; [intros [H | []]; discriminate H |]. destruct sb; cbn.
  - destruct (th && sf); cbn; [intros [H | []]; discriminate H | intros []].
  - destruct (k && _); cbn; [destruct f; cbn; [intros [H | []]; discriminate H | intros []] | intros []].
Qed.
Print Assumptions C70_masked.

Example C70_example :
  let l := [RunUntil 0 1; go Halts true; go Halts true; Tick 1; go Halts true; go Halts true;
            RunUntil 0 5; go Halts true; Req RaiseLine; go (Linked 1) true; go (Linked 1) true; go (Linked 1) true] in
  forallb gentle l = true /\
  trace l (init 0 false) = [OBlock 0 Halts; ORet Timeout; OIrq; OBlock 0 (Linked 1); OIrq].
Proof. cbv zeta. split; vm_compute; reflexivity. Qed.
