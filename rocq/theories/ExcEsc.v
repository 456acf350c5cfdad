(** * Proofs about the escalation of nested exceptions *)

From Coq Require Import ZArith Bool List Lia ZifyBool.
From Verif Require Import SegModel SegSpec SegBits SegProofs SegFar SegRet ExcSpec ExcProofs.
Import ListNotations.
Local Open Scope Z_scope.

Section Esc.
Context (X : memsys).
Notation st := (st X).
Implicit Types s : st.

Lemma class_inv v :
  (v = 8 /\ class_of v = DoubleFault) \/ (v = 14 /\ class_of v = PageFault) \/
  (contributory v = true /\ v <> 8 /\ v <> 14 /\ class_of v = Contributory) \/
  (contributory v = false /\ v <> 8 /\ v <> 14 /\ class_of v = Benign).
Proof.
  unfold class_of, contributory. cbn [existsb].
  destruct (Z.eqb_spec v 8); [auto |]. destruct (Z.eqb_spec v 14); [auto |]. right. right.
  destruct (Z.eqb_spec v 0); [left; subst; auto |]. destruct (Z.eqb_spec v 10); [left; subst; auto |].
  destruct (Z.eqb_spec v 11); [left; subst; auto |]. destruct (Z.eqb_spec v 12); [left; subst; auto |].
  destruct (Z.eqb_spec v 13); [left; subst; auto |]. right. cbn. split; [| auto]. lia.
Qed.

(** what the classification of a second exception changes *)
Definition classified s (r : option st) : Prop :=
  match escalate (class_of (oldexp X s)) (class_of (xidx X s)), r with
  | Serially, Some s' =>
      s' = (match class_of (xidx X s) with Benign => s | _ => set_oldexp X (xidx X s) s end)
  | AsDoubleFault, Some s' => s' = set_oldexp X 8 (set_xidx X 8 (set_xcode X 0 s))
  | Shutdown, None => True
  | _, _ => False
  end.

Lemma set_xidx_id s : set_xidx X (xidx X s) s = s.
Proof. now destruct s. Qed.
Lemma set_xidx_old v s : set_xidx X (xidx X s) (set_oldexp X v s) = set_oldexp X v s.
Proof. now destruct s. Qed.
Lemma check_table s : classified s (check_dbl_exp X s).
Proof.
  unfold classified, check_dbl_exp, EXP_DF, EXP_PF.
  destruct (class_inv (oldexp X s)) as [[Eo Ho] | [[Eo Ho] | [(Eo & No & Po & Ho) | (Eo & No & Po & Ho)]]]; rewrite Ho;
  destruct (class_inv (xidx X s)) as [[Ex Hx] | [[Ex Hx] | [(Ex & Nx & Px & Hx) | (Ex & Nx & Px & Hx)]]]; rewrite Hx;
  cbn [escalate]; rewrite ?Eo; try (change (8 =? 8) with true; exact I);
  try change (14 =? 8) with false; try change (contributory 14) with false;
  try (rewrite (proj2 (Z.eqb_neq _ 8) No)); try (rewrite (proj2 (Z.eqb_neq _ 14) Po));
  rewrite ?Ex;
  try change (contributory 8) with false; try change (contributory 14) with false;
  try (rewrite (proj2 (Z.eqb_neq _ 8) Nx)); try (rewrite (proj2 (Z.eqb_neq _ 14) Px));
  destruct s; cbn in *; subst; rewrite ?Ex; try reflexivity;
  rewrite ?(proj2 (Z.eqb_neq _ 8) Nx), ?(proj2 (Z.eqb_neq _ 14) Px); reflexivity.
Qed.

(** ** Termination *)
Definition rank (v : Z) : nat :=
  match class_of v with DoubleFault => 0 | PageFault => 1 | Contributory => 2 | Benign => 3 end.

Definition nested s : Prop := xidx X s = 10 \/ xidx X s = 11 \/ xidx X s = 13 \/ xidx X s = 14.

Lemma failed_nested intn hw s s' :
  deliver X intn hw s = Exc X _ s' \/ deliver X intn hw s = PFault X _ s' ->
  nested s' /\ oldexp X s' = oldexp X s.
Proof.
  intros H. pose proof (deliver_fails X intn hw s) as F. unfold fails in F.
  destruct H as [H | H]; rewrite H in F.
  - destruct F as (m & c & i & -> & Hi). unfold nested. cbn. intuition.
  - destruct F as (m & c & a & ->). unfold nested. cbn. intuition.
Qed.

Lemma start_rank s s1 : nested s -> start X 0 false s = Some s1 -> (rank (oldexp X s1) < rank (oldexp X s))%nat.
Proof.
  intros N H. change (start X 0 false s) with (check_dbl_exp X s) in H.
  pose proof (check_table s) as T. rewrite H in T. unfold classified in T.
  assert (C : class_of (xidx X s) = Contributory \/ class_of (xidx X s) = PageFault).
  { destruct N as [-> | [-> | [-> | ->]]]; auto. }
  unfold rank. destruct C as [C | C]; rewrite C in T;
    destruct (class_of (oldexp X s)) eqn:E; cbn in T; try contradiction; rewrite T; cbn; rewrite ?C; cbn; lia.
Qed.

Lemma nested_ends n : forall s, nested s -> (rank (oldexp X s) < n)%nat -> raise X n 0 false s <> OutOfFuel X.
Proof.
  induction n as [| n IH]; intros s N R; [lia |]. cbn [raise].
  destruct (start X 0 false s) as [s1 |] eqn:E; [| discriminate].
  apply (start_rank _ _ N) in E. destruct (deliver X 0 false s1) as [a s2 | s2 | s2 |] eqn:D; try discriminate.
  - destruct (failed_nested 0 false s1 s2) as [N2 O2]; [auto |]. apply IH; [exact N2 |]. rewrite O2. lia.
  - destruct (failed_nested 0 false s1 s2) as [N2 O2]; [auto |]. apply IH; [exact N2 |]. rewrite O2. lia.
Qed.

Lemma rank_le v : (rank v <= 3)%nat.
Proof. unfold rank. destruct (class_of v); lia. Qed.

Lemma raise_ends n intn hw s : (5 <= n)%nat -> raise X n intn hw s <> OutOfFuel X.
Proof.
  intros Hn. destruct n as [| n]; [lia |]. cbn [raise].
  destruct (start X intn hw s) as [s1 |] eqn:E; [| discriminate].
  pose proof (rank_le (oldexp X s1)).
  destruct (deliver X intn hw s1) as [a s2 | s2 | s2 |] eqn:D; try discriminate.
  - destruct (failed_nested intn hw s1 s2) as [N2 O2]; [auto |]. apply nested_ends; [exact N2 | rewrite O2; lia].
  - destruct (failed_nested intn hw s1 s2) as [N2 O2]; [auto |]. apply nested_ends; [exact N2 | rewrite O2; lia].
Qed.
Lemma raise_more n : forall k intn hw s, raise X n intn hw s <> OutOfFuel X -> raise X (k + n) intn hw s = raise X n intn hw s.
Proof.
  induction n as [| n IH]; intros k intn hw s H; [now destruct H |].
  rewrite PeanoNat.Nat.add_succ_r. cbn [raise] in H |- *. destruct (start X intn hw s) as [s1 |]; [| reflexivity].
  destruct (deliver X intn hw s1); try reflexivity; now apply IH.
Qed.

(** ** Shutdown *)
Definition failed intn hw s : Prop :=
  (exists s', deliver X intn hw s = Exc X _ s') \/ (exists s', deliver X intn hw s = PFault X _ s').

Lemma shutdown n : forall intn hw s, raise X n intn hw s = TripleFault X ->
  (oldexp X s = 8 /\ intn = 0 /\ hw = false) \/ (oldexp X s = 8 /\ failed intn hw s) \/
  exists sd, xidx X sd = 8 /\ failed 0 false sd.
Proof.
  assert (C8 : forall v, class_of v = DoubleFault -> v = 8).
  { intros v H. unfold class_of in H. destruct (Z.eqb_spec v 8); [assumption |].
    destruct (v =? 14); [discriminate |]. destruct (existsb _ _); discriminate. }
  induction n as [| n IH]; intros intn hw s H; [discriminate |]. cbn [raise] in H.
  destruct (Z.eq_dec (oldexp X s) 8) as [O8 | O8].
  { unfold start in H. destruct ((intn =? 0) && negb hw) eqn:P.
    - left. split; [exact O8 |]. destruct hw; cbn in P; [lia |]. split; [lia | reflexivity].
    - right. left. split; [exact O8 |]. unfold failed.
      destruct (deliver X intn hw s) as [a s2 | s2 | s2 |]; try discriminate; eauto. }
  destruct (start X intn hw s) as [s1 |] eqn:E.
  2:{ exfalso. unfold start in E. destruct ((intn =? 0) && negb hw); [| discriminate].
      pose proof (check_table s) as T. rewrite E in T. unfold classified in T.
      destruct (class_of (oldexp X s)) eqn:Co; [| | | now apply O8, C8];
      destruct (class_of (xidx X s)); exact T. }
  assert (F : forall s2, deliver X intn hw s1 = Exc X _ s2 \/ deliver X intn hw s1 = PFault X _ s2 ->
     raise X n 0 false s2 = TripleFault X -> exists sd, xidx X sd = 8 /\ failed 0 false sd).
  { intros s2 D R. pose proof (failed_nested intn hw s1 s2 D) as [N2 O2].
    assert (G : oldexp X s2 = 8 -> exists sd, xidx X sd = 8 /\ failed 0 false sd).
    { intros Q. rewrite O2 in Q. unfold start in E. destruct ((intn =? 0) && negb hw) eqn:P.
      2:{ injection E as <-. contradiction. }
      destruct hw; cbn in P; [lia |]. assert (intn = 0) as -> by lia.
      pose proof (check_table s) as T. rewrite E in T. unfold classified in T.
      destruct (class_inv (oldexp X s)) as [[Eo Ho] | [[Eo Ho] | [(Eo & No & Po & Ho) | (Eo & No & Po & Ho)]]]; [contradiction | ..];
      rewrite Ho in T;
      destruct (class_inv (xidx X s)) as [[Ex Hx] | [[Ex Hx] | [(Ex & Nx & Px & Hx) | (Ex & Nx & Px & Hx)]]];
      rewrite Hx in T; cbn [escalate] in T; cbn iota beta in T; try contradiction; subst s1; cbn in Q; try lia;
      (eexists; split; [| destruct D as [D | D]; [left | right]; eexists; exact D]); first [reflexivity | exact Ex]. }
    destruct (IH 0 false s2 R) as [[Q _] | [[Q _] | G2]]; auto. }
  destruct (deliver X intn hw s1) as [a s2 | s2 | s2 |] eqn:D; try discriminate; right; right; apply (F s2); auto.
Qed.
End Esc.
