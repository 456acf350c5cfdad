(** * Breakpoint invariants *)

From Coq Require Import ZArith Bool List Lia ZifyBool.
Import ListNotations.
From Verif Require Import DbgModel DbgSpec.
Local Open Scope Z_scope.

(** [P a x y o]: for the breakpoint at [a], the byte in memory is [x], should be [y], and
    the saved byte is [o] *)
Record R (P : Z -> Z -> Z -> Z -> Prop) (d : dst) (m : Z -> Z) : Prop := {
  r_uniq : NoDup (keys d);
  r_alias : forall a b p, In a (keys d) -> In b (keys d) -> tr d a = Some p -> tr d b = Some p -> a = b;
  r_brk : forall a o t, In (a, (o, t)) (brk d) -> exists p, tr d a = Some p /\ P a (mem d p) (m p) o;
  r_rest : forall p, ~ covered d p -> mem d p = m p }.

Definition P_armed (x y o : Z) := x = INT3 /\ o = y.
Definition P_lifted (x y o : Z) := (x = INT3 /\ o = y) \/ (x = y /\ (y = INT3 -> o = INT3)).
Definition P_exact (x y o : Z) := o = y /\ (x = INT3 \/ x = y).
Definition P_paused (x y o : Z) := x = y /\ o = y.
Definition P_loose (x y o : Z) := x = y /\ (y = INT3 -> o = INT3).
Definition K (C : Z -> Z -> Z -> Prop) : Z -> Z -> Z -> Z -> Prop := fun _ => C.
Definition split (l : list Z) (C C' : Z -> Z -> Z -> Prop) : Z -> Z -> Z -> Z -> Prop :=
  fun a x y o => (In a l -> C x y o) /\ (~ In a l -> C' x y o).

Lemma armed_R d m : armed d m <-> R (K P_armed) d m.
Proof. split; intros [A B C D]; constructor; auto. Qed.

Lemma R_weaken (P P' : Z -> Z -> Z -> Z -> Prop) d m : (forall a x y o, P a x y o -> P' a x y o) -> R P d m -> R P' d m.
Proof. intros W [A B C D]; constructor; auto. intros a o t I; destruct (C a o t I) as (p & T & H); eauto. Qed.

(** ** Lists *)
Lemma find_In a l i : find a l = Some i -> In (a, i) l.
Proof.
  unfold find. destruct (List.find _ l) as [e|] eqn:E; [|discriminate]. intros [= <-].
  apply find_some in E. destruct E as [I H]. apply Z.eqb_eq in H. subst. now destruct e.
Qed.
Lemma find_none_in a l : find a l = None -> ~ In a (map fst l).
Proof.
  unfold find. destruct (List.find _ l) as [e|] eqn:E; [discriminate|]. intros _ I.
  apply in_map_iff in I. destruct I as (e & H & I). apply (find_none _ _ E) in I. lia.
Qed.
Lemma keys_assign a i l : map fst (assign a i l) = map fst l.
Proof.
  induction l as [|e l IH]; cbn [assign map]; auto. cbn [assign map] in IH. unfold assign in *. rewrite IH. f_equal.
  destruct (fst e =? a) eqn:E; cbn; lia.
Qed.
Lemma in_assign a i l b j : In (b, j) (assign a i l) -> (b = a /\ j = i) \/ (b <> a /\ In (b, j) l).
Proof.
  unfold assign. rewrite in_map_iff. intros (e & H & I). destruct (fst e =? a) eqn:E.
  - injection H as <- <-. auto.
  - right. subst e. cbn in E. split; [lia | auto].
Qed.
Lemma in_key (a : Z) (i : info) (l : list (Z * info)) : In (a, i) l -> In a (map fst l).
Proof. intros I. exact (in_map fst _ _ I). Qed.
Lemma uniq_entry (a : Z) (i j : info) (l : list (Z * info)) : NoDup (map fst l) -> In (a, i) l -> In (a, j) l -> i = j.
Proof.
  induction l as [|e l IH]; cbn; [tauto|]. intros N I J. inversion N; subst.
  destruct I as [->|I], J as [E|J]; try (injection E as E; auto); auto.
  - now apply in_key in J.
  - subst e. now apply in_key in I.
Qed.
Lemma key_entry (a : Z) (l : list (Z * info)) : In a (map fst l) -> exists o t, In (a, (o, t)) l.
Proof. rewrite in_map_iff. intros ((b & o & t) & <- & I). eauto. Qed.

(** ** One step at a breakpoint *)
Lemma put_eq p v m : put p v m p = v.
Proof. unfold put. now rewrite Z.eqb_refl. Qed.
Lemma put_ne p v m q : q <> p -> put p v m q = m q.
Proof. unfold put. destruct (Z.eqb_spec q p); congruence. Qed.

Lemma R_write (P P' : Z -> Z -> Z -> Z -> Prop) d m a o t p v : R P d m -> In (a, (o, t)) (brk d) -> tr d a = Some p ->
  P' a v (m p) o -> (forall b x y o, b <> a -> P b x y o -> P' b x y o) -> R P' (set_mem (put p v (mem d)) d) m.
Proof.
  intros [U A B C] I T H W. constructor; cbn [set_mem mem tr brk]; auto.
  - intros b o1 t1 J. change (brk (set_mem (put p v (mem d)) d)) with (brk d) in J. destruct (Z.eq_dec b a) as [->|N].
    + pose proof (uniq_entry a _ _ _ U I J) as E. injection E as <- <-. exists p. cbn [set_mem mem tr]. rewrite put_eq. auto.
    + destruct (B b o1 t1 J) as (q & Tq & H1). exists q. cbn [set_mem mem tr]. split; auto. rewrite put_ne; [eauto|].
      intros ->. apply N. eapply A; eauto using in_key.
  - intros q NC. change (covered (set_mem (put p v (mem d)) d) q) with (covered d q) in NC. rewrite put_ne; auto. intros ->. apply NC. exists a. eauto using in_key.
Qed.

Lemma R_assign (P P' : Z -> Z -> Z -> Z -> Prop) d m a o t p b t' : R P d m -> In (a, (o, t)) (brk d) -> tr d a = Some p ->
  P' a (mem d p) (m p) b -> (forall b x y o, b <> a -> P b x y o -> P' b x y o) -> R P' (set_brk (assign a (b, t') (brk d)) d) m.
Proof.
  intros [U A B C] I T H W. constructor; unfold keys, covered in *; cbn [set_brk mem tr brk]; try rewrite keys_assign; auto.
  - intros c o1 t1 J. apply in_assign in J. destruct J as [(-> & E)|(N & J)].
    + injection E as -> ->. eauto.
    + destruct (B c o1 t1 J) as (q & Tq & H1). eauto.
  - intros q NC. apply C. intros (c & Ic & Tc). apply NC. exists c. unfold keys. cbn [set_brk brk tr]. rewrite keys_assign. auto.
Qed.

(** ** The loops *)
Definition same (d d' : dst) : Prop := tr d' = tr d /\ keys d' = keys d /\ csb d' = csb d /\ eip d' = eip d /\ dr6 d' = dr6 d /\ dr7 d' = dr7 d.
Lemma same_refl d : same d d.
Proof. unfold same; auto 7. Qed.
Lemma same_trans a b c : same a b -> same b c -> same a c.
Proof. unfold same; intuition congruence. Qed.
Lemma same_assign a i d : same d (set_brk (assign a i (brk d)) d).
Proof. unfold same, keys; cbn; rewrite keys_assign; auto 7. Qed.

Lemma split_all l C C' d m : keys d = l -> R (K C) d m -> R (split l C C') d m.
Proof.
  intros E [A B H D]. constructor; auto. intros a o t I. destruct (H a o t I) as (p & T & H1). exists p. split; auto.
  unfold split. split; auto. intros N. apply in_key in I. unfold keys in E. now rewrite E in I.
Qed.
Lemma split_nil C C' d m : R (split [] C C') d m -> R (K C') d m.
Proof. apply R_weaken. intros a x y o [_ H]. now apply H. Qed.
Lemma split_other a l C C' b x y o : b <> a -> split (a :: l) C C' b x y o -> split l C C' b x y o.
Proof. unfold split. cbn. intros N [H1 H2]. split; intros I; [apply H1 | apply H2]; intuition congruence. Qed.

Lemma step_lemma (f : list (Z * info) -> dst -> option dst) C C' m :
  (forall d, f [] d = Some d) ->
  (forall a o0 t0 tl d o t, In (a, (o, t)) (brk d) -> ~ In a (map fst tl) -> R (split (a :: map fst tl) C C') d m ->
     exists d', f ((a, (o0, t0)) :: tl) d = f tl d' /\ same d d' /\ R (split (map fst tl) C C') d' m) ->
  forall l d, NoDup (map fst l) -> incl (map fst l) (keys d) -> R (split (map fst l) C C') d m ->
    exists d', f l d = Some d' /\ same d d' /\ R (K C') d' m.
Proof.
  intros F0 FS. induction l as [|[a [o0 t0]] tl IH]; intros d N I H.
  - exists d. split; [apply F0|]. split; [apply same_refl | now apply split_nil in H].
  - cbn [map fst] in *. inversion N; subst.
    destruct (key_entry a (brk d)) as (o & t & J); [apply I; now left|].
    destruct (FS a o0 t0 tl d o t J H2 H) as (d1 & E & S & H1).
    destruct (IH d1) as (d2 & E2 & S2 & H4); auto.
    { destruct S as (_ & -> & _). intros x Hx. apply I. now right. }
    exists d2. split; [exact (eq_trans E E2)|]. split; [eapply same_trans; eauto | auto].
Qed.

Lemma apply_ok d m : R (K P_loose) d m -> exists d', apply d = Some d' /\ same d d' /\ R (K P_armed) d' m.
Proof.
  intros H. unfold apply. pose proof (r_uniq _ _ _ H) as U.
  refine (step_lemma apply_loop P_loose P_armed m _ _ (brk d) d U (incl_refl _) _); [reflexivity| |now apply split_all].
  intros a o0 t0 tl d1 o t I N H1. destruct (r_brk _ _ _ H1 a o t I) as (p & T & [Q _]). specialize (Q (or_introl eq_refl)).
  cbn [apply_loop]. unfold apply1, rd, wr. rewrite T. destruct Q as (E & L). destruct (mem d1 p =? INT3) eqn:E3.
  - exists d1. split; [reflexivity|]. split; [apply same_refl|].
    constructor; try apply H1. intros b o1 t1 J. destruct (r_brk _ _ _ H1 b o1 t1 J) as (q & Tq & Hq). exists q. split; auto.
    destruct (Z.eq_dec b a) as [->|Nb]; [|eapply split_other; eauto].
    pose proof (uniq_entry a _ _ _ (r_uniq _ _ _ H1) I J) as X. injection X as <- <-. assert (q = p) as -> by congruence.
    split; [tauto|]. intros _. split; lia.
  - eexists. split; [reflexivity|]. split; [apply (same_trans _ (set_mem (put p INT3 (mem d1)) d1)); [unfold same; auto 7 | apply same_assign]|].
    (* first the saved byte, then memory: the same state *)
    assert (R (fun b x y o => (b = a -> o = y /\ x = y) /\ (b <> a -> split (a :: map fst tl) P_loose P_armed b x y o)) (set_brk (assign a (mem d1 p, t0) (brk d1)) d1) m) as H2.
    { eapply R_assign; eauto. - split; intros; [lia | congruence]. - intros b x y o1 Nb Hb. split; intros; [congruence | auto]. }
    assert (In (a, (mem d1 p, t0)) (brk (set_brk (assign a (mem d1 p, t0) (brk d1)) d1))) as I2.
    { cbn. unfold assign. apply in_map_iff. exists (a, (o, t)). cbn. rewrite Z.eqb_refl. auto. }
    refine (R_write _ _ _ m a _ _ p INT3 H2 I2 T _ _).
    + split; [intros; tauto | intros _]. unfold P_armed. lia.
    + intros b x y o1 Nb [_ Hb]. eapply split_other; eauto.
Qed.

Lemma update_ok d m : R (K P_lifted) d m -> exists d', update d = Some d' /\ same d d' /\ R (K P_exact) d' m.
Proof.
  intros H. unfold update. pose proof (r_uniq _ _ _ H) as U.
  refine (step_lemma update_loop P_lifted P_exact m _ _ (brk d) d U (incl_refl _) _); [reflexivity| |now apply split_all].
  intros a o0 t0 tl d1 o t I N H1. destruct (r_brk _ _ _ H1 a o t I) as (p & T & [Q _]). specialize (Q (or_introl eq_refl)).
  cbn [update_loop]. unfold rd. rewrite T. destruct (mem d1 p =? INT3) eqn:E3.
  - exists d1. split; [reflexivity|]. split; [apply same_refl|].
    constructor; try apply H1. intros b o1 t1 J. destruct (r_brk _ _ _ H1 b o1 t1 J) as (q & Tq & Hq). exists q. split; auto.
    destruct (Z.eq_dec b a) as [->|Nb]; [|eapply split_other; eauto].
    pose proof (uniq_entry a _ _ _ (r_uniq _ _ _ H1) I J) as X. injection X as <- <-. assert (q = p) as -> by congruence.
    split; [tauto|]. intros _. unfold P_exact. destruct Q as [(E & L)|(E & L)]; lia.
  - eexists. split; [reflexivity|]. split; [apply same_assign|]. eapply R_assign; eauto.
    + split; [tauto|]. intros _. unfold P_exact. destruct Q as [(E & L)|(E & L)]; lia.
    + intros b x y o1 Nb Hb. eapply split_other; eauto.
Qed.

Lemma remove_ok d m : R (K P_exact) d m -> exists d', remove d = Some d' /\ same d d' /\ brk d' = brk d /\ R (K P_paused) d' m.
Proof.
  intros H. pose proof (r_uniq _ _ _ H) as U. unfold remove.
  assert (forall l d1, NoDup (map fst l) -> incl l (brk d1) -> R (split (map fst l) P_exact P_paused) d1 m ->
    exists d', remove_loop l d1 = Some d' /\ same d1 d' /\ brk d' = brk d1 /\ R (K P_paused) d' m) as L.
  { induction l as [|[a [o t]] tl IH]; intros d1 N I H1.
    - exists d1. split; [reflexivity|]. split; [apply same_refl|]. split; auto. now apply split_nil in H1.
    - cbn [map fst remove_loop] in *. inversion N; subst. assert (In (a, (o, t)) (brk d1)) as J by (apply I; now left).
      destruct (r_brk _ _ _ H1 a o t J) as (p & T & [Q _]). specialize (Q (or_introl eq_refl)). unfold wr. rewrite T.
      destruct (IH (set_mem (put p o (mem d1)) d1)) as (d2 & E2 & S2 & B2 & H9); auto.
      { intros x Hx. apply I. now right. }
      { eapply R_write; eauto. - split; [tauto|]. intros _. unfold P_paused. destruct Q. auto. - intros b x y o1 Nb Hb. eapply split_other; eauto. }
      exists d2. split; auto. }
  apply L; auto using incl_refl. now apply split_all.
Qed.

Lemma covered_dec d p : {covered d p} + {~ covered d p}.
Proof.
  unfold covered. induction (keys d) as [|a l IH]; [right; intros (a & [] & _)|].
  destruct IH as [C|C]; [left; destruct C as (b & I & T); exists b; split; [now right|auto]|].
  destruct (tr d a) as [q|] eqn:T; [destruct (Z.eq_dec q p) as [->|N]|].
  - left. exists a. split; [now left | auto].
  - right. intros (b & [<-|I] & Tb); [congruence | eauto].
  - right. intros (b & [<-|I] & Tb); [congruence | eauto].
Qed.

Lemma paused_mem d m : R (K P_paused) d m -> forall p, mem d p = m p.
Proof.
  intros H p. destruct (covered_dec d p) as [(a & I & T)|N]; [|now apply (r_rest _ _ _ H)].
  destruct (key_entry a (brk d) I) as (o & t & J). destruct (r_brk _ _ _ H a o t J) as (q & Tq & [E _]). congruence.
Qed.

Lemma pause_ok d m : R (K P_lifted) d m -> exists d', pause d = Some d' /\ same d d' /\ R (K P_paused) d' m.
Proof.
  intros H. unfold pause. destruct (update_ok d m H) as (d1 & -> & S1 & H1).
  destruct (remove_ok d1 m H1) as (d2 & -> & S2 & _ & H2). exists d2. split; auto. split; auto. eapply same_trans; eauto.
Qed.

(** ** The guest *)
Definition gsame (d d' : dst) : Prop := tr d' = tr d /\ brk d' = brk d /\ csb d' = csb d /\ eip d' = eip d /\ dr6 d' = dr6 d /\ dr7 d' = dr7 d.

Lemma gsteps_ok (C : Z -> Z -> Z -> Prop) : (forall x y o, C x y o -> P_lifted x y o) -> (forall v o, v <> INT3 -> C v v o) ->
  forall gs d m, R (K C) d m -> gclean d gs -> R (K C) (gsteps gs d) (gideal gs m) /\ gsame d (gsteps gs d).
Proof.
  intros W CV gs. induction gs as [|g gs IH]; intros d m H G.
  - split; [exact H | unfold gsame; auto 7].
  - cbn [gsteps gideal fold_left]. change (fold_left (fun d g => gstep g d) gs (gstep g d)) with (gsteps gs (gstep g d)).
    change (fold_left gideal1 gs (gideal1 m g)) with (gideal gs (gideal1 m g)).
    pose proof (G g (or_introl eq_refl)) as G1. destruct g as [p v|t]; [|tauto]. cbn [gstep gideal1].
    destruct (IH (set_mem (put p v (mem d)) d) (put p v m)) as (H1 & S1).
    + constructor; cbn [set_mem tr]; try apply H.
      * intros a o t I. destruct (r_brk _ _ _ H a o t I) as (q & T & Q). exists q. split; auto. cbn [set_mem mem].
        destruct (Z.eq_dec q p) as [->|N]; [|now rewrite !put_ne].
        rewrite !put_eq. destruct G1 as [G1|G1]; [now apply CV|]. destruct G1. exists a. eauto using in_key.
      * intros q NC. cbn [set_mem mem]. destruct (Z.eq_dec q p) as [->|N]; [now rewrite !put_eq|]. rewrite !put_ne by auto. now apply (r_rest _ _ _ H).
    + intros g I. apply (G g). now right.
    + split; auto.
Qed.
Lemma gsteps_armed gs d m : R (K P_armed) d m -> (forall g, In g gs -> match g with GWrite p _ => ~ covered d p | GMap _ => False end) ->
  R (K P_armed) (gsteps gs d) (gideal gs m) /\ gsame d (gsteps gs d).
Proof.
  revert d m. induction gs as [|g gs IH]; intros d m H G.
  - split; [exact H | unfold gsame; auto 7].
  - cbn [gsteps gideal fold_left]. change (fold_left (fun d g => gstep g d) gs (gstep g d)) with (gsteps gs (gstep g d)).
    change (fold_left gideal1 gs (gideal1 m g)) with (gideal gs (gideal1 m g)).
    pose proof (G g (or_introl eq_refl)) as G1. destruct g as [p v|t]; [|tauto]. cbn [gstep gideal1].
    destruct (IH (set_mem (put p v (mem d)) d) (put p v m)) as (H1 & S1); auto.
    + constructor; cbn [set_mem tr]; try apply H.
      * intros a o t I. destruct (r_brk _ _ _ H a o t I) as (q & T & Q). exists q. split; auto. cbn [set_mem mem].
        destruct (Z.eq_dec q p) as [->|N]; [|now rewrite !put_ne]. destruct G1. exists a. eauto using in_key.
      * intros q NC. cbn [set_mem mem]. destruct (Z.eq_dec q p) as [->|N]; [now rewrite !put_eq|]. rewrite !put_ne by auto. now apply (r_rest _ _ _ H).
    + intros g I. apply (G g). now right.
Qed.
Lemma gsteps_lifted gs d m : R (K P_lifted) d m -> gclean d gs -> R (K P_lifted) (gsteps gs d) (gideal gs m) /\ gsame d (gsteps gs d).
Proof. apply gsteps_ok; unfold P_lifted; auto. intros; right; split; auto; congruence. Qed.
Lemma gsteps_loose gs d m : R (K P_loose) d m -> gclean d gs -> R (K P_loose) (gsteps gs d) (gideal gs m) /\ gsame d (gsteps gs d).
Proof. apply gsteps_ok; unfold P_lifted, P_loose; auto. intros; split; auto; congruence. Qed.

(** ** The user *)
Lemma R_erase P f d m : R P d m -> (forall p, mem d p = m p) -> R P (set_brk (filter f (brk d)) d) m.
Proof.
  intros [U A B C] E. unfold keys in *. constructor; unfold keys; cbn [set_brk brk tr mem]; auto.
  - clear - U. induction (brk d) as [|e l IH]; cbn in *; auto. inversion U; subst. destruct (f e); cbn; auto. constructor; auto.
    intros I. apply H1. apply in_map_iff in I. destruct I as (x & <- & I). apply filter_In in I. apply in_map. tauto.
  - intros a b p Ia Ib. apply A; [clear Ib; rename Ia into I | clear Ia; rename Ib into I]; apply in_map_iff in I; destruct I as (x & <- & I); apply filter_In in I; apply in_map; tauto.
  - intros a o t I. apply filter_In in I. now apply (B a o t).
Qed.
Lemma R_emplace d m a p t : R (K P_paused) d m -> alone d a -> tr d a = Some p ->
  R (K P_paused) (set_brk (emplace a (mem d p, t) (brk d)) d) m.
Proof.
  intros H AL T. unfold emplace. destruct (find a (brk d)) eqn:F.
  - destruct d; exact H.
  - pose proof (paused_mem d m H) as M. destruct H as [U A B C]. apply find_none_in in F. unfold alone, keys in *.
    constructor; unfold keys; cbn [set_brk brk tr mem map fst]; auto.
    + constructor; auto.
    + intros x y q [<-|Ix] [<-|Iy] Tx Ty; auto. * symmetry. eapply AL; eauto. * eapply AL; eauto. * eapply A; eauto.
    + intros x o u [E|I]; [|exact (B x o u I)]. injection E as <- <- <-. exists p. split; [exact T|]. split; apply M.
Qed.

Lemma alone_erase d a old : alone d a -> alone (set_brk (erase old (brk d)) d) a.
Proof.
  unfold alone, keys. cbn. intros H b p I. apply H. apply in_map_iff in I. destruct I as (x & <- & I). apply filter_In in I. apply in_map. tauto.
Qed.

Definition usame (d d' : dst) : Prop := tr d' = tr d /\ csb d' = csb d /\ eip d' = eip d /\ dr6 d' = dr6 d /\ dr7 d' = dr7 d.

Lemma remove_at_ok a d m : R (K P_paused) d m -> exists d', remove_at a d = Some d' /\ usame d d' /\ brk d' = brk d /\ R (K P_paused) d' m.
Proof.
  intros H. unfold remove_at. destruct (find a (brk d)) as [[o t]|] eqn:F.
  - apply find_In in F. destruct (r_brk _ _ _ H a o t F) as (p & T & E & Eo). unfold wr. rewrite T. eexists. split; [reflexivity|].
    split; [unfold usame; auto 6|]. split; [reflexivity|]. eapply R_write; eauto. unfold K, P_paused. auto.
  - exists d. unfold usame. auto 8.
Qed.

Lemma ustep_ok c d m : R (K P_paused) d m -> uclean1 c d -> exists d', ustep c d = Some d' /\ usame d d' /\ R (K P_paused) d' (uideal1 (tr d) m c).
Proof.
  intros H U. pose proof (paused_mem d m H) as M. destruct c as [a|a|a|old a|a v]; cbn [ustep uideal1 uclean1] in *.
  - destruct (find a (brk d)) eqn:F.
    + destruct (remove_at_ok a d m H) as (d1 & -> & S & Eb & H1). eexists. split; [reflexivity|]. split; [exact S|].
      apply R_erase; auto. now apply paused_mem.
    + unfold insert, rd. destruct (tr d a) as [p|] eqn:T; [|exists d; unfold usame; auto 8].
      eexists. split; [reflexivity|]. split; [unfold usame; auto 6 | now apply R_emplace].
  - unfold insert, rd. destruct (tr d a) as [p|] eqn:T; [|exists d; unfold usame; auto 8].
    eexists. split; [reflexivity|]. split; [unfold usame; auto 6 | now apply R_emplace].
  - eexists. split; [reflexivity|]. split; [unfold usame; auto 6 | now apply R_erase].
  - unfold insert, rd. destruct (tr d a) as [p|] eqn:T; [|exists d; unfold usame; auto 8].
    eexists. split; [reflexivity|]. split; [unfold usame; auto 6|].
    apply (R_emplace (set_brk (erase old (brk d)) d) m a p Breakpoint); auto using alone_erase. now apply R_erase.
  - unfold wr. destruct (tr d a) as [p|] eqn:T; [|exists d; unfold usame; auto 8].
    eexists. split; [reflexivity|]. split; [unfold usame; auto 6|]. specialize (U p eq_refl).
    constructor; try apply H.
    + intros b o t I. destruct (r_brk _ _ _ H b o t I) as (q & Tq & Q). exists q. split; auto. cbn [set_mem mem].
      rewrite !put_ne; auto; intros ->; apply U; exists b; eauto using in_key.
    + intros q NC. cbn [set_mem mem]. unfold put. destruct (q =? p); auto.
Qed.

Lemma usame_trans a b c : usame a b -> usame b c -> usame a c.
Proof. unfold usame; intuition congruence. Qed.

Lemma usteps_ok cs : forall d m, R (K P_paused) d m -> uclean cs d ->
  exists d', usteps cs d = Some d' /\ usame d d' /\ R (K P_paused) d' (uideal (tr d) cs m).
Proof.
  induction cs as [|c cs IH]; intros d m H U.
  - exists d. unfold usame. auto 8.
  - destruct U as [U1 U2]. destruct (ustep_ok c d m H U1) as (d1 & E & S & H1). specialize (U2 d1 E).
    destruct (IH d1 _ H1 U2) as (d2 & E2 & S2 & H2). exists d2. cbn [usteps]. rewrite E. split; auto. split; [eapply usame_trans; eauto|].
    destruct S as (T & _). rewrite T in H2. exact H2.
Qed.

(** ** The handlers *)
Lemma armed_lifted d m : R (K P_armed) d m -> R (K P_lifted) d m.
Proof. apply R_weaken. unfold K, P_armed, P_lifted. tauto. Qed.
Lemma loose_lifted d m : R (K P_loose) d m -> R (K P_lifted) d m.
Proof. apply R_weaken. unfold K, P_loose, P_lifted. tauto. Qed.
Lemma paused_loose d m : R (K P_paused) d m -> R (K P_loose) d m.
Proof. apply R_weaken. unfold K, P_loose, P_paused. intuition congruence. Qed.
Lemma armed_exact d m : R (K P_armed) d m -> R (K P_exact) d m.
Proof. apply R_weaken. unfold K, P_armed, P_exact. tauto. Qed.

Lemma wait_ok cs d m : R (K P_lifted) d m -> wclean cs d ->
  exists d', wait_handler cs d = Some d' /\ usame d d' /\ R (K P_armed) d' (uideal (tr d) cs m).
Proof.
  intros H W. unfold wait_handler. destruct (pause_ok d m H) as (d1 & E1 & S1 & H1). rewrite E1.
  destruct (usteps_ok cs d1 m H1 (W d1 E1)) as (d2 & -> & S2 & H2).
  destruct (apply_ok d2 _ (paused_loose _ _ H2)) as (d3 & -> & S3 & H3). exists d3. split; auto.
  pose proof (proj1 S1) as T. rewrite T in H3. split; auto. unfold same, usame in *. intuition congruence.
Qed.

(** Applying what is already applied changes nothing *)
Lemma apply_armed d m : R (K P_armed) d m -> exists d', apply d = Some d' /\ same d d' /\ R (K P_armed) d' m.
Proof.
  intros H. pose proof (r_uniq _ _ _ H) as U. exists d. unfold apply.
  assert (forall l, incl l (brk d) -> apply_loop l d = Some d) as L.
  { induction l as [|[a [o t]] l IH]; intros I; auto. cbn [apply_loop]. unfold apply1, rd.
    destruct (r_brk _ _ _ H a o t (I _ (or_introl eq_refl))) as (p & T & E & _). rewrite T, E, Z.eqb_refl. apply IH.
    intros x Hx. apply I. now right. }
  rewrite L by apply incl_refl. auto using same_refl.
Qed.

Lemma drop_filter t pc l : exists f, drop_steps t pc l = filter f l.
Proof. destruct t; cbn; unfold erase; eauto. Qed.

Lemma hit_ok d m : R (K P_lifted) d m -> find (hit_pc d) (brk d) <> None ->
  exists d1, hit_stop d = Some d1 /\ usame d d1 /\ R (K P_paused) d1 m.
Proof.
  intros H F. unfold hit_stop. destruct (find (hit_pc d) (brk d)) as [[o t]|]; [|congruence].
  destruct (pause_ok d m H) as (d1 & -> & S1 & H1). eexists. split; [reflexivity|].
  split; [unfold same, usame in *; cbn; intuition congruence|].
  destruct (drop_filter t (hit_pc d) (brk d1)) as (f & ->). apply R_erase; auto. now apply paused_mem.
Qed.

Lemma resume_ok pc d m : R (K P_paused) d m ->
  exists d', hit_resume pc d = Some d' /\ R (K P_paused) d' m /\ tr d' = tr d /\ csb d' = csb d /\ eip d' = (eip d - 1) mod 2 ^ 32.
Proof.
  intros H. unfold hit_resume. destruct (remove_at_ok pc (set_eip ((eip d - 1) mod 2 ^ 32) d) m) as (d1 & -> & S & _ & H1).
  - constructor; apply H.
  - exists d1. unfold usame in S. cbn in S. intuition.
Qed.

Lemma estep_ok e d m : R (K P_armed) d m -> eclean e d ->
  exists d', estep e d = Some d' /\ tr d' = tr d /\ R (K P_armed) d' (eideal1 (tr d) m e).
Proof.
  intros H E. destruct e as [gs cs ws1 st|gs cs|gs]; cbn [estep eclean eideal1] in *.
  - destruct E as (G & F & E). destruct (gsteps_lifted gs d m (armed_lifted _ _ H) G) as (H0 & S0).
    destruct (hit_ok _ _ H0 F) as (d1 & E1 & S1 & H1). destruct (E d1 E1) as (U & E'). clear E.
    destruct (usteps_ok cs d1 _ H1 U) as (d2 & E2 & S2 & H2).
    destruct (resume_ok (hit_pc (gsteps gs d)) d2 _ H2) as (d3 & E3 & H3 & T3 & _). destruct (E' d2 d3 E2 E3) as (G3 & W).
    unfold bp_handler. destruct (find (hit_pc (gsteps gs d)) (brk (gsteps gs d))) as [i|]; [|congruence]. rewrite E1, E2, E3.
    destruct (gsteps_loose ws1 d3 _ (paused_loose _ _ H3) G3) as (H4 & S4).
    assert (tr d1 = tr d) as X1 by (unfold usame, gsame in *; intuition congruence).
    assert (tr (gsteps ws1 d3) = tr d) as X4 by (unfold usame, gsame in *; intuition congruence).
    rewrite X1 in H4. unfold original. destruct st as [cs'|].
    + destruct (wait_ok cs' _ _ (loose_lifted _ _ H4) W) as (d5 & -> & S5 & H5). rewrite X4 in H5.
      destruct (apply_armed _ _ H5) as (d6 & -> & S6 & H6). exists d6. split; auto. split; auto. unfold usame, same in *; intuition congruence.
    + destruct (apply_ok _ _ H4) as (d6 & -> & S6 & H6). exists d6. split; auto. split; auto. unfold same in *; intuition congruence.
  - destruct E as (G & W). destruct (gsteps_lifted gs d m (armed_lifted _ _ H) G) as (H0 & S0).
    destruct (wait_ok cs _ _ H0 W) as (d1 & -> & S1 & H1). exists d1. split; auto.
    pose proof (proj1 S0) as T. pose proof (proj1 S1) as T1. rewrite T in H1. split; [congruence | exact H1].
  - destruct (gsteps_armed gs d m H E) as (H0 & S0). unfold mode_switch.
    destruct (remove_ok _ _ (armed_exact _ _ H0)) as (d1 & -> & S1 & _ & H1). eexists. split; [reflexivity|].
    split; [unfold same, gsame in *; cbn; intuition congruence|]. pose proof (paused_mem _ _ H1) as M.
    constructor; unfold keys; cbn; try tauto; auto. constructor.
Qed.

Lemma esteps_ok es : forall d m, R (K P_armed) d m -> esclean es d ->
  exists d', esteps es d = Some d' /\ tr d' = tr d /\ R (K P_armed) d' (eideal (tr d) es m).
Proof.
  induction es as [|e es IH]; intros d m H E.
  - exists d. auto.
  - destruct E as (E1 & E2). destruct (estep_ok e d m H E1) as (d1 & X & T & H1). destruct (IH d1 _ H1 (E2 d1 X)) as (d2 & X2 & T2 & H2).
    exists d2. cbn [esteps]. rewrite X. split; auto. split; [congruence|]. rewrite T in H2. exact H2.
Qed.

(** ** Starting *)
Lemma setup_ok d : NoDup (keys d) -> (forall a b p, In a (keys d) -> In b (keys d) -> tr d a = Some p -> tr d b = Some p -> a = b) ->
  (forall a, In a (keys d) -> tr d a <> None) -> exists d', setup d = Some d' /\ same d d' /\ R (K P_paused) d' (mem d).
Proof.
  intros U A T. unfold setup.
  set (C := fun (x y _ : Z) => x = y).
  assert (R (K C) d (mem d)) as H.
  { constructor; auto. intros a o t I. apply in_key in I. specialize (T a I). destruct (tr d a) as [p|] eqn:E; [|congruence]. exists p. split; auto. reflexivity. }
  refine (step_lemma setup_loop C P_paused (mem d) _ _ (brk d) d U (incl_refl _) _); [reflexivity| |now apply split_all].
  intros a o0 t0 tl d1 o t I N H1. destruct (r_brk _ _ _ H1 a o t I) as (p & Tp & [Q _]). specialize (Q (or_introl eq_refl)).
  cbn [setup_loop]. unfold rd. rewrite Tp. eexists. split; [reflexivity|]. split; [apply same_assign|]. eapply R_assign; eauto.
  - split; [tauto|]. intros _. split; auto.
  - intros b x y o1 Nb Hb. eapply split_other; eauto.
Qed.
