(** Proofs about the region map. *)
From Coq Require Import ZArith List Bool Lia ZifyBool.
From Verif Require Import AddrSpaceModel AddrSpaceSpec.
Import ListNotations.
Open Scope Z_scope.

Definition rs (n : node) := r_start (n_reg n).
Definition re (n : node) := r_end (n_reg n).
Definition ri (n : node) := r_info (n_reg n).

(** [seg lo l hi]: the nodes of [l] cover exactly [lo..hi-1] in order. *)
Fixpoint seg (lo : Z) (l : list node) (hi : Z) : Prop :=
  match l with
  | [] => lo = hi
  | n :: t => n_key n = lo /\ rs n = lo /\ lo <= re n /\ seg (re n + 1) t hi
  end.

Lemma seg_app l1 : forall lo l2 hi,
  seg lo (l1 ++ l2) hi <-> exists mid, seg lo l1 mid /\ seg mid l2 hi.
Proof.
  induction l1 as [|n t IH]; intros lo l2 hi; cbn [app seg].
  - split; [intros H; exists lo; auto | intros (mid & -> & H); exact H].
  - rewrite IH. split.
    + intros (H1 & H2 & H3 & mid & H4 & H5). exists mid; tauto.
    + intros (mid & (H1 & H2 & H3 & H4) & H5). repeat split; try tauto. exists mid; tauto.
Qed.

Lemma seg_le l : forall lo hi, seg lo l hi -> lo <= hi.
Proof.
  induction l as [|n t IH]; intros lo hi; cbn [seg]; [lia|].
  intros (H1 & H2 & H3 & H4). apply IH in H4. lia.
Qed.

Lemma seg_bounds l : forall lo hi, seg lo l hi ->
  Forall (fun n => n_key n = rs n /\ lo <= rs n /\ rs n <= re n /\ re n < hi) l.
Proof.
  induction l as [|n t IH]; intros lo hi; cbn [seg]; [constructor|].
  intros (H1 & H2 & H3 & H4). pose proof (seg_le _ _ _ H4).
  constructor; [lia|]. apply IH in H4.
  eapply Forall_impl; [|exact H4]. cbn. intros a. lia.
Qed.

Lemma seg_keys l lo hi : seg lo l hi -> Forall (fun n => lo <= n_key n < hi) l.
Proof.
  intros H. apply seg_bounds in H. eapply Forall_impl; [|exact H]. cbn. lia.
Qed.

Lemma seg_find l : forall lo hi a, seg lo l hi -> lo <= a < hi ->
  exists l1 n l2, l = l1 ++ n :: l2 /\ seg lo l1 (rs n) /\ n_key n = rs n /\
    rs n <= a <= re n /\ seg (re n + 1) l2 hi.
Proof.
  induction l as [|n t IH]; intros lo hi a; cbn [seg]; [lia|].
  intros (H1 & H2 & H3 & H4) Ha.
  destruct (Z_le_gt_dec a (re n)).
  - exists [], n, t. cbn [app seg]. repeat split; auto; lia.
  - destruct (IH _ _ a H4) as (l1 & m & l2 & E & S1 & K & B & S2); [lia|].
    exists (n :: l1), m, l2. rewrite E. cbn [app seg]. repeat split; auto; lia.
Qed.

(** *** Primitive operations on decomposed lists *)

Definition kle (l : list node) x := Forall (fun n => n_key n <= x) l.
Definition klt (l : list node) x := Forall (fun n => n_key n < x) l.
Definition kgt (l : list node) x := Forall (fun n => x < n_key n) l.

Lemma klt_kle l x : klt l x -> kle l x.
Proof. apply Forall_impl. intros; lia. Qed.

Lemma seg_klt l lo hi x : seg lo l hi -> hi <= x -> klt l x.
Proof. intros H Hx. apply seg_keys in H. eapply Forall_impl; [|exact H]. cbn; lia. Qed.

Lemma seg_kgt l lo hi x : seg lo l hi -> x < lo -> kgt l x.
Proof. intros H Hx. apply seg_keys in H. eapply Forall_impl; [|exact H]. cbn; lia. Qed.

Lemma get_it_from_gt l : forall cur a, kgt l a -> get_it_from cur l a = cur.
Proof.
  destruct l as [|n t]; intros cur a H; cbn [get_it_from]; [reflexivity|].
  inversion_clear H. destruct (n_key n <=? a) eqn:E; [lia|reflexivity].
Qed.

Lemma get_it_from_mid l1 : forall cur n l2 a,
  kle l1 a -> n_key n <= a -> kgt l2 a -> get_it_from cur (l1 ++ n :: l2) a = Some n.
Proof.
  induction l1 as [|m t IH]; intros cur n l2 a H1 Hn H2; cbn [app get_it_from].
  - destruct (n_key n <=? a) eqn:E; [|lia]. apply get_it_from_gt; exact H2.
  - inversion_clear H1. destruct (n_key m <=? a) eqn:E; [|lia]. apply IH; auto.
Qed.

Lemma get_it_mid l1 n l2 a :
  kle l1 a -> n_key n <= a -> kgt l2 a -> get_it (l1 ++ n :: l2) a = Some n.
Proof. apply get_it_from_mid. Qed.

Lemma next_it_mid l1 : forall n l2 k,
  kle l1 k -> k < n_key n -> next_it (l1 ++ n :: l2) k = Some n.
Proof.
  induction l1 as [|m t IH]; intros n l2 k H1 Hn; cbn [app next_it].
  - destruct (k <? n_key n) eqn:E; [reflexivity|lia].
  - inversion_clear H1. destruct (k <? n_key m) eqn:E; [lia|]. apply IH; auto.
Qed.

Lemma next_it_none l : forall k, kle l k -> next_it l k = None.
Proof.
  induction l as [|m t IH]; intros k H; cbn [next_it]; [reflexivity|].
  inversion_clear H. destruct (k <? n_key m) eqn:E; [lia|]. apply IH; auto.
Qed.

Lemma modify_other l k f : Forall (fun n => n_key n <> k) l -> modify l k f = l.
Proof.
  induction l as [|n t IH]; intros H; cbn; [reflexivity|].
  inversion_clear H. destruct (n_key n =? k) eqn:E; [lia|]. f_equal. apply IH; auto.
Qed.

Lemma modify_mid l1 n l2 f :
  klt l1 (n_key n) -> kgt l2 (n_key n) ->
  modify (l1 ++ n :: l2) (n_key n) f = l1 ++ f n :: l2.
Proof.
  intros H1 H2. unfold modify. rewrite map_app. cbn [map]. rewrite Z.eqb_refl.
  f_equal; [|f_equal].
  - apply (modify_other l1 (n_key n) f). eapply Forall_impl; [|exact H1]. cbn; lia.
  - apply (modify_other l2 (n_key n) f). eapply Forall_impl; [|exact H2]. cbn; lia.
Qed.

Lemma emplace_mid l1 : forall l2 x,
  klt l1 (n_key x) -> kgt l2 (n_key x) -> emplace (l1 ++ l2) x = l1 ++ x :: l2.
Proof.
  induction l1 as [|m t IH]; intros l2 x H1 H2; cbn [app].
  - destruct l2 as [|n l2]; cbn [emplace]; [reflexivity|].
    inversion_clear H2. destruct (n_key x <? n_key n) eqn:E; [reflexivity|lia].
  - inversion_clear H1. cbn [emplace].
    destruct (n_key x <? n_key m) eqn:E; [lia|].
    destruct (n_key x =? n_key m) eqn:E2; [lia|]. f_equal. apply IH; auto.
Qed.

Lemma emplace_dup l1 : forall n l2 x,
  klt l1 (n_key x) -> n_key n = n_key x -> emplace (l1 ++ n :: l2) x = l1 ++ n :: l2.
Proof.
  induction l1 as [|m t IH]; intros n l2 x H1 Hn; cbn [app emplace].
  - destruct (n_key x <? n_key n) eqn:E; [lia|].
    destruct (n_key x =? n_key n) eqn:E2; [reflexivity|lia].
  - inversion_clear H1.
    destruct (n_key x <? n_key m) eqn:E; [lia|].
    destruct (n_key x =? n_key m) eqn:E2; [lia|]. f_equal. apply IH; auto.
Qed.

Lemma erase_keep l k1 k2 :
  Forall (fun n => n_key n < k1 \/ k2 < n_key n) l -> erase_range l k1 k2 = l.
Proof.
  induction l as [|n t IH]; intros H; cbn; [reflexivity|].
  inversion_clear H.
  destruct (negb ((k1 <=? n_key n) && (n_key n <=? k2))) eqn:E; [|lia].
  f_equal. apply IH; auto.
Qed.

Lemma erase_all l k1 k2 :
  Forall (fun n => k1 <= n_key n <= k2) l -> erase_range l k1 k2 = [].
Proof.
  induction l as [|n t IH]; intros H; cbn; [reflexivity|].
  inversion_clear H.
  destruct (negb ((k1 <=? n_key n) && (n_key n <=? k2))) eqn:E; [lia|].
  apply IH; auto.
Qed.

Lemma erase_mid l1 lm l2 k1 k2 :
  klt l1 k1 -> Forall (fun n => k1 <= n_key n <= k2) lm -> kgt l2 k2 ->
  erase_range (l1 ++ lm ++ l2) k1 k2 = l1 ++ l2.
Proof.
  intros H1 H2 H3. unfold erase_range. rewrite !filter_app.
  fold (erase_range l1 k1 k2) (erase_range lm k1 k2) (erase_range l2 k1 k2).
  rewrite (erase_all lm) by exact H2.
  rewrite !erase_keep; [reflexivity| |];
    (eapply Forall_impl; [|first [exact H1|exact H3]]; cbn; lia).
Qed.

Lemma node_at_mid l1 n l2 :
  klt l1 (n_key n) -> node_at (l1 ++ n :: l2) (n_key n) = Some n.
Proof.
  unfold node_at. induction l1 as [|m t IH]; intros H; cbn [app find].
  - rewrite Z.eqb_refl. reflexivity.
  - inversion_clear H. destruct (n_key m =? n_key n) eqn:E; [lia|]. apply IH; auto.
Qed.

Lemma find_reach_mid l1 : forall lm n l2 k e,
  kle l1 k -> Forall (fun n => k < n_key n /\ re n < e) lm -> k < n_key n -> e <= re n ->
  find_reach (l1 ++ lm ++ n :: l2) k e = Some n.
Proof.
  induction l1 as [|m t IH]; intros lm n l2 k e H1 H2 H3 H4; cbn [app find_reach].
  - induction lm as [|m t IH]; cbn [app find_reach].
    + destruct (n_key n <=? k) eqn:E; [lia|].
      destruct (r_end (n_reg n) <? e) eqn:E2; [unfold re in *; lia|reflexivity].
    + inversion_clear H2. destruct (n_key m <=? k) eqn:E; [lia|].
      destruct (r_end (n_reg m) <? e) eqn:E2; [|unfold re in *; lia]. auto.
  - inversion_clear H1. destruct (n_key m <=? k) eqn:E; [|lia]. apply IH; auto.
Qed.

(** *** Looking up by containment *)

Definition containsb (a : Z) (n : node) : bool := (rs n <=? a) && (a <=? re n).
Definition look (l : list node) (a : Z) : option node := find (containsb a) l.

Lemma look_app l1 l2 a :
  look (l1 ++ l2) a = match look l1 a with Some n => Some n | None => look l2 a end.
Proof.
  unfold look. induction l1 as [|n t IH]; cbn [app find]; [reflexivity|].
  destruct (containsb a n); [reflexivity|exact IH].
Qed.

Lemma look_out l lo hi a : seg lo l hi -> a < lo \/ hi <= a -> look l a = None.
Proof.
  intros H Ha. apply seg_bounds in H. unfold look.
  induction l as [|n t IH]; cbn [find]; [reflexivity|].
  inversion_clear H. unfold containsb at 1.
  destruct ((rs n <=? a) && (a <=? re n)) eqn:E; [lia|]. auto.
Qed.

Lemma look_in l : forall lo hi a, seg lo l hi -> lo <= a < hi ->
  exists n, look l a = Some n /\ In n l /\ rs n <= a <= re n.
Proof.
  intros lo hi a H Ha. destruct (seg_find _ _ _ a H Ha) as (l1 & n & l2 & -> & S1 & K & B & S2).
  exists n. rewrite look_app, (look_out l1 _ _ a S1) by lia. cbn [look find].
  unfold look. cbn [find]. unfold containsb.
  destruct ((rs n <=? a) && (a <=? re n)) eqn:E; [|lia].
  repeat split; try lia. apply in_or_app. right. left. reflexivity.
Qed.

Lemma get_it_look l lo hi a : seg lo l hi -> lo <= a < hi -> get_it l a = look l a.
Proof.
  intros H Ha. destruct (seg_find _ _ _ a H Ha) as (l1 & n & l2 & -> & S1 & K & B & S2).
  rewrite look_app, (look_out l1 _ _ a S1) by lia.
  unfold look. cbn [find]. unfold containsb.
  destruct ((rs n <=? a) && (a <=? re n)) eqn:E; [|lia].
  apply get_it_mid.
  - apply klt_kle. eapply seg_klt; [exact S1|lia].
  - lia.
  - eapply seg_kgt; [exact S2|lia].
Qed.

Definition looki (l : list node) (a : Z) : option rinfo := option_map ri (look l a).

Lemma looki_app l1 l2 a :
  looki (l1 ++ l2) a = match looki l1 a with Some n => Some n | None => looki l2 a end.
Proof. unfold looki. rewrite look_app. destruct (look l1 a); reflexivity. Qed.

Lemma looki_out l lo hi a : seg lo l hi -> a < lo \/ hi <= a -> looki l a = None.
Proof. intros H Ha. unfold looki. rewrite (look_out _ _ _ _ H Ha). reflexivity. Qed.

Lemma looki_uniform l lo hi a i : seg lo l hi -> lo <= a < hi ->
  Forall (fun n => ri n = i) l -> looki l a = Some i.
Proof.
  intros H Ha F. destruct (look_in _ _ _ _ H Ha) as (n & E & I & _).
  unfold looki. rewrite E. cbn. f_equal. rewrite Forall_forall in F. auto.
Qed.

Lemma looki_one n a : rs n <= a <= re n -> looki [n] a = Some (ri n).
Proof.
  intros H. unfold looki, look. cbn [find]. unfold containsb.
  destruct ((rs n <=? a) && (a <=? re n)) eqn:E; [reflexivity|lia].
Qed.

(** *** Neighbouring unmapped regions *)

Definition unm (i : rinfo) : Prop := i_type i = unmapped.

Fixpoint adjI (l : list rinfo) : Prop :=
  match l with
  | [] => True
  | x :: t => match t with [] => True | y :: _ => ~ (unm x /\ unm y) end /\ adjI t
  end.

Lemma adjI_app_l a : forall b, adjI (a ++ b) -> adjI a.
Proof.
  induction a as [|x a IH]; intros b; cbn [app adjI]; [trivial|].
  intros (H1 & H2). split; [|eapply IH; exact H2].
  destruct a as [|y a]; [trivial|]. cbn [app] in H1. exact H1.
Qed.

Lemma adjI_app_r a : forall b, adjI (a ++ b) -> adjI b.
Proof.
  induction a as [|x a IH]; intros b; cbn [app adjI]; [trivial|].
  intros (_ & H). apply IH; exact H.
Qed.

Lemma adjI_glue a : forall x b, adjI (a ++ [x]) -> adjI (x :: b) -> adjI (a ++ x :: b).
Proof.
  induction a as [|y a IH]; intros x b; cbn [app]; [trivial|].
  intros (H1 & H2) H3. cbn [adjI]. split; [|apply IH; assumption].
  destruct a as [|z a]; exact H1.
Qed.

Lemma adjI_snoc_mapped a : forall x, adjI a -> ~ unm x -> adjI (a ++ [x]).
Proof.
  induction a as [|y a IH]; intros x; cbn [app adjI]; [tauto|].
  intros (H1 & H2) H3. split; [|apply IH; assumption].
  destruct a as [|z a]; cbn [app]; tauto.
Qed.

Lemma seg_cut A : forall A' z st x B B',
  seg z A st -> seg z A' st -> n_key x = st -> A ++ x :: B = A' ++ x :: B' -> A = A' /\ B = B'.
Proof.
  induction A as [|a A IH]; intros [|b A'] z st x B B' SA SA' K Heq; cbn [app] in *.
  - injection Heq as ->. auto.
  - injection Heq as H1 H2. subst b. exfalso. apply seg_keys in SA'. inversion_clear SA'. lia.
  - injection Heq as H1 H2. subst a. exfalso. apply seg_keys in SA. inversion_clear SA. lia.
  - injection Heq as H1 H2. subst b. cbn [seg] in *. destruct SA as (?&?&?&SA), SA' as (?&?&?&SA').
    destruct (IH _ _ _ _ _ _ SA SA' K H2) as (-> & ->). auto.
Qed.

(** *** Region identities *)

Definition ids_ok (s : aspace) : Prop :=
  NoDup (map n_id (nodes s)) /\ Forall (fun n => n_id n < next_id s) (nodes s).

Lemma in_emplace l : forall x y, In y (emplace l x) -> y = x \/ In y l.
Proof.
  induction l as [|n t IH]; intros x y; cbn [emplace].
  - intros [->|[]]; auto.
  - destruct (n_key x <? n_key n); [cbn [In]; intuition congruence|].
    destruct (n_key x =? n_key n); [auto|].
    cbn [In]. intros [->|H]; [auto|]. apply IH in H. tauto.
Qed.

Lemma nodup_emplace l : forall x,
  NoDup (map n_id l) -> ~ In (n_id x) (map n_id l) -> NoDup (map n_id (emplace l x)).
Proof.
  induction l as [|n t IH]; intros x H Hx; cbn [emplace].
  - constructor; [intros []|constructor].
  - destruct (n_key x <? n_key n); [cbn [map]; constructor; assumption|].
    destruct (n_key x =? n_key n); [exact H|].
    cbn [map] in *. inversion_clear H as [|? ? Hn Ht]. constructor.
    + intros Hin. apply in_map_iff in Hin. destruct Hin as (y & Ey & Iy).
      apply in_emplace in Iy. destruct Iy as [->|Iy]; [apply Hx; left; congruence|].
      apply Hn. rewrite <- Ey. apply in_map. exact Iy.
    + apply IH; [exact Ht|]. intros Hi. apply Hx. right. exact Hi.
Qed.

Lemma ids_fresh s x : ids_ok s -> next_id s <= n_id x -> ~ In (n_id x) (map n_id (nodes s)).
Proof.
  intros (_ & F) Hx Hin. apply in_map_iff in Hin. destruct Hin as (y & Ey & Iy).
  rewrite Forall_forall in F. specialize (F y Iy). lia.
Qed.

Lemma ids_emplace l nid x :
  ids_ok (mk_as l nid) -> n_id x = nid -> ids_ok (mk_as (emplace l x) (nid + 1)).
Proof.
  intros H Hx. split; cbn [nodes next_id].
  - apply nodup_emplace; [apply H|]. apply (ids_fresh (mk_as l nid)); [exact H|cbn; lia].
  - apply Forall_forall. intros y Iy. apply in_emplace in Iy. destruct H as (_ & F). cbn in F.
    rewrite Forall_forall in F. destruct Iy as [->|Iy]; [lia|]. specialize (F y Iy). lia.
Qed.

Lemma ids_modify l nid k f :
  (forall n, n_id (f n) = n_id n) -> ids_ok (mk_as l nid) -> ids_ok (mk_as (modify l k f) nid).
Proof.
  intros Hf (H1 & H2). unfold ids_ok, modify. cbn [nodes next_id] in *. split.
  - rewrite map_map. erewrite map_ext; [exact H1|]. intros n. cbn. destruct (n_key n =? k); auto.
  - apply Forall_forall. intros y Iy. apply in_map_iff in Iy. destruct Iy as (n & En & In_).
    rewrite Forall_forall in H2. specialize (H2 n In_). destruct (n_key n =? k); subst y; rewrite ?Hf; auto.
Qed.

Lemma ids_erase l nid k1 k2 :
  ids_ok (mk_as l nid) -> ids_ok (mk_as (erase_range l k1 k2) nid).
Proof.
  intros (H1 & H2). unfold ids_ok, erase_range. cbn [nodes next_id] in *. split.
  - induction l as [|n t IH]; cbn [filter]; [constructor|]. cbn [map] in H1.
    inversion_clear H1 as [|? ? Hn Ht]. inversion_clear H2 as [|? ? _ Hf].
    destruct (negb _); [|apply IH; assumption]. cbn [map]. constructor; [|apply IH; assumption].
    intros Hi. apply Hn. apply in_map_iff in Hi. destruct Hi as (y & <- & Iy).
    apply filter_In in Iy. apply in_map. tauto.
  - apply Forall_forall. intros y Iy. apply filter_In in Iy. rewrite Forall_forall in H2. apply H2; tauto.
Qed.

Lemma ids_eta s : ids_ok s -> ids_ok (mk_as (nodes s) (next_id s)).
Proof. destruct s; trivial. Qed.

Lemma ids_next s : ids_ok s -> ids_ok (mk_as (nodes s) (next_id s + 1)).
Proof.
  intros (H1 & H2). split; [exact H1|]. cbn. eapply Forall_impl; [|exact H2]. cbn. lia.
Qed.

Lemma ids_split M s it at_ : ids_ok s -> ids_ok (split M s it at_).
Proof.
  intros H. unfold split. apply ids_emplace; [|reflexivity].
  apply ids_modify; [reflexivity|]. apply ids_eta; exact H.
Qed.

Lemma ids_split_front M s k st d s' k' :
  ids_ok s -> split_front M s k st d = Some (s', k') -> ids_ok s'.
Proof.
  intros H. unfold split_front. destruct (d =? 0); [intros E; injection E as <- _; exact H|].
  destruct (node_at (nodes s) k); [|discriminate].
  destruct (next_it _ k); [|discriminate]. intros E. injection E as <- _. apply ids_split. exact H.
Qed.

Lemma ids_insert M s r s' : ids_ok s -> insert M s r = Some s' -> ids_ok s'.
Proof.
  intros H. unfold insert. destruct (get_it (nodes s) (r_start r)) as [it|]; [|discriminate].
  destruct (r_end r <=? r_end (n_reg it)).
  - set (s1 := if r_end r =? r_end (n_reg it) then s else split M s it (r_end r)).
    assert (H1 : ids_ok s1) by (unfold s1; destruct (r_end r =? r_end (n_reg it)); [exact H|apply ids_split; exact H]).
    destruct (split_front M s1 _ _ _) as [[s2 k]|] eqn:E; [|discriminate].
    intros E2. injection E2 as <-. apply ids_modify; [reflexivity|]. apply ids_eta.
    eapply ids_split_front; eauto.
  - destruct (find_reach _ _ _) as [nx|]; [|discriminate].
    set (s1 := if r_start (n_reg nx) =? r_end r then s else split M s nx (r_end r)).
    assert (H1 : ids_ok s1) by (unfold s1; destruct (r_start (n_reg nx) =? r_end r); [exact H|apply ids_split; exact H]).
    destruct (split_front M s1 _ _ _) as [[s2 k]|] eqn:E; [|discriminate].
    intros E2. injection E2 as <-. apply ids_emplace; [|reflexivity]. apply ids_erase. apply ids_eta.
    eapply ids_split_front; eauto.
Qed.

Lemma ids_merge_next l nid k l' :
  ids_ok (mk_as l nid) -> merge_next l k = Some l' -> ids_ok (mk_as l' nid).
Proof.
  intros H. unfold merge_next. destruct (node_at l k); [|discriminate].
  destruct (next_it l k) as [nx|]; [|intros E; injection E as <-; exact H].
  destruct (mem_type_eqb _ _); intros E; injection E as <-; [|exact H].
  apply ids_erase, ids_modify; [reflexivity|exact H].
Qed.

Lemma ids_merge_prev l nid k l' :
  ids_ok (mk_as l nid) -> merge_prev l k = Some l' -> ids_ok (mk_as l' nid).
Proof.
  intros H. unfold merge_prev. destruct (node_at l k); [|discriminate].
  destruct (prev_it l k) as [nx|]; [|intros E; injection E as <-; exact H].
  destruct (mem_type_eqb _ _); intros E; injection E as <-; [|exact H].
  apply ids_erase, ids_modify; [reflexivity|exact H].
Qed.

Section WithM.
Variable M : Z.
Hypothesis HM : 0 <= M.

Lemma wrapk_small x : 0 <= x <= M -> wrapk M x = x.
Proof. intros H. unfold wrapk. apply Z.mod_small. lia. Qed.

Definition good (s : aspace) : Prop := seg 0 (nodes s) (M + 1).

Definition tail_node (id at_ : Z) (n : node) : node :=
  mk_node (at_ + 1) id (mk_region (at_ + 1) (re n) (ri n)).

(** Splitting strictly inside a region. *)
Lemma split_mid l1 n l2 nid at_ lo :
  0 <= lo ->
  seg lo (l1 ++ n :: l2) (M + 1) -> rs n <= at_ < re n ->
  split M (mk_as (l1 ++ n :: l2) nid) n at_ =
  mk_as (l1 ++ set_end at_ n :: tail_node nid at_ n :: l2) (nid + 1).
Proof.
  intros Hlo H Hat. rewrite seg_app in H. destruct H as (mid & S1 & K & R & B & S2).
  pose proof (seg_le _ _ _ S2). pose proof (seg_le _ _ _ S1).
  unfold split. cbn [nodes next_id].
  rewrite modify_mid; [|eapply seg_klt; [exact S1|lia]|eapply seg_kgt; [exact S2|lia]].
  rewrite wrapk_small by lia.
  change (l1 ++ set_end at_ n :: l2) with (l1 ++ [set_end at_ n] ++ l2).
  rewrite app_assoc, emplace_mid.
  - rewrite <- app_assoc. reflexivity.
  - apply Forall_app. split; cbn [n_key].
    + eapply seg_klt; [exact S1|lia].
    + constructor; [|constructor]. cbn [n_key set_end]. lia.
  - cbn [n_key]. eapply seg_kgt; [exact S2|lia].
Qed.

Lemma set_end_id n : set_end (re n) n = n.
Proof. destruct n as [k i [a b c]]. reflexivity. Qed.

(** Splitting at the last address of a region leaves the regions as they are
    (the code relies on [emplace] not overwriting). *)
Lemma split_end l1 n l2 nid :
  seg 0 (l1 ++ n :: l2) (M + 1) ->
  split M (mk_as (l1 ++ n :: l2) nid) n (re n) = mk_as (l1 ++ n :: l2) (nid + 1).
Proof.
  intros H. pose proof H as H'. rewrite seg_app in H. destruct H as (mid & S1 & K & R & B & S2).
  pose proof (seg_le _ _ _ S2). pose proof (seg_le _ _ _ S1).
  unfold split. cbn [nodes next_id].
  rewrite modify_mid; [|eapply seg_klt; [exact S1|lia]|eapply seg_kgt; [exact S2|lia]].
  rewrite set_end_id. f_equal.
  destruct l2 as [|h t].
  - cbn [seg] in S2. replace (re n + 1) with (M + 1) by lia.
    unfold wrapk. rewrite Z.mod_same by lia.
    destruct l1 as [|g l1].
    + change ([] ++ [n]) with ([] ++ n :: []). apply emplace_dup; [constructor|].
      cbn [n_key app seg] in *. lia.
    + change ((g :: l1) ++ [n]) with ([] ++ g :: (l1 ++ [n])).
      apply emplace_dup; [constructor|]. cbn [n_key app seg] in *. lia.
  - cbn [seg] in S2. destruct S2 as (K2 & R2 & B2 & S3).
    pose proof (seg_le _ _ _ S3).
    rewrite wrapk_small by lia.
    change (l1 ++ n :: h :: t) with (l1 ++ [n] ++ h :: t). rewrite app_assoc.
    apply emplace_dup; cbn [n_key]; [|lia].
    apply Forall_app. split.
    + eapply seg_klt; [exact S1|lia].
    + constructor; [lia|constructor].
Qed.

(** The front part left after splitting at [s-1]. *)
Definition front_of (s : Z) (n : node) : list node :=
  if rs n =? s then [] else [set_end (s - 1) n].

Lemma front_seg n s : n_key n = rs n -> rs n <= s -> seg (rs n) (front_of s n) s.
Proof.
  intros K H. unfold front_of. destruct (rs n =? s) eqn:E; cbn [seg]; [lia|].
  unfold rs, re in *. cbn [n_key set_end n_reg r_start r_end] in *. repeat split; lia.
Qed.

Lemma front_info n s : Forall (fun m => ri m = ri n) (front_of s n).
Proof.
  unfold front_of. destruct (rs n =? s); [constructor|]. constructor; [reflexivity|constructor].
Qed.

(** [split_front] turns [n] into its front part and a node [m] starting at [s]. *)
Lemma split_front_mid l1 n l2 nid s lo :
  0 <= lo ->
  seg lo (l1 ++ n :: l2) (M + 1) -> rs n <= s <= re n ->
  exists nid' m,
    split_front M (mk_as (l1 ++ n :: l2) nid) (n_key n) s (wrapk M (s - rs n)) =
      Some (mk_as (l1 ++ front_of s n ++ m :: l2) nid', s) /\
    n_key m = s /\ rs m = s /\ re m = re n /\ ri m = ri n.
Proof.
  intros Hlo H Hs. pose proof H as H'. rewrite seg_app in H. destruct H as (mid & S1 & K & R & B & S2).
  pose proof (seg_le _ _ _ S2). pose proof (seg_le _ _ _ S1).
  unfold split_front. rewrite (wrapk_small (s - rs n)) by lia.
  unfold front_of. destruct (rs n =? s) eqn:E.
  - replace (s - rs n =? 0) with true by lia.
    exists nid, n. cbn [app]. repeat split; try lia. do 2 f_equal. lia.
  - replace (s - rs n =? 0) with false by lia. cbn [nodes].
    rewrite node_at_mid by (eapply seg_klt; [exact S1|lia]).
    rewrite (wrapk_small (s - 1)) by lia.
    rewrite (split_mid _ _ _ _ _ lo) by (auto; lia). cbn [nodes].
    exists (nid + 1), (tail_node nid (s - 1) n).
    change (l1 ++ set_end (s - 1) n :: tail_node nid (s - 1) n :: l2)
      with (l1 ++ [set_end (s - 1) n] ++ tail_node nid (s - 1) n :: l2).
    rewrite app_assoc, next_it_mid; [|apply Forall_app; split|].
    + unfold tail_node, rs, re, ri; cbn [n_key n_reg r_start r_end r_info].
      repeat split; try lia. replace (s - 1 + 1) with s by lia.
      rewrite <- ?app_assoc. reflexivity.
    + apply klt_kle. eapply seg_klt; [exact S1|lia].
    + constructor; [|constructor]. cbn [n_key set_end]. lia.
    + cbn [n_key tail_node]. lia.
Qed.

(** Every boundary of [l'] is one of [l] or one of the range [s..e]. *)
Definition bnd (l : list node) (s e : Z) (l' : list node) : Prop :=
  Forall (fun n => (rs n = s \/ rs n = e + 1 \/ In (rs n) (map rs l)) /\
                   (re n = e \/ re n = s - 1 \/ In (re n) (map re l))) l'.

Lemma bnd_sub l s e l' : (forall n, In n l' -> In n l) -> bnd l s e l'.
Proof.
  intros H. apply Forall_forall. intros n I. specialize (H n I).
  split; right; right; apply in_map; exact H.
Qed.

Lemma bnd_app l s e a b : bnd l s e a -> bnd l s e b -> bnd l s e (a ++ b).
Proof. intros. apply Forall_app. auto. Qed.

(** *** Locating the range in the list *)

Lemma locate s a : good s -> 0 <= a <= M ->
  exists l1 n l2, nodes s = l1 ++ n :: l2 /\ seg 0 l1 (rs n) /\ n_key n = rs n /\
    rs n <= a <= re n /\ seg (re n + 1) l2 (M + 1) /\ get_it (nodes s) a = Some n.
Proof.
  intros G Ha. destruct (seg_find _ _ _ a G) as (l1 & n & l2 & E & S1 & K & B & S2); [lia|].
  exists l1, n, l2. repeat split; auto; try lia. rewrite E. apply get_it_mid; [|lia|].
  - apply klt_kle. eapply seg_klt; [exact S1|lia].
  - eapply seg_kgt; [exact S2|lia].
Qed.

(** Result of an operation over [s..e]: the nodes before, a trimmed front, one
    new node over [s..e], a trimmed back, the nodes after. *)
Definition replaced (l : list node) (s e : Z) (x : node) (l' : list node) : Prop :=
  exists l1 mids l2 front back,
    l = l1 ++ mids ++ l2 /\ l' = l1 ++ front ++ x :: back ++ l2 /\
    exists lo hi,
      seg 0 l1 lo /\ seg lo mids hi /\ seg hi l2 (M + 1) /\
      seg lo front s /\ seg (e + 1) back hi /\
      (forall a, lo <= a < s -> looki front a = looki mids a) /\
      (forall a, e < a < hi -> looki back a = looki mids a) /\
      (adjI (map ri l) -> adjI (map ri (l1 ++ front)) /\ adjI (map ri (back ++ l2))) /\
      (bnd l s e (l1 ++ front) /\ bnd l s e (back ++ l2)) /\
      (forall n, In n l -> re n < s \/ e < rs n -> In n ((l1 ++ front) ++ back ++ l2)).

Lemma replaced_seg l s e x l' :
  replaced l s e x l' -> n_key x = s -> rs x = s -> re x = e -> s <= e -> seg 0 l' (M + 1).
Proof.
  intros (l1 & mids & l2 & front & back & -> & -> & lo & hi & S1 & S2 & S3 & S4 & S5 & _) K R E Hse.
  rewrite seg_app. exists lo. split; [exact S1|].
  rewrite seg_app. exists s. split; [exact S4|].
  cbn [seg]. repeat split; try lia. rewrite E, seg_app. exists hi. auto.
Qed.

Lemma replaced_look l s e x l' a :
  replaced l s e x l' -> rs x = s -> re x = e -> s <= e ->
  looki l' a = if (s <=? a) && (a <=? e) then Some (ri x) else looki l a.
Proof.
  intros (l1 & mids & l2 & front & back & -> & -> & lo & hi & S1 & S2 & S3 & S4 & S5 & F & B & _) R E Hse.
  pose proof (seg_le _ _ _ S1). pose proof (seg_le _ _ _ S4). pose proof (seg_le _ _ _ S5).
  pose proof (seg_le _ _ _ S3).
  change (front ++ x :: back ++ l2) with (front ++ [x] ++ back ++ l2).
  rewrite !looki_app.
  destruct (Z_lt_ge_dec a lo).
  - destruct (looki l1 a) eqn:El.
    + destruct ((s <=? a) && (a <=? e)) eqn:Ec; [lia|reflexivity].
    + rewrite (looki_out front _ _ a S4), (looki_out back _ _ a S5), (looki_out mids _ _ a S2) by lia.
      destruct ((s <=? a) && (a <=? e)) eqn:Ec; [lia|].
      assert (looki [x] a = None) as ->; [|reflexivity].
      unfold looki, look; cbn [find]; unfold containsb.
      destruct ((rs x <=? a) && (a <=? re x)) eqn:E2; [lia|reflexivity].
  - rewrite (looki_out l1 _ _ a S1) by lia.
    destruct (Z_lt_ge_dec a s).
    + rewrite (F a) by lia.
      destruct ((s <=? a) && (a <=? e)) eqn:Ec; [lia|].
      destruct (looki mids a) eqn:Em; [reflexivity|].
      exfalso. destruct (look_in mids lo hi a S2) as (n & En & _); [lia|].
      unfold looki in Em. rewrite En in Em. discriminate.
    + rewrite (looki_out front _ _ a S4) by lia.
      destruct (Z_le_gt_dec a e).
      * rewrite looki_one by lia.
        destruct ((s <=? a) && (a <=? e)) eqn:Ec; [reflexivity|lia].
      * assert (looki [x] a = None) as ->.
        { unfold looki, look; cbn [find]; unfold containsb.
          destruct ((rs x <=? a) && (a <=? re x)) eqn:E2; [lia|reflexivity]. }
        destruct ((s <=? a) && (a <=? e)) eqn:Ec; [lia|].
        destruct (Z_lt_ge_dec a hi).
        -- rewrite (B a) by lia. reflexivity.
        -- rewrite (looki_out back _ _ a S5), (looki_out mids _ _ a S2) by lia. reflexivity.
Qed.

(** The part left over after [e]. *)
Definition back_of (id e : Z) (n : node) : list node :=
  if re n =? e then [] else [tail_node id e n].

Lemma back_seg id n e : e <= re n -> seg (e + 1) (back_of id e n) (re n + 1).
Proof.
  intros H. unfold back_of. destruct (re n =? e) eqn:E; cbn [seg]; [lia|].
  unfold tail_node, rs, re in *. cbn [n_key n_reg r_start r_end] in *. repeat split; lia.
Qed.

Lemma back_info id n e : Forall (fun m => ri m = ri n) (back_of id e n).
Proof.
  unfold back_of. destruct (re n =? e); [constructor|]. constructor; [reflexivity|constructor].
Qed.

(** *** The two branches, up to the list surgery they share *)

(** Branch "fits": after the splits, node [m] with key [start] spans exactly
    [start..en]. *)
Lemma fits_prepare l1 n l2 nid st en :
  seg 0 (l1 ++ n :: l2) (M + 1) -> rs n <= st -> st <= en <= re n ->
  exists nid' m,
    split_front M (if en =? r_end (n_reg n) then mk_as (l1 ++ n :: l2) nid
                   else split M (mk_as (l1 ++ n :: l2) nid) n en)
                (n_key n) st (wrapk M (st - rs n)) =
      Some (mk_as (l1 ++ front_of st n ++ m :: back_of nid en n ++ l2) nid', st) /\
    n_key m = st /\ rs m = st /\ re m = en.
Proof.
  intros H H1 H2. pose proof H as H'.
  rewrite seg_app in H. destruct H as (mid & S1 & K & R & B & S2).
  pose proof (seg_le _ _ _ S1). pose proof (seg_le _ _ _ S2).
  change (r_end (n_reg n)) with (re n). unfold back_of.
  destruct (en =? re n) eqn:E.
  - replace (re n =? en) with true by lia.
    destruct (split_front_mid l1 n l2 nid st 0) as (nid' & m & Eq & Km & Rm & Em & _);
      [lia|exact H'|lia|].
    exists nid', m. rewrite Eq. cbn [app]. repeat split; auto; lia.
  - replace (re n =? en) with false by lia.
    rewrite (split_mid _ _ _ _ _ 0) by (auto; lia).
    assert (rs (set_end en n) = rs n) as Ers by reflexivity.
    assert (re (set_end en n) = en) as Ere by reflexivity.
    destruct (split_front_mid l1 (set_end en n) (tail_node nid en n :: l2) (nid + 1) st 0)
      as (nid' & m & Eq & Km & Rm & Em & _).
    + lia.
    + rewrite seg_app. exists mid. split; [exact S1|].
      cbn [seg]. rewrite Ers, Ere. cbn [n_key set_end tail_node].
      unfold tail_node, rs, re; cbn [n_reg r_start r_end].
      change (r_end (n_reg n)) with (re n). change (r_start (n_reg n)) with (rs n).
      repeat split; try lia. exact S2.
    + lia.
    + cbn [n_key set_end] in Eq. rewrite Ers in Eq.
      exists nid', m. rewrite Eq. split; [|lia].
      unfold front_of. rewrite Ers. cbn [app].
      assert (set_end (st - 1) (set_end en n) = set_end (st - 1) n) as -> by reflexivity.
      reflexivity.
Qed.

Lemma locate2 s st en n l1 l2 :
  good s -> nodes s = l1 ++ n :: l2 -> rs n <= st <= re n -> re n < en <= M ->
  exists lm nx l3, l2 = lm ++ nx :: l3 /\ seg 0 l1 (rs n) /\ n_key n = rs n /\
    seg (re n + 1) lm (rs nx) /\
    n_key nx = rs nx /\ rs nx <= en <= re nx /\ seg (re nx + 1) l3 (M + 1) /\
    find_reach (nodes s) (n_key n) en = Some nx.
Proof.
  intros G E Hs He. unfold good in G. rewrite E in G. rewrite seg_app in G.
  destruct G as (mid & S1 & K & R & B & S2).
  pose proof (seg_le _ _ _ S1).
  destruct (seg_find _ _ _ en S2) as (lm & nx & l3 & E2 & T1 & K2 & B2 & T2); [lia|].
  exists lm, nx, l3. pose proof (seg_le _ _ _ T1).
  repeat split; auto; try lia; [rewrite R; exact S1|].
  rewrite E, E2. change (l1 ++ n :: lm ++ nx :: l3) with (l1 ++ [n] ++ lm ++ nx :: l3).
  rewrite app_assoc. apply find_reach_mid; try lia.
  - apply Forall_app. split.
    + apply klt_kle. eapply seg_klt; [exact S1|lia].
    + constructor; [lia|constructor].
  - apply seg_bounds in T1. eapply Forall_impl; [|exact T1]. cbn. lia.
Qed.

(** Branch "does not fit", when the range is not cut at the start of a longer
    region. *)
Lemma spans_prepare l1 n lm nx l3 nid st en :
  seg 0 (l1 ++ n :: lm ++ nx :: l3) (M + 1) ->
  rs n <= st <= re n -> re n < en -> rs nx <= en <= re nx ->
  (rs nx = en -> re nx = en) ->
  exists nid' m nx',
    split_front M (if r_start (n_reg nx) =? en then mk_as (l1 ++ n :: lm ++ nx :: l3) nid
                   else split M (mk_as (l1 ++ n :: lm ++ nx :: l3) nid) nx en)
                (n_key n) st (wrapk M (st - rs n)) =
      Some (mk_as (l1 ++ front_of st n ++ (m :: lm ++ [nx']) ++ back_of nid en nx ++ l3) nid', st) /\
    n_key m = st /\ n_key nx' = n_key nx.
Proof.
  intros H H1 H2 H3 Safe. pose proof H as H'.
  rewrite seg_app in H. destruct H as (mid & S1 & K & R & B & S2).
  rewrite seg_app in S2. destruct S2 as (mid2 & S2 & K2 & R2 & B2 & S3).
  pose proof (seg_le _ _ _ S1). pose proof (seg_le _ _ _ S2). pose proof (seg_le _ _ _ S3).
  change (r_start (n_reg nx)) with (rs nx). unfold back_of.
  assert (Hassoc : l1 ++ n :: lm ++ nx :: l3 = (l1 ++ n :: lm) ++ nx :: l3)
    by (rewrite <- app_assoc; reflexivity).
  destruct (re nx =? en) eqn:E.
  - (* nothing is left after the range *)
    assert (Hpre : exists nid1, (if rs nx =? en then mk_as (l1 ++ n :: lm ++ nx :: l3) nid
                   else split M (mk_as (l1 ++ n :: lm ++ nx :: l3) nid) nx en)
                   = mk_as (l1 ++ n :: lm ++ nx :: l3) nid1).
    { destruct (rs nx =? en); [eexists; reflexivity|].
      replace en with (re nx) by lia. rewrite Hassoc, split_end by (rewrite <- Hassoc; exact H').
      eexists; reflexivity. }
    destruct Hpre as (nid1 & ->).
    destruct (split_front_mid l1 n (lm ++ nx :: l3) nid1 st 0) as (nid' & m & Eq & Km & Rm & Em & _);
      [lia|exact H'|lia|].
    exists nid', m, nx. rewrite Eq. repeat split; auto.
    cbn [app]. rewrite <- app_assoc. reflexivity.
  - destruct (rs nx =? en) eqn:E2; [lia|].
    rewrite Hassoc, (split_mid _ _ _ _ _ 0) by (try (rewrite <- Hassoc; exact H'); lia).
    rewrite <- app_assoc. cbn [app].
    destruct (split_front_mid l1 n (lm ++ set_end en nx :: tail_node nid en nx :: l3) (nid + 1) st 0)
      as (nid' & m & Eq & Km & Rm & Em & _); try lia.
    + rewrite seg_app. exists mid. split; [exact S1|].
      cbn [seg]. repeat split; try lia. rewrite seg_app. exists mid2. split; [exact S2|].
      cbn [seg]. unfold tail_node, set_end, rs, re in *. cbn [n_key n_reg r_start r_end].
      repeat split; try lia. exact S3.
    + exists nid', m, (set_end en nx). rewrite Eq. repeat split; auto.
      cbn [app]. rewrite <- app_assoc. reflexivity.
Qed.

(** *** The common outcome of [insert] and of the removal step of [erase] *)

Lemma looki_cons_out n l a : a < rs n \/ re n < a -> looki (n :: l) a = looki l a.
Proof.
  intros H. unfold looki, look. cbn [find]. unfold containsb.
  destruct ((rs n <=? a) && (a <=? re n)) eqn:E; [lia|reflexivity].
Qed.

Lemma looki_cons_in n l a : rs n <= a <= re n -> looki (n :: l) a = Some (ri n).
Proof.
  intros H. unfold looki, look. cbn [find]. unfold containsb.
  destruct ((rs n <=? a) && (a <=? re n)) eqn:E; [reflexivity|lia].
Qed.

Lemma adj_front l1 n l2 st :
  adjI (map ri (l1 ++ n :: l2)) -> adjI (map ri (l1 ++ front_of st n)).
Proof.
  intros H. rewrite map_app in H. cbn [map] in H.
  change (ri n :: map ri l2) with ([ri n] ++ map ri l2) in H.
  rewrite app_assoc in H. apply adjI_app_l in H.
  unfold front_of. destruct (rs n =? st).
  - rewrite app_nil_r. apply adjI_app_l in H. exact H.
  - rewrite map_app. cbn [map]. exact H.
Qed.

Lemma adj_back l1 n l2 id en :
  adjI (map ri (l1 ++ n :: l2)) -> adjI (map ri (back_of id en n ++ l2)).
Proof.
  intros H. rewrite map_app in H. apply adjI_app_r in H. cbn [map] in H.
  unfold back_of. destruct (re n =? en); cbn [app map]; [|exact H].
  destruct H as (_ & H). exact H.
Qed.

Lemma bnd_front l st en n : In n l -> bnd l st en (front_of st n).
Proof.
  intros I. unfold front_of. destruct (rs n =? st); [constructor|].
  constructor; [|constructor]. change (rs (set_end (st - 1) n)) with (rs n).
  split; [right; right; apply in_map; exact I|]. right. left. reflexivity.
Qed.

Lemma bnd_back l st en n id : In n l -> bnd l st en (back_of id en n).
Proof.
  intros I. unfold back_of. destruct (re n =? en); [constructor|].
  constructor; [|constructor]. split; [right; left; reflexivity|].
  right. right. change (re (tail_node id en n)) with (re n). apply in_map. exact I.
Qed.

Lemma replaced_fits l1 n l2 id st en x :
  seg 0 (l1 ++ n :: l2) (M + 1) -> rs n <= st -> st <= en <= re n ->
  replaced (l1 ++ n :: l2) st en x (l1 ++ front_of st n ++ x :: back_of id en n ++ l2).
Proof.
  intros H H1 H2. rewrite seg_app in H. destruct H as (mid & S1 & K & R & B & S2).
  exists l1, [n], l2, (front_of st n), (back_of id en n). repeat split.
  exists mid, (re n + 1). repeat split; auto.
  - rewrite <- R. apply front_seg; lia.
  - apply back_seg; lia.
  - intros a Ha. rewrite (looki_uniform (front_of st n) (rs n) st a (ri n)).
    + rewrite looki_one by lia. reflexivity.
    + apply front_seg; lia.
    + lia.
    + apply front_info.
  - intros a Ha. rewrite (looki_uniform (back_of id en n) (en + 1) (re n + 1) a (ri n)).
    + rewrite looki_one by lia. reflexivity.
    + apply back_seg; lia.
    + lia.
    + apply back_info.
  - eapply adj_front; exact H.
  - eapply adj_back with (l1 := l1); exact H.
  - apply bnd_app; [apply bnd_sub; intros; apply in_or_app; auto|].
    apply bnd_front. apply in_or_app. right. left. reflexivity.
  - apply bnd_app; [|apply bnd_sub; intros; apply in_or_app; right; right; auto].
    apply bnd_back. apply in_or_app. right. left. reflexivity.
  - intros q Iq Hd. rewrite !in_app_iff. apply in_app_or in Iq. destruct Iq as [Iq|[<-|Iq]]; auto.
    exfalso. lia.
Qed.

Lemma replaced_spans l1 n lm nx l3 id st en x :
  seg 0 (l1 ++ n :: lm ++ nx :: l3) (M + 1) -> rs n <= st <= re n -> re n < en ->
  rs nx <= en <= re nx ->
  replaced (l1 ++ n :: lm ++ nx :: l3) st en x (l1 ++ front_of st n ++ x :: back_of id en nx ++ l3).
Proof.
  intros H H1 H2 H3. rewrite seg_app in H. destruct H as (mid & S1 & K & R & B & S2).
  rewrite seg_app in S2. destruct S2 as (mid2 & S2 & K2 & R2 & B2 & S3).
  pose proof (seg_le _ _ _ S2).
  exists l1, (n :: lm ++ [nx]), l3, (front_of st n), (back_of id en nx). split; [|split].
  - cbn [app]. rewrite <- app_assoc. reflexivity.
  - reflexivity.
  - exists mid, (re nx + 1). split; [exact S1|]. split; [|split; [exact S3|split; [|split; [|split; [|split; [|split; [|split]]]]]]].
    + cbn [seg]. repeat split; try lia. rewrite seg_app. exists mid2.
      split; [exact S2|]. cbn [seg]. repeat split; try lia.
    + rewrite <- R. apply front_seg; lia.
    + apply back_seg; lia.
    + intros a Ha. rewrite (looki_uniform (front_of st n) (rs n) st a (ri n)).
      * rewrite looki_cons_in by lia. reflexivity.
      * apply front_seg; lia.
      * lia.
      * apply front_info.
    + intros a Ha. rewrite (looki_uniform (back_of id en nx) (en + 1) (re nx + 1) a (ri nx)).
      * rewrite looki_cons_out by lia. rewrite looki_app, (looki_out lm _ _ a S2) by lia.
        rewrite looki_one by lia. reflexivity.
      * apply back_seg; lia.
      * lia.
      * apply back_info.
    + intros H5. split.
      * eapply adj_front; exact H5.
      * apply adj_back with (l1 := l1 ++ n :: lm). rewrite <- app_assoc. exact H5.
    + split.
      * apply bnd_app; [apply bnd_sub; intros; apply in_or_app; auto|].
        apply bnd_front. apply in_or_app. right. left. reflexivity.
      * apply bnd_app.
        -- apply bnd_back. apply in_or_app. right. right. apply in_or_app. right. left. reflexivity.
        -- apply bnd_sub. intros. apply in_or_app. right. right. apply in_or_app. right. right. auto.
    + intros q Iq Hd. rewrite !in_app_iff. apply in_app_or in Iq. destruct Iq as [Iq|[<-|Iq]]; auto.
      { exfalso. lia. }
      apply in_app_or in Iq. destruct Iq as [Iq|[<-|Iq]]; auto; exfalso; [|lia].
      apply seg_bounds in S2. rewrite Forall_forall in S2. specialize (S2 q Iq). lia.
Qed.

Lemma insert_good s r :
  good s -> valid_op M (OpInsert r) -> safe_end s (OpInsert r) ->
  exists s' x, insert M s r = Some s' /\ n_reg x = r /\ n_key x = r_start r /\
    replaced (nodes s) (r_start r) (r_end r) x (nodes s').
Proof.
  intros G (V1 & V2 & _) Sf. cbn [op_start op_end] in *.
  destruct (locate s (r_start r)) as (l1 & n & l2 & E & S1 & K & B & S2 & Gi); [exact G|lia|].
  unfold insert. rewrite Gi. change (r_end (n_reg n)) with (re n). change (r_start (n_reg n)) with (rs n).
  destruct s as [ns nid]. unfold good in G. cbn [nodes] in *. subst ns.
  destruct (r_end r <=? re n) eqn:Efit.
  - destruct (fits_prepare l1 n l2 nid (r_start r) (r_end r)) as (nid' & m & Eq & Km & Rm & Em);
      [exact G|lia|lia|]. change (r_end (n_reg n)) with (re n) in Eq.
    rewrite Eq. exists (mk_as (l1 ++ front_of (r_start r) n ++ set_reg r m :: back_of nid (r_end r) n ++ l2) nid'), (set_reg r m).
    split; [|split; [|split]].
    + f_equal. f_equal. cbn [nodes]. rewrite <- Km. rewrite app_assoc, modify_mid.
      * rewrite Km. rewrite <- app_assoc. reflexivity.
      * rewrite Km. apply Forall_app. split.
        -- eapply seg_klt; [exact S1|lia].
        -- eapply seg_klt; [apply front_seg; lia|lia].
      * rewrite Km. apply Forall_app. split.
        -- eapply seg_kgt; [apply back_seg; lia|lia].
        -- eapply seg_kgt; [exact S2|lia].
    + reflexivity.
    + exact Km.
    + cbn [nodes]. apply replaced_fits; [exact G|lia|lia].
  - destruct (locate2 (mk_as (l1 ++ n :: l2) nid) (r_start r) (r_end r) n l1 l2)
      as (lm & nx & l3 & E2 & _ & _ & T1 & K2 & B2 & T2 & Fr); [exact G|reflexivity|lia|lia|].
    cbn [nodes] in Fr. subst l2. rewrite Fr.
    assert (Hsafe : rs nx = r_end r -> re nx = r_end r).
    { intros Hx. apply (Sf nx).
      - cbn [nodes]. apply in_or_app. right. right. apply in_or_app. right. left. reflexivity.
      - exact Hx.
      - cbn [op_start op_end]. lia. }
    destruct (spans_prepare l1 n lm nx l3 nid (r_start r) (r_end r)) as (nid' & m & nx' & Eq & Km & Knx);
      try exact G; try lia.
    change (r_start (n_reg nx)) with (rs nx) in *. rewrite Eq.
    exists (mk_as (l1 ++ front_of (r_start r) n ++ mk_node (r_start r) nid' r :: back_of nid (r_end r) nx ++ l3) (nid' + 1)), (mk_node (r_start r) nid' r).
    pose proof (seg_le _ _ _ T1).
    split; [|split; [|split]]; try reflexivity.
    + f_equal. cbn [nodes next_id]. f_equal.
      rewrite app_assoc. rewrite erase_mid.
      * rewrite emplace_mid.
        -- rewrite <- app_assoc. reflexivity.
        -- cbn [n_key]. apply Forall_app. split.
           ++ eapply seg_klt; [exact S1|lia].
           ++ eapply seg_klt; [apply front_seg; lia|lia].
        -- cbn [n_key]. apply Forall_app. split.
           ++ eapply seg_kgt; [apply back_seg; lia|lia].
           ++ eapply seg_kgt; [exact T2|lia].
      * apply Forall_app. split.
        -- eapply seg_klt; [exact S1|lia].
        -- eapply seg_klt; [apply front_seg; lia|lia].
      * constructor; [lia|]. apply Forall_app. split.
        -- apply seg_keys in T1. eapply Forall_impl; [|exact T1]. cbn. lia.
        -- constructor; [lia|constructor].
      * apply Forall_app. split.
        -- eapply seg_kgt; [apply back_seg; lia|lia].
        -- eapply seg_kgt; [exact T2|lia].
    + cbn [nodes]. apply replaced_spans; auto; lia.
Qed.

(** *** Removing a range *)

Definition removed (s : aspace) (start en : Z) : option aspace :=
  match get_it (nodes s) start with
  | None => None
  | Some it =>
      if en <=? r_end (n_reg it) then
        let s1 := if en =? r_end (n_reg it) then s else split M s it en in
        match split_front M s1 (n_key it) start (wrapk M (start - r_start (n_reg it))) with
        | None => None
        | Some (s2, k) => Some (mk_as (erase_range (nodes s2) k k) (next_id s2))
        end
      else
        match find_reach (nodes s) (n_key it) en with
        | None => None
        | Some nx =>
            let s1 := if r_start (n_reg nx) =? en then s else split M s nx en in
            match split_front M s1 (n_key it) start (wrapk M (start - r_start (n_reg it))) with
            | None => None
            | Some (s2, k) => Some (mk_as (erase_range (nodes s2) k (n_key nx)) (next_id s2))
            end
        end
  end.

Lemma erase_removed s start en :
  erase M s start en =
  match removed s start en with
  | None => None
  | Some s3 =>
      let l4 := emplace (nodes s3) (mk_node start (next_id s3) (mk_region start en info_default)) in
      match get_it l4 start with
      | None => None
      | Some it2 =>
          match merge_next l4 (n_key it2) with
          | None => None
          | Some l5 =>
              match merge_prev l5 (n_key it2) with
              | None => None
              | Some l6 => Some (mk_as l6 (next_id s3 + 1))
              end
          end
      end
  end.
Proof. unfold erase, removed. destruct (get_it (nodes s) start); reflexivity. Qed.

Lemma ids_step s o s' : ids_ok s -> as_step M s o = Some s' -> ids_ok s'.
Proof.
  intros H. destruct o as [r|st en]; cbn [as_step]; [apply ids_insert; exact H|].
  rewrite erase_removed.
  destruct (removed s st en) as [s3|] eqn:E; [|discriminate].
  assert (H3 : ids_ok s3).
  { revert E. unfold removed. destruct (get_it (nodes s) st) as [it|]; [|discriminate].
    destruct (en <=? r_end (n_reg it)).
    - set (s1 := if en =? r_end (n_reg it) then s else split M s it en).
      assert (H1 : ids_ok s1) by (unfold s1; destruct (en =? r_end (n_reg it)); [exact H|apply ids_split; exact H]).
      cbv zeta. destruct (split_front M s1 _ _ _) as [[s2 k]|] eqn:E; [|discriminate].
      intros E2. injection E2 as <-. apply ids_erase. apply ids_eta. eapply ids_split_front; eauto.
    - destruct (find_reach _ _ _) as [nx|]; [|discriminate].
      set (s1 := if r_start (n_reg nx) =? en then s else split M s nx en).
      assert (H1 : ids_ok s1) by (unfold s1; destruct (r_start (n_reg nx) =? en); [exact H|apply ids_split; exact H]).
      cbv zeta. destruct (split_front M s1 _ _ _) as [[s2 k]|] eqn:E; [|discriminate].
      intros E2. injection E2 as <-. apply ids_erase. apply ids_eta. eapply ids_split_front; eauto. }
  cbv zeta. set (l4 := emplace _ _).
  assert (H4 : ids_ok (mk_as l4 (next_id s3 + 1))).
  { apply ids_emplace; [apply ids_eta; exact H3|reflexivity]. }
  destruct (get_it l4 st) as [it2|]; [|discriminate].
  destruct (merge_next l4 (n_key it2)) as [l5|] eqn:E5; [|discriminate].
  destruct (merge_prev l5 (n_key it2)) as [l6|] eqn:E6; [|discriminate].
  intros E7. injection E7 as <-. eapply ids_merge_prev; [|exact E6]. eapply ids_merge_next; [|exact E5]. exact H4.
Qed.

Definition hole_node (st en nid : Z) : node := mk_node st nid (mk_region st en info_default).

Lemma removed_good s st en :
  good s -> 0 <= st <= en -> en <= M -> safe_end s (OpErase st en) ->
  exists s3, removed s st en = Some s3 /\
    exists A B, nodes s3 = A ++ B /\ seg 0 A st /\ seg (en + 1) B (M + 1) /\
      forall x, replaced (nodes s) st en x (A ++ x :: B).
Proof.
  intros G V1 V2 Sf. 
  destruct (locate s st) as (l1 & n & l2 & E & S1 & K & B & S2 & Gi); [exact G|lia|].
  unfold removed. rewrite Gi. change (r_end (n_reg n)) with (re n). change (r_start (n_reg n)) with (rs n).
  destruct s as [ns nid]. unfold good in G. cbn [nodes] in *. subst ns.
  destruct (en <=? re n) eqn:Efit.
  - destruct (fits_prepare l1 n l2 nid st en) as (nid' & m & Eq & Km & Rm & Em);
      [exact G|lia|lia|]. change (r_end (n_reg n)) with (re n) in Eq.
    rewrite Eq. eexists. split; [reflexivity|]. cbn [nodes].
    exists (l1 ++ front_of st n), (back_of nid en n ++ l2). split; [|split; [|split]].
    + change (m :: back_of nid en n ++ l2) with ([m] ++ (back_of nid en n ++ l2)).
      rewrite app_assoc. apply erase_mid.
      * apply Forall_app. split.
        -- eapply seg_klt; [exact S1|lia].
        -- eapply seg_klt; [apply front_seg; lia|lia].
      * constructor; [lia|constructor].
      * apply Forall_app. split.
        -- eapply seg_kgt; [apply back_seg; lia|lia].
        -- eapply seg_kgt; [exact S2|lia].
    + rewrite seg_app. eexists. split; [exact S1|apply front_seg; lia].
    + rewrite seg_app. eexists. split; [apply back_seg; lia|exact S2].
    + intros x. rewrite <- app_assoc. apply replaced_fits; [exact G|lia|lia].
  - destruct (locate2 (mk_as (l1 ++ n :: l2) nid) st en n l1 l2)
      as (lm & nx & l3 & E2 & _ & _ & T1 & K2 & B2 & T2 & Fr); [exact G|reflexivity|lia|lia|].
    cbn [nodes] in Fr. subst l2. rewrite Fr.
    assert (Hsafe : rs nx = en -> re nx = en).
    { intros Hx. apply (Sf nx).
      - cbn [nodes]. apply in_or_app. right. right. apply in_or_app. right. left. reflexivity.
      - exact Hx.
      - cbn [op_start op_end]. lia. }
    destruct (spans_prepare l1 n lm nx l3 nid st en) as (nid' & m & nx' & Eq & Km & Knx);
      try exact G; try lia.
    change (r_start (n_reg nx)) with (rs nx) in *. rewrite Eq.
    pose proof (seg_le _ _ _ T1).
    eexists. split; [reflexivity|]. cbn [nodes].
    exists (l1 ++ front_of st n), (back_of nid en nx ++ l3). split; [|split; [|split]].
    + rewrite app_assoc. apply erase_mid.
      * apply Forall_app. split.
        -- eapply seg_klt; [exact S1|lia].
        -- eapply seg_klt; [apply front_seg; lia|lia].
      * constructor; [lia|]. apply Forall_app. split.
        -- apply seg_keys in T1. eapply Forall_impl; [|exact T1]. cbn. lia.
        -- constructor; [lia|constructor].
      * apply Forall_app. split.
        -- eapply seg_kgt; [apply back_seg; lia|lia].
        -- eapply seg_kgt; [exact T2|lia].
    + rewrite seg_app. eexists. split; [exact S1|apply front_seg; lia].
    + rewrite seg_app. eexists. split; [apply back_seg; lia|exact T2].
    + intros x. rewrite <- app_assoc. apply replaced_spans; auto; lia.
Qed.

Lemma unm_dec n : mem_type_eqb (i_type (ri n)) unmapped = true <-> unm (ri n).
Proof. unfold unm. destruct (i_type (ri n)); cbn; split; congruence. Qed.

(** Outcome of the merge with the following region. *)
Inductive merged_next (x : node) (B : list node) : node -> list node -> Prop :=
| mn_none : match B with [] => True | y :: _ => ~ unm (ri y) end -> merged_next x B x B
| mn_some y B' : B = y :: B' -> unm (ri y) -> merged_next x B (set_end (re y) x) B'.

Lemma merge_next_spec A x B lo :
  seg 0 A (n_key x) -> seg lo B (M + 1) -> n_key x < lo ->
  exists x' B', merge_next (A ++ x :: B) (n_key x) = Some (A ++ x' :: B') /\ merged_next x B x' B'.
Proof.
  intros SA SB Hlo. unfold merge_next.
  rewrite node_at_mid by (eapply seg_klt; [exact SA|lia]).
  change (A ++ x :: B) with (A ++ [x] ++ B). rewrite app_assoc.
  assert (Hkle : kle (A ++ [x]) (n_key x)).
  { apply Forall_app. split.
    - apply klt_kle. eapply seg_klt; [exact SA|lia].
    - constructor; [lia|constructor]. }
  destruct B as [|y B'].
  - rewrite app_nil_r, next_it_none by exact Hkle. exists x, []. split; [reflexivity|].
    constructor. trivial.
  - cbn [seg] in SB. destruct SB as (K & R & B1 & S2).
    rewrite next_it_mid by (auto; lia). change (r_info (n_reg y)) with (ri y).
    destruct (mem_type_eqb (i_type (ri y)) unmapped) eqn:E.
    + apply unm_dec in E. exists (set_end (re y) x), B'. split; [|econstructor; eauto].
      f_equal. rewrite <- app_assoc. cbn [app]. rewrite modify_mid.
      * change (A ++ set_end (r_end (n_reg y)) x :: y :: B')
          with (A ++ [set_end (r_end (n_reg y)) x] ++ [y] ++ B').
        rewrite app_assoc. rewrite erase_mid.
        -- rewrite <- app_assoc. reflexivity.
        -- apply Forall_app. split; [eapply seg_klt; [exact SA|lia]|].
           constructor; [cbn; lia|constructor].
        -- constructor; [lia|constructor].
        -- eapply seg_kgt; [exact S2|lia].
      * eapply seg_klt; [exact SA|lia].
      * constructor; [lia|]. eapply seg_kgt; [exact S2|lia].
    + exists x, (y :: B'). rewrite <- app_assoc. split; [reflexivity|].
      constructor. intros Hu. apply unm_dec in Hu. congruence.
Qed.

Inductive merged_prev (A : list node) (x : node) : list node -> node -> Prop :=
| mp_none : match A with [] => True | _ => ~ unm (ri (last A x)) end -> merged_prev A x A x
| mp_some A' p : A = A' ++ [p] -> unm (ri p) -> merged_prev A x A' (set_end (re x) p).

Lemma merge_prev_spec A x B lo :
  seg 0 A (n_key x) -> seg lo B (M + 1) -> n_key x < lo ->
  exists A' x', merge_prev (A ++ x :: B) (n_key x) = Some (A' ++ x' :: B) /\ merged_prev A x A' x'.
Proof.
  intros SA SB Hlo. unfold merge_prev.
  rewrite node_at_mid by (eapply seg_klt; [exact SA|lia]).
  destruct (list_eq_dec (fun a b : unit => match a, b with tt, tt => left eq_refl end)
              (map (fun _ => tt) A) []) as [Hnil|Hcons].
  - destruct A as [|a A]; [|discriminate]. cbn [app]. unfold prev_it, get_it.
    rewrite get_it_from_gt.
    + exists [], x. split; [reflexivity|]. constructor. trivial.
    + constructor; [lia|]. eapply seg_kgt; [exact SB|lia].
  - destruct (@exists_last _ A) as (A' & p & ->); [intros ->; cbn in Hcons; congruence|].
    clear Hcons. rewrite seg_app in SA. destruct SA as (mid & S1 & K & R & Bp & Hend).
    cbn [seg] in Hend.
    rewrite <- app_assoc. cbn [app]. unfold prev_it.
    assert (HB : kgt (x :: B) (n_key x - 1)).
    { constructor; [lia|]. eapply seg_kgt; [exact SB|lia]. }
    rewrite get_it_mid; [|apply klt_kle; eapply seg_klt; [exact S1|lia]|lia|exact HB].
    change (r_info (n_reg p)) with (ri p).
    destruct (mem_type_eqb (i_type (ri p)) unmapped) eqn:E.
    + apply unm_dec in E. exists A', (set_end (re x) p). split; [|econstructor; eauto].
      f_equal. rewrite modify_mid.
      * change (A' ++ set_end (r_end (n_reg x)) p :: x :: B)
          with (A' ++ [set_end (r_end (n_reg x)) p] ++ [x] ++ B).
        rewrite app_assoc. rewrite erase_mid.
        -- rewrite <- app_assoc. reflexivity.
        -- apply Forall_app. split; [eapply seg_klt; [exact S1|lia]|].
           constructor; [cbn; lia|constructor].
        -- constructor; [lia|constructor].
        -- eapply seg_kgt; [exact SB|lia].
      * eapply seg_klt; [exact S1|lia].
      * constructor; [lia|]. eapply seg_kgt; [exact SB|lia].
    + exists (A' ++ [p]), x. split; [rewrite <- app_assoc; reflexivity|].
      constructor. rewrite last_last. destruct A'; cbn [app]; intros Hu; apply unm_dec in Hu; congruence.
Qed.

Definition unm_ok (l : list node) : Prop := Forall (fun n => unm (ri n) -> ri n = info_default) l.

Lemma looki_in_seg l lo hi n : seg lo l hi -> In n l -> looki l (rs n) = Some (ri n).
Proof.
  intros S I. apply in_split in I. destruct I as (l1 & l2 & ->).
  rewrite seg_app in S. destruct S as (mid & S1 & K & R & B & S2).
  rewrite looki_app, (looki_out l1 _ _ _ S1) by lia. apply looki_cons_in. lia.
Qed.

Lemma looki_some_in l a i : looki l a = Some i -> exists n, In n l /\ ri n = i.
Proof.
  unfold looki, look. destruct (find (containsb a) l) as [n|] eqn:E; [|discriminate].
  cbn. intros H. injection H as <-. apply find_some in E. exists n. tauto.
Qed.

Lemma replaced_unm_ok l s e x l' :
  replaced l s e x l' -> n_key x = s -> rs x = s -> re x = e -> s <= e ->
  unm_ok l -> (unm (ri x) -> ri x = info_default) -> unm_ok l'.
Proof.
  intros Rp K R E Hse U Ux. pose proof (replaced_seg _ _ _ _ _ Rp K R E Hse) as S.
  apply Forall_forall. intros n In_ Hu.
  pose proof (looki_in_seg _ _ _ _ S In_) as L.
  rewrite (replaced_look _ _ _ _ _ (rs n) Rp R E Hse) in L.
  destruct ((s <=? rs n) && (rs n <=? e)).
  - injection L as L. rewrite <- L in *. auto.
  - apply looki_some_in in L. destruct L as (m & Im & Em). rewrite <- Em in *.
    unfold unm_ok in U. rewrite Forall_forall in U. auto.
Qed.

(** Merging two neighbours with equal properties is invisible. *)
Lemma glue_look A n1 n2 n3 B lo a :
  seg 0 A (rs n1) -> rs n1 <= re n1 -> rs n2 = re n1 + 1 -> rs n2 <= re n2 ->
  rs n3 = rs n1 -> re n3 = re n2 -> ri n1 = ri n2 -> ri n3 = ri n1 ->
  seg lo B (M + 1) -> re n2 < lo ->
  looki (A ++ n3 :: B) a = looki (A ++ n1 :: n2 :: B) a.
Proof.
  intros SA H1 H2 H3 H4 H5 H6 H7 SB H8. rewrite !looki_app.
  destruct (looki A a); [reflexivity|].
  destruct (Z_lt_ge_dec a (rs n1)).
  { rewrite !looki_cons_out by lia. reflexivity. }
  destruct (Z_lt_ge_dec (re n2) a).
  { rewrite !looki_cons_out by lia. reflexivity. }
  rewrite (looki_cons_in n3) by lia.
  destruct (Z_le_gt_dec a (re n1)).
  { rewrite looki_cons_in by lia. congruence. }
  rewrite looki_cons_out by lia. rewrite looki_cons_in by lia. congruence.
Qed.

(** What [erase] leaves, given the list after the range was cut out. *)
Lemma erase_merge s3 A B st en lo :
  nodes s3 = A ++ B -> seg 0 A st -> seg lo B (M + 1) -> st <= en -> en < lo ->
  exists s' x1 B1 A2 x2,
    (let l4 := emplace (nodes s3) (hole_node st en (next_id s3)) in
      match get_it l4 st with
      | None => None
      | Some it2 =>
          match merge_next l4 (n_key it2) with
          | None => None
          | Some l5 =>
              match merge_prev l5 (n_key it2) with
              | None => None
              | Some l6 => Some (mk_as l6 (next_id s3 + 1))
              end
          end
      end) = Some s' /\
    nodes s' = A2 ++ x2 :: B1 /\
    merged_next (hole_node st en (next_id s3)) B x1 B1 /\ merged_prev A x1 A2 x2.
Proof.
  intros E SA SB Hse Hlo. cbv zeta. rewrite E.
  set (x := hole_node st en (next_id s3)).
  assert (Kx : n_key x = st) by reflexivity.
  rewrite emplace_mid; [|eapply seg_klt; [exact SA|lia]|eapply seg_kgt; [exact SB|lia]].
  rewrite get_it_mid; [|apply klt_kle; eapply seg_klt; [exact SA|lia]|lia|eapply seg_kgt; [exact SB|lia]].
  destruct (merge_next_spec A x B lo) as (x1 & B1 & E1 & M1); try (rewrite ?Kx; auto; lia).
  rewrite E1.
  assert (Kx1 : n_key x1 = n_key x) by (inversion M1; reflexivity).
  assert (SB1 : exists lo1, seg lo1 B1 (M + 1) /\ st < lo1).
  { destruct M1 as [Hn|y B' Hb Hu].
    - exists lo. split; [exact SB|lia].
    - rewrite Hb in SB. cbn [seg] in SB. exists (re y + 1). split; [tauto|lia]. }
  destruct SB1 as (lo1 & SB1 & Hlo1).
  destruct (merge_prev_spec A x1 B1 lo1) as (A2 & x2 & E2 & M2);
    try (rewrite ?Kx1, ?Kx; auto; lia).
  rewrite <- Kx1, E2. eexists _, x1, B1, A2, x2. repeat split; auto.
Qed.

Lemma erase_good s st en :
  good s -> unm_ok (nodes s) -> valid_op M (OpErase st en) -> safe_end s (OpErase st en) ->
  exists s', erase M s st en = Some s' /\ good s' /\ unm_ok (nodes s') /\
    (forall a, looki (nodes s') a = if (st <=? a) && (a <=? en) then Some info_default else looki (nodes s) a) /\
    (adjI (map ri (nodes s)) -> adjI (map ri (nodes s'))) /\
    bnd (nodes s) st en (nodes s') /\
    (forall n, In n (nodes s) -> ~ unm (ri n) -> re n < st \/ en < rs n -> In n (nodes s')).
Proof.
  intros G U (V1 & V2 & _) Sf. cbn [op_start op_end] in *.
  destruct (removed_good s st en) as (s3 & E & A & B & E3 & SA & SB & Rp); auto.
  rewrite erase_removed, E.
  destruct (erase_merge s3 A B st en (en + 1)) as (s' & x1 & B1 & A2 & x2 & Es & En & M1 & M2);
    auto; try lia.
  exists s'. split; [exact Es|].
  set (x := hole_node st en (next_id s3)) in *.
  specialize (Rp x).
  assert (S4 : seg 0 (A ++ x :: B) (M + 1)) by (apply (replaced_seg _ _ _ _ _ Rp); auto; lia).
  assert (U4 : unm_ok (A ++ x :: B)) by (apply (replaced_unm_ok _ _ _ _ _ Rp); auto; lia).
  assert (L4 := fun a => replaced_look _ _ _ _ _ a Rp eq_refl eq_refl (proj2 V1)).
  assert (Rx : rs x = st) by reflexivity. assert (Ex : re x = en) by reflexivity.
  assert (Ix : ri x = info_default) by reflexivity. assert (Kx : n_key x = st) by reflexivity.
  (* after the first merge *)
  assert (N1 : n_key x1 = st /\ rs x1 = st /\ st <= re x1 /\ ri x1 = info_default /\
               seg (re x1 + 1) B1 (M + 1) /\
               (forall a, looki (A ++ x1 :: B1) a = looki (A ++ x :: B) a)).
  { inversion M1; subst x1 B1.
    - repeat split; auto; lia.
    - subst B. cbn [seg] in SB. destruct SB as (Ky & Ry & By & Sy).
      split; [reflexivity|]. split; [reflexivity|]. split; [change (re (set_end (re y) x)) with (re y); lia|].
      split; [exact Ix|]. split; [exact Sy|]. intros a.
      unfold unm_ok in U4. rewrite Forall_forall in U4.
      apply (glue_look A x y (set_end (re y) x) B' (re y + 1)); auto; try lia.
      rewrite Ix. symmetry. apply U4; [|assumption]. apply in_or_app. right. right. left. reflexivity. }
  destruct N1 as (K1 & R1 & E1 & I1 & S1 & L1).
  assert (G' : good s' /\ forall a, looki (nodes s') a = looki (A ++ x1 :: B1) a).
  { unfold good. rewrite En. inversion M2; subst A2 x2.
    - split; [|reflexivity]. rewrite seg_app. exists st. split; [exact SA|].
      cbn [seg]. repeat split; try lia. exact S1.
    - subst A. pose proof SA as SA'. rewrite seg_app in SA. destruct SA as (mid & T1 & Kp & Rpp & Bp & Ep).
      cbn [seg] in Ep. split.
      + rewrite seg_app. exists mid. split; [exact T1|]. cbn [seg].
        change (re (set_end (re x1) p)) with (re x1). change (rs (set_end (re x1) p)) with (rs p).
        change (n_key (set_end (re x1) p)) with (n_key p). repeat split; try lia. exact S1.
      + intros a. rewrite <- app_assoc. cbn [app].
        unfold unm_ok in U4. rewrite Forall_forall in U4.
        apply (glue_look A' p x1 (set_end (re x1) p) B1 (re x1 + 1)); auto; try lia.
        * rewrite Rpp. exact T1.
        * rewrite I1. apply U4; [|assumption]. apply in_or_app. left. apply in_or_app. right. left. reflexivity. }
  destruct G' as (G' & L').
  assert (Hc : exists l1 l2 front back lo hi, A = l1 ++ front /\ B = back ++ l2 /\
    seg 0 l1 lo /\ seg lo front st /\ seg (en + 1) back hi /\ seg hi l2 (M + 1) /\
    (adjI (map ri (nodes s)) -> adjI (map ri (l1 ++ front)) /\ adjI (map ri (back ++ l2))) /\
    (bnd (nodes s) st en (l1 ++ front) /\ bnd (nodes s) st en (back ++ l2)) /\
    (forall n, In n (nodes s) -> re n < st \/ en < rs n -> In n ((l1 ++ front) ++ back ++ l2))).
  { destruct Rp as (l1 & mids & l2 & front & back & _ & Heq & lo & hi & T1 & T2 & T3 & T4 & T5 & _ & _ & T6 & T7 & T8).
    exists l1, l2, front, back, lo, hi. rewrite app_assoc in Heq.
    assert (SA' : seg 0 (l1 ++ front) st) by (rewrite seg_app; exists lo; auto).
    destruct (seg_cut A (l1 ++ front) 0 st x B (back ++ l2)) as (-> & ->); auto.
    repeat split; auto; tauto. }
  split; [exact G'|]. split; [|split; [|split; [|split]]].
  - apply Forall_forall. intros n In_ Hu. pose proof (looki_in_seg _ _ _ _ G' In_) as L.
    rewrite L', L1 in L. apply looki_some_in in L. destruct L as (m & Im & Em). rewrite <- Em in *.
    unfold unm_ok in U4. rewrite Forall_forall in U4. auto.
  - intros a. rewrite L', L1, L4. rewrite Ix. reflexivity.
  - intros Adj.
    assert (AA : adjI (map ri A) /\ adjI (map ri B)).
    { destruct Hc as (l1 & l2 & front & back & lo & hi & -> & -> & _ & _ & _ & _ & T6 & _). auto. }
    destruct AA as (AA & AB). rewrite En.
    assert (AX : adjI (ri x1 :: map ri B1)).
    { cbn [adjI]. inversion M1; subst x1 B1.
      - split; [|exact AB]. destruct B as [|y B]; cbn [map]; [trivial|]. tauto.
      - subst B. cbn [map] in AB. cbn [adjI] in AB. destruct AB as (P & Q). split; [|exact Q].
        destruct (map ri B'); [trivial|]. tauto. }
    inversion M2; subst A2 x2.
    + rewrite map_app. cbn [map].
      apply adjI_glue; [|exact AX].
      destruct A as [|a A]; [cbn; tauto|].
      clear -AA H HM. revert AA H. generalize (a :: A) as A0. clear a A. intros A0.
      induction A0 as [|a A0 IH]; [cbn; tauto|].
      intros AA H. cbn [map app adjI] in *. destruct A0 as [|b A0].
      * cbn in *. tauto.
      * cbn [map app] in *. destruct AA as (P & Q). split; [exact P|]. apply IH; assumption.
    + subst A. rewrite map_app in *. cbn [map] in *.
      change (ri (set_end (re x1) p)) with (ri p). apply adjI_glue; [exact AA|].
      cbn [adjI] in *. destruct AX as (P & Q). split; [|exact Q].
      destruct (map ri B1); [trivial|]. intros (Ha & Hb). apply P. split; [|exact Hb].
      rewrite I1. reflexivity.
  - destruct Hc as (l1 & l2 & front & back & lo & hi & HA & HB & _ & _ & _ & _ & _ & (T7 & T8) & _).
    rewrite <- HA in T7. rewrite <- HB in T8. rewrite En.
    assert (X : (re x1 = en \/ In (re x1) (map re (nodes s))) /\ bnd (nodes s) st en B1).
    { inversion M1; subst x1 B1; [auto|]. subst B. inversion_clear T8 as [|? ? [_ Hy] T9].
      split; [|exact T9]. change (re (set_end (re y) x)) with (re y).
      cbn [seg] in SB. intuition lia. }
    destruct X as (X1 & X2).
    inversion M2; subst A2 x2.
    + apply bnd_app; [exact T7|]. constructor; [|exact X2]. rewrite R1. tauto.
    + match goal with HH : A = A' ++ [p] |- _ => rewrite HH in T7 end.
      apply Forall_app in T7. destruct T7 as (T7 & T9). apply bnd_app; [exact T7|].
      constructor; [|exact X2]. inversion_clear T9 as [|? ? [Hp _] _].
      change (rs (set_end (re x1) p)) with (rs p). change (re (set_end (re x1) p)) with (re x1). tauto.
  - intros q Iq Nq Hd.
    destruct Hc as (l1 & l2 & front & back & lo & hi & HA & HB & _ & _ & _ & _ & _ & _ & T).
    specialize (T q Iq Hd). rewrite <- HA, <- HB in T. rewrite En.
    assert (T' : In q A \/ In q B1).
    { apply in_app_or in T. destruct T as [T|T]; [auto|]. right.
      inversion M1; subst x1 B1; [exact T|].
      match goal with HH : B = y :: B' |- _ => rewrite HH in T end.
      destruct T as [->|T]; [contradiction|exact T]. }
    apply in_or_app. destruct T' as [T'|T']; [|right; right; exact T'].
    inversion M2; subst A2 x2; [left; exact T'|].
    match goal with HH : A = A' ++ [p] |- _ => rewrite HH in T' end.
    apply in_app_or in T'. destruct T' as [T'|[->|[]]]; [left; exact T'|contradiction].
Qed.

(** *** All operations *)

Definition inv (s : aspace) : Prop := good s /\ unm_ok (nodes s) /\ adjI (map ri (nodes s)).

Lemma inv_create : inv (as_create M).
Proof.
  unfold inv, good, as_create. cbn [nodes seg]. unfold rs, re, ri. cbn. repeat split; try lia.
  constructor; [reflexivity|constructor].
Qed.

Definition obs (f : ideal) (s : aspace) : Prop := forall a, 0 <= a <= M -> looki (nodes s) a = Some (f a).

Lemma lookup_looki s a : good s -> 0 <= a <= M -> lookup s a = looki (nodes s) a.
Proof.
  intros G Ha. unfold lookup, search. rewrite (get_it_look _ _ _ _ G) by lia.
  unfold looki. destruct (look (nodes s) a); reflexivity.
Qed.

Lemma step_good s o :
  inv s -> valid_op M o -> safe_end s o ->
  exists s', as_step M s o = Some s' /\ inv s' /\
    (forall f, obs f s -> obs (ideal_step f o) s') /\
    bnd (nodes s) (op_start o) (op_end o) (nodes s') /\
    (forall n, In n (nodes s) -> ~ unm (ri n) -> re n < op_start o \/ op_end o < rs n ->
       In n (nodes s')).
Proof.
  intros (G & U & Ad) V Sf. destruct o as [r|st en]; cbn [as_step].
  - pose proof V as (V1 & V2 & V3). cbn [op_start op_end] in *.
    destruct (insert_good s r G V Sf) as (s' & x & E & Rx & Kx & Rp).
    assert (rs x = r_start r) by (unfold rs; rewrite Rx; reflexivity).
    assert (re x = r_end r) by (unfold re; rewrite Rx; reflexivity).
    assert (ri x = r_info r) as Ix by (unfold ri; rewrite Rx; reflexivity).
    assert (Nx : ~ unm (ri x)) by (rewrite Ix; exact V3).
    exists s'. split; [exact E|]. split; [|split; [|split]].
    + repeat split.
      * apply (replaced_seg _ _ _ _ _ Rp); auto; lia.
      * apply (replaced_unm_ok _ _ _ _ _ Rp); auto; try lia; tauto.
      * destruct Rp as (l1 & mids & l2 & front & back & _ & -> & lo & hi & _ & _ & _ & _ & _ & _ & _ & T & _).
        destruct (T Ad) as (T1 & T2). rewrite app_assoc, map_app. cbn [map].
        apply adjI_glue; [apply adjI_snoc_mapped; assumption|].
        cbn [adjI]. split; [|exact T2]. destruct (map ri (back ++ l2)); tauto.
    + intros f Of a Ha. rewrite (replaced_look _ _ _ _ _ a Rp) by (auto; lia).
      cbn [ideal_step]. rewrite Ix. destruct ((r_start r <=? a) && (a <=? r_end r)); [reflexivity|auto].
    + destruct Rp as (l1 & mids & l2 & front & back & _ & -> & lo & hi & _ & _ & _ & _ & _ & _ & _ & _ & (T1 & T2) & _).
      cbn [op_start op_end]. rewrite app_assoc. apply bnd_app; [exact T1|].
      constructor; [|exact T2]. split; left; assumption.
    + intros n In_ _ Hd. destruct Rp as (l1 & mids & l2 & front & back & _ & -> & lo & hi & _ & _ & _ & _ & _ & _ & _ & _ & _ & T).
      cbn [op_start op_end] in Hd. specialize (T n In_ Hd). rewrite !in_app_iff in *. cbn [In]. rewrite in_app_iff. tauto.
  - destruct (erase_good s st en G U V Sf) as (s' & E & G' & U' & L & Ad' & Bd & Kp).
    exists s'. split; [exact E|]. split; [unfold inv; auto|]. split; [|split; [exact Bd|exact Kp]].
    intros f Of a Ha. rewrite L. cbn [ideal_step]. destruct ((st <=? a) && (a <=? en)); [reflexivity|auto].
Qed.

Lemma run_good ops : forall s f,
  inv s -> obs f s -> safe_history M s ops ->
  exists s', as_run M s ops = Some s' /\ inv s' /\ obs (ideal_run f ops) s'.
Proof.
  induction ops as [|o ops IH]; intros s f I O H; cbn [as_run].
  - exists s. auto.
  - cbn [safe_history] in H. destruct H as (V & Sf & H).
    destruct (step_good s o I V Sf) as (s' & E & I' & O' & _). rewrite E in *.
    destruct (IH s' (ideal_step f o) I' (O' f O) H) as (s'' & E2 & I2 & O2).
    exists s''. auto.
Qed.

Lemma obs_create : obs ideal_init (as_create M).
Proof.
  intros a Ha. unfold as_create. cbn [nodes]. apply looki_cons_in. unfold rs, re. cbn. lia.
Qed.

Lemma good_partition s : good s -> partition M s.
Proof.
  intros G. unfold partition. split.
  - intros n In_. apply seg_bounds in G. rewrite Forall_forall in G. specialize (G n In_).
    unfold rs, re in G. lia.
  - intros a Ha. destruct (seg_find _ _ _ a G) as (l1 & n & l2 & E & S1 & K & B & S2); [lia|].
    exists n. rewrite E. split; [apply in_or_app; right; left; reflexivity|].
    split; [exact B|]. intros n' In_ C. apply in_app_or in In_. destruct In_ as [In_|[->|In_]]; [|reflexivity|].
    + exfalso. apply seg_bounds in S1. rewrite Forall_forall in S1. specialize (S1 n' In_).
      unfold contains, rs, re in *. lia.
    + exfalso. apply seg_bounds in S2. rewrite Forall_forall in S2. specialize (S2 n' In_).
      unfold contains, rs, re in *. lia.
Qed.

Lemma inv_merged s : inv s -> merged s.
Proof.
  intros (G & _ & A) n n' I I' Hadj Hu Hu'. unfold good in G.
  apply in_split in I. destruct I as (l1 & l2 & E). rewrite E in *.
  rewrite seg_app in G. destruct G as (mid & S1 & K & R & B & S2).
  assert (Hh : exists t, l2 = n' :: t).
  { apply in_app_or in I'. destruct I' as [I'|[->|I']].
    - exfalso. apply seg_bounds in S1. rewrite Forall_forall in S1. specialize (S1 n' I').
      unfold rs, re in *. lia.
    - exfalso. unfold rs, re in *. lia.
    - destruct l2 as [|h t]; [destruct I'|]. cbn [seg] in S2. destruct S2 as (K2 & R2 & B2 & S3).
      destruct I' as [->|I']; [eauto|]. exfalso. apply seg_bounds in S3.
      rewrite Forall_forall in S3. specialize (S3 n' I'). unfold rs, re in *. lia. }
  destruct Hh as (t & ->). rewrite map_app in A. apply adjI_app_r in A. cbn [map adjI] in A.
  destruct A as (A & _). apply A. split; assumption.
Qed.

(** *** Aligned layouts are always safe *)

Definition algn (g : Z) (l : list node) : Prop :=
  Forall (fun n => rs n mod g = 0 /\ (re n + 1) mod g = 0) l.

Lemma bnd_algn g l s e l' :
  algn g l -> s mod g = 0 -> (e + 1) mod g = 0 -> bnd l s e l' -> algn g l'.
Proof.
  intros A Hs He B. unfold algn, bnd in *. rewrite Forall_forall in *. intros n I.
  specialize (B n I). destruct B as (B1 & B2). split.
  - destruct B1 as [->|[->|B1]]; auto. apply in_map_iff in B1. destruct B1 as (m & <- & Im). apply A; auto.
  - destruct B2 as [->|[->|B2]]; auto.
    + replace (s - 1 + 1) with s by lia. auto.
    + apply in_map_iff in B2. destruct B2 as (m & <- & Im). apply A; auto.
Qed.

Lemma aligned_safe g ops : 1 < g -> forall s,
  inv s -> algn g (nodes s) ->
  Forall (fun o => valid_op M o /\ aligned_op g o) ops -> safe_history M s ops.
Proof.
  intros Hg. induction ops as [|o ops IH]; intros s I A H; cbn [safe_history]; [trivial|].
  inversion_clear H as [|? ? (V & Al) H']. destruct Al as (A1 & A2).
  assert (Sf : safe_end s o).
  { intros n In_ Hn Hlt. exfalso. unfold algn in A. rewrite Forall_forall in A.
    destruct (A n In_) as (An & _). unfold rs in An. rewrite Hn in An.
    rewrite Z.add_mod, An, (Z.mod_small 1) in A2 by lia.
    rewrite Z.mod_small in A2; lia. }
  split; [exact V|]. split; [exact Sf|].
  destruct (step_good s o I V Sf) as (s' & E & I' & _ & Bd & _). rewrite E.
  apply IH; auto. exact (bnd_algn g _ _ _ _ A A1 A2 Bd).
Qed.

Lemma algn_create g : 0 < g -> (M + 1) mod g = 0 -> algn g (nodes (as_create M)).
Proof.
  intros Hg H. constructor; [|constructor]. unfold rs, re. cbn [n_reg r_start r_end].
  split; [apply Z.mod_0_l; lia|exact H].
Qed.

(** *** The case the code gets wrong *)

Lemma unsafe_cut s o :
  good s -> valid_op M o ->
  (exists n, In n (nodes s) /\ rs n = op_end o /\ op_start o < op_end o /\ op_end o < re n) ->
  exists l1 n lm nx l3, nodes s = l1 ++ n :: lm ++ nx :: l3 /\
    rs nx = op_end o /\ op_end o < re nx /\ rs n <= op_start o <= re n /\ re n < op_end o /\
    n_key n = rs n /\ n_key nx = rs nx /\
    get_it (nodes s) (op_start o) = Some n /\
    find_reach (nodes s) (n_key n) (op_end o) = Some nx /\
    seg 0 l1 (rs n) /\ seg (re n + 1) lm (rs nx) /\ seg (re nx + 1) l3 (M + 1).
Proof.
  intros G (V1 & V2 & _) (nb & Ib & Rb & Lt & Eb).
  destruct (locate s (op_start o)) as (l1 & n & l2 & E & S1 & K & B & S2 & Gi); [exact G|lia|].
  assert (Hn : re n < op_end o).
  { destruct (Z_lt_ge_dec (re n) (op_end o)) as [|Hge]; [assumption|exfalso].
    destruct (good_partition s G) as (_ & P). destruct (P (op_end o)) as (q & _ & _ & Uq); [lia|].
    assert (nb = q) by (apply Uq; [exact Ib|unfold contains, rs, re in *; lia]).
    assert (n = q).
    { apply Uq; [|unfold contains, rs, re in *; lia]. rewrite E. apply in_or_app. right. left. reflexivity. }
    subst. lia. }
  destruct (locate2 s (op_start o) (op_end o) n l1 l2)
    as (lm & nx & l3 & E2 & _ & _ & T1 & K2 & B2 & T2 & Fr); [exact G|exact E|lia|lia|].
  assert (nx = nb) as ->.
  { destruct (good_partition s G) as (_ & P). destruct (P (op_end o)) as (q & _ & _ & Uq); [lia|].
    transitivity q; [|symmetry]; apply Uq; try (unfold contains, rs, re in *; lia); [|exact Ib].
    rewrite E, E2. apply in_or_app. right. right. apply in_or_app. right. left. reflexivity. }
  exists l1, n, lm, nb, l3. rewrite E2 in E. repeat split; auto; lia.
Qed.

Definition op_info (o : asop) : rinfo :=
  match o with OpInsert r => r_info r | OpErase _ _ => info_default end.

Lemma unsafe_step s o :
  inv s -> valid_op M o ->
  (exists n, In n (nodes s) /\ rs n = op_end o /\ op_start o < op_end o /\ op_end o < re n) ->
  exists s', as_step M s o = Some s' /\ lookup s' (op_end o + 1) = Some (op_info o).
Proof.
  intros (G & U & _) V Hx. destruct (unsafe_cut s o G V Hx)
    as (l1 & n & lm & nx & l3 & E & Rx & Ex & Bn & En & Kn & Kx & Gi & Fr & S1 & S2 & S3).
  destruct V as (V1 & V2 & _).
  pose proof (seg_le _ _ _ S1). pose proof (seg_le _ _ _ S2). pose proof (seg_le _ _ _ S3).
  destruct s as [ns nid]. unfold good in G. cbn [nodes] in *. subst ns.
  destruct (split_front_mid l1 n (lm ++ nx :: l3) nid (op_start o) 0) as (nid' & m & Eq & Km & Rm & Em & Im);
    [lia|exact G|lia|].
  assert (Er : erase_range (l1 ++ front_of (op_start o) n ++ m :: lm ++ nx :: l3) (op_start o) (n_key nx)
               = (l1 ++ front_of (op_start o) n) ++ l3).
  { change (m :: lm ++ nx :: l3) with ((m :: lm) ++ [nx] ++ l3).
    replace ((m :: lm) ++ [nx] ++ l3) with ((m :: lm ++ [nx]) ++ l3) by (cbn [app]; rewrite <- app_assoc; reflexivity).
    rewrite app_assoc. apply erase_mid.
    - apply Forall_app. split; [eapply seg_klt; [exact S1|lia]|eapply seg_klt; [apply front_seg; lia|lia]].
    - constructor; [lia|]. apply Forall_app. split.
      + apply seg_keys in S2. eapply Forall_impl; [|exact S2]. cbn. lia.
      + constructor; [lia|constructor].
    - eapply seg_kgt; [exact S3|lia]. }
  assert (SA : seg 0 (l1 ++ front_of (op_start o) n) (op_start o)).
  { rewrite seg_app. exists (rs n). split; [exact S1|apply front_seg; lia]. }
  destruct o as [r|st en]; cbn [as_step op_start op_end op_info] in *.
  - unfold insert. cbn [nodes]. rewrite Gi.
    change (r_end (n_reg n)) with (re n). change (r_start (n_reg n)) with (rs n).
    destruct (r_end r <=? re n) eqn:E1; [lia|]. rewrite Fr.
    change (r_start (n_reg nx)) with (rs nx). rewrite Rx, Z.eqb_refl, Eq. cbn [nodes next_id].
    rewrite Er. eexists. split; [reflexivity|]. unfold lookup, search. cbn [nodes].
    rewrite emplace_mid; [|eapply seg_klt; [exact SA|cbn; lia]|eapply seg_kgt; [exact S3|cbn; lia]].
    rewrite get_it_mid; [reflexivity| | |].
    + apply klt_kle. eapply seg_klt; [exact SA|lia].
    + cbn. lia.
    + eapply seg_kgt; [exact S3|lia].
  - rewrite erase_removed. unfold removed. cbn [nodes]. rewrite Gi.
    change (r_end (n_reg n)) with (re n). change (r_start (n_reg n)) with (rs n).
    destruct (en <=? re n) eqn:E1; [lia|]. rewrite Fr.
    change (r_start (n_reg nx)) with (rs nx). rewrite Rx, Z.eqb_refl, Eq. cbn [nodes next_id].
    rewrite Er.
    destruct (erase_merge (mk_as ((l1 ++ front_of st n) ++ l3) nid')
                (l1 ++ front_of st n) l3 st en (re nx + 1))
      as (s' & x1 & B1 & A2 & x2 & Es & En' & M1 & M2); auto; try lia.
    exists s'. split; [exact Es|]. unfold lookup, search. rewrite En'.
    assert (P1 : n_key x1 = st /\ ri x1 = info_default /\ kgt B1 (en + 1)).
    { inversion M1; subst x1 B1; (split; [reflexivity|]); (split; [reflexivity|]).
      - eapply seg_kgt; [exact S3|lia].
      - subst l3. cbn [seg] in S3. destruct S3 as (?&?&?&S3). eapply seg_kgt; [exact S3|lia]. }
    destruct P1 as (P1 & P2 & P3).
    inversion M2; subst A2 x2.
    + rewrite get_it_mid; [cbn; f_equal; exact P2| |lia|exact P3].
      apply klt_kle. eapply seg_klt; [exact SA|lia].
    + rewrite H2 in SA. rewrite seg_app in SA. destruct SA as (mid & T1 & Kp & Rpp & Bp & Ep).
      cbn [seg] in Ep.
      rewrite get_it_mid; [| |change (n_key (set_end (re x1) p)) with (n_key p); lia|exact P3].
      * cbn. f_equal. change (ri p = info_default).
        assert (Ip : In p (l1 ++ front_of st n)) by (rewrite H2; apply in_or_app; right; left; reflexivity).
        unfold unm_ok in U. rewrite Forall_forall in U.
        apply in_app_or in Ip. destruct Ip as [Ip|Ip].
        -- apply U; [apply in_or_app; left; exact Ip|assumption].
        -- pose proof (front_info n st) as Fi. rewrite Forall_forall in Fi. rewrite (Fi p Ip) in *.
           apply U; [apply in_or_app; right; left; reflexivity|assumption].
      * apply klt_kle. eapply seg_klt; [exact T1|lia].
Qed.

End WithM.
