(** * JIT memory blocks never overlap and are reusable (C37) *)

From Coq Require Import ZArith Bool List Lia Permutation.
From Verif Require Import AllocModel.
Import ListNotations.
Local Open Scope Z_scope.

(** ** Specification *)
Definition disjoint (a b : block) : Prop := fst a + snd a <= fst b \/ fst b + snd b <= fst a.
Definition inside (x : Z) (b : block) : Prop := fst b <= x < fst b + snd b.
(** the host returns memory that is not mapped: neither the pool nor a big block *)
Definition fresh (area : Z) (s : mgr) (b : block) : Prop :=
  0 < fst b /\ disjoint b (area, (max_tc + 1) * 4096) /\ Forall (disjoint b) (bigs s).
Definition pooled (b : block) : bool := snd b =? 4096.

(** Histories: [live] lists the blocks handed out and not freed.  Between calls the owner of
    a block may write anything into it. *)
Inductive reach (area : Z) : mgr -> list block -> Prop :=
| r_new : forall m, reach area (new area m) []
| r_alloc : forall s live n os b s', reach area s live -> 0 < n <= 2 ^ 63 -> (4096 < n -> fresh area s (os, round_up n)) ->
    allocate n os s = Some (b, s') -> reach area s' (b :: live)
| r_release : forall s l1 b l2, reach area s (l1 ++ b :: l2) -> reach area (release (fst b) s) (l1 ++ l2)
| r_write : forall s live m, reach area s live -> (forall x, m x = nexts s x \/ exists b, In b live /\ inside x b) ->
    reach area (mkmgr m (head s) (bigs s)) live
| r_destroy : forall s live, reach area s live -> reach area (destroy area s) [].

(** ** Proofs *)
Fixpoint chain (m : Z -> Z) (h : Z) (l : list Z) : Prop :=
  match l with [] => h = 0 | x :: t => h = x /\ chain m (m x) t end.
Definition pool (area : Z) (n : nat) : list Z := map (fun i => area + Z.of_nat i * BS) (seq 0 n).

Lemma chain_ext m m' h l : (forall x, In x l -> m' x = m x) -> chain m h l -> chain m' h l.
Proof.
  revert h. induction l as [| x l IH]; intros h E; [exact (fun H => H) |]. intros [H C]. split; [exact H |].
  rewrite E by now left. apply IH; [intros; apply E; now right | exact C].
Qed.
Lemma init_loop_below n a m x : x < a -> init_loop n a m x = m x.
Proof.
  revert a m. induction n as [| n IH]; intros a m H; cbn [init_loop].
  - unfold put. now rewrite (proj2 (Z.eqb_neq x a)) by lia.
  - rewrite IH by (unfold BS; lia). unfold put. now rewrite (proj2 (Z.eqb_neq x a)) by lia.
Qed.
Lemma pool_S a n : pool a (S n) = a :: pool (a + BS) n.
Proof.
  unfold pool. cbn [seq map]. f_equal; [lia |]. rewrite <- seq_shift, map_map. apply map_ext. intros i. lia.
Qed.
Lemma init_chain n a m : chain (init_loop n a m) a (pool a (S n)).
Proof.
  revert a m. induction n as [| n IH]; intros a m; rewrite pool_S.
  - cbn. split; [reflexivity |]. unfold put. now rewrite Z.eqb_refl.
  - cbn [init_loop chain]. split; [reflexivity |]. rewrite init_loop_below by (unfold BS; lia). unfold put at 2. rewrite Z.eqb_refl. apply IH.
Qed.
Lemma nblocks_S : nblocks = S (nblocks - 1).
Proof. unfold nblocks, max_tc. lia. Qed.
Lemma nblocks_Z : Z.of_nat nblocks = 32768.
Proof. unfold nblocks, max_tc. lia. Qed.
Opaque nblocks.
Lemma init_pool_chain a m : chain (init_pool a m) a (pool a nblocks).
Proof. unfold init_pool. rewrite nblocks_S at 2. apply init_chain. Qed.
Lemma in_pool a n x : In x (pool a n) <-> exists i, 0 <= i < Z.of_nat n /\ x = a + i * BS.
Proof.
  unfold pool. rewrite in_map_iff. split.
  - intros (i & <- & H). apply in_seq in H. exists (Z.of_nat i). lia.
  - intros (i & H & ->). exists (Z.to_nat i). split; [rewrite Z2Nat.id by lia; reflexivity |]. apply in_seq. lia.
Qed.
Lemma pool_nodup a n : NoDup (pool a n).
Proof.
  revert a. induction n as [| n IH]; intros a; [constructor |]. rewrite pool_S. constructor; [| apply IH].
  rewrite in_pool. intros (i & H & E). unfold BS in E. lia.
Qed.

Lemma round_up_spec n : 4096 < n <= 2 ^ 63 -> n <= round_up n /\ 4096 < round_up n.
Proof.
  intros H. unfold round_up. assert (E : Z.land (n + 4095) (Z.lxor (2 ^ 64 - 1) 4095) = (n + 4095) / 2 ^ 12 * 2 ^ 12).
  { rewrite <- Z.shiftl_mul_pow2, <- Z.shiftr_div_pow2, <- Z.ldiff_ones_r by lia. change (2 ^ 64 - 1) with (Z.ones 64). change 4095 with (Z.ones 12).
    apply Z.bits_inj'. intros k Hk. rewrite Z.land_spec, Z.ldiff_spec, Z.lxor_spec. destruct (Z.ltb_spec k 64).
    - rewrite (Z.ones_spec_low 64) by lia. now destruct (Z.testbit (Z.ones 12) k).
    - rewrite !(Z.ones_spec_high _ k) by lia. cbn. rewrite andb_false_r, andb_true_r. symmetry. apply Z.bits_above_log2; [change (Z.ones 12) with 4095; lia |].
      apply Z.log2_lt_pow2; [change (Z.ones 12) with 4095; lia |]. apply Z.lt_le_trans with (2 ^ 64); [change (Z.ones 12) with 4095; lia | apply Z.pow_le_mono_r; lia]. }
  rewrite E. pose proof (Z.div_mod (n + 4095) (2 ^ 12) ltac:(lia)). pose proof (Z.mod_pos_bound (n + 4095) (2 ^ 12) ltac:(lia)). change (2 ^ 12) with 4096 in *. lia.
Qed.

Definition big_ok (area : Z) (b : block) : Prop := 0 < fst b /\ 4096 < snd b /\ disjoint b (area, (max_tc + 1) * 4096).
Definition Inv (area : Z) (s : mgr) (live : list block) : Prop :=
  exists L, chain (nexts s) (head s) L /\ Permutation (L ++ map fst (filter pooled live)) (pool area nblocks) /\
    Permutation (bigs s) (filter (fun b => negb (pooled b)) live) /\ Forall (big_ok area) (bigs s) /\ ForallOrdPairs disjoint (bigs s).

Lemma disjoint_sym a b : disjoint a b -> disjoint b a.
Proof. unfold disjoint. tauto. Qed.
Lemma fop_perm l l' : Permutation l l' -> ForallOrdPairs disjoint l -> ForallOrdPairs disjoint l'.
Proof.
  induction 1 as [| x l l' P IH | x y l | l1 l2 l3 P1 IH1 P2 IH2]; intros F.
  - exact F.
  - inversion F; subst. constructor; [eapply Permutation_Forall; eauto | auto].
  - inversion F as [| ? ? A B]; subst. inversion B as [| ? ? C D]; subst. inversion A; subst. constructor; [constructor; [now apply disjoint_sym | assumption] | constructor; assumption].
  - auto.
Qed.
Lemma fop_app l l' : ForallOrdPairs disjoint l -> ForallOrdPairs disjoint l' -> (forall a b, In a l -> In b l' -> disjoint a b) -> ForallOrdPairs disjoint (l ++ l').
Proof.
  intros A B C. induction A as [| x l F A IH]; [exact B |]. cbn. constructor; [| apply IH; intros; apply C; [now right | assumption]].
  apply Forall_app. split; [exact F |]. apply Forall_forall. intros y Hy. apply C; [now left | exact Hy].
Qed.
Lemma filter_split {A} (f : A -> bool) l : Permutation l (filter f l ++ filter (fun x => negb (f x)) l).
Proof.
  induction l as [| x l IH]; [constructor |]. cbn [filter]. destruct (f x); cbn [negb]; [now constructor |]. now apply Permutation_cons_app.
Qed.
Lemma fop_filter_key (l : list block) b : In b l -> ForallOrdPairs disjoint l -> Forall (fun x => 0 < snd x) l ->
  forall l1 l2, l = l1 ++ b :: l2 -> filter (fun x => negb (fst x =? fst b)) l = l1 ++ l2.
Proof.
  intros I F P l1 l2 ->. assert (K : forall x, In x (l1 ++ l2) -> (fst x =? fst b) = false).
  { intros x Hx. apply Z.eqb_neq. intros E. pose proof (Permutation_middle l1 l2 b) as PM. apply Permutation_sym in PM. apply (fop_perm _ _ PM) in F.
    inversion F as [| ? ? A B]; subst. rewrite Forall_forall in A. specialize (A x Hx). rewrite Forall_forall in P.
    assert (0 < snd x) by (apply P; apply in_app_iff; apply in_app_iff in Hx as [H | H]; [now left | right; now right]).
    assert (0 < snd b) by (apply P, in_app_iff; right; now left). unfold disjoint in A. rewrite E in A. lia. }
  rewrite filter_app. cbn [filter]. rewrite Z.eqb_refl. cbn [negb].
  assert (G : forall l : list block, (forall x, In x l -> (fst x =? fst b) = false) -> filter (fun x => negb (fst x =? fst b)) l = l).
  { induction l as [| y l IH]; intros H; [reflexivity |]. cbn [filter]. rewrite H by now left. cbn [negb]. now rewrite IH by (intros; apply H; now right). }
  rewrite !G; [reflexivity | |]; intros x Hx; apply K, in_app_iff; [now right | now left].
Qed.

Lemma new_inv area m bs : 0 < area -> bs = [] -> Inv area (mkmgr (init_pool area m) area bs) [].
Proof.
  intros A ->. exists (pool area nblocks). cbn [nexts head bigs filter map]. rewrite app_nil_r. split; [apply init_pool_chain |]. split; [apply Permutation_refl |]. split; [apply perm_nil |]. split; constructor.
Qed.

Lemma inv_free_not_live area (s : mgr) live L b : 0 < area -> Permutation (L ++ map fst (filter pooled live)) (pool area nblocks) -> In b live -> pooled b = true -> ~ In (fst b) L.
Proof.
  intros A P I PB H. assert (N : NoDup (L ++ map fst (filter pooled live))) by (eapply Permutation_NoDup; [symmetry; exact P | apply pool_nodup]).
  assert (In (fst b) (map fst (filter pooled live))) by (apply in_map, filter_In; now split). clear - N H H0.
  induction L as [| x L IH]; [destruct H |]. cbn in N. apply NoDup_cons_iff in N as [N1 N2]. destruct H as [-> | H]; [apply N1, in_app_iff; now right | now apply IH].
Qed.
(** a live pooled address lies in the area *)
Lemma inv_pool_addr area live L b : Permutation (L ++ map fst (filter pooled live)) (pool area nblocks) -> In b live -> pooled b = true ->
  exists i, 0 <= i < max_tc /\ fst b = area + i * 4096.
Proof.
  intros P I PB. assert (In (fst b) (pool area nblocks)) as H.
  { eapply Permutation_in; [exact P |]. apply in_app_iff. right. apply in_map, filter_In. now split. }
  apply in_pool in H as (i & Hi & E). exists i. rewrite nblocks_Z in Hi. unfold BS, max_tc in *. now split.
Qed.

Lemma reach_inv area s live : 0 < area -> reach area s live -> Inv area s live.
Proof.
  intros A. induction 1 as [m | s live n os b s' R IH Hn FR E | s l1 b l2 R IH | s live m R IH W | s live R IH].
  - exact (new_inv area m [] A eq_refl).
  - destruct IH as (L & C & P & PB & BO & FO). unfold allocate in E.
    destruct (Z.eqb_spec n 0); [lia |]. destruct (Z.ltb_spec BS n) as [Hb | Hb].
    + unfold BS in Hb. specialize (FR Hb). injection E as <- <-. destruct (round_up_spec n ltac:(lia)) as [R1 R2].
      assert (PF : pooled (os, round_up n) = false) by (unfold pooled; cbn [snd]; apply Z.eqb_neq; lia).
      exists L. cbn [nexts head bigs filter]. rewrite PF. cbn [negb]. destruct FR as (F1 & F2 & F3).
      split; [exact C |]. split; [exact P |]. split; [now constructor |]. split; [constructor; [split; [exact F1 | split; [exact R2 | exact F2]] | exact BO] |]. constructor; assumption.
    + destruct (Z.eqb_spec (head s) 0) as [| NZ]; [discriminate |]. injection E as <- <-. destruct L as [| h L]; cbn [chain] in C; [contradiction |].
      destruct C as [C1 C]. exists L. cbn [nexts head bigs]. assert (PF : pooled (head s, BS) = true) by reflexivity. cbn [filter]. rewrite PF. cbn [negb map fst].
      split; [rewrite C1; exact C |]. split; [| split; [exact PB | split; assumption]].
      rewrite <- P. rewrite C1. cbn. symmetry. apply Permutation_middle.
  - destruct IH as (L & C & P & PB & BO & FO). unfold release.
    assert (IB : In b (l1 ++ b :: l2)) by (apply in_app_iff; right; now left).
    assert (Z1 : forall x, In x (bigs s) -> 0 < fst x /\ 0 < snd x) by (intros x Hx; rewrite Forall_forall in BO; destruct (BO x Hx) as (? & ? & _); lia).
    destruct (pooled b) eqn:PF.
    + destruct (inv_pool_addr area _ L b P IB PF) as (i & Hi & EA).
      rewrite (proj2 (Z.eqb_neq (fst b) 0)) by lia.
      assert (existsb (fun x => fst x =? fst b) (bigs s) = false) as ->.
      { apply not_true_is_false. intros X. apply existsb_exists in X as (x & Hx & X). apply Z.eqb_eq in X. rewrite Forall_forall in BO. destruct (BO x Hx) as (_ & S & D).
        unfold disjoint in D. cbn [fst snd] in D. rewrite X, EA in D. unfold max_tc in *. lia. }
      exists (fst b :: L). cbn [nexts head bigs chain]. split; [split; [reflexivity |] |].
      * unfold put at 2. rewrite Z.eqb_refl. apply (chain_ext (nexts s)); [| exact C]. intros x Hx. unfold put. rewrite (proj2 (Z.eqb_neq x (fst b))); [reflexivity |].
        intros ->. now apply (inv_free_not_live area s _ L b A P IB PF).
      * split; [| split; [| split; assumption]].
        -- rewrite <- P. rewrite !filter_app. cbn [filter]. rewrite PF. rewrite !map_app. cbn [map]. rewrite <- app_comm_cons.
           rewrite !app_assoc. apply Permutation_middle.
        -- rewrite PB. rewrite !filter_app. cbn [filter]. rewrite PF. reflexivity.
    + assert (IN : In b (bigs s)). { eapply Permutation_in; [symmetry; exact PB |]. apply filter_In. split; [exact IB | now rewrite PF]. }
      destruct (Z1 b IN) as [Z2 Z3]. rewrite (proj2 (Z.eqb_neq (fst b) 0)) by lia.
      assert (existsb (fun x => fst x =? fst b) (bigs s) = true) as -> by (apply existsb_exists; exists b; split; [exact IN | apply Z.eqb_refl]).
      destruct (in_split _ _ IN) as (q1 & q2 & EQ).
      rewrite (fop_filter_key (bigs s) b IN FO ltac:(apply Forall_forall; intros x Hx; now apply Z1) q1 q2 EQ).
      assert (FL : forall f : block -> bool, f b = false -> filter f (l1 ++ b :: l2) = filter f (l1 ++ l2)) by (intros f F; rewrite !filter_app; cbn [filter]; now rewrite F).
      exists L. cbn [nexts head bigs]. split; [exact C |]. split; [now rewrite <- (FL pooled PF) |]. split.
      * rewrite EQ in PB. rewrite filter_app in PB. cbn [filter] in PB. rewrite PF in PB. cbn [negb] in PB.
        apply Permutation_app_inv in PB. rewrite PB. now rewrite filter_app.
      * rewrite EQ in BO, FO. split.
        -- apply Forall_app in BO as [B1 B2]. apply Forall_app. split; [exact B1 |]. now inversion B2.
        -- apply (fop_perm _ (b :: q1 ++ q2)) in FO; [now inversion FO | symmetry; apply Permutation_middle].
  - destruct IH as (L & C & P & PB & BO & FO). exists L. cbn [nexts head bigs]. split; [| repeat split; assumption].
    apply (chain_ext (nexts s)); [| exact C]. intros x Hx. destruct (W x) as [H | (b & Ib & H)]; [exact H |]. exfalso.
    assert (XP : In x (pool area nblocks)) by (eapply Permutation_in; [exact P | apply in_app_iff; now left]).
    apply in_pool in XP as (i & Hi & EX). rewrite nblocks_Z in Hi. unfold BS in EX.
    destruct (pooled b) eqn:PF.
    + destruct (inv_pool_addr area _ L b P Ib PF) as (j & Hj & EB). unfold pooled in PF. apply Z.eqb_eq in PF. unfold inside in H. rewrite PF, EB, EX in H.
      assert (i = j) by lia. subst j. apply (inv_free_not_live area s _ L b A P Ib ltac:(unfold pooled; now apply Z.eqb_eq)). now rewrite EB, <- EX.
    + assert (IN : In b (bigs s)) by (eapply Permutation_in; [symmetry; exact PB |]; apply filter_In; split; [exact Ib | now rewrite PF]).
      rewrite Forall_forall in BO. destruct (BO b IN) as (_ & S & D). unfold disjoint in D. cbn [fst snd] in D. unfold inside in H. unfold max_tc in *. lia.
  - exact (new_inv area (nexts s) [] A eq_refl).
Qed.

(** Live blocks never overlap each other, nor the block of the auxiliary functions. *)
Theorem C37_disjoint : forall area s live n, 0 < area -> 0 < n -> reach area s live -> ForallOrdPairs disjoint (non_pooled area n :: live).
Proof.
  intros area s live n A Hn R. destruct (reach_inv area s live A R) as (L & C & P & PB & BO & FO).
  assert (PD : ForallOrdPairs disjoint (filter pooled live)).
  { assert (N : NoDup (map fst (filter pooled live))).
    { assert (N : NoDup (L ++ map fst (filter pooled live))) by (eapply Permutation_NoDup; [symmetry; exact P | apply pool_nodup]).
      clear - N. induction L as [| x L IH]; [exact N |]. cbn in N. apply NoDup_cons_iff in N as [_ N]. now apply IH. }
    assert (Q : forall b, In b (filter pooled live) -> exists i, fst b = area + i * 4096 /\ snd b = 4096).
    { intros b Hb. apply filter_In in Hb as [H1 H2]. destruct (inv_pool_addr area live L b P H1 H2) as (i & _ & E). exists i. split; [exact E |]. now apply Z.eqb_eq. }
    revert N Q. generalize (filter pooled live). induction l as [| x l IH]; intros N Q; [constructor |].
    cbn [map] in N. apply NoDup_cons_iff in N as [N1 N2]. constructor; [| apply IH; [exact N2 | intros; apply Q; now right]].
    apply Forall_forall. intros y Hy. destruct (Q x ltac:(now left)) as (i & E1 & E2). destruct (Q y ltac:(now right)) as (j & E3 & E4).
    assert (i <> j) by (intros ->; apply N1, in_map_iff; exists y; split; [congruence | exact Hy]). unfold disjoint. rewrite E1, E2, E3, E4. lia. }
  assert (BD : ForallOrdPairs disjoint (filter (fun b => negb (pooled b)) live)) by (eapply fop_perm; [exact PB | exact FO]).
  assert (X : forall b, In b live -> (pooled b = true /\ (exists i, 0 <= i < max_tc /\ fst b = area + i * 4096) /\ snd b = 4096) \/ (pooled b = false /\ big_ok area b)).
  { intros b Hb. destruct (pooled b) eqn:PF; [left | right].
    - split; [reflexivity |]. split; [now apply (inv_pool_addr area live L b P) | now apply Z.eqb_eq].
    - split; [reflexivity |]. rewrite Forall_forall in BO. apply BO. eapply Permutation_in; [symmetry; exact PB |]. apply filter_In. split; [exact Hb | now rewrite PF]. }
  constructor.
  - apply Forall_forall. intros b Hb. unfold non_pooled. rewrite (proj2 (Z.eqb_neq n 0)) by lia.
    destruct (X b Hb) as [(_ & (i & Hi & E) & S) | (_ & _ & S & D)]; unfold disjoint in *; cbn [fst snd] in *; unfold BS, max_tc in *; lia.
  - eapply fop_perm; [symmetry; apply (filter_split pooled live) |]. apply fop_app; [exact PD | exact BD |].
    intros a b Ha Hb. apply filter_In in Ha as [Ha Pa]. apply filter_In in Hb as [Hb Pb].
    destruct (X a Ha) as [(_ & (i & Hi & E) & S) | (F & _)]; [| congruence]. destruct (X b Hb) as [(F & _) | (_ & _ & S' & D)]; [rewrite F in Pb; discriminate |].
    unfold disjoint in *. cbn [fst snd] in D. rewrite E, S. unfold max_tc in *. lia.
Qed.
Print Assumptions C37_disjoint.

(** A block is as large as requested. *)
Theorem C37_size : forall n os s b s', 0 < n <= 2 ^ 63 -> allocate n os s = Some (b, s') -> n <= snd b.
Proof.
  intros n os s b s' Hn. unfold allocate. destruct (Z.eqb_spec n 0); [lia |]. destruct (Z.ltb_spec BS n).
  - intros [= <- _]. cbn. apply round_up_spec. unfold BS in *. lia.
  - destruct (head s =? 0); [discriminate |]. intros [= <- _]. cbn. exact H.
Qed.
Print Assumptions C37_size.

Lemma chain_head m h L : Forall (fun x => x <> 0) L -> chain m h L -> (h = 0 <-> L = []).
Proof. destruct L as [| x L]; cbn; [tauto |]. intros F [-> _]. inversion F; subst. split; [contradiction | discriminate]. Qed.
Lemma pool_nonzero area L l : 0 < area -> Permutation (L ++ l) (pool area nblocks) -> Forall (fun x => x <> 0) L.
Proof.
  intros A P. apply Forall_forall. intros x Hx. assert (In x (pool area nblocks)) by (eapply Permutation_in; [exact P | apply in_app_iff; now left]).
  apply in_pool in H as (i & Hi & ->). unfold BS. lia.
Qed.
(** A small request fails only if all the 32768 blocks of the pool are live. *)
Theorem C37_available : forall area s live n os, 0 < area -> reach area s live -> 0 < n <= 4096 ->
  ((exists b s', allocate n os s = Some (b, s')) <-> Z.of_nat (length (filter pooled live)) < 32768) /\ Z.of_nat (length (filter pooled live)) <= 32768.
Proof.
  intros area s live n os A R Hn. destruct (reach_inv area s live A R) as (L & C & P & _).
  assert (LEN : (length L + length (filter pooled live) = nblocks)%nat).
  { apply Permutation_length in P. rewrite app_length, map_length in P. unfold pool in P. now rewrite map_length, seq_length in P. }
  pose proof (chain_head _ _ _ (pool_nonzero area L _ A P) C) as CH. pose proof nblocks_Z as NZ. split; [| lia].
  unfold allocate. rewrite (proj2 (Z.eqb_neq n 0)), (proj2 (Z.ltb_ge BS n)) by (unfold BS; lia). destruct (Z.eqb_spec (head s) 0) as [H | H].
  - apply CH in H. subst L. cbn in LEN. split; [intros (b & s' & E); discriminate | lia].
  - split; [| intros _; eexists; eexists; reflexivity]. intros _. destruct L; [exfalso; apply H; now apply CH |]. cbn in LEN. lia.
Qed.
Print Assumptions C37_available.

(** The block that was just freed is the one that the next small request gets, and the others
    stay as they were. *)
Theorem C37_reuse : forall area s l1 b l2 n os, 0 < area -> reach area s (l1 ++ b :: l2) -> snd b = 4096 -> 0 < n <= 4096 ->
  exists s', allocate n os (release (fst b) s) = Some (b, s') /\ head s' = head s /\ bigs s' = bigs s /\ forall x, x <> fst b -> nexts s' x = nexts s x.
Proof.
  intros area s l1 b l2 n os A R SB Hn. destruct (reach_inv area s _ A R) as (L & C & P & PB & BO & FO).
  assert (PF : pooled b = true) by (unfold pooled; now rewrite SB). assert (IB : In b (l1 ++ b :: l2)) by (apply in_app_iff; right; now left).
  destruct (inv_pool_addr area _ L b P IB PF) as (i & Hi & EA). unfold release. rewrite (proj2 (Z.eqb_neq (fst b) 0)) by lia.
  assert (existsb (fun x => fst x =? fst b) (bigs s) = false) as ->.
  { apply not_true_is_false. intros X. apply existsb_exists in X as (x & Hx & X). apply Z.eqb_eq in X. rewrite Forall_forall in BO. destruct (BO x Hx) as (_ & S & D).
    unfold disjoint in D. cbn [fst snd] in D. rewrite X, EA in D. unfold max_tc in *. lia. }
  unfold allocate. cbn [head nexts bigs]. rewrite (proj2 (Z.eqb_neq n 0)), (proj2 (Z.ltb_ge BS n)) by (unfold BS; lia). rewrite (proj2 (Z.eqb_neq (fst b) 0)) by lia.
  eexists. split; [unfold BS; rewrite <- SB; rewrite <- surjective_pairing; reflexivity |]. cbn [head nexts bigs]. split; [unfold put; now rewrite Z.eqb_refl |]. split; [reflexivity |].
  intros x Hx. unfold put. now rewrite (proj2 (Z.eqb_neq x (fst b)) Hx).
Qed.
Print Assumptions C37_reuse.

(** After all blocks are destroyed, 32768 small requests in a row succeed. *)
Fixpoint allocs (k : nat) (s : mgr) : option (list block * mgr) :=
  match k with
  | O => Some ([], s)
  | S k => match allocate 4096 0 s with
           | Some (b, s1) => match allocs k s1 with Some (l, s2) => Some (b :: l, s2) | None => None end
           | None => None
           end
  end.
Lemma allocs_ok area k : forall s live, 0 < area -> reach area s live -> Z.of_nat (length (filter pooled live) + k) <= 32768 -> exists l s', allocs k s = Some (l, s') /\ length l = k.
Proof.
  induction k as [| k IH]; intros s live A R H; [exists [], s; split; reflexivity |]. cbn [allocs].
  destruct (proj2 (proj1 (C37_available area s live 4096 0 A R ltac:(lia)))) as (b & s1 & E); [lia |]. rewrite E.
  assert (PF : pooled b = true).
  { unfold allocate in E. cbn in E. destruct (head s =? 0); [discriminate |]. injection E as <- _. reflexivity. }
  assert (R1 : reach area s1 (b :: live)) by (eapply r_alloc with (n := 4096) (os := 0); [exact R | lia | lia | exact E]).
  destruct (IH s1 (b :: live) A R1) as (l & s2 & E2 & LL); [cbn [filter]; rewrite PF; cbn [length]; lia |]. rewrite E2. exists (b :: l), s2. split; [reflexivity | cbn; lia].
Qed.
Theorem C37_full_again : forall area s live, 0 < area -> reach area s live -> exists l s', allocs (Z.to_nat 32768) (destroy area s) = Some (l, s') /\ Z.of_nat (length l) = 32768.
Proof.
  intros area s live A R. destruct (allocs_ok area (Z.to_nat 32768) (destroy area s) [] A (r_destroy area s live R)) as (l & s' & E & LL); [cbn [filter length]; lia |].
  exists l, s'. split; [exact E | lia].
Qed.
Print Assumptions C37_full_again.

(** The main loop never exhausts the pool: as long as blocks are allocated, counted and freed
    as in the loop, every allocation succeeds. *)
Inductive client_reach (area : Z) : client -> list block -> Prop :=
| c_new : forall m, client_reach area (mkclient 0 (new area m)) []
| c_insert : forall c live n os c', client_reach area c live -> 0 < n <= 2 ^ 63 -> (4096 < n -> fresh area (mem (purge_if_full area c)) (os, round_up n)) ->
    translate_insert area n os c = Some c' -> client_reach area c' ((match allocate n os (mem (purge_if_full area c)) with Some (b, _) => b | None => (0, 0) end) :: if num_tc c =? 32768 then [] else live)
| c_once : forall c live n os c', client_reach area c live -> 0 < n <= 2 ^ 63 -> (4096 < n -> fresh area (mem (purge_if_full area c)) (os, round_up n)) ->
    translate_once area n os c = Some c' -> client_reach area c' (if num_tc c =? 32768 then [] else live).
Lemma client_inv area c live : client_reach area c live -> reach area (mem c) live /\ Z.of_nat (length live) <= num_tc c <= 32768.
Proof.
  assert (P : forall c live, reach area (mem c) live -> Z.of_nat (length live) <= num_tc c <= 32768 ->
    reach area (mem (purge_if_full area c)) (if num_tc c =? 32768 then [] else live) /\
    Z.of_nat (length (if num_tc c =? 32768 then [] else live)) <= num_tc (purge_if_full area c) < 32768).
  { intros c0 live0 R B. unfold purge_if_full, max_tc. destruct (Z.eqb_spec (num_tc c0) 32768); cbn [mem num_tc length]; [split; [eapply r_destroy; exact R | lia] | split; [exact R | lia]]. }
  induction 1 as [m | c live n os c' R [IR IB] Hn F E | c live n os c' R [IR IB] Hn F E].
  - split; [constructor | cbn; lia].
  - destruct (P c live IR IB) as [PR PB]. unfold translate_insert in E. destruct (allocate n os (mem (purge_if_full area c))) as [[b s] |] eqn:EA; [| discriminate].
    injection E as <-. cbn [mem num_tc length]. split; [eapply r_alloc; eauto |]. rewrite Z.mod_small by lia. lia.
  - destruct (P c live IR IB) as [PR PB]. unfold translate_once in E. destruct (allocate n os (mem (purge_if_full area c))) as [[b s] |] eqn:EA; [| discriminate].
    injection E as <-. cbn [mem num_tc]. split; [| lia]. apply (r_release area s [] b). cbn [app]. eapply r_alloc; eauto.
Qed.
Theorem C37_loop_never_exhausts : forall area c live n os, 0 < area -> client_reach area c live -> 0 < n <= 2 ^ 63 ->
  translate_insert area n os c <> None /\ translate_once area n os c <> None.
Proof.
  intros area c live n os A R Hn. destruct (client_inv area c live R) as [IR IB].
  assert (X : exists b s, allocate n os (mem (purge_if_full area c)) = Some (b, s)).
  { destruct (Z.ltb_spec 4096 n) as [H | H].
    - unfold allocate. rewrite (proj2 (Z.eqb_neq n 0)), (proj2 (Z.ltb_lt BS n)) by (unfold BS; lia). eexists. eexists. reflexivity.
    - unfold purge_if_full, max_tc. assert (FL : forall l, (length (filter pooled l) <= length l)%nat) by (induction l as [| x l IH]; cbn; [lia |]; destruct (pooled x); cbn; lia).
      destruct (Z.eqb_spec (num_tc c) 32768); cbn [mem].
      + apply (proj1 (C37_available area (destroy area (mem c)) [] n os A (r_destroy area _ live IR) ltac:(lia))). cbn. lia.
      + apply (proj1 (C37_available area (mem c) live n os A IR ltac:(lia))). specialize (FL live). lia. }
  destruct X as (b & s & E). unfold translate_insert, translate_once. rewrite E. split; discriminate.
Qed.
Print Assumptions C37_loop_never_exhausts.

(** The guarantee does not extend to nested runs: a block that runs once is not counted, so with
    32767 counted blocks the pool is exhausted when a callback made by such a block translates
    one more.  The access to the null pointer is reached from a state of the main loop. *)
Lemma client_fill area : 0 < area -> forall k, 0 <= k -> k < 32768 ->
  exists c live, client_reach area c live /\ num_tc c = k /\ Z.of_nat (length (filter pooled live)) = k.
Proof.
  intros A k H2. pattern k. apply natlike_ind; [| | exact H2].
  - intros _. exists (mkclient 0 (new area (fun _ => 0))), []. split; [constructor | split; reflexivity].
  - clear k H2. intros k Hk IH H1. destruct IH as (c & live & R & N & F); [lia |].
    pose proof (proj1 (C37_loop_never_exhausts area c live 1 0 A R ltac:(lia))) as X.
    destruct (translate_insert area 1 0 c) as [c' |] eqn:E; [| contradiction].
    pose proof (c_insert area c live 1 0 c' R ltac:(lia) ltac:(lia) E) as R'.
    rewrite (proj2 (Z.eqb_neq (num_tc c) 32768)) in R' by lia.
    unfold translate_insert in E. assert (P : purge_if_full area c = c) by (unfold purge_if_full, max_tc; now rewrite (proj2 (Z.eqb_neq (num_tc c) 32768)) by lia).
    rewrite P in E, R'. destruct (allocate 1 0 (mem c)) as [[b s] |] eqn:EA; [| discriminate].
    eexists. eexists. split; [exact R' |]. injection E as <-. cbn [num_tc]. split; [rewrite N, Z.mod_small by lia; lia |].
    assert (PF : pooled b = true).
    { unfold allocate in EA. cbn in EA. destruct (head (mem c) =? 0); [discriminate |]. injection EA as <- _. reflexivity. }
    cbn [filter]. rewrite PF. cbn [length]. lia.
Qed.
Theorem C37_refuted_nested : forall area, 0 < area ->
  exists c live, client_reach area c live /\ translate_once_nested area 1 0 (translate_insert area 1 0) c = None.
Proof.
  intros area A. destruct (client_fill area A 32767 ltac:(lia) ltac:(lia)) as (c & live & R & N & F). exists c, live. split; [exact R |].
  destruct (client_inv area c live R) as [IR _]. unfold translate_once_nested, translate_insert.
  assert (P : purge_if_full area c = c) by (unfold purge_if_full, max_tc; now rewrite (proj2 (Z.eqb_neq (num_tc c) 32768)) by lia). rewrite P.
  destruct (allocate 1 0 (mem c)) as [[b s] |] eqn:EA; [| reflexivity].
  assert (PF : pooled b = true).
  { unfold allocate in EA. cbn in EA. destruct (head (mem c) =? 0); [discriminate |]. injection EA as <- _. reflexivity. }
  assert (R1 : reach area s (b :: live)) by (eapply r_alloc with (n := 1) (os := 0); [exact IR | lia | lia | exact EA]).
  unfold purge_if_full at 1 2, max_tc. cbn [num_tc mem]. rewrite (proj2 (Z.eqb_neq (num_tc c) 32768)) by lia. cbn [mem num_tc].
  destruct (allocate 1 0 s) as [[b2 s2] |] eqn:E2; [exfalso | reflexivity].
  assert (exists b s', allocate 1 0 s = Some (b, s')) as X by (eexists; eexists; exact E2).
  apply (proj1 (C37_available area s (b :: live) 1 0 A R1 ltac:(lia))) in X. cbn [filter] in X. rewrite PF in X. cbn [length] in X. lia.
Qed.
Print Assumptions C37_refuted_nested.
(** And when the callback purges the cache, the block it came from is freed a second time: from then
    on the allocator hands out the same block for ever. *)
Theorem C37_refuted_double_free : exists area s0 b s1 s2 s3,
  reach area s0 [] /\ allocate 1 0 s0 = Some (b, s1) /\
  allocate 1 0 (release (fst b) (destroy area s1)) = Some (b, s2) /\ allocate 1 0 s2 = Some (b, s3).
Proof.
  set (s0 := new 4096 (fun _ => 0)). set (b := (4096, BS)).
  assert (E : allocate 1 0 s0 = Some (b, mkmgr (nexts s0) (nexts s0 4096) [])) by reflexivity.
  set (s1 := mkmgr (nexts s0) (nexts s0 4096) []) in *. set (d := release 4096 (destroy 4096 s1)).
  assert (D : head d = 4096 /\ nexts d 4096 = 4096 /\ bigs d = []) by (split; [reflexivity | split; reflexivity]).
  destruct D as (D1 & D2 & D3).
  assert (A : forall s, head s = 4096 -> allocate 1 0 s = Some (b, mkmgr (nexts s) (nexts s (head s)) (bigs s))).
  { intros s H. unfold allocate. cbn [Z.eqb Z.ltb]. change (BS <? 1) with false. rewrite H. reflexivity. }
  exists 4096, s0, b, s1. eexists. eexists. split; [constructor |]. split; [exact E |]. split; [exact (A d D1) |].
  apply A. cbn [head nexts]. rewrite D1. exact D2.
Qed.
Print Assumptions C37_refuted_double_free.

(** The separate block of the auxiliary functions ignores the size that is asked for. *)
Theorem C37_refuted_non_pooled : exists area n, snd (non_pooled area n) < n.
Proof. exists 4096, 4097. reflexivity. Qed.
Print Assumptions C37_refuted_non_pooled.

(** a history with a small, a big, and a freed block *)
Example C37_example : exists s live, reach 0x10000 s live /\ live = [(0x100000000, 8192)] /\ exists b s', allocate 100 0 s = Some (b, s').
Proof.
  assert (R0 : reach 0x10000 (new 0x10000 (fun _ => 0)) []) by constructor.
  destruct (proj2 (proj1 (C37_available 0x10000 _ _ 10 0 ltac:(lia) R0 ltac:(lia)))) as (b1 & s1 & E1); [cbn; lia |].
  assert (R1 : reach 0x10000 s1 [b1]) by (eapply r_alloc with (n := 10) (os := 0); [exact R0 | lia | lia | exact E1]).
  assert (BG : bigs s1 = []).
  { unfold allocate in E1. cbn in E1. change (match head (new 0x10000 (fun _ => 0)) with 0 => true | _ => false end) with false in E1. injection E1 as _ <-. reflexivity. }
  assert (R2 : reach 0x10000 (mkmgr (nexts s1) (head s1) [(0x100000000, 8192)]) [(0x100000000, 8192); b1]).
  { eapply r_alloc with (n := 5000) (os := 0x100000000); [exact R1 | lia | | unfold allocate; rewrite BG; reflexivity].
    intros _. split; [cbn; lia |]. split; [right; vm_compute; discriminate | rewrite BG; constructor]. }
  pose proof (r_release 0x10000 _ [(0x100000000, 8192)] b1 [] R2) as R3.
  eexists. eexists. split; [exact R3 |]. split; [reflexivity |].
  apply (proj1 (C37_available 0x10000 _ _ 100 0 ltac:(lia) R3 ltac:(lia))). cbn. lia.
Qed.
