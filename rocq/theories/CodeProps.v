(** * Writes to code are never executed stale (C31); a lookup finds a block for the current context (C32) *)

From Coq Require Import ZArith Bool List Lia.
From Verif Require Import CodeModel CodeProofs.
Import ListNotations.
Local Open Scope Z_scope.

(** ** Specification *)
(** the write of [n] bytes at [a] changes a byte that the block [t] was translated from *)
Definition overlaps (a n : Z) (t : tc) : Prop := exists x, a <= x < a + n /\ t_pc t <= x < t_pc t + t_len t.
(** the block was translated for this base of cs and these mode flags *)
Definition same_mode (c : ctx) (t : tc) : Prop :=
  exists c0, block_of c0 t /\ c_cs c0 = c_cs c /\ Z.land (c_hfl c0) HFLG_CONST = Z.land (c_hfl c) HFLG_CONST /\ Z.land (c_efl c0) EFLAGS_CONST = Z.land (c_efl c) EFLAGS_CONST.
Definition any (_ : ctx) : Prop := True.
Definition all_blocks (_ : tc) : Prop := True.
(** no call at the end of a page, and all the bytes decode *)
Definition ordinary (t : tc) : Prop := calls_inside t /\ t_len t = t_size t.
(** all the bytes decode *)
Definition decoded (t : tc) : Prop := t_len t = t_size t.

(** ** C32 *)
Lemma cflags_split c0 c : cflags c0 = cflags c -> Z.land (c_hfl c0) HFLG_CONST = Z.land (c_hfl c) HFLG_CONST /\ Z.land (c_efl c0) EFLAGS_CONST = Z.land (c_efl c) EFLAGS_CONST.
Proof.
  assert (H : forall x, Z.land (cflags x) HFLG_CONST = Z.land (c_hfl x) HFLG_CONST).
  { intros x. unfold cflags. rewrite Z.land_lor_distr_l, <- !Z.land_assoc. change (Z.land EFLAGS_CONST HFLG_CONST) with 0. now rewrite Z.land_diag, Z.land_0_r, Z.lor_0_r. }
  assert (E : forall x, Z.land (cflags x) EFLAGS_CONST = Z.land (c_efl x) EFLAGS_CONST).
  { intros x. unfold cflags. rewrite Z.land_lor_distr_l, <- !Z.land_assoc. change (Z.land HFLG_CONST EFLAGS_CONST) with 0. now rewrite Z.land_diag, Z.land_0_r, Z.lor_0_l. }
  intros X. split; [now rewrite <- !H, X | now rewrite <- !E, X].
Qed.
Lemma mode_of okc okt p s c t : Inv okc okt p s -> In t (cache s) -> t_cs t = c_cs c -> t_fl t = cflags c -> same_mode c t.
Proof.
  intros H T C F. destruct (i_for _ _ _ _ H t T) as (c0 & _ & _ & B). exists c0. split; [exact B |]. destruct B as (_ & _ & B3 & B4 & _).
  split; [congruence |]. apply cflags_split. congruence.
Qed.
Lemma search_in c s t : search c s = Some t -> In t (cache s) /\ t_cs t = c_cs c /\ t_pc t = c_pc c /\ t_fl t = cflags c.
Proof.
  unfold search. intros H. apply find_some in H as [H1 H2]. rewrite !andb_true_iff in H2. destruct H2 as [[A B] C]. apply Z.eqb_eq in A, B, C. now repeat split.
Qed.

(** A block found in the cache was translated from the same physical address, for the same base and mode. *)
Theorem C32_lookup : forall okc okt p s c t, reach okc okt p s -> search c s = Some t -> In t (cache s) /\ t_pc t = c_pc c /\ same_mode c t.
Proof.
  intros okc okt p s c t R H. apply search_in in H as (A & B & C & D). split; [exact A |]. split; [exact C |]. apply reach_inv in R. now apply (mode_of okc okt p s).
Qed.
Print Assumptions C32_lookup.

(** A jump through the table leads to a block that is still in the cache and was translated for the same
    virtual address, base and mode. *)
Theorem C32_jump : forall okc okt p s c k, reach okc okt p s -> jump c s = Some k ->
  exists t, In t (cache s) /\ tid t = k /\ t_vpc t = c_vpc c /\ same_mode c t.
Proof.
  intros okc okt p s c k R J. apply reach_inv in R. unfold jump in J. destruct (_ && _) eqn:E in J; [| discriminate]. injection J as <-.
  rewrite !andb_true_iff in E. destruct E as [A [B C]]. apply Z.eqb_eq in A, B, C.
  assert (V : valid (slots s (Z.land (c_vpc c) 4095))) by (unfold valid; rewrite C; apply cflags_valid).
  destruct (i_slot _ _ _ _ R _ (low12_range _) V) as (_ & _ & t & T & T1 & T2 & T3 & T4). exists t. split; [exact T |]. split; [exact T1 |]. split; [congruence |].
  apply (mode_of okc okt p s); [exact R | exact T | congruence | congruence].
Qed.
Print Assumptions C32_jump.

(** The assertions made when a block is linked never fail. *)
Theorem C32_link_total : forall okc okt p s t, reach okc okt p s -> link t s <> None.
Proof. intros okc okt p s t R. apply (link_some okc okt p). now apply reach_inv. Qed.
Print Assumptions C32_link_total.

(** Return prediction, when no call is the last instruction of a page: it never touches a deleted block,
    and a hit continues after a call whose return address is the current one. *)
Theorem C32_return_partial : forall okc p s c, reach okc ordinary p s ->
  match pop c s with
  | Use_after_free => False
  | Miss _ => True
  | Hit k off _ => exists t, In t (cache s) /\ tid t = k /\ In (off, c_vpc c) (t_calls t) /\ same_mode c t
  end.
Proof.
  intros okc p s c R. apply reach_inv in R. unfold pop. destruct (r_valid (rsb s (rptr s))) eqn:V; cbn [negb]; [| exact Logic.I]. destruct (r_tc (rsb s (rptr s))) as [k |] eqn:K; [| exact Logic.I].
  destruct (Z.eqb_spec (r_pc (rsb s (rptr s))) (c_vpc c)) as [E | E]; [| exact Logic.I].
  destruct (i_rsb _ _ _ _ R (fun t (H : ordinary t) => proj1 H) _ k V K) as (t & T & T1 & T2).
  destruct (find (fun t => tid t =? k) (cache s)) as [u |] eqn:F.
  - apply find_some in F as [F1 F2]. apply Z.eqb_eq in F2. destruct (_ && _) eqn:A; [| exact Logic.I]. apply andb_true_iff in A as [A B]. apply Z.eqb_eq in A, B.
    exists t. assert (t = u) by (eapply tid_eq; [exact (i_nodup _ _ _ _ R) | exact T | exact F1 | congruence]). subst u.
    split; [exact T |]. split; [exact T1 |]. split; [now rewrite <- E |]. now apply (mode_of okc ordinary p s).
  - pose proof (find_none _ _ F t T) as X. cbn in X. rewrite T1, Z.eqb_refl in X. discriminate.
Qed.
Print Assumptions C32_return_partial.

(** If code is reached through one mapping only, which gives different physical addresses to different
    virtual addresses, then the lookup matches the virtual address too, and the jump the physical one. *)
Theorem C32_fixed_mapping_partial : forall (pi : Z -> Z) okt p s c, (forall x y, pi x = pi y -> x = y) ->
  reach (fun c => c_pc c = pi (c_vpc c)) okt p s -> c_pc c = pi (c_vpc c) ->
  (forall t, search c s = Some t -> t_vpc t = c_vpc c) /\
  (forall k, jump c s = Some k -> exists t, In t (cache s) /\ tid t = k /\ t_pc t = c_pc c).
Proof.
  intros pi okt p s c INJ R OC. split.
  - intros t H. apply search_in in H as (A & _ & B & _). apply reach_inv in R. destruct (i_for _ _ _ _ R t A) as (c0 & O & _ & B1 & B2 & _). apply INJ. congruence.
  - intros k H. destruct (C32_jump _ _ _ _ _ _ R H) as (t & T & T1 & T2 & _). exists t. split; [exact T |]. split; [exact T1 |].
    apply reach_inv in R. destruct (i_for _ _ _ _ R t T) as (c0 & O & _ & B1 & B2 & _). congruence.
Qed.
Print Assumptions C32_fixed_mapping_partial.

(** ** C31 *)
Lemma in_page_spec okc okt p s q t : Inv okc okt p s -> In t (cache s) -> in_page q s t = (page (t_pc t) =? q).
Proof.
  intros H T. unfold in_page. destruct (Z.eqb_spec (page (t_pc t)) q) as [E | E].
  - apply existsb_exists. exists (q, tid t). split; [| cbn; now rewrite !Z.eqb_refl]. apply (i_pmap _ _ _ _ H). exists t. now repeat split.
  - apply not_true_iff_false. intros X. apply existsb_exists in X as ([q' i] & Q & X). cbn in X. apply andb_true_iff in X as [X1 X2]. apply Z.eqb_eq in X1, X2. subst q' i.
    apply (i_pmap _ _ _ _ H) in Q as (u & U & U1 & U2). assert (u = t) by (eapply tid_eq; [exact (i_nodup _ _ _ _ H) | exact U | exact T | exact U1]). subst u. contradiction.
Qed.
Lemma to_remove_spec a n t : 1 <= n -> 0 <= t_size t <= t_len t -> t_len t = t_size t -> to_remove false a n t = true <-> overlaps a n t.
Proof.
  intros Hn Hs C. unfold to_remove, overlaps. rewrite andb_true_iff, !negb_true_iff, Z.eqb_neq, Z.ltb_ge. split.
  - intros [A B]. exists (Z.max a (t_pc t)). lia.
  - intros (x & A & B). lia.
Qed.
Lemma overlap_page a n t c : one_page a n -> block_of c t -> overlaps a n t -> page (t_pc t) = page a.
Proof.
  intros (A & N & P) (_ & _ & _ & _ & S & Q) (x & X & Y). rewrite !page_div.
  pose proof (Z.div_mod a 4096). pose proof (Z.div_mod (t_pc t) 4096). pose proof (Z.mod_pos_bound a 4096). pose proof (Z.mod_pos_bound (t_pc t) 4096).
  assert (x / 4096 = a / 4096) by (symmetry; apply Z.div_unique with (x - 4096 * (a / 4096)); lia).
  assert (x / 4096 = t_pc t / 4096) by (symmetry; apply Z.div_unique with (x - 4096 * (t_pc t / 4096)); lia). congruence.
Qed.
(** the blocks that survive an invalidation are the ones that do not overlap *)
Lemma invalidate_spec okc (okt : tc -> Prop) p s a n cur : (forall t, okt t -> decoded t) -> Inv okc okt p s -> one_page a n ->
  forall t, In t (cache (fst (invalidate false a n cur s))) <-> In t (cache s) /\ ~ overlaps a n t.
Proof.
  intros CO H O t. rewrite (proj2 (invalidate_inv okc okt p false a n cur s H)). split; intros [T N]; (split; [exact T |]).
  - intros OV. apply N, in_map. unfold victims. apply filter_In. split; [exact T |]. destruct (i_for _ _ _ _ H t T) as (c & _ & _ & B).
    rewrite (in_page_spec okc okt p) by assumption. rewrite (overlap_page a n t c O B OV), Z.eqb_refl. apply to_remove_spec; [apply O | apply B | apply CO, (i_okt _ _ _ _ H), T | exact OV].
  - intros X. apply in_map_iff in X as (u & E & U). unfold victims in U. apply filter_In in U as [U V].
    assert (u = t) by (eapply tid_eq; [exact (i_nodup _ _ _ _ H) | exact U | exact T | exact E]). subst u. apply andb_true_iff in V as [_ V].
    destruct (i_for _ _ _ _ H t T) as (c & _ & _ & B). apply to_remove_spec in V; [contradiction | apply O | apply B | apply CO, (i_okt _ _ _ _ H), T].
Qed.

Lemma ord_dec : forall t, ordinary t -> decoded t.
Proof. intros t [_ H]. exact H. Qed.
(** what is demanded after a write: exactly the blocks that do not overlap survive, and none of the
    three ways to reach a block leads to one that does *)
Definition no_stale (a n : Z) (s s' : state) : Prop :=
  (forall t, In t (cache s') <-> In t (cache s) /\ ~ overlaps a n t) /\
  (forall c t, search c s' = Some t -> ~ overlaps a n t) /\
  (forall c k, jump c s' = Some k -> exists t, In t (cache s') /\ tid t = k /\ ~ overlaps a n t) /\
  (forall c, match pop c s' with Use_after_free => False | Miss _ => True | Hit k _ _ => exists t, In t (cache s') /\ tid t = k /\ ~ overlaps a n t end).
Lemma no_stale_intro okc p a n s s' : reach okc ordinary p s' -> (forall t, In t (cache s') <-> In t (cache s) /\ ~ overlaps a n t) -> no_stale a n s s'.
Proof.
  intros R H. split; [exact H |]. split; [| split].
  - intros c t S. apply search_in in S as (T & _). now apply H in T as [_ T].
  - intros c k J. destruct (C32_jump _ _ _ _ _ _ R J) as (t & T & T1 & _). exists t. split; [exact T |]. split; [exact T1 |]. now apply H in T as [_ T].
  - intros c. pose proof (C32_return_partial _ _ _ c R) as X. destruct (pop c s'); try exact X. destruct X as (u & U & U1 & _). exists u. split; [exact U |]. split; [exact U1 |]. now apply H in U as [_ U].
Qed.

(** As long as the cache has not been full, every page with translated code is marked. *)
Theorem C31_marked : forall okc okt s t, reach okc okt false s -> In t (cache s) -> smc s (page (t_pc t)) = true.
Proof. intros okc okt s t R. apply reach_inv in R. now apply (i_smc _ _ _ _ R eq_refl). Qed.
Print Assumptions C31_marked.

(** A write of the guest inside one page. *)
Theorem C31_write_partial : forall okc s a n cur, reach okc ordinary false s -> one_page a n -> no_stale a n s (fst (guest_write a n cur s)).
Proof.
  intros okc s a n cur R O. apply (no_stale_intro okc false); [now constructor |]. intros t. pose proof (reach_inv _ _ _ _ R) as H. unfold guest_write.
  destruct (smc s (page a)) eqn:S; [apply (invalidate_spec okc ordinary false); [exact ord_dec | exact H | exact O] |]. cbn [fst]. split; [| tauto]. intros T. split; [exact T |]. intros OV.
  destruct (i_for _ _ _ _ H t T) as (c & _ & _ & B). pose proof (i_smc _ _ _ _ H eq_refl t T) as M. rewrite (overlap_page a n t c O B OV) in M. congruence.
Qed.
Print Assumptions C31_write_partial.
(** A write of the host to physical memory, in each page. *)
Theorem C31_host_write_partial : forall okc p s a n cur, reach okc ordinary p s -> one_page a n -> no_stale a n s (host_write a n cur s).
Proof.
  intros okc p s a n cur R O. apply (no_stale_intro okc p); [now constructor |]. apply (invalidate_spec okc ordinary p); [exact ord_dec | now apply reach_inv | exact O].
Qed.
Print Assumptions C31_host_write_partial.
(** A write of the guest across two pages: the bytes of the first page are handled, and those of the second page from the
    last one on.  [a2] is the address of the last byte. *)
Theorem C31_cross_partial : forall okc s a1 a2 n k cur, reach okc ordinary false s -> 0 < k < n -> one_page a1 k -> one_page a2 (n - k) -> page a1 <> page a2 ->
  no_stale a1 k s (fst (guest_write a1 k cur s)) /\
  forall t, In t (cache (fst (guest_write_cross a1 a2 n k cur s))) <-> In t (cache s) /\ ~ overlaps a1 k t /\ ~ overlaps a2 (n - k) t.
Proof.
  intros okc s a1 a2 n k cur R Hk O1 O2 N. split; [now apply (C31_write_partial okc) |]. intros t. unfold guest_write_cross.
  pose proof (reach_inv _ _ _ _ R) as H. pose proof (invalidate_spec okc ordinary false s a1 k cur ord_dec H O1) as S1.
  assert (M : forall a m u, one_page a m -> In u (cache s) -> overlaps a m u -> smc s (page a) = true).
  { intros a m u O U OV. destruct (i_for _ _ _ _ H u U) as (c & _ & _ & B). rewrite <- (overlap_page a m u c O B OV). now apply (i_smc _ _ _ _ H eq_refl). }
  pose proof (proj1 (invalidate_inv okc ordinary false false a1 k cur s H)) as H1. pose proof (M a1 k t O1) as M1. pose proof (M a2 (n - k) t O2) as M2.
  destruct (smc s (page a1)).
  - destruct (invalidate false a1 k cur s) as [s1 h1]. cbn [fst] in *. pose proof (invalidate_spec okc ordinary false s1 a2 (n - k) cur ord_dec H1 O2 t) as S2.
    destruct (smc s (page a2)); [destruct (invalidate false a2 (n - k) cur s1) as [s2 h2]; cbn [fst] in *; rewrite S2, S1; tauto |].
    cbn [fst]. rewrite S1. split; [intros [A B]; split; [exact A |]; split; [exact B |]; intros OV; specialize (M2 A OV); discriminate | tauto].
  - pose proof (invalidate_spec okc ordinary false s a2 (n - k) cur ord_dec H O2 t) as S2.
    destruct (smc s (page a2)); [destruct (invalidate false a2 (n - k) cur s) as [s2 h2]; cbn [fst] in *; rewrite S2; split; [intros [A B]; split; [exact A |]; split; [intros OV; specialize (M1 A OV); discriminate | exact B] | tauto] |].
    cbn [fst]. split; [intros A; split; [exact A |]; split; intros OV; [specialize (M1 A OV) | specialize (M2 A OV)]; discriminate | tauto].
Qed.
Print Assumptions C31_cross_partial.
(** The running block is left after the write when the write is made by its first instruction. *)
Theorem C31_leave_partial : forall okc s a n cur t, reach okc ordinary false s -> one_page a n -> search cur s = Some t -> overlaps a n t -> snd (guest_write a n cur s) = true.
Proof.
  intros okc s a n cur t R O S OV. pose proof (reach_inv _ _ _ _ R) as H. apply search_in in S as (T & E1 & E2 & E3). destruct (i_for _ _ _ _ H t T) as (c & _ & _ & B).
  pose proof (overlap_page a n t c O B OV) as P. unfold guest_write. rewrite <- P, (i_smc _ _ _ _ H eq_refl t T). unfold invalidate.
  assert (existsb (fun q => fst q =? page a) (pmap s) = true) as ->.
  { apply existsb_exists. exists (page a, tid t). split; [apply (i_pmap _ _ _ _ H); exists t; now repeat split | apply Z.eqb_refl]. }
  cbn [snd]. apply existsb_exists. exists t. split; [| now rewrite E1, E2, E3, !Z.eqb_refl]. unfold victims. apply filter_In. split; [exact T |].
  rewrite (in_page_spec okc ordinary false) by assumption. rewrite P, Z.eqb_refl. apply to_remove_spec; [apply O | apply B | apply (i_okt _ _ _ _ H), T | exact OV].
Qed.
Print Assumptions C31_leave_partial.

(** ** Refutations *)
Definition cx (v p : Z) : ctx := mkctx v p 0 0 2.
Definition blk (i v p n : Z) (l : list (Z * Z)) : tc := mktc i p v 0 0 n n l.
Lemma blk_of i v p n l : 0 <= n -> p mod 4096 + n <= 4096 -> block_of (cx v p) (blk i v p n l).
Proof. intros H1 H2. unfold block_of, blk, cx. cbn [t_pc t_vpc t_cs t_fl t_size t_len c_pc c_vpc c_cs]. repeat split; [exact H1 | apply Z.le_refl | exact H2]. Qed.
(** one block in an otherwise empty cache *)
Definition one (t : tc) : state := add_block t (fetch (cx (t_vpc t) (t_pc t)) init).
Lemma one_reach (okc : ctx -> Prop) (okt : tc -> Prop) p i v q n l : okc (cx v q) -> 0 <= v < 2 ^ 32 -> 0 <= q < 2 ^ 32 -> 0 <= n -> q mod 4096 + n <= 4096 -> okt (blk i v q n l) -> reach okc okt p (one (blk i v q n l)).
Proof.
  intros OC V Q N F E. unfold one. apply r_miss; [constructor | exact OC | split; assumption | reflexivity | now apply blk_of | intros [] | right; discriminate | exact E].
Qed.
Lemma no_calls i v p n : ordinary (blk i v p n []).
Proof. split; [intros off a [] | reflexivity]. Qed.

(** A four byte write with two bytes in each page leaves a one byte block at the start of the second page. *)
Theorem C31_refuted_cross : exists s a1 a2 n k cur t c,
  reach any ordinary false s /\ 0 < k < n /\ a1 mod 4096 = 4096 - k /\ a2 mod 4096 = n - k - 1 /\
  overlaps (a2 - (n - k - 1)) (n - k) t /\ search c (fst (guest_write_cross a1 a2 n k cur s)) = Some t.
Proof.
  exists (one (blk 1 0x2000 0x2000 1 [])), 0x1ffe, 0x2001, 4, 2, (cx 0x3000 0x3000), (blk 1 0x2000 0x2000 1 []), (cx 0x2000 0x2000).
  split; [apply one_reach; try lia; [exact Logic.I | vm_compute; discriminate | apply no_calls] |].
  split; [lia |]. split; [reflexivity |]. split; [reflexivity |]. split; [exists 0x2000; cbn; lia | reflexivity].
Qed.
Print Assumptions C31_refuted_cross.

(** The running block is not left when a later instruction of it overwrites it. *)
Theorem C31_refuted_running : exists s a n cur t,
  reach any ordinary false s /\ In t (cache s) /\ one_page a n /\ overlaps a n t /\
  t_pc t < c_pc cur < t_pc t + t_size t /\ t_cs t = c_cs cur /\ t_fl t = cflags cur /\ c_vpc cur - t_vpc t = c_pc cur - t_pc t /\
  c_pc cur < a /\ ~ In t (cache (fst (guest_write a n cur s))) /\ snd (guest_write a n cur s) = false.
Proof.
  exists (one (blk 1 0x1000 0x1000 32 [])), 0x1010, 4, (cx 0x1004 0x1004), (blk 1 0x1000 0x1000 32 []).
  split; [apply one_reach; try lia; [exact Logic.I | vm_compute; discriminate | apply no_calls] |].
  split; [now left |]. split; [repeat split; vm_compute; discriminate |]. split; [exists 0x1010; cbn; lia |]. split; [cbn; lia |]. split; [reflexivity |]. split; [reflexivity |]. split; [reflexivity |].
  split; [cbn; lia |]. split; [intros H; vm_compute in H; exact H | reflexivity].
Qed.
Print Assumptions C31_refuted_running.

(** A call that ends a page leaves an entry that is not flushed with its block: the return reads a deleted block. *)
Theorem C31_refuted_return : exists s a n cur c,
  reach any all_blocks false s /\ one_page a n /\ reach any all_blocks false (fst (guest_write a n cur s)) /\ pop c (fst (guest_write a n cur s)) = Use_after_free.
Proof.
  set (t := blk 1 0x1ffb 0x1ffb 5 [(100, 0x2000)]).
  assert (R : reach any all_blocks false (push (Some (tid t)) 100 0x2000 (one t))).
  { apply (r_push _ _ _ (one t) t); [apply one_reach; [exact Logic.I | lia | lia | lia | vm_compute; discriminate | exact Logic.I] | now left | now left]. }
  exists (push (Some (tid t)) 100 0x2000 (one t)), 0x1ffb, 1, (cx 0x3000 0x3000), (cx 0x2000 0x2000).
  split; [exact R |]. split; [repeat split; vm_compute; discriminate |]. split; [now apply r_write | reflexivity].
Qed.
Print Assumptions C31_refuted_return.

(** A block inserted right after the cache was full is not on a marked page: a write to it is missed. *)
Lemma fill : forall k, 0 <= k -> k <= 32768 -> exists s, reach any ordinary true s /\ num s = k /\ forall t, In t (cache s) -> t_pc t < 16 * k /\ tid t < k.
Proof.
  intros k H. pattern k. apply natlike_ind; [| | exact H]; clear k H.
  - intros _. exists init. split; [constructor |]. split; [reflexivity |]. intros t [].
  - intros k Hk IH H. destruct IH as (s & R & N & B); [lia |]. unfold Z.succ in *. set (t := blk k (16 * k) (16 * k) 16 []).
    exists (add_block t (fetch (cx (16 * k) (16 * k)) s)). split; [apply r_miss |].
    + exact R.
    + exact Logic.I.
    + unfold ctx_ok, cx. cbn [c_vpc c_pc]. lia.
    + unfold search. cbn [fetch cache]. destruct (find _ _) as [u |] eqn:F; [| reflexivity]. apply find_some in F as [F1 F2]. destruct (B u F1) as [B1 _].
      rewrite !andb_true_iff in F2. destruct F2 as [[_ F2] _]. apply Z.eqb_eq in F2. unfold cx in F2. cbn [c_pc] in F2. lia.
    + apply blk_of; [lia |]. assert (E : (16 * k) mod 4096 = 16 * (k mod 256)) by (change 4096 with (16 * 256); apply Z.mul_mod_distr_l; lia). rewrite E. pose proof (Z.mod_pos_bound k 256). lia.
    + intros X. apply in_map_iff in X as (u & E & U). destruct (B u U) as [_ B2]. unfold t, blk in E. cbn [tid] in E. lia.
    + now left.
    + apply no_calls.
    + unfold add_block, max_tc. cbn [num fetch]. rewrite N, (proj2 (Z.eqb_neq k 32768)) by lia. cbn [insert num cache fetch]. split; [rewrite N; apply Z.mod_small; lia |].
      intros u [<- | U]; [unfold t, blk; cbn [t_pc tid]; lia | destruct (B u U); lia].
Qed.
Theorem C31_refuted_full : exists s a n cur t c,
  reach any ordinary true s /\ one_page a n /\ In t (cache s) /\ overlaps a n t /\ search c (fetch c (fst (guest_write a n cur s))) = Some t.
Proof.
  destruct (fill 32768 ltac:(lia) ltac:(lia)) as (s & R & N & B). set (t := blk 32768 0x80000 0x80000 16 []). set (c := cx 0x80000 0x80000).
  assert (AE : add_block t (fetch c s) = insert t (cache_purge (fetch c s))) by (unfold add_block, max_tc; cbn [num fetch]; now rewrite N).
  exists (add_block t (fetch c s)), 0x80004, 4, c, t, c. split; [apply r_miss |].
  - exact R.
  - exact Logic.I.
  - split; cbn; lia.
  - unfold search. cbn [fetch cache]. destruct (find _ _) as [u |] eqn:F; [| reflexivity]. apply find_some in F as [F1 F2]. destruct (B u F1) as [B1 _].
    rewrite !andb_true_iff in F2. destruct F2 as [[_ F2] _]. apply Z.eqb_eq in F2. cbn in F2. lia.
  - apply blk_of; [lia | vm_compute; discriminate].
  - intros X. apply in_map_iff in X as (u & E & U). destruct (B u U) as [_ B2]. cbn in E. lia.
  - now left.
  - apply no_calls.
  - rewrite AE. split; [repeat split; vm_compute; discriminate |]. split; [now left |]. split; [exists 0x80004; cbn; lia |]. reflexivity.
Qed.
Print Assumptions C31_refuted_full.

(** A block made of bytes that do not decode is not touched by a write to those bytes: the exception is
    raised for ever. *)
Theorem C31_refuted_undecodable : exists s a n cur t c,
  reach any all_blocks false s /\ one_page a n /\ In t (cache s) /\ overlaps a n t /\ search c (fetch c (fst (guest_write a n cur s))) = Some t.
Proof.
  set (t := mktc 1 0x1000 0x1000 0 0 0 2 []). exists (add_block t (fetch (cx 0x1000 0x1000) init)), 0x1000, 2, (cx 0x3000 0x3000), t, (cx 0x1000 0x1000).
  split.
  - apply r_miss; [constructor | exact Logic.I | split; cbn; lia | reflexivity | | intros [] | right; discriminate | exact Logic.I].
    unfold block_of, t. cbn [t_pc t_vpc t_cs t_fl t_size t_len]. repeat split; vm_compute; discriminate.
  - split; [repeat split; vm_compute; discriminate |]. split; [now left |]. split; [exists 0x1000; cbn; lia | reflexivity].
Qed.
Print Assumptions C31_refuted_undecodable.

(** A write of the host through an alias invalidates the wrong page. *)
Theorem C31_refuted_alias : exists s a n delta cur t c,
  reach any ordinary false s /\ one_page a n /\ overlaps (snd (host_write_alias a n delta cur s)) n t /\ search c (fst (host_write_alias a n delta cur s)) = Some t.
Proof.
  exists (one (blk 1 0x1000 0x1000 16 [])), 0x5000, 4, 0x4000, (cx 0x3000 0x3000), (blk 1 0x1000 0x1000 16 []), (cx 0x1000 0x1000).
  split; [apply one_reach; try lia; [exact Logic.I | vm_compute; discriminate | apply no_calls] |].
  split; [repeat split; vm_compute; discriminate |]. split; [exists 0x1000; cbn; lia | reflexivity].
Qed.
Print Assumptions C31_refuted_alias.

(** Two virtual addresses of the same code: the block of the first is run at the second. *)
Theorem C32_refuted_alias : exists s c t, reach any ordinary false s /\ search c s = Some t /\ t_vpc t <> c_vpc c.
Proof.
  exists (one (blk 1 0x1000 0x7000 16 [])), (cx 0x2000 0x7000), (blk 1 0x1000 0x7000 16 []).
  split; [apply one_reach; try lia; [exact Logic.I | vm_compute; discriminate | apply no_calls] |]. split; [reflexivity | discriminate].
Qed.
Print Assumptions C32_refuted_alias.
(** After a flush that gives 0x1000 a new page, the old block is found through its new address and linked under the
    old one: a jump to 0x1000 runs the code of the wrong page. *)
Theorem C32_refuted_remap : exists s t s' c, reach any ordinary false s /\ link t (fetch (cx 0x2000 0x7000) (unlink_all s)) = Some s' /\ reach any ordinary false s' /\
  search (cx 0x2000 0x7000) (unlink_all s) = Some t /\ jump c s' = Some (tid t) /\ c_vpc c = 0x1000 /\ c_pc c = 0x8000 /\ t_pc t = 0x7000.
Proof.
  set (t := blk 1 0x1000 0x7000 16 []). set (s := one t).
  assert (R : reach any ordinary false s) by (apply one_reach; try lia; [exact Logic.I | vm_compute; discriminate | apply no_calls]).
  exists s, t. assert (L : exists s', link t (fetch (cx 0x2000 0x7000) (unlink_all s)) = Some s' /\ jump (cx 0x1000 0x8000) s' = Some 1) by (eexists; split; reflexivity).
  destruct L as (s' & L & J). exists s', (cx 0x1000 0x8000). split; [exact R |]. split; [exact L |].
  split; [apply (r_link _ _ _ (fetch (cx 0x2000 0x7000) (unlink_all s)) t); [apply (r_hit _ _ _ _ _ t); [now apply r_flush | exact Logic.I | split; cbn; lia | reflexivity] | now left | exact L] |].
  split; [reflexivity |]. split; [exact J |]. repeat split.
Qed.
Print Assumptions C32_refuted_remap.
(** A call that ends a page: the return after its block is gone uses the deleted block. *)
Theorem C32_refuted_return : exists s c, reach any all_blocks false s /\ pop c s = Use_after_free.
Proof. destruct C31_refuted_return as (s & a & n & cur & c & _ & _ & R & P). eexists. exists c. split; [exact R | exact P]. Qed.
Print Assumptions C32_refuted_return.

(** ** Cases that meet the hypotheses *)
(** a block is translated, linked, reached by a jump and by a return, and gone after a write *)
Example C31_example : exists s s', reach any ordinary false s /\ search (cx 0x1000 0x1000) s <> None /\ jump (cx 0x1000 0x1000) s = Some 1 /\ (exists s', pop (cx 0x1005 0x1005) s = Hit 1 100 s') /\
  s' = fst (guest_write 0x1003 1 (cx 0x3000 0x3000) s) /\ search (cx 0x1000 0x1000) s' = None /\ jump (cx 0x1000 0x1000) s' = None /\ (exists s2, pop (cx 0x1005 0x1005) s' = Miss s2).
Proof.
  set (t := blk 1 0x1000 0x1000 16 [(100, 0x1005)]).
  assert (R : reach any ordinary false (one t)).
  { apply one_reach; try lia; [exact Logic.I | vm_compute; discriminate |]. split; [| reflexivity]. intros off a [[= <- <-] | []]. reflexivity. }
  assert (L : exists s1, link t (one t) = Some s1 /\ In t (cache s1) /\ jump (cx 0x1000 0x1000) (push (Some 1) 100 0x1005 s1) = Some 1 /\ search (cx 0x1000 0x1000) (push (Some 1) 100 0x1005 s1) <> None /\
    (exists s', pop (cx 0x1005 0x1005) (push (Some 1) 100 0x1005 s1) = Hit 1 100 s') /\
    search (cx 0x1000 0x1000) (fst (guest_write 0x1003 1 (cx 0x3000 0x3000) (push (Some 1) 100 0x1005 s1))) = None /\
    jump (cx 0x1000 0x1000) (fst (guest_write 0x1003 1 (cx 0x3000 0x3000) (push (Some 1) 100 0x1005 s1))) = None /\
    (exists s2, pop (cx 0x1005 0x1005) (fst (guest_write 0x1003 1 (cx 0x3000 0x3000) (push (Some 1) 100 0x1005 s1))) = Miss s2)).
  { eexists. split; [reflexivity |]. split; [now left |]. split; [reflexivity |]. split; [discriminate |]. split; [eexists; reflexivity |]. split; [reflexivity |]. split; [reflexivity |]. eexists. reflexivity. }
  destruct L as (s1 & L1 & L2 & L3 & L4 & L5 & L6 & L7 & L8).
  exists (push (Some 1) 100 0x1005 s1). eexists. split; [apply (r_push _ _ _ s1 t); [apply (r_link _ _ _ (one t) t); [exact R | now left | exact L1] | exact L2 | now left] |].
  split; [exact L4 |]. split; [exact L3 |]. split; [exact L5 |]. split; [reflexivity |]. split; [exact L6 |]. split; [exact L7 | exact L8].
Qed.
