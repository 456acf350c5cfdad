(** * The invariant of the code cache *)

From Coq Require Import ZArith Bool List Lia.
From Verif Require Import CodeModel.
Import ListNotations.
Local Open Scope Z_scope.

(** ** Histories *)

(** the block [t] was translated for the context [c]: it lies in one page *)
Definition block_of (c : ctx) (t : tc) : Prop :=
  t_pc t = c_pc c /\ t_vpc t = c_vpc c /\ t_cs t = c_cs c /\ t_fl t = cflags c /\
  0 <= t_size t <= t_len t /\ t_pc t mod 4096 + t_len t <= 4096.
Definition ctx_ok (c : ctx) : Prop := 0 <= c_vpc c < 2 ^ 32 /\ 0 <= c_pc c < 2 ^ 32.
(** no call is the last instruction of its page *)
Definition calls_inside (t : tc) : Prop := forall off a, In (off, a) (t_calls t) -> a / 4096 = t_vpc t / 4096.
Definition one_page (a n : Z) : Prop := 0 <= a /\ 1 <= n /\ a mod 4096 + n <= 4096.

(** [okc] restricts the contexts in which code is looked up, [okt] the blocks that are made of it; [purge] allows
    the cache to become full *)
Inductive reach (okc : ctx -> Prop) (okt : tc -> Prop) (purge : bool) : state -> Prop :=
| r_init : reach okc okt purge init
| r_miss : forall s c t, reach okc okt purge s -> okc c -> ctx_ok c -> search c (fetch c s) = None ->
    block_of c t -> ~ In (tid t) (map tid (cache s)) ->
    (purge = true \/ num s <> 32768) -> okt t -> reach okc okt purge (add_block t (fetch c s))
| r_hit : forall s c t, reach okc okt purge s -> okc c -> ctx_ok c -> search c (fetch c s) = Some t -> reach okc okt purge (fetch c s)
| r_link : forall s t s', reach okc okt purge s -> In t (cache s) -> link t s = Some s' -> reach okc okt purge s'
| r_push : forall s t off a, reach okc okt purge s -> In t (cache s) -> In (off, a) (t_calls t) -> reach okc okt purge (push (Some (tid t)) off a s)
| r_push_none : forall s off a, reach okc okt purge s -> reach okc okt purge (push None off a s)
| r_pop_miss : forall s c s', reach okc okt purge s -> pop c s = Miss s' -> reach okc okt purge s'
| r_pop_hit : forall s c k off s', reach okc okt purge s -> pop c s = Hit k off s' -> reach okc okt purge s'
| r_write : forall s a n cur, reach okc okt purge s -> reach okc okt purge (fst (guest_write a n cur s))
| r_cross : forall s a1 a2 n k cur, reach okc okt purge s -> reach okc okt purge (fst (guest_write_cross a1 a2 n k cur s))
| r_host : forall s a n cur, reach okc okt purge s -> reach okc okt purge (host_write a n cur s)
| r_hook : forall s a n cur, reach okc okt purge s -> reach okc okt purge (fst (invalidate true a n cur s))
| r_flush : forall s, reach okc okt purge s -> reach okc okt purge (unlink_all s)
| r_invlpg : forall s v, reach okc okt purge s -> 0 <= v < 2 ^ 32 -> reach okc okt purge (unlink_page v s)
| r_clear : forall s, reach okc okt purge s -> reach okc okt purge (cache_clear s).

(** ** The invariant *)
Definition valid (e : slot) : Prop := Z.land (s_fl e) HFLG_INVALID = 0.
Record Inv (okc : ctx -> Prop) (okt : tc -> Prop) (purge : bool) (s : state) : Prop := mkInv {
  i_nodup : NoDup (map tid (cache s));
  i_pmap : forall p i, In (p, i) (pmap s) <-> exists t, In t (cache s) /\ tid t = i /\ page (t_pc t) = p;
  i_for : forall t, In t (cache s) -> exists c, okc c /\ ctx_ok c /\ block_of c t;
  i_jset : forall v, jset s v = true -> 0 <= v < 2 ^ 32 /\ valid (slots s (Z.land v 4095)) /\ s_vpc (slots s (Z.land v 4095)) = v;
  i_slot : forall i, 0 <= i < 4096 -> valid (slots s i) ->
    Z.land (s_vpc (slots s i)) 4095 = i /\ jset s (s_vpc (slots s i)) = true /\
    exists t, In t (cache s) /\ tid t = s_code (slots s i) /\ t_vpc t = s_vpc (slots s i) /\ t_cs t = s_cs (slots s i) /\ t_fl t = s_fl (slots s i);
  i_okt : forall t, In t (cache s) -> okt t;
  i_rsb : (forall t, okt t -> calls_inside t) -> forall i k, r_valid (rsb s i) = true -> r_tc (rsb s i) = Some k ->
    exists t, In t (cache s) /\ tid t = k /\ In (r_off (rsb s i), r_pc (rsb s i)) (t_calls t);
  i_smc : purge = false -> forall t, In t (cache s) -> smc s (page (t_pc t)) = true
}.

Lemma page_div a : page a = a / 4096.
Proof. unfold page. now rewrite Z.shiftr_div_pow2 by lia. Qed.
Lemma low12 v : Z.land v 4095 = v mod 4096.
Proof. change 4095 with (Z.ones 12). now rewrite Z.land_ones by lia. Qed.
Lemma upd_same {A} (f : Z -> A) k v : upd f k v k = v.
Proof. unfold upd. now rewrite Z.eqb_refl. Qed.
Lemma upd_other {A} (f : Z -> A) k v x : x <> k -> upd f k v x = f x.
Proof. intros H. unfold upd. now rewrite (proj2 (Z.eqb_neq x k) H). Qed.
Lemma not_valid e : ~ valid (invalidate_slot e).
Proof. unfold valid, invalidate_slot, HFLG_INVALID. cbn [s_fl]. rewrite Z.land_diag. discriminate. Qed.
Lemma cflags_valid c : Z.land (cflags c) HFLG_INVALID = 0.
Proof.
  unfold cflags. rewrite Z.land_lor_distr_l, <- !Z.land_assoc. change (Z.land HFLG_CONST HFLG_INVALID) with 0. change (Z.land EFLAGS_CONST HFLG_INVALID) with 0. now rewrite !Z.land_0_r.
Qed.
Lemma tid_eq s : NoDup (map tid (cache s)) -> forall t u, In t (cache s) -> In u (cache s) -> tid t = tid u -> t = u.
Proof.
  generalize (cache s). induction l as [| x l IH]; intros N t u Ht Hu E; [destruct Ht |]. cbn in N. apply NoDup_cons_iff in N as [N1 N2].
  destruct Ht as [-> | Ht], Hu as [-> | Hu]; try reflexivity.
  - exfalso. apply N1. rewrite E. now apply in_map.
  - exfalso. apply N1. rewrite <- E. now apply in_map.
  - now apply IH.
Qed.

Section fixed.
Variables (okc : ctx -> Prop) (okt : tc -> Prop) (purge : bool).
Notation I := (Inv okc okt purge).

Lemma init_inv : I init.
Proof.
  split; try (intros; contradiction).
  - constructor.
  - intros p i. split; [intros [] | intros (t & [] & _)].
  - intros v H. discriminate.
  - intros i _ H. exfalso. revert H. unfold valid. cbn. discriminate.
  - intros _ i k H. discriminate.
Qed.

(** states that differ in the return stack only *)
Lemma rsb_inv s rs p n : I s -> ((forall t, okt t -> calls_inside t) -> forall i k, r_valid (rs i) = true -> r_tc (rs i) = Some k -> exists t, In t (cache s) /\ tid t = k /\ In (r_off (rs i), r_pc (rs i)) (t_calls t)) ->
  I (mkst (cache s) (pmap s) (smc s) (jset s) (slots s) rs p n).
Proof. intros [H1 H2 H3 H4 H5 H6 H7 H8] H. split; cbn; assumption. Qed.
Lemma flush_all_inv s : I s -> I (rsb_flush_all s).
Proof. intros H. apply rsb_inv; [exact H |]. intros _ i k E. discriminate E. Qed.
Lemma flush_inv a s : I s -> I (rsb_flush a s).
Proof.
  intros H. apply rsb_inv; [exact H |]. intros E i k. destruct (page (r_pc (rsb s i)) =? page a); [intros X; discriminate X |]. apply (i_rsb _ _ _ _ H E).
Qed.

(** clearing entries of the jump table together with the addresses *)
Lemma slots_inv s js sl : I s ->
  (forall v, js v = true -> jset s v = true /\ sl (Z.land v 4095) = slots s (Z.land v 4095)) ->
  (forall i, 0 <= i < 4096 -> valid (sl i) -> sl i = slots s i /\ js (s_vpc (slots s i)) = true) ->
  I (mkst (cache s) (pmap s) (smc s) js sl (rsb s) (rptr s) (num s)).
Proof.
  intros [H1 H2 H3 H4 H5 H6 H7 H8] A B. split; cbn; try assumption.
  - intros v Hv. destruct (A v Hv) as [A1 A2]. rewrite A2. now apply H4.
  - intros i Hi V. destruct (B i Hi V) as [B1 B2]. rewrite B1 in *. destruct (H5 i Hi V) as (C1 & C2 & C3). split; [exact C1 |]. split; [exact B2 | exact C3].
Qed.
Lemma low12_range v : 0 <= Z.land v 4095 < 4096.
Proof. rewrite low12. apply Z.mod_pos_bound. lia. Qed.

Lemma unlink_slots_inv v s : I s ->
  I (mkst (cache s) (pmap s) (smc s) (upd (jset s) v false) (upd (slots s) (Z.land v 4095) (invalidate_slot (slots s (Z.land v 4095)))) (rsb s) (rptr s) (num s)) \/ jset s v = false.
Proof.
  intros H. destruct (jset s v) eqn:J; [left | now right]. apply slots_inv; [exact H | |].
  - intros u Hu. unfold upd in Hu. destruct (Z.eqb_spec u v) as [E | N]; [discriminate |]. split; [exact Hu |]. apply upd_other. intros E.
    destruct (i_jset _ _ _ _ H u Hu) as (_ & _ & E1). destruct (i_jset _ _ _ _ H v J) as (_ & _ & E2). rewrite E in E1. congruence.
  - intros i Hi V. unfold upd in V |- *. destruct (Z.eqb_spec i (Z.land v 4095)) as [-> | N]; [exfalso; now apply (not_valid _ V) |].
    split; [reflexivity |]. destruct (i_slot _ _ _ _ H i Hi V) as (E & J2 & _). destruct (Z.eqb_spec (s_vpc (slots s i)) v) as [E2 | _]; [exfalso; apply N; congruence | exact J2].
Qed.
Lemma unlink_inv v s : I s -> I (unlink v s).
Proof.
  intros H. unfold unlink. apply flush_inv. destruct (jset s v) eqn:J; [| exact H]. destruct (unlink_slots_inv v s H) as [X | X]; [exact X | congruence].
Qed.
Lemma unlink_page_inv v s : 0 <= v < 2 ^ 32 -> I s -> I (unlink_page v s).
Proof.
  intros Hv H. unfold unlink_page. apply flush_inv. assert (R : forall i, 0 <= i < 4096 -> Z.lor (Z.shiftl (page v) 12) i = page v * 4096 + i).
  { intros i Hi. rewrite Z.shiftl_mul_pow2 by lia. change (2 ^ 12) with 4096. symmetry. rewrite Z.add_comm, Z.lor_comm. 
    rewrite <- Z.lxor_lor; [symmetry; rewrite <- Z.add_nocarry_lxor; [reflexivity |] |].
    all: apply Z.bits_inj'; intros k Hk; rewrite Z.land_spec, Z.bits_0; change 4096 with (2 ^ 12); rewrite <- Z.shiftl_mul_pow2 by lia;
      destruct (Z.ltb_spec k 12); [rewrite (Z.shiftl_spec_low (page v)) by lia; apply andb_false_r |];
      replace (Z.testbit i k) with false; [reflexivity |]; symmetry; destruct (Z.eq_dec i 0) as [-> | ]; [apply Z.bits_0 |]; apply Z.bits_above_log2; [lia |]; apply Z.log2_lt_pow2; [lia |];
      apply Z.lt_le_trans with (2 ^ 12); [lia | apply Z.pow_le_mono_r; lia]. }
  apply slots_inv; [exact H | |].
  - intros u. rewrite !page_div in *. destruct (Z.eqb_spec (u / 4096) (v / 4096)) as [| N]; [discriminate |]. intros J. split; [exact J |].
    rewrite R by apply low12_range. destruct (jset s (v / 4096 * 4096 + Z.land u 4095)) eqn:J2; [| reflexivity]. exfalso.
    destruct (i_jset _ _ _ _ H u J) as (_ & _ & E1). destruct (i_jset _ _ _ _ H _ J2) as (_ & _ & E2).
    rewrite !low12 in E2. rewrite low12 in E1. replace ((v / 4096 * 4096 + u mod 4096) mod 4096) with (u mod 4096) in E2 by (rewrite Z.add_comm, Z.mod_add, Z.mod_mod by lia; reflexivity).
    rewrite E1 in E2. apply N. rewrite E2 at 1. rewrite Z.div_add_l by lia. pose proof (Z.mod_pos_bound u 4096). rewrite (Z.div_small (u mod 4096)) by lia. lia.
  - intros i Hi. destruct (jset s (Z.lor (Z.shiftl (page v) 12) i)) eqn:J; [intros V; exfalso; now apply (not_valid _ V) |]. intros V. split; [reflexivity |].
    destruct (i_slot _ _ _ _ H i Hi V) as (E & J2 & _). destruct (Z.eqb_spec (page (s_vpc (slots s i))) (page v)) as [E2 | _]; [| exact J2].
    exfalso. rewrite R in J by exact Hi. rewrite <- E2, page_div in J. rewrite low12 in E. rewrite <- E in J at 2.
    replace (s_vpc (slots s i) / 4096 * 4096 + s_vpc (slots s i) mod 4096) with (s_vpc (slots s i)) in J by (rewrite Z.mul_comm; apply Z.div_mod; lia). congruence.
Qed.
Lemma unlink_all_inv s : I s -> I (unlink_all s).
Proof.
  intros H. unfold unlink_all. apply flush_all_inv. apply slots_inv; [exact H | discriminate |]. intros i _ V. exfalso. now apply (not_valid _ V).
Qed.
Lemma clear_inv s : I (cache_clear s).
Proof.
  unfold cache_clear, unlink_all, rsb_flush_all. split; cbn; try (intros; contradiction).
  - constructor.
  - intros p i. split; [intros [] | intros (t & [] & _)].
  - discriminate.
  - intros i _ V. exfalso. now apply (not_valid _ V).
  - intros _ i k E. discriminate E.
Qed.
Lemma num_inv s n : I s -> I (mkst (cache s) (pmap s) (smc s) (jset s) (slots s) (rsb s) (rptr s) n).
Proof. intros H. apply rsb_inv; [exact H |]. apply (i_rsb _ _ _ _ H). Qed.
Lemma purge_inv s : I (cache_purge s).
Proof. unfold cache_purge. apply (num_inv (cache_clear s)). apply clear_inv. Qed.

Lemma fetch_inv c s : I s -> I (fetch c s).
Proof.
  intros [H1 H2 H3 H4 H5 H6 H7 H8]. split; cbn; try assumption. intros E t Ht. unfold upd. destruct (_ =? _); [reflexivity | now apply H8].
Qed.

Lemma insert_inv c t s : I s -> okc c -> ctx_ok c -> block_of c t -> ~ In (tid t) (map tid (cache s)) -> okt t ->
  (purge = false -> smc s (page (t_pc t)) = true) -> I (insert t s).
Proof.
  intros [H1 H2 H3 H4 H5 H6 H7 H8] OC CK B F E S. split; cbn.
  - now constructor.
  - intros p i. split.
    + intros [X | X]; [injection X as <- <-; exists t; split; [now left | split; reflexivity] |]. apply H2 in X as (u & U1 & U2). exists u. split; [now right | exact U2].
    + intros (u & [-> | U] & U2 & U3); [left; congruence | right; apply H2; exists u; split; [exact U | split; assumption]].
  - intros u [<- | U]; [exists c; split; [exact OC | split; assumption] | now apply H3].
  - exact H4.
  - intros i Hi V. destruct (H5 i Hi V) as (A1 & A2 & u & U & A3). split; [exact A1 |]. split; [exact A2 |]. exists u. split; [now right | exact A3].
  - intros u [<- | U]; [exact E | now apply H6].
  - intros EE i k V K. destruct (H7 EE i k V K) as (u & U & A). exists u. split; [now right | exact A].
  - intros EE u [<- | U]; [now apply S | now apply H8].
Qed.

Lemma add_block_inv c t s : I s -> okc c -> ctx_ok c -> block_of c t -> ~ In (tid t) (map tid (cache s)) -> (purge = true \/ num s <> 32768) -> okt t ->
  I (add_block t (fetch c s)).
Proof.
  intros H OC CK B F P E. unfold add_block, max_tc. cbn [num fetch]. destruct (Z.eqb_spec (num s) 32768) as [N | N].
  - eapply insert_inv; [apply purge_inv | exact OC | exact CK | exact B | | exact E |]; [intros [] |].
    destruct P as [-> | P]; [discriminate | contradiction].
  - eapply insert_inv; [now apply fetch_inv | exact OC | exact CK | exact B | exact F | exact E |].
    intros _. cbn. destruct B as (-> & _). apply upd_same.
Qed.

(** removing one block *)
Lemma unlink_rsb v s i : rsb (unlink v s) i = if page (r_pc (rsb s i)) =? page v then clear_entry (rsb s i) else rsb s i.
Proof. unfold unlink, rsb_flush. cbn [rsb]. destruct (jset s v); reflexivity. Qed.
Lemma drop_inv s t : I s -> In t (cache s) -> I (drop s t).
Proof.
  intros H T. unfold drop. pose proof (unlink_inv (t_vpc t) s H) as H0.
  assert (EC : cache (unlink (t_vpc t) s) = cache s /\ pmap (unlink (t_vpc t) s) = pmap s /\ smc (unlink (t_vpc t) s) = smc s) by (unfold unlink, rsb_flush; destruct (jset s (t_vpc t)); cbn; repeat split).
  destruct EC as (EC & EP & ES).
  assert (J : jset (unlink (t_vpc t) s) (t_vpc t) = false).
  { unfold unlink. destruct (jset s (t_vpc t)) eqn:J; cbn; [apply upd_same | exact J]. }
  assert (R : forall i, page (r_pc (rsb (unlink (t_vpc t) s) i)) = page (t_vpc t) -> r_valid (rsb (unlink (t_vpc t) s) i) = false).
  { intros i. rewrite unlink_rsb. destruct (Z.eqb_spec (page (r_pc (rsb s i))) (page (t_vpc t))) as [E | E]; [intros _; reflexivity |]. intros X. contradiction. }
  destruct H0 as [H1 H2 H3 H4 H5 H6 H7 H8]. set (s0 := unlink (t_vpc t) s) in *. clearbody s0.
  assert (T0 : In t (cache s0)) by now rewrite EC.
  assert (K : forall u, In u (cache s0) -> tid u <> tid t -> In u (filter (fun u => negb (tid u =? tid t)) (cache s0))).
  { intros u U N. apply filter_In. split; [exact U |]. now rewrite (proj2 (Z.eqb_neq _ _) N). }
  assert (K2 : forall u, In u (filter (fun u => negb (tid u =? tid t)) (cache s0)) -> In u (cache s0) /\ tid u <> tid t).
  { intros u U. apply filter_In in U as [U N]. split; [exact U |]. intros E. rewrite E, Z.eqb_refl in N. discriminate. }
  split; cbn.
  - clear - H1. revert H1. generalize (cache s0). induction l as [| x l IH]; intros N; [constructor |]. cbn in N. apply NoDup_cons_iff in N as [N1 N2].
    cbn [filter]. destruct (negb (tid x =? tid t)); [| now apply IH]. cbn. constructor; [| now apply IH]. intros X. apply N1. apply in_map_iff in X as (y & E & Y). apply in_map_iff. exists y. split; [exact E |]. now apply filter_In in Y as [Y _].
  - intros p i. rewrite filter_In. cbn [snd]. split.
    + intros [X N]. apply H2 in X as (u & U & E1 & E2). exists u. split; [apply K; [exact U |]; intros E; rewrite <- E1, E, Z.eqb_refl in N; discriminate | split; assumption].
    + intros (u & U & E1 & E2). apply K2 in U as [U N]. split; [apply H2; exists u; split; [exact U | split; assumption] |]. rewrite <- E1. now rewrite (proj2 (Z.eqb_neq _ _) N).
  - intros u U. apply K2 in U as [U _]. now apply H3.
  - exact H4.
  - intros i Hi V. destruct (H5 i Hi V) as (A1 & A2 & u & U & A3 & A4 & A5). split; [exact A1 |]. split; [exact A2 |]. exists u. split; [apply K; [exact U |] | split; [exact A3 | split; assumption]].
    intros E. assert (u = t) by (eapply tid_eq; [exact H1 | exact U | exact T0 | exact E]). subst u. rewrite <- A4 in A2. congruence.
  - intros u U. apply K2 in U as [U _]. now apply H6.
  - intros EE i k V KK. destruct (H7 EE i k V KK) as (u & U & A1 & A2). exists u. split; [apply K; [exact U |] | split; assumption].
    intros E. assert (u = t) by (eapply tid_eq; [exact H1 | exact U | exact T0 | exact E]). subst u.
    specialize (EE t (H6 t U) _ _ A2). rewrite (R i) in V; [discriminate |]. now rewrite !page_div.
  - intros EE u U. apply K2 in U as [U _]. now apply H8.
Qed.
Lemma drop_cache s t u : In u (cache (drop s t)) <-> In u (cache s) /\ tid u <> tid t.
Proof.
  assert (EC : cache (unlink (t_vpc t) s) = cache s) by (unfold unlink, rsb_flush; destruct (jset s (t_vpc t)); reflexivity).
  unfold drop. cbn [cache]. rewrite EC, filter_In. split; intros [A B]; (split; [exact A |]).
  - intros E. rewrite E, Z.eqb_refl in B. discriminate.
  - now rewrite (proj2 (Z.eqb_neq _ _) B).
Qed.
Lemma drops_inv l : forall s, I s -> NoDup (map tid l) -> (forall t, In t l -> In t (cache s)) ->
  I (fold_left drop l s) /\ forall u, In u (cache (fold_left drop l s)) <-> In u (cache s) /\ ~ In (tid u) (map tid l).
Proof.
  induction l as [| t l IH]; intros s H N S; [split; [exact H |]; intros u; cbn; tauto |]. cbn in N. apply NoDup_cons_iff in N as [N1 N2]. cbn [fold_left].
  destruct (IH (drop s t)) as [A B]; [apply drop_inv; [exact H | apply S; now left] | exact N2 | |].
  - intros u U. apply drop_cache. split; [apply S; now right |]. intros E. apply N1. rewrite <- E. now apply in_map.
  - split; [exact A |]. intros u. rewrite B, drop_cache. cbn. split; [intros [[X Y] Z]; split; [exact X |]; intros [E | E]; [now apply Y | contradiction] |].
    intros [X Y]. split; [split; [exact X | intros E; apply Y; now left] | intros E; apply Y; now right].
Qed.

Lemma filter_nodup (f : tc -> bool) l : NoDup (map tid l) -> NoDup (map tid (filter f l)).
Proof.
  induction l as [| x l IH]; intros N; [constructor |]. cbn in N. apply NoDup_cons_iff in N as [N1 N2]. cbn [filter]. destruct (f x); [| now apply IH].
  cbn. constructor; [| now apply IH]. intros X. apply N1. apply in_map_iff in X as (y & E & Y). apply in_map_iff. exists y. split; [exact E |]. now apply filter_In in Y as [Y _].
Qed.
Lemma victims_sub hook a n s : forall t, In t (victims hook a n s) -> In t (cache s).
Proof.
  intros t. unfold victims. destruct hook; [| intros H; now apply filter_In in H as [H _]]. destruct (filter _ (cache s)) eqn:E; cbn; [intros [] |]. intros [<- | []].
  assert (In t0 (t0 :: l)) as X by now left. rewrite <- E in X. now apply filter_In in X as [X _].
Qed.
Lemma victims_nodup hook a n s : I s -> NoDup (map tid (victims hook a n s)).
Proof.
  intros H. pose proof (filter_nodup (fun t => in_page (page a) s t && to_remove hook a n t) (cache s) (i_nodup _ _ _ _ H)) as N. unfold victims.
  destruct hook; [| exact N]. destruct (filter _ (cache s)); cbn; [constructor |]. constructor; [intros [] | constructor].
Qed.
Lemma invalidate_inv hook a n cur s : I s -> I (fst (invalidate hook a n cur s)) /\
  forall u, In u (cache (fst (invalidate hook a n cur s))) <-> In u (cache s) /\ ~ In (tid u) (map tid (victims hook a n s)).
Proof.
  intros H. unfold invalidate. destruct (existsb (fun q => fst q =? page a) (pmap s)) eqn:EX.
  - destruct (drops_inv (victims hook a n s) s H (victims_nodup hook a n s H) (victims_sub hook a n s)) as [A B]. cbn [fst].
    destruct (existsb (fun q => fst q =? page a) (pmap (fold_left drop (victims hook a n s) s))) eqn:E2; [split; [exact A | exact B] |].
    split; [| exact B]. set (s1 := fold_left drop (victims hook a n s) s) in *. clearbody s1. destruct A as [H1 H2 H3 H4 H5 H6 H7 H8]. split; cbn [cache pmap smc jset slots rsb rptr num]; try assumption.
    intros E t T. unfold upd. destruct (Z.eqb_spec (page (t_pc t)) (page a)) as [P | P]; [| now apply H8]. exfalso.
    assert (X : In (page a, tid t) (pmap s1)) by (apply H2; exists t; split; [exact T | split; [reflexivity | exact P]]).
    apply not_true_iff_false in E2. apply E2, existsb_exists. exists (page a, tid t). split; [exact X | apply Z.eqb_refl].
  - cbn [fst]. split; [exact H |]. intros u. split; [| tauto]. intros U. split; [exact U |]. intros X.
    apply in_map_iff in X as (t & E & T). pose proof (victims_sub _ _ _ _ t T) as T2. 
    assert (EV : victims hook a n s = []).
    { assert (F : filter (fun t => in_page (page a) s t && to_remove hook a n t) (cache s) = []).
      { clear - EX. induction (cache s) as [| x l IH]; [reflexivity |]. cbn [filter]. replace (in_page (page a) s x) with false; [exact IH |]. symmetry. unfold in_page. apply not_true_iff_false. intros X.
        apply existsb_exists in X as (q & Q & X). apply andb_true_iff in X as [X _]. apply not_true_iff_false in EX. apply EX, existsb_exists. exists q. now split. }
      unfold victims. rewrite F. now destruct hook. }
    rewrite EV in T. destruct T.
Qed.

Lemma link_inv t s s' : I s -> In t (cache s) -> link t s = Some s' -> I s'.
Proof.
  intros H T. unfold link. set (i := Z.land (t_vpc t) 4095). set (e := slots s i).
  assert (LI : 0 <= i < 4096) by apply low12_range.
  destruct (i_for _ _ _ _ H t T) as (c & _ & CK & B1 & B2 & B3 & B4 & _).
  assert (VT : valid (mkslot (t_vpc t) (t_cs t) (t_fl t) (tid t))) by (unfold valid; cbn; rewrite B4; apply cflags_valid).
  assert (G : forall js : Z -> bool, (forall v, js v = true -> jset s v = true) -> (forall v, js v = true -> Z.land v 4095 <> i) ->
    (forall v, Z.land v 4095 <> i -> js v = jset s v) ->
    I (mkst (cache s) (pmap s) (smc s) (upd js (t_vpc t) true) (upd (slots s) i (mkslot (t_vpc t) (t_cs t) (t_fl t) (tid t))) (rsb s) (rptr s) (num s))).
  { intros js J1 J2 J3. destruct H as [H1 H2 H3 H4 H5 H6 H7 H8]. split; cbn; try assumption.
    - intros v Hv. destruct (Z.eq_dec v (t_vpc t)) as [-> | N].
      + fold i. rewrite upd_same. split; [rewrite B2; apply CK | split; [exact VT | reflexivity]].
      + rewrite upd_other in Hv by exact N. rewrite upd_other by now apply J2. apply H4. now apply J1.
    - intros j Hj V. destruct (Z.eq_dec j i) as [-> | N].
      + rewrite upd_same in *. cbn [s_vpc s_code s_cs s_fl]. split; [reflexivity |]. split; [apply upd_same |]. exists t. split; [exact T | repeat split].
      + rewrite upd_other in * by exact N. destruct (H5 j Hj V) as (A1 & A2 & A3). split; [exact A1 |]. split; [| exact A3].
        rewrite upd_other by (intros E; apply N; unfold i; rewrite <- E; now symmetry). rewrite J3; [exact A2 |]. rewrite A1. exact N. }
  destruct (Z.eqb_spec (Z.land (s_fl e) HFLG_INVALID) 0) as [V | V].
  - destruct (jset s (s_vpc e)) eqn:J; [| discriminate]. intros [= <-]. destruct (i_slot _ _ _ _ H i LI V) as (A1 & _). fold e in A1. apply G.
    + intros v. unfold upd. destruct (v =? s_vpc e); [discriminate | auto].
    + intros v Hv E. unfold upd in Hv. destruct (Z.eqb_spec v (s_vpc e)) as [| N]; [discriminate |]. destruct (i_jset _ _ _ _ H v Hv) as (_ & _ & X). rewrite E in X. fold e in X. congruence.
    + intros v N. apply upd_other. intros ->. contradiction.
  - intros [= <-]. apply G; [auto | | auto]. intros v Hv E. destruct (i_jset _ _ _ _ H v Hv) as (_ & X & _). rewrite E in X. fold e in X. now apply V.
Qed.
Lemma link_some t s : I s -> link t s <> None.
Proof.
  intros H. unfold link. set (i := Z.land (t_vpc t) 4095). destruct (Z.eqb_spec (Z.land (s_fl (slots s i)) HFLG_INVALID) 0) as [V | V]; [| discriminate].
  destruct (i_slot _ _ _ _ H i (low12_range _) V) as (_ & -> & _). discriminate.
Qed.

Lemma push_inv k off a s : I s -> ((forall t, okt t -> calls_inside t) -> forall i, k = Some i -> exists t, In t (cache s) /\ tid t = i /\ In (off, a) (t_calls t)) -> I (push k off a s).
Proof.
  intros H P. unfold push. apply rsb_inv; [exact H |]. intros E i j. unfold upd. destruct (_ =? _); [| apply (i_rsb _ _ _ _ H E)]. cbn. intros _ ->. now apply P.
Qed.
Lemma pop_inv c s : I s -> match pop c s with Miss s' => I s' | Hit _ _ s' => I s' | Use_after_free => True end.
Proof.
  intros H. assert (N : I (mkst (cache s) (pmap s) (smc s) (jset s) (slots s) (upd (rsb s) (rptr s) (clear_entry (rsb s (rptr s)))) (Z.land (rptr s + 1) 63) (num s))).
  { apply rsb_inv; [exact H |]. intros E i k. unfold upd. destruct (_ =? _); [discriminate | apply (i_rsb _ _ _ _ H E)]. }
  pose proof (flush_all_inv s H) as F. unfold pop. destruct (negb _); [exact F |]. destruct (r_tc _); [| exact N]. destruct (_ =? _); [| exact F].
  destruct (find _ _); [| exact Logic.I]. destruct (_ && _); [exact N | exact F].
Qed.

Lemma guest_write_inv a n cur s : I s -> I (fst (guest_write a n cur s)).
Proof. intros H. unfold guest_write. destruct (smc s (page a)); [| exact H]. now apply invalidate_inv. Qed.
Lemma cross_inv a1 a2 n k cur s : I s -> I (fst (guest_write_cross a1 a2 n k cur s)).
Proof.
  intros H. unfold guest_write_cross. pose proof (proj1 (invalidate_inv false a1 k cur s H)) as H1.
  destruct (smc s (page a1)).
  - destruct (invalidate false a1 k cur s) as [s1 h1]. cbn [fst] in H1. pose proof (proj1 (invalidate_inv false a2 (n - k) cur s1 H1)) as H2.
    destruct (smc s (page a2)); [destruct (invalidate false a2 (n - k) cur s1) as [s2 h2]; exact H2 | exact H1].
  - pose proof (proj1 (invalidate_inv false a2 (n - k) cur s H)) as H2. destruct (smc s (page a2)); [destruct (invalidate false a2 (n - k) cur s) as [s2 h2]; exact H2 | exact H].
Qed.

Lemma reach_inv s : reach okc okt purge s -> I s.
Proof.
  induction 1 as [| s c t R IH OC CK SE B F P E | s c t R IH OC CK SE | s t s' R IH T L | s t off a R IH T C | s off a R IH | s c s' R IH P | s c k off s' R IH P
    | s a n cur R IH | s a1 a2 n k cur R IH | s a n cur R IH | s a n cur R IH | s R IH | s v R IH V | s R IH].
  - apply init_inv.
  - now apply add_block_inv.
  - now apply fetch_inv.
  - eapply link_inv; eauto.
  - apply push_inv; [exact IH |]. intros _ i [= <-]. exists t. repeat split; assumption.
  - apply push_inv; [exact IH |]. intros _ i X. discriminate X.
  - pose proof (pop_inv c s IH) as X. now rewrite P in X.
  - pose proof (pop_inv c s IH) as X. now rewrite P in X.
  - now apply guest_write_inv.
  - now apply cross_inv.
  - unfold host_write. now apply invalidate_inv.
  - now apply invalidate_inv.
  - now apply unlink_all_inv.
  - now apply unlink_page_inv.
  - apply clear_inv.
Qed.
End fixed.
