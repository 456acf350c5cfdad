(** * Hooks can be added and removed (C38) *)

From Coq Require Import ZArith Bool List Lia.
From Verif Require Import CodeModel CodeProofs CodeProps HookModel.
From Verif Require MmuModel.
Import ListNotations.
Local Open Scope Z_scope.

(** ** Histories *)
(** steps that add no block *)
Inductive other : state -> state -> Prop :=
| o_link : forall s t s', In t (cache s) -> link t s = Some s' -> other s s'
| o_push : forall s t off a, In t (cache s) -> other s (push (Some (tid t)) off a s)
| o_push_none : forall s off a, other s (push None off a s)
| o_pop_miss : forall s c s', pop c s = Miss s' -> other s s'
| o_pop_hit : forall s c k off s', pop c s = Hit k off s' -> other s s'
| o_write : forall s a n cur, other s (fst (guest_write a n cur s))
| o_cross : forall s a1 a2 n k cur, other s (fst (guest_write_cross a1 a2 n k cur s))
| o_host : forall s a n cur, other s (host_write a n cur s)
| o_flush : forall s, other s (unlink_all s)
| o_invlpg : forall s v, 0 <= v < 2 ^ 32 -> other s (unlink_page v s)
| o_clear : forall s, other s (cache_clear s).

(** a block that the translator can make for the context: a hook has no guest bytes, guest code has *)
Definition makes (c : ctx) (t : tc) (s : hstate) : Prop :=
  block_of c t /\ ~ In (tid t) (map tid (cache (code s))) /\
  match take_hook c s with Some _ => t_len t = 0 | None => 0 < t_len t end.

(** [pi] is the mapping from virtual to physical addresses; hook calls on [addr] are left out when [skip] is [Some addr] *)
Inductive hstep (pi : Z -> Z) (skip : option Z) : hstate -> hstate -> Prop :=
| h_run : forall s c t, ctx_ok c -> c_pc c = pi (c_vpc c) -> makes c t s -> hstep pi skip s (fst (run c t s))
| h_other : forall s c', other (code s) c' -> hstep pi skip s (mkhs c' (hooks s) (kind s))
| h_add : forall s addr h cur, skip <> Some addr -> 0 <= addr < 2 ^ 32 -> hstep pi skip s (snd (hook_add (Some (pi addr)) addr h cur s))
| h_remove : forall s addr cur, skip <> Some addr -> 0 <= addr < 2 ^ 32 -> hstep pi skip s (snd (hook_remove (Some (pi addr)) addr cur s)).
Inductive hsteps (pi : Z -> Z) (skip : option Z) : hstate -> hstate -> Prop :=
| hs_refl : forall s, hsteps pi skip s s
| hs_step : forall s1 s2 s3, hsteps pi skip s1 s2 -> hstep pi skip s2 s3 -> hsteps pi skip s1 s3.
Definition start : hstate := mkhs init (fun _ => None) (fun _ => None).

(** ** Proofs *)
Notation I := (Inv any all_blocks true).
Lemma other_inv s s' : other s s' -> I s -> I s' /\ forall t, In t (cache s') -> In t (cache s).
Proof.
  intros O H. destruct O as [s t s' T L | s t off a T | s off a | s c s' P | s c k off s' P | s a n cur | s a1 a2 n k cur | s a n cur | s | s v V | s].
  - split; [eapply link_inv; eauto |]. unfold link in L. destruct (_ =? 0); [destruct (jset s _) |]; try discriminate; injection L as <-; auto.
  - split; [| auto]. apply push_inv; [exact H |]. intros X. exfalso. specialize (X (mktc 0 0 0 0 0 0 0 [(0, 4096)]) Logic.I 0 4096 (or_introl eq_refl)). discriminate X.
  - split; [| auto]. apply push_inv; [exact H |]. intros _ i X. discriminate X.
  - pose proof (pop_inv any all_blocks true c s H) as X. rewrite P in X. split; [exact X |]. unfold pop in P. destruct (negb _); [injection P as <-; auto |].
    destruct (r_tc _); [| injection P as <-; auto]. destruct (_ =? _); [| injection P as <-; auto]. destruct (find _ _); [| discriminate]. destruct (_ && _); [discriminate | injection P as <-; auto].
  - pose proof (pop_inv any all_blocks true c s H) as X. rewrite P in X. split; [exact X |]. unfold pop in P. destruct (negb _); [discriminate |].
    destruct (r_tc _); [| discriminate]. destruct (_ =? _); [| discriminate]. destruct (find _ _); [| discriminate]. destruct (_ && _); [injection P as <- <- <-; auto | discriminate].
  - split; [now apply guest_write_inv |]. unfold guest_write. destruct (smc s (page a)); [| auto]. intros t T. now apply (invalidate_inv any all_blocks true false a n cur s H) in T as [T _].
  - split; [now apply cross_inv |]. unfold guest_write_cross. destruct (invalidate_inv any all_blocks true false a1 k cur s H) as [H1 S1].
    intros t. destruct (smc s (page a1)).
    + destruct (invalidate false a1 k cur s) as [s1 h1]. cbn [fst] in *. destruct (invalidate_inv any all_blocks true false a2 (n - k) cur s1 H1) as [H2 S2].
      destruct (smc s (page a2)); [destruct (invalidate false a2 (n - k) cur s1); cbn [fst] in *; intros T; apply S2 in T as [T _]; now apply S1 in T as [T _] | cbn [fst]; intros T; now apply S1 in T as [T _]].
    + destruct (invalidate_inv any all_blocks true false a2 (n - k) cur s H) as [H2 S2]. destruct (smc s (page a2)); [destruct (invalidate false a2 (n - k) cur s); cbn [fst] in *; intros T; now apply S2 in T as [T _] | auto].
  - unfold host_write. destruct (invalidate_inv any all_blocks true false a n cur s H) as [H1 S1]. split; [exact H1 |]. intros t T. now apply S1 in T as [T _].
  - split; [now apply unlink_all_inv | auto].
  - split; [now apply unlink_page_inv |]. auto.
  - split; [apply clear_inv |]. intros t [].
Qed.

(** blocks come from the mapping; the block of a hook has no bytes, a block of guest code has *)
Definition HInv (pi : Z -> Z) (s : hstate) : Prop :=
  I (code s) /\ forall t, In t (cache (code s)) -> t_pc t = pi (t_vpc t) /\ (kind s (tid t) <> None -> t_len t = 0) /\ (kind s (tid t) = None -> 0 < t_len t).
Lemma add_cache t s u : In u (cache (add_block t s)) -> u = t \/ In u (cache s).
Proof. unfold add_block. destruct (num s =? max_tc); cbn; [intros [<- | []]; now left | intros [<- | H]; [now left | now right]]. Qed.
Lemma hstep_inv pi skip s s' : hstep pi skip s s' -> HInv pi s -> HInv pi s'.
Proof.
  intros H [HI HK]. destruct H as [s c t CK OC (B & F & LK) | s c' O | s addr h cur _ A | s addr cur _ A].
  - unfold run. destruct (search c (fetch c (code s))) as [u |] eqn:S; cbn [fst].
    + split; [now apply fetch_inv | exact HK].
    + split; [apply (add_block_inv any all_blocks true c); [exact HI | exact Logic.I | exact CK | exact B | exact F | now left | exact Logic.I] |].
      intros u U. cbn [code kind]. apply add_cache in U as [-> | U].
      * rewrite upd_same. destruct B as (B1 & B2 & _). split; [congruence |]. destruct (take_hook c s); split; intros X; [exact LK | discriminate | contradiction | exact LK].
      * rewrite upd_other; [now apply HK |]. intros E. apply F. rewrite <- E. apply in_map. exact U.
  - destruct (other_inv _ _ O HI) as [A B]. split; [exact A |]. intros t T. cbn [kind]. apply HK, B, T.
  - cbn [hook_add snd]. destruct (invalidate_inv any all_blocks true false (pi addr) 1 cur (fetch (mkctx addr (pi addr) 0 0 0) (code s)) (fetch_inv _ _ _ _ _ HI)) as [H1 S1].
    split; [exact H1 |]. intros t T. cbn [kind]. apply S1 in T as [T _]. now apply HK.
  - unfold hook_remove. destruct (hooks s addr); cbn [snd]; [| split; assumption].
    destruct (invalidate_inv any all_blocks true true (pi addr) 0 cur (code s) HI) as [H1 S1]. split; [exact H1 |]. intros t T. cbn [kind]. apply S1 in T as [T _]. now apply HK.
Qed.
Lemma start_inv pi : HInv pi start.
Proof. split; [apply init_inv |]. intros t []. Qed.
Lemma hsteps_inv pi skip s s' : hsteps pi skip s s' -> HInv pi s -> HInv pi s'.
Proof. induction 1 as [| s1 s2 s3 H IH S]; [auto |]. intros X. eapply hstep_inv; [exact S | auto]. Qed.

(** what a block found at [addr] does *)
Lemma in_page_any q s t : I s -> In t (cache s) -> in_page q s t = (page (t_pc t) =? q).
Proof. apply in_page_spec. Qed.

(** ** While the hook is there, and after *)
(** every block at the address of the hook calls it, unless it is a block for the trampoline *)
Definition hooked (pi : Z -> Z) (addr h : Z) (s : hstate) : Prop :=
  hooks s addr = Some h /\
  forall t, In t (cache (code s)) -> t_pc t = pi addr -> Z.land (t_fl t) HFLG_TRAMP = 0 -> kind s (tid t) = Some h.
Definition unhooked (pi : Z -> Z) (addr : Z) (s : hstate) : Prop :=
  hooks s addr = None /\ forall t, In t (cache (code s)) -> t_pc t = pi addr -> kind s (tid t) = None.
(** blocks for the trampoline are guest code *)
Definition tramp_guest (s : hstate) : Prop := forall t, In t (cache (code s)) -> Z.land (t_fl t) HFLG_TRAMP <> 0 -> kind s (tid t) = None.

Lemma tramp_flag c : Z.land (cflags c) HFLG_TRAMP = Z.land (c_hfl c) HFLG_TRAMP.
Proof.
  unfold cflags. rewrite Z.land_lor_distr_l, <- !Z.land_assoc. change (Z.land HFLG_CONST HFLG_TRAMP) with HFLG_TRAMP. change (Z.land EFLAGS_CONST HFLG_TRAMP) with 0.
  now rewrite Z.land_0_r, Z.lor_0_r.
Qed.

(** the steps keep the status of an address, if they are not hook calls on it *)
Lemma step_kinds pi skip (P : tc -> option Z -> Prop) s s' : hstep pi skip s s' ->
  (forall t, In t (cache (code s)) -> P t (kind s (tid t))) ->
  (forall c t, c_pc c = pi (c_vpc c) -> block_of c t -> P t (take_hook c s)) ->
  HInv pi s -> forall t, In t (cache (code s')) -> P t (kind s' (tid t)).
Proof.
  intros H Q N [HI HK] t T. destruct H as [s c u CK OC (B & F & LK) | s c' O | s addr h cur _ A | s addr cur _ A].
  - unfold run in *. destruct (search c (fetch c (code s))) as [v |] eqn:S; cbn [fst code kind] in *; [now apply Q |].
    apply add_cache in T as [-> | T]; [rewrite upd_same; now apply N |]. rewrite upd_other; [now apply Q |]. intros E. apply F. rewrite <- E. apply in_map. exact T.
  - cbn [code kind] in *. destruct (other_inv _ _ O HI) as [_ S]. now apply Q, S.
  - cbn [hook_add snd code kind] in *. destruct (invalidate_inv any all_blocks true false (pi addr) 1 cur (fetch (mkctx addr (pi addr) 0 0 0) (code s)) (fetch_inv _ _ _ _ _ HI)) as [_ S].
    apply S in T as [T _]. now apply Q.
  - unfold hook_remove in *. destruct (hooks s addr); cbn [snd code kind] in *; [| now apply Q].
    destruct (invalidate_inv any all_blocks true true (pi addr) 0 cur (code s) HI) as [_ S]. apply S in T as [T _]. now apply Q.
Qed.
Lemma step_hooks pi addr s s' : hstep pi (Some addr) s s' -> hooks s' addr = hooks s addr.
Proof.
  intros H. destruct H as [s c u CK OC M | s c' O | s a h cur N A | s a cur N A].
  - unfold run. destruct (search _ _); reflexivity.
  - reflexivity.
  - cbn. apply upd_other. congruence.
  - unfold hook_remove. destruct (hooks s a); [| reflexivity]. cbn. apply upd_other. congruence.
Qed.
Lemma tramp_guest_step pi skip s s' : hstep pi skip s s' -> HInv pi s -> tramp_guest s -> tramp_guest s'.
Proof.
  intros H HI Q t T. apply (step_kinds pi skip (fun t k => Z.land (t_fl t) HFLG_TRAMP <> 0 -> k = None) s s' H); [exact Q | | exact HI | exact T].
  intros c u OC (_ & _ & _ & E & _) X. rewrite E, tramp_flag in X. unfold take_hook, is_tramp. now rewrite (proj2 (Z.eqb_neq _ _) X).
Qed.
Lemma hooked_step pi addr h s s' : (forall x y, pi x = pi y -> x = y) -> hstep pi (Some addr) s s' -> HInv pi s -> hooked pi addr h s -> hooked pi addr h s'.
Proof.
  intros INJ H HI [Q1 Q2]. split; [now rewrite (step_hooks _ _ _ _ H) |]. intros t T.
  apply (step_kinds pi (Some addr) (fun t k => t_pc t = pi addr -> Z.land (t_fl t) HFLG_TRAMP = 0 -> k = Some h) s s' H); [exact Q2 | | exact HI | exact T].
  intros c u OC (E1 & _ & _ & E & _) X Y. rewrite E, tramp_flag in Y. unfold take_hook, is_tramp. rewrite Y. cbn. assert (c_vpc c = addr) as -> by (apply INJ; congruence). exact Q1.
Qed.
Lemma unhooked_step pi addr s s' : (forall x y, pi x = pi y -> x = y) -> hstep pi (Some addr) s s' -> HInv pi s -> unhooked pi addr s -> unhooked pi addr s'.
Proof.
  intros INJ H HI [Q1 Q2]. split; [now rewrite (step_hooks _ _ _ _ H) |]. intros t T.
  apply (step_kinds pi (Some addr) (fun t k => t_pc t = pi addr -> k = None) s s' H); [exact Q2 | | exact HI | exact T].
  intros c u OC (E1 & _) X. unfold take_hook. destruct (is_tramp c); [reflexivity |]. assert (c_vpc c = addr) as -> by (apply INJ; congruence). exact Q1.
Qed.

(** the block for the trampoline is always guest code *)
Lemma reach_tramp pi s : hsteps pi None start s -> HInv pi s /\ tramp_guest s.
Proof.
  intros R. assert (G : forall a b, hsteps pi None a b -> HInv pi a /\ tramp_guest a -> HInv pi b /\ tramp_guest b).
  { induction 1 as [| x y z R1 IH S]; [auto |]. intros X. destruct (IH X) as [Y1 Y2]. split; [eapply hstep_inv; eauto | eapply tramp_guest_step; eauto]. }
  apply (G start s R). split; [apply start_inv |]. intros t [].
Qed.
Lemma steps_tramp pi skip a b : hsteps pi skip a b -> HInv pi a -> tramp_guest a -> HInv pi b /\ tramp_guest b.
Proof.
  induction 1 as [| x y z R1 IH S]; [auto |]. intros X Y. destruct (IH X Y) as [Y1 Y2]. split; [eapply hstep_inv; eauto | eapply tramp_guest_step; eauto].
Qed.
Lemma hooked_steps pi addr h a b : (forall x y, pi x = pi y -> x = y) -> hsteps pi (Some addr) a b -> HInv pi a -> hooked pi addr h a -> HInv pi b /\ hooked pi addr h b.
Proof.
  intros INJ. induction 1 as [| x y z R1 IH S]; [auto |]. intros X Y. destruct (IH X Y) as [Y1 Y2]. split; [eapply hstep_inv; eauto | eapply hooked_step; eauto].
Qed.
Lemma unhooked_steps pi addr a b : (forall x y, pi x = pi y -> x = y) -> hsteps pi (Some addr) a b -> HInv pi a -> unhooked pi addr a -> HInv pi b /\ unhooked pi addr b.
Proof.
  intros INJ. induction 1 as [| x y z R1 IH S]; [auto |]. intros X Y. destruct (IH X Y) as [Y1 Y2]. split; [eapply hstep_inv; eauto | eapply unhooked_step; eauto].
Qed.

Lemma run_hooked pi addr h s c t : hooked pi addr h s -> tramp_guest s -> c_vpc c = addr -> c_pc c = pi addr -> snd (run c t s) = if is_tramp c then None else Some h.
Proof.
  intros [H1 H2] TG EV EP. unfold run. destruct (search c (fetch c (code s))) as [u |] eqn:S; cbn [snd].
  - apply search_in in S as (U & _ & E & F). cbn [fetch cache] in U. unfold is_tramp. rewrite <- tramp_flag, <- F. destruct (Z.eqb_spec (Z.land (t_fl u) HFLG_TRAMP) 0) as [X | X]; cbn [negb].
    + apply H2; [exact U | congruence | exact X].
    + now apply TG.
  - unfold take_hook. destruct (is_tramp c); [reflexivity |]. now rewrite EV.
Qed.
Lemma run_unhooked pi addr s c t : unhooked pi addr s -> c_vpc c = addr -> c_pc c = pi addr -> snd (run c t s) = None.
Proof.
  intros [H1 H2] EV EP. unfold run. destruct (search c (fetch c (code s))) as [u |] eqn:S; cbn [snd].
  - apply search_in in S as (U & _ & E & F). cbn [fetch cache] in U. apply H2; [exact U | congruence].
  - unfold take_hook. destruct (is_tramp c); [reflexivity |]. now rewrite EV.
Qed.

(** ** C38 *)
(** Under an injective mapping, on an address that is not hooked and whose bytes decode: after [hook_add] succeeds, every
    execution at that address calls the hook, in every mode and after any history of executions, writes, flushes and
    other hooks, until the hook is removed; and the trampoline runs the guest code. *)
Theorem C38_added_partial : forall pi s0 addr h cur s1 s2 c t, (forall x y, pi x = pi y -> x = y) ->
  hsteps pi None start s0 -> (forall u, In u (cache (code s0)) -> t_pc u = pi addr -> t_size u <> 0) -> 0 <= pi addr ->
  hook_add (Some (pi addr)) addr h cur s0 = (Success, s1) -> hsteps pi (Some addr) s1 s2 -> c_vpc c = addr -> c_pc c = pi addr ->
  snd (run c t s2) = if is_tramp c then None else Some h.
Proof.
  intros pi s0 addr h cur s1 s2 c t INJ R0 SZ PA A R EV EP.
  destruct (reach_tramp pi s0 R0) as [HI0 TG0]. pose proof HI0 as [HC HK].
  assert (S : forall u, In u (cache (code s1)) <-> In u (cache (code s0)) /\ ~ In (tid u) (map tid (victims false (pi addr) 1 (fetch (mkctx addr (pi addr) 0 0 0) (code s0))))).
  { cbn in A. injection A as <-. cbn [code]. apply (invalidate_inv any all_blocks true false (pi addr) 1 cur _ (fetch_inv any all_blocks true (mkctx addr (pi addr) 0 0 0) _ HC)). }
  assert (K1 : kind s1 = kind s0 /\ hooks s1 addr = Some h) by (cbn in A; injection A as <-; cbn; split; [reflexivity | apply upd_same]). destruct K1 as [K1 K2].
  assert (N : forall u, In u (cache (code s1)) -> t_pc u <> pi addr).
  { intros u U E. apply S in U as [U V]. apply V. apply in_map. unfold victims. apply filter_In. cbn [fetch cache]. split; [exact U |].
    rewrite (in_page_any _ (fetch (mkctx addr (pi addr) 0 0 0) (code s0)) u (fetch_inv _ _ _ _ _ HC)) by exact U. rewrite E, Z.eqb_refl. cbn [andb].
    destruct (i_for _ _ _ _ HC u U) as (c0 & _ & _ & _ & _ & _ & _ & B & _). specialize (SZ u U E). unfold to_remove. rewrite E.
    rewrite (proj2 (Z.eqb_neq _ _) SZ), (proj2 (Z.ltb_ge _ _)) by lia. reflexivity. }
  assert (HI1 : HInv pi s1).
  { split; [cbn in A; injection A as <-; cbn [code]; apply invalidate_inv, fetch_inv, HC |]. intros u U. rewrite K1. apply HK. now apply S in U as [U _]. }
  assert (TG1 : tramp_guest s1) by (intros u U; rewrite K1; apply TG0; now apply S in U as [U _]).
  assert (H1 : hooked pi addr h s1) by (split; [exact K2 |]; intros u U E; exfalso; now apply (N u U)).
  destruct (steps_tramp pi _ _ _ R HI1 TG1) as [_ TG2]. destruct (hooked_steps pi addr h _ _ INJ R HI1 H1) as [_ H2].
  now apply (run_hooked pi addr h).
Qed.
Print Assumptions C38_added_partial.

(** Under an injective mapping, if the page can be written and the hook was executed in one mode only: after [hook_remove] succeeds,
    every execution at that address runs the guest code, in every mode and after any history, until it is hooked again. *)
Theorem C38_removed_partial : forall pi s0 addr cur st s1 s2 c t, (forall x y, pi x = pi y -> x = y) ->
  hsteps pi None start s0 -> hooks s0 addr <> None ->
  (forall u v, In u (cache (code s0)) -> In v (cache (code s0)) -> t_pc u = pi addr -> t_pc v = pi addr -> t_size u = 0 -> t_size v = 0 -> u = v) ->
  hook_remove (Some (pi addr)) addr cur s0 = (st, s1) -> hsteps pi (Some addr) s1 s2 -> c_vpc c = addr -> c_pc c = pi addr ->
  st = Success /\ snd (run c t s2) = None.
Proof.
  intros pi s0 addr cur st s1 s2 c t INJ R0 HK0 ONE A R EV EP. unfold hook_remove in A. destruct (hooks s0 addr) as [h |] eqn:HA; [| contradiction].
  injection A as <- <-. split; [reflexivity |]. destruct (reach_tramp pi s0 R0) as [HI0 TG0]. pose proof HI0 as [HC HK].
  destruct (invalidate_inv any all_blocks true true (pi addr) 0 cur (code s0) HC) as [HC1 S].
  set (s1 := mkhs (fst (invalidate true (pi addr) 0 cur (code s0))) (upd (hooks s0) addr None) (kind s0)) in *.
  assert (HI1 : HInv pi s1) by (split; [exact HC1 |]; intros u U; cbn [s1 kind]; apply HK; now apply S in U as [U _]).
  assert (U1 : unhooked pi addr s1).
  { split; [apply upd_same |]. intros u U E. cbn [s1 kind code] in *. apply S in U as [U V]. destruct (kind s0 (tid u)) as [k |] eqn:KU; [exfalso | reflexivity].
    destruct (HK u U) as (_ & Z0 & _). rewrite KU in Z0. specialize (Z0 ltac:(discriminate)).
    assert (SU : t_size u = 0) by (destruct (i_for _ _ _ _ HC u U) as (c0 & _ & _ & _ & _ & _ & _ & B & _); lia).
    assert (IN : In u (filter (fun t => in_page (page (pi addr)) (code s0) t && to_remove true (pi addr) 0 t) (cache (code s0)))).
    { apply filter_In. split; [exact U |]. rewrite (in_page_any _ _ u HC) by exact U. rewrite E, Z.eqb_refl. cbn [andb]. unfold to_remove. now rewrite SU, E, !Z.eqb_refl. }
    apply V. apply in_map. unfold victims. destruct (filter _ (cache (code s0))) as [| v l] eqn:F; [destruct IN |]. cbn [firstn]. left.
    assert (IV : In v (v :: l)) by now left. rewrite <- F in IV. apply filter_In in IV as [V1 V2]. apply andb_true_iff in V2 as [_ V2]. unfold to_remove in V2. apply andb_true_iff in V2 as [V2 V3]. apply Z.eqb_eq in V2, V3.
    apply ONE; assumption. }
  destruct (unhooked_steps pi addr _ _ INJ R HI1 U1) as [_ U2]. now apply (run_unhooked pi addr).
Qed.
Print Assumptions C38_removed_partial.

(** A hook that is not there is reported and nothing changes. *)
Theorem C38_not_found : forall pa addr cur s, hooks s addr = None -> hook_remove pa addr cur s = (Not_found, s).
Proof. intros pa addr cur s H. unfold hook_remove. now rewrite H. Qed.
Print Assumptions C38_not_found.

Definition idm : Z -> Z := fun x => x.
Definition one : hstate := snd (hook_add (Some (idm 0x5000)) 0x5000 7 (cx 0 0) start).
Lemma one_step : hsteps idm None start one.
Proof. eapply hs_step; [apply hs_refl | exact (h_add idm None start 0x5000 7 (cx 0 0) ltac:(discriminate) ltac:(lia))]. Qed.

(** On a read only page, with CR0.WP set, a hook can be added but not removed. *)
Definition ro_env : MmuModel.menv := MmuModel.mkmenv (fun x => x) (fun _ => MmuModel.KRam) (fun _ => 0%nat).
(** the directory at 0x1000 maps the table at 0x2000, which maps the page 0x5000 to 0x5000, both read only *)
Definition ro_mmu : MmuModel.mmu := MmuModel.mmu0 0x80010001 0x1000 0 0 (fun a => if a =? 0x1000 then 0x2001 else if a =? 0x2014 then 0x5001 else 0).
Theorem C38_refuted_readonly : exists s, hsteps idm None start s /\ hooks s 0x5000 = Some 7 /\
  code_pa ro_env 0x5000 ro_mmu = Some 0x5000 /\ fst (hook_remove (query_write_pa ro_env 0x5000 ro_mmu) 0x5000 (cx 0 0) s) = Guest_exp /\
  snd (hook_remove (query_write_pa ro_env 0x5000 ro_mmu) 0x5000 (cx 0 0) s) = s.
Proof.
  exists one. split; [apply one_step |].
  split; [exact (upd_same _ _ _) |]. split; [vm_compute; reflexivity |]. assert (Q : query_write_pa ro_env 0x5000 ro_mmu = None) by (vm_compute; reflexivity). rewrite Q.
  unfold hook_remove. assert (H : hooks one 0x5000 = Some 7) by exact (upd_same _ _ _). rewrite H. split; reflexivity.
Qed.
Print Assumptions C38_refuted_readonly.

(** A hook executed in two modes is removed in one of them only. *)
Definition hk (i fl : Z) : tc := mktc i 0x5000 0x5000 0 fl 0 0 [].
Definition cm (fl : Z) : ctx := mkctx 0x5000 0x5000 0 fl 2.
Lemma cm_ok fl : ctx_ok (cm fl).
Proof. unfold ctx_ok, cm. cbn [c_vpc c_pc]. lia. Qed.
Lemma hk_of i fl : cflags (cm fl) = fl -> block_of (cm fl) (hk i fl).
Proof. intros E. unfold block_of, hk, cm. cbn [t_pc t_vpc t_cs t_fl t_size t_len c_pc c_vpc c_cs]. unfold cm in E. rewrite E. repeat split; try lia; vm_compute; discriminate. Qed.
Theorem C38_refuted_modes : exists s0 s1 c t, hsteps idm None start s0 /\ hook_remove (Some 0x5000) 0x5000 (cx 0 0) s0 = (Success, s1) /\
  c_vpc c = 0x5000 /\ c_pc c = 0x5000 /\ snd (run c t s1) = Some 7.
Proof.
  set (b := fst (run (cm 0) (hk 1 0) one)). set (d := fst (run (cm 3) (hk 2 3) b)).
  assert (R : hsteps idm None start d).
  { eapply hs_step; [eapply hs_step; [apply one_step |] |].
    - refine (h_run idm None one (cm 0) (hk 1 0) (cm_ok 0) eq_refl _). split; [now apply hk_of |]. split; [intros [] | reflexivity].
    - refine (h_run idm None b (cm 3) (hk 2 3) (cm_ok 3) eq_refl _). split; [now apply hk_of |]. split; [intros [X | []]; discriminate X | reflexivity]. }
  exists d, (snd (hook_remove (Some 0x5000) 0x5000 (cx 0 0) d)), (cm 0), (hk 3 0). split; [exact R |]. split; [reflexivity |]. split; [reflexivity |]. split; [reflexivity |]. reflexivity.
Qed.
Print Assumptions C38_refuted_modes.

(** Adding another hook at the same address has no effect once the first was executed. *)
Theorem C38_refuted_replace : exists s0 s1 c t, hsteps idm None start s0 /\ hook_add (Some 0x5000) 0x5000 8 (cx 0 0) s0 = (Success, s1) /\
  c_vpc c = 0x5000 /\ c_pc c = 0x5000 /\ is_tramp c = false /\ snd (run c t s1) = Some 7.
Proof.
  set (b := fst (run (cm 0) (hk 1 0) one)).
  exists b, (snd (hook_add (Some 0x5000) 0x5000 8 (cx 0 0) b)), (cm 0), (hk 3 0). split.
  - eapply hs_step; [apply one_step |].
    refine (h_run idm None one (cm 0) (hk 1 0) (cm_ok 0) eq_refl _). split; [now apply hk_of |]. split; [intros [] | reflexivity].
  - split; [reflexivity |]. split; [reflexivity |]. split; [reflexivity |]. split; reflexivity.
Qed.
Print Assumptions C38_refuted_replace.

(** code is run, hooked, run through the hook, and run again after the hook is removed *)
Definition gk (i fl : Z) : tc := mktc i 0x5000 0x5000 0 fl 16 16 [].
Lemma gk_of i fl : cflags (cm fl) = fl -> block_of (cm fl) (gk i fl).
Proof. intros E. unfold block_of, gk, cm. cbn [t_pc t_vpc t_cs t_fl t_size t_len c_pc c_vpc c_cs]. unfold cm in E. rewrite E. repeat split; try lia; vm_compute; discriminate. Qed.
Example C38_example : exists s0 s1 s2 s3, hsteps idm None start s0 /\ cache (code s0) <> [] /\
  (forall u, In u (cache (code s0)) -> t_pc u = 0x5000 -> t_size u <> 0) /\ hook_add (Some 0x5000) 0x5000 7 (cx 0 0) s0 = (Success, s1) /\
  s2 = fst (run (cm 0) (hk 2 0) s1) /\ snd (run (cm 0) (hk 2 0) s1) = Some 7 /\ hook_remove (Some 0x5000) 0x5000 (cx 0 0) s2 = (Success, s3) /\ snd (run (cm 0) (gk 3 0) s3) = None.
Proof.
  set (s0 := fst (run (cm 0) (gk 1 0) start)). exists s0. eexists. eexists. eexists. split.
  - eapply hs_step; [apply hs_refl |]. refine (h_run idm None start (cm 0) (gk 1 0) (cm_ok 0) eq_refl _). split; [now apply gk_of |]. split; [intros [] | reflexivity].
  - split; [discriminate |]. split; [intros u [<- | []] _; discriminate |]. split; [reflexivity |]. split; [reflexivity |]. split; [reflexivity |]. split; [reflexivity |]. reflexivity.
Qed.
