(** Proofs about the memory-region API on top of the region map. *)
From Coq Require Import ZArith List Bool Lia ZifyBool.
From Verif Require Import AddrSpaceModel AddrSpaceSpec AddrSpaceProofs.
Import ListNotations.
Open Scope Z_scope.

Lemma MEM_MAX_pos : 0 <= MEM_MAX.
Proof. unfold MEM_MAX. lia. Qed.

Definition wf_info (i : rinfo) : Prop :=
  (i_type i <> alias -> i_aliased i = None /\ i_alias_offset i = 0) /\
  (i_type i = alias -> i_aliased i <> None).

Definition wf_all (l : list node) : Prop :=
  Forall (fun n => wf_info (ri n) /\ 0 <= i_alias_offset (ri n) < 2 ^ 32) l.

Lemma last_addr_eq st sz :
  0 <= st < 2 ^ 32 -> 0 < sz -> st + sz <= 2 ^ 64 ->
  last_addr MEM_MAX st sz = Z.min (st + sz - 1) (2 ^ 32 - 1).
Proof.
  intros. unfold last_addr, MEM_MAX. rewrite Z.mod_small; [reflexivity|]. unfold U64. lia.
Qed.

Lemma last_addr_aligned g st sz :
  unit_ok g -> 0 <= st < 2 ^ 32 -> 0 < sz -> st + sz <= 2 ^ 64 -> st mod g = 0 ->
  (sz mod g = 0 \/ 2 ^ 32 <= st + sz) -> (last_addr MEM_MAX st sz + 1) mod g = 0.
Proof.
  intros (Hg & Hu) H1 H2 H3 H4 H5. rewrite last_addr_eq by lia.
  destruct (Z_lt_ge_dec (st + sz) (2 ^ 32)).
  - rewrite Z.min_l by lia. replace (st + sz - 1 + 1) with (st + sz) by lia.
    destruct H5 as [H5|H5]; [|lia]. rewrite Z.add_mod, H4, H5 by lia. apply Z.mod_0_l. lia.
  - rewrite Z.min_r by lia. replace (2 ^ 32 - 1 + 1) with (2 ^ 32) by lia. exact Hu.
Qed.

(** What an accepted call does to the map. *)
Lemma call_op_spec g s c o :
  unit_ok g -> call_ok g c -> call_op s c = Some (Some o) ->
  valid_op MEM_MAX o /\ aligned_op g o /\
  op_start o = call_start c /\ op_end o = Z.min (call_start c + call_size c - 1) (2 ^ 32 - 1) /\
  (forall f, forall a, 0 <= a < 2 ^ 32 ->
     visible (ideal_step f o a) = if covers c a then call_effect c else visible (f a)) /\
  (forall r, o = OpInsert r -> wf_info (r_info r) /\ 0 <= i_alias_offset (r_info r) < 2 ^ 32).
Proof.
  intros Hu (K1 & K2 & K3 & K4 & K5 & _).
  pose proof (last_addr_eq _ _ K1 K2 K3) as L.
  pose proof (last_addr_aligned _ _ _ Hu K1 K2 K3 K4 K5) as LA.
  assert (Hcov : forall a, 0 <= a < 2 ^ 32 ->
     covers c a = (call_start c <=? a) && (a <=? last_addr MEM_MAX (call_start c) (call_size c))).
  { intros a Ha. unfold covers. rewrite L. lia. }
  destruct c as [st sz|st sz h op|st sz b|al ori sz|st sz];
    cbn [call_op call_start call_size call_effect] in *.
  - unfold ram_region. destruct (sz =? 0) eqn:E; [lia|]. cbn [option_map].
    intros H; injection H as <-. unfold valid_op, aligned_op. cbn [op_start op_end r_start r_end r_info].
    split; [unfold MEM_MAX in *; repeat split; try lia; cbn; discriminate|].
    split; [auto|]. split; [auto|]. split; [auto|]. split.
    + intros f a Ha. cbn [ideal_step r_start r_end r_info]. rewrite Hcov by exact Ha.
      destruct (_ && _); reflexivity.
    + intros r H. injection H as <-. cbn. split; [|lia]. split; [auto|discriminate].
  - unfold mmio_region. destruct (sz =? 0) eqn:E; [lia|]. cbn [option_map].
    intros H; injection H as <-. unfold valid_op, aligned_op. cbn [op_start op_end r_start r_end r_info].
    split; [unfold MEM_MAX in *; repeat split; try lia; cbn; discriminate|].
    split; [auto|]. split; [auto|]. split; [auto|]. split.
    + intros f a Ha. cbn [ideal_step r_start r_end r_info]. rewrite Hcov by exact Ha.
      destruct (_ && _); reflexivity.
    + intros r H. injection H as <-. cbn. split; [|lia]. split; [auto|discriminate].
  - unfold rom_region. destruct ((sz =? 0) || (b =? 0)) eqn:E; cbn [option_map]; [discriminate|].
    intros H; injection H as <-. unfold valid_op, aligned_op. cbn [op_start op_end r_start r_end r_info].
    split; [unfold MEM_MAX in *; repeat split; try lia; cbn; discriminate|].
    split; [auto|]. split; [auto|]. split; [auto|]. split.
    + intros f a Ha. cbn [ideal_step r_start r_end r_info]. rewrite Hcov by exact Ha.
      destruct (_ && _); reflexivity.
    + intros r H. injection H as <-. cbn. split; [|lia]. split; [auto|discriminate].
  - unfold alias_region. destruct (sz =? 0) eqn:E; [lia|].
    destruct (get_it (nodes s) ori) as [n|]; [|discriminate].
    destruct (_ && _ && _); cbn [option_map]; [|discriminate].
    intros H; injection H as <-. unfold valid_op, aligned_op. cbn [op_start op_end r_start r_end r_info].
    split; [unfold MEM_MAX in *; repeat split; try lia; cbn; discriminate|].
    split; [auto|]. split; [auto|]. split; [auto|]. split.
    + intros f a Ha. cbn [ideal_step r_start r_end r_info]. rewrite Hcov by exact Ha.
      destruct (_ && _); reflexivity.
    + intros r H. injection H as <-. cbn [r_info i_alias_offset]. split; [|apply Z.mod_pos_bound; lia].
      split; intros Hx; cbn in *; congruence.
  - intros H; injection H as <-. unfold valid_op, aligned_op, destroy_mem_range. cbn [op_start op_end fst snd].
    split; [unfold MEM_MAX in *; repeat split; lia|].
    split; [auto|]. split; [auto|]. split; [auto|]. split.
    + intros f a Ha. cbn [ideal_step]. rewrite Hcov by exact Ha.
      destruct (_ && _); reflexivity.
    + discriminate.
Qed.

Definition api_inv (g : Z) (s : aspace) : Prop :=
  inv MEM_MAX s /\ algn g (nodes s) /\ ids_ok s /\ wf_all (nodes s).

Lemma aligned_one g s o :
  1 < g -> algn g (nodes s) -> aligned_op g o -> safe_end s o.
Proof.
  intros Hg A (A1 & A2) n In_ Hn Hlt. exfalso. unfold algn in A. rewrite Forall_forall in A.
  destruct (A n In_) as (An & _). unfold rs in An. rewrite Hn in An.
  rewrite Z.add_mod, An, (Z.mod_small 1) in A2 by lia.
  rewrite Z.mod_small in A2; lia.
Qed.

Lemma wf_default : wf_info info_default /\ 0 <= i_alias_offset info_default < 2 ^ 32.
Proof. split; [|cbn; lia]. split; [auto|discriminate]. Qed.

(** Any property of region contents that holds of what is stored and of what
    is inserted keeps holding. *)
Lemma wf_preserved s o s' :
  inv MEM_MAX s -> inv MEM_MAX s' -> valid_op MEM_MAX o ->
  (forall f, obs MEM_MAX f s -> obs MEM_MAX (ideal_step f o) s') ->
  (forall r, o = OpInsert r -> wf_info (r_info r) /\ 0 <= i_alias_offset (r_info r) < 2 ^ 32) ->
  wf_all (nodes s) -> wf_all (nodes s').
Proof.
  intros (G & _) (G' & _) V O W H.
  set (f := fun a => match looki (nodes s) a with Some i => i | None => info_default end).
  assert (Of : obs MEM_MAX f s).
  { intros a Ha. unfold f. destruct (look_in _ _ _ a G) as (n & En & _); [lia|].
    unfold looki. rewrite En. reflexivity. }
  specialize (O f Of). apply Forall_forall. intros n In_.
  pose proof (seg_bounds _ _ _ G') as Bd. rewrite Forall_forall in Bd. specialize (Bd n In_).
  pose proof (looki_in_seg _ _ _ _ G' In_) as L.
  rewrite O in L by lia. injection L as L. rewrite <- L.
  assert (Hf : wf_info (f (rs n)) /\ 0 <= i_alias_offset (f (rs n)) < 2 ^ 32).
  { unfold f. destruct (looki (nodes s) (rs n)) eqn:E; [|apply wf_default].
    apply looki_some_in in E. destruct E as (m & Im & <-). unfold wf_all in H.
    rewrite Forall_forall in H. auto. }
  destruct o as [r|a b]; cbn [ideal_step]; destruct (_ && _); auto. apply wf_default.
Qed.

Lemma alias_region_defined s al ori sz :
  inv MEM_MAX s -> 0 <= ori < 2 ^ 32 -> alias_region s al ori sz <> None.
Proof.
  intros (G & _) H. unfold alias_region. destruct (sz =? 0); [discriminate|].
  destruct (locate MEM_MAX s ori) as (l1 & n & l2 & E & S1 & K & B & S2 & Gi); [exact G|unfold MEM_MAX; lia|].
  rewrite Gi. destruct (_ && _ && _); discriminate.
Qed.

Lemma api_step_good g s c :
  unit_ok g -> api_inv g s -> call_ok g c ->
  exists s' ok, api_step s c = Some (s', ok) /\ api_inv g s' /\
    (forall f, obs MEM_MAX f s -> exists f', obs MEM_MAX f' s' /\
       forall a, 0 <= a < 2 ^ 32 ->
         visible (f' a) = if ok && covers c a then call_effect c else visible (f a)) /\
    (forall n, In n (nodes s) -> ~ unm (ri n) -> apart (rs n) (re n) c -> In n (nodes s')).
Proof.
  intros Hu (I & A & Id & W) Hc. unfold api_step.
  destruct (call_op s c) as [[o|]|] eqn:E.
  - destruct (call_op_spec g s c o Hu Hc E) as (V & Al & Os & Oe & Ef & Wf).
    pose proof (aligned_one g s o (proj1 Hu) A Al) as Sf.
    destruct (step_good MEM_MAX MEM_MAX_pos s o I V Sf) as (s' & Es & I' & O' & Bd & Kp).
    rewrite Es. exists s', true. split; [reflexivity|]. split; [|split].
    + split; [exact I'|]. split; [exact (bnd_algn g _ _ _ _ A (proj1 Al) (proj2 Al) Bd)|].
      split; [exact (ids_step MEM_MAX s o s' Id Es)|]. exact (wf_preserved s o s' I I' V O' Wf W).
    + intros f Of. exists (ideal_step f o). split; [apply O'; exact Of|]. exact (Ef f).
    + intros n In_ Nu Ap. apply Kp; auto. rewrite Os, Oe.
      destruct I as (G & _). pose proof (seg_bounds _ _ _ G) as Bn. rewrite Forall_forall in Bn.
      specialize (Bn n In_). unfold apart, MEM_MAX in *. lia.
  - exists s, false. split; [reflexivity|]. split; [unfold api_inv; auto|]. split.
    + intros f Of. exists f. split; [exact Of|]. intros. reflexivity.
    + auto.
  - exfalso. destruct c; cbn [call_op] in E; try discriminate.
    destruct (alias_region s alias_start ori_start ori_size) eqn:E2; [discriminate|].
    revert E2. apply alias_region_defined; [exact I|]. apply Hc.
Qed.

Lemma find_snoc {A} (p : A -> bool) l x :
  find p (l ++ [x]) = match find p l with Some y => Some y | None => if p x then Some x else None end.
Proof. induction l as [|y l IH]; cbn [app find]; [reflexivity|]. destruct (p y); auto. Qed.

Lemma api_run_good g cs : unit_ok g -> forall s f,
  api_inv g s -> obs MEM_MAX f s -> Forall (call_ok g) cs ->
  exists s' oks f', api_run s cs = Some (s', oks) /\ length oks = length cs /\
    api_inv g s' /\ obs MEM_MAX f' s' /\
    (forall a, 0 <= a < 2 ^ 32 ->
      visible (f' a) = match most_recent (combine cs oks) a with
                       | Some c => call_effect c
                       | None => visible (f a)
                       end) /\
    (forall n, In n (nodes s) -> ~ unm (ri n) -> Forall (apart (rs n) (re n)) cs -> In n (nodes s')).
Proof.
  intros Hu. induction cs as [|c cs IH]; intros s f I O H; cbn [api_run].
  - exists s, [], f. repeat split; auto; apply I.
  - inversion_clear H as [|? ? Hc H'].
    destruct (api_step_good g s c Hu I Hc) as (s' & ok & E & I' & Ef & Kp).
    rewrite E. destruct (Ef f O) as (f1 & O1 & V1).
    destruct (IH s' f1 I' O1 H') as (s'' & oks & f2 & E2 & Len & I2 & O2 & V2 & Kp2).
    rewrite E2. exists s'', (ok :: oks), f2. split; [reflexivity|].
    split; [cbn; congruence|]. split; [exact I2|]. split; [exact O2|]. split.
    + intros a Ha. rewrite V2 by exact Ha. unfold most_recent. cbn [combine rev].
      rewrite find_snoc. destruct (find _ (rev (combine cs oks))) as [p|]; cbn [option_map]; [reflexivity|].
      cbn [fst snd]. rewrite V1 by exact Ha. destruct (ok && covers c a); reflexivity.
    + intros n In_ Nu Ap. inversion_clear Ap. apply Kp2; auto.
Qed.

Lemma api_inv_create g : unit_ok g -> api_inv g (as_create MEM_MAX).
Proof.
  intros (Hg & Hu). split; [apply inv_create, MEM_MAX_pos|].
  split; [apply algn_create; [lia|]; unfold MEM_MAX; replace (2 ^ 32 - 1 + 1) with (2 ^ 32) by lia; exact Hu|].
  split.
  - split; cbn; repeat constructor; intros [].
  - constructor; [apply wf_default|constructor].
Qed.

(** *** Aliases *)

Lemma resolve_shift fuel : forall l r off d,
  resolve_loop fuel l r ((off + d) mod 2 ^ 32) =
  option_map (fun p => (fst p, (snd p + d) mod 2 ^ 32)) (resolve_loop fuel l r (off mod 2 ^ 32)).
Proof.
  induction fuel as [|fuel IH]; intros l r off d; cbn [resolve_loop];
    destruct (i_aliased (r_info r)) as [p|]; try reflexivity.
  - cbn [option_map fst snd]. rewrite Z.add_mod_idemp_l by lia. reflexivity.
  - destruct (deref l p) as [r'|]; [|reflexivity].
    rewrite (Z.add_mod_idemp_l (off + d)), (Z.add_mod_idemp_l off) by lia.
    replace (off + d + i_alias_offset (r_info r')) with (off + i_alias_offset (r_info r') + d) by lia.
    apply IH.
  - cbn [option_map fst snd]. rewrite Z.add_mod_idemp_l by lia. reflexivity.
Qed.

Lemma find_id l n : NoDup (map n_id l) -> In n l -> find (fun m => n_id m =? n_id n) l = Some n.
Proof.
  induction l as [|m t IH]; cbn [map find]; [intros _ []|].
  intros H I. inversion_clear H as [|? ? Hm Ht]. destruct (n_id m =? n_id n) eqn:E.
  - destruct I as [->|I]; [reflexivity|]. exfalso. apply Hm. apply in_map_iff. exists n. split; [lia|exact I].
  - destruct I as [->|I]; [rewrite Z.eqb_refl in E; discriminate|]. auto.
Qed.

Lemma deref_in s n : ids_ok s -> In n (nodes s) -> deref (nodes s) (n_id n) = Some (n_reg n).
Proof. intros (N & _) I. unfold deref. rewrite find_id by auto. reflexivity. Qed.

Lemma search_in s n a : inv MEM_MAX s -> In n (nodes s) -> rs n <= a <= re n -> search s a = Some (n_reg n).
Proof.
  intros (G & _) I H. unfold search.
  pose proof (seg_bounds _ _ _ G) as Bn. rewrite Forall_forall in Bn. specialize (Bn n I).
  destruct (locate MEM_MAX s a) as (l1 & m & l2 & E & S1 & K & B & S2 & Gi); [exact G|lia|].
  rewrite Gi. destruct (good_partition MEM_MAX s G) as (_ & P). destruct (P a) as (q & _ & _ & U); [lia|].
  assert (m = q) by (apply U; [rewrite E; apply in_or_app; right; left; reflexivity|exact B]).
  assert (n = q) by (apply U; [exact I|exact H]). congruence.
Qed.

(** An alias node and its direct target in the same map: both routes agree. *)
Lemma alias_agrees s na nt ori fuel k :
  inv MEM_MAX s -> ids_ok s -> wf_all (nodes s) ->
  In na (nodes s) -> In nt (nodes s) ->
  i_type (ri na) = alias -> i_aliased (ri na) = Some (n_id nt) ->
  i_alias_offset (ri na) = (ori - rs nt) mod 2 ^ 32 ->
  rs nt <= ori -> ori + (re na - rs na) <= re nt -> 
  0 <= k <= re na - rs na ->
  dispatch (S fuel) s (rs na + k) = dispatch fuel s (ori + k).
Proof.
  intros I Id W Ia It Ta Pa Oa H1 H2 Hk. unfold dispatch.
  rewrite (search_in s na), (search_in s nt) by (auto; lia).
  unfold dispatch_resolve. change (r_info (n_reg na)) with (ri na). rewrite Ta.
  cbn [resolve_loop]. change (r_info (n_reg na)) with (ri na). rewrite Pa, (deref_in s nt) by auto.
  change (r_info (n_reg nt)) with (ri nt).
  change (r_start (n_reg na)) with (rs na). change (r_start (n_reg nt)) with (rs nt).
  replace (rs na + k - rs na) with k by lia.
  rewrite Z.add_comm, Oa, Z.add_mod_idemp_r, resolve_shift by lia.
  unfold wf_all in W. rewrite Forall_forall in W. destruct (W nt It) as ((Wn & _) & Wo).
  assert (Hmod : i_alias_offset (ri nt) mod 2 ^ 32 = i_alias_offset (ri nt)) by (apply Z.mod_small; lia).
  rewrite Hmod.
  destruct I as (G & _). pose proof (seg_bounds _ _ _ G) as Bn. rewrite Forall_forall in Bn.
  specialize (Bn nt It). unfold MEM_MAX in Bn.
  destruct (i_type (ri nt)) eqn:Et;
    try (destruct (Wn ltac:(discriminate)) as (Wp & W0);
         rewrite W0; destruct fuel; cbn [resolve_loop];
         change (r_info (n_reg nt)) with (ri nt); rewrite Wp; cbn [option_map fst snd];
         change (r_start (n_reg nt)) with (rs nt); f_equal; f_equal;
         rewrite Z.add_0_l, <- Z.add_assoc, (Z.add_comm (_ mod _)), Z.add_assoc, Z.add_mod_idemp_r by lia;
         rewrite Z.mod_small; lia).
  destruct (resolve_loop fuel (nodes s) (n_reg nt) (i_alias_offset (ri nt))) as [[r' off]|];
    cbn [option_map fst snd]; [|reflexivity].
  f_equal. f_equal.
  replace (r_start r' + (off + (ori - rs nt)) mod 2 ^ 32 + k)
    with (r_start r' + k + (off + (ori - rs nt)) mod 2 ^ 32) by lia.
  rewrite Z.add_mod_idemp_r by lia. f_equal. lia.
Qed.

Lemma cong_trans a b : (a - b) mod 2 ^ 32 = 0 -> a mod 2 ^ 32 = b mod 2 ^ 32.
Proof.
  intros H. apply Z.mod_divide in H; [|lia]. destruct H as (q & H).
  replace a with (b + q * 2 ^ 32) by lia. apply Z.mod_add. lia.
Qed.

Lemma cong_elim a : exists q, a mod 2 ^ 32 = a + q * 2 ^ 32.
Proof. exists (- (a / 2 ^ 32)). pose proof (Z.div_mod a (2 ^ 32)). lia. Qed.

Lemma correct_loop_agrees fuel : forall l r o c,
  match resolve_loop fuel l r ((o + i_alias_offset (r_info r)) mod 2 ^ 32),
        correct_loop fuel l r (c mod 2 ^ 32) with
  | Some (r1, x), Some (r2, y) =>
      r1 = r2 /\ i_aliased (r_info r1) = None /\
      (exists q, x - i_alias_offset (r_info r1) + y - o - c - r_start r + r_start r1 = q * 2 ^ 32) /\
      (r1 = r \/ exists n, In n l /\ r1 = n_reg n)
  | None, None => True
  | _, _ => False
  end.
Proof.
  induction fuel as [|fuel IH]; intros l r o c; cbn [resolve_loop correct_loop];
    destruct (i_aliased (r_info r)) as [p|] eqn:Ea; trivial.
  1,3: split; [reflexivity|]; split; [exact Ea|]; split; [|left; reflexivity];
       destruct (cong_elim (o + i_alias_offset (r_info r))) as (q1 & ->);
       destruct (cong_elim c) as (q2 & ->); exists (q1 + q2); lia.
  destruct (deref l p) as [r'|] eqn:Ed; [|trivial].
  rewrite Z.add_mod_idemp_l by lia.
  specialize (IH l r' (o + i_alias_offset (r_info r))
                (c + (r_start r - (i_alias_offset (r_info r) + r_start r')))).
  replace ((c mod 2 ^ 32 + (r_start r - (i_alias_offset (r_info r) + r_start r'))) mod 2 ^ 32)
    with ((c + (r_start r - (i_alias_offset (r_info r) + r_start r'))) mod 2 ^ 32)
    by (rewrite Z.add_mod_idemp_l by lia; reflexivity).
  destruct (resolve_loop fuel l r' _) as [[r1 x]|], (correct_loop fuel l r' _) as [[r2 y]|]; trivial.
  destruct IH as (E & Hn & (q & Hq) & Hr). split; [exact E|]. split; [exact Hn|]. split.
  - exists q. lia.
  - right. destruct Hr as [->|Hr]; [|exact Hr].
    unfold deref in Ed. destruct (find _ l) as [n|] eqn:Ef; [|discriminate]. injection Ed as <-.
    apply find_some in Ef. exists n. tauto.
Qed.

Lemma paths_agree s n a fuel :
  wf_all (nodes s) -> In n (nodes s) ->
  correct_phys fuel (nodes s) (n_reg n) a = dispatch_resolve fuel (nodes s) (n_reg n) a.
Proof.
  intros W In_.
  unfold wf_all in W. rewrite Forall_forall in W.
  unfold correct_phys, dispatch_resolve. destruct (i_type (r_info (n_reg n))) eqn:Et; try reflexivity.
  pose proof (correct_loop_agrees fuel (nodes s) (n_reg n) 0 0) as H.
  rewrite Z.add_0_l, (Z.mod_small 0) in H by lia.
  rewrite (Z.mod_small (i_alias_offset _)) in H by (apply (W n In_)).
  destruct (resolve_loop _ _ _ _) as [[r1 x]|], (correct_loop _ _ _ _) as [[r2 y]|]; try contradiction; [|reflexivity].
  destruct H as (<- & Hn & (q & Hq) & Hr). f_equal. f_equal. apply cong_trans.
  assert (H0 : i_alias_offset (r_info r1) = 0).
  { assert (Hm : exists m, In m (nodes s) /\ r1 = n_reg m) by (destruct Hr as [->|Hr]; [exists n; auto|exact Hr]).
    destruct Hm as (m & Im & ->). destruct (W m Im) as ((Wm & Wa) & _).
    apply Wm. intros Ha. apply (Wa Ha). exact Hn. }
  rewrite H0 in Hq.
  replace (a - y - (r_start r1 + x + (a - r_start (n_reg n)))) with (- q * 2 ^ 32) by lia.
  apply Z.mod_mul. lia.
Qed.

Lemma api_reach g cs s oks :
  unit_ok g -> Forall (call_ok g) cs -> api_run (as_create MEM_MAX) cs = Some (s, oks) -> api_inv g s.
Proof.
  intros Hu H E.
  destruct (api_run_good g cs Hu _ _ (api_inv_create g Hu) (obs_create MEM_MAX) H)
    as (s' & oks' & f' & E' & _ & I & _).
  rewrite E in E'. injection E' as <- <-. exact I.
Qed.

Lemma alias_history g cs1 al ori sz cs2 s1 oks1 s2 s3 oks2 t :
  unit_ok g -> Forall (call_ok g) (cs1 ++ CallAlias al ori sz :: cs2) ->
  api_run (as_create MEM_MAX) cs1 = Some (s1, oks1) ->
  search s1 ori = Some t ->
  api_step s1 (CallAlias al ori sz) = Some (s2, true) ->
  api_run s2 cs2 = Some (s3, oks2) ->
  apart (r_start t) (r_end t) (CallAlias al ori sz) ->
  Forall (apart (r_start t) (r_end t)) cs2 ->
  Forall (apart al (al + sz - 1)) cs2 ->
  forall k fuel, 0 <= k < sz -> al + k < 2 ^ 32 ->
    dispatch (S fuel) s3 (al + k) = dispatch fuel s3 (ori + k) /\
    (i_type (r_info t) <> alias -> dispatch fuel s3 (ori + k) = Some (t, ori + k)).
Proof.
  intros Hu Hall R1 St Sp R2 Ap0 Ap1 Ap2 k fuel Hk Hk2.
  apply Forall_app in Hall. destruct Hall as (H1 & H2). inversion_clear H2 as [|? ? Hc H3].
  pose proof (api_reach g cs1 s1 oks1 Hu H1 R1) as I1.
  destruct (api_step_good g s1 _ Hu I1 Hc) as (s2' & ok & Sp' & I2 & _ & Kp).
  rewrite Sp in Sp'. injection Sp' as <- <-.
  pose proof I1 as ((G1 & U1 & A1) & Al1 & Id1 & W1).
  (* the target node *)
  pose proof Hc as (K1 & K2 & K3 & K4 & K5 & K6 & K7).
  destruct (locate MEM_MAX s1 ori) as (la & nt & lb & E & S1 & K & B & S2 & Gi);
    [exact G1|unfold MEM_MAX; lia|].
  unfold search in St. rewrite Gi in St. injection St as <-.
  assert (Int : In nt (nodes s1)) by (rewrite E; apply in_or_app; right; left; reflexivity).
  (* the alias call *)
  revert Sp. unfold api_step. cbn [call_op]. unfold alias_region. cbn [call_start call_size] in *.
  destruct (sz =? 0) eqn:Ez; [lia|]. rewrite Gi.
  destruct (_ && _ && _) eqn:Ec; cbn [option_map]; [|discriminate].
  set (r := mk_region al _ _). cbn [as_step].
  assert (Hend : r_end r = Z.min (al + sz - 1) (2 ^ 32 - 1)) by (apply last_addr_eq; lia).
  rewrite !andb_true_iff in Ec. destruct Ec as ((Ec1 & Ec2) & Ec3).
  rewrite Z.mod_small in Ec2 by (unfold U64; lia).
  assert (Nu : ~ unm (ri nt)).
  { intros Hun. apply unm_dec in Hun. unfold ri in Hun. rewrite Hun in Ec3. discriminate. }
  assert (V : valid_op MEM_MAX (OpInsert r)).
  { unfold valid_op, MEM_MAX. cbn [op_start op_end]. rewrite Hend. cbn [r r_start].
    repeat split; try lia; discriminate. }
  assert (Alg : aligned_op g (OpInsert r)).
  { split; cbn [op_start op_end]; [exact K4|]. apply last_addr_aligned; auto; lia. }
  destruct (insert_good MEM_MAX MEM_MAX_pos s1 r G1 V (aligned_one g s1 _ (proj1 Hu) Al1 Alg))
    as (s' & x & Ei & Rx & Kx & Rp). rewrite Ei. cbn [option_map]. intros Hs. injection Hs as ->.
  assert (Ix : In x (nodes s2)).
  { destruct Rp as (l1 & mids & l2 & front & back & _ & -> & _). rewrite !in_app_iff. cbn [In]. tauto. }
  assert (It2 : In nt (nodes s2)) by (apply Kp; auto).
  destruct (api_run_good g cs2 Hu s2 (fun a => match looki (nodes s2) a with Some i => i | None => info_default end) I2)
    as (s3' & oks' & f' & R2' & _ & I3 & _ & _ & Kp3); [|exact H3|].
  { intros a Ha. destruct I2 as ((G2 & _) & _). destruct (look_in _ _ _ a G2) as (n & En & _); [lia|].
    unfold looki. rewrite En. reflexivity. }
  rewrite R2 in R2'. injection R2' as <- <-.
  assert (Rr : ri x = r_info r) by (unfold ri; rewrite Rx; reflexivity).
  assert (Rrs : rs x = al) by (unfold rs; rewrite Rx; reflexivity).
  assert (Rre : re x = r_end r) by (unfold re; rewrite Rx; reflexivity).
  assert (Ix3 : In x (nodes s3)).
  { apply Kp3; auto.
    - unfold unm. rewrite Rr. cbn. discriminate.
    - eapply Forall_impl; [|exact Ap2]. intros c Hcc. unfold apart in *. rewrite Rrs, Rre, Hend. lia. }
  assert (It3 : In nt (nodes s3)) by (apply Kp3; auto).
  destruct I3 as (J1 & _ & J2 & J3).
  split.
  - rewrite <- Rrs. apply (alias_agrees s3 x nt ori fuel k J1 J2 J3 Ix3 It3); try (rewrite Rr; reflexivity).
    + lia.
    + rewrite Rre, Hend, Rrs. unfold re. lia.
    + rewrite Rre, Hend, Rrs. lia.
  - intros Hna. unfold dispatch. rewrite (search_in s3 nt) by (auto; unfold re; lia).
    unfold dispatch_resolve. destruct (i_type (r_info (n_reg nt))); try reflexivity. congruence.
Qed.

(** *** Statements for the property files *)

Lemma most_recent_wins M ops :
  0 <= M -> safe_history M (as_create M) ops ->
  exists s, as_run M (as_create M) ops = Some s /\
    forall a, 0 <= a <= M -> lookup s a = Some (ideal_run ideal_init ops a).
Proof.
  intros HM H.
  destruct (run_good M HM ops _ _ (inv_create M HM) (obs_create M) H) as (s & E & I & O).
  exists s. split; [exact E|]. intros a Ha. rewrite (lookup_looki M) by (auto; apply I). auto.
Qed.

Lemma always_partition M ops :
  0 <= M -> safe_history M (as_create M) ops ->
  exists s, as_run M (as_create M) ops = Some s /\ partition M s /\ merged s /\
    forall a, 0 <= a <= M -> exists r, search s a = Some r /\ r_start r <= a <= r_end r.
Proof.
  intros HM H.
  destruct (run_good M HM ops _ _ (inv_create M HM) (obs_create M) H) as (s & E & I & O).
  exists s. split; [exact E|]. split; [apply good_partition, I|]. split; [eapply inv_merged; exact I|].
  intros a Ha. destruct (locate M s a (proj1 I) Ha) as (l1 & n & l2 & _ & _ & _ & B & _ & Gi).
  exists (n_reg n). unfold search. rewrite Gi. split; [reflexivity|exact B].
Qed.

Lemma aligned_history_safe M g ops :
  0 <= M -> 1 < g -> (M + 1) mod g = 0 ->
  Forall (fun o => valid_op M o /\ aligned_op g o) ops -> safe_history M (as_create M) ops.
Proof.
  intros HM Hg Hm H. apply aligned_safe with g; auto; [apply inv_create; auto|apply algn_create; auto; lia].
Qed.

Lemma api_most_recent g cs :
  unit_ok g -> Forall (call_ok g) cs ->
  exists s oks, api_run (as_create MEM_MAX) cs = Some (s, oks) /\ length oks = length cs /\
    forall a, 0 <= a < 2 ^ 32 ->
      option_map visible (lookup s a) =
      Some match most_recent (combine cs oks) a with
           | Some c => call_effect c
           | None => Nothing
           end.
Proof.
  intros Hu H.
  destruct (api_run_good g cs Hu _ _ (api_inv_create g Hu) (obs_create MEM_MAX) H)
    as (s & oks & f & E & Len & I & O & V & _).
  exists s, oks. split; [exact E|]. split; [exact Len|]. intros a Ha.
  rewrite (lookup_looki MEM_MAX) by (unfold MEM_MAX; try lia; apply I).
  rewrite O by (unfold MEM_MAX; lia). cbn [option_map]. f_equal. apply V. exact Ha.
Qed.

Lemma api_ops_accepted g cs s oks i c :
  unit_ok g -> Forall (call_ok g) cs -> api_run (as_create MEM_MAX) cs = Some (s, oks) ->
  nth_error cs i = Some c ->
  match c with
  | CallRam _ _ | CallMmio _ _ _ _ | CallDestroy _ _ => nth_error oks i = Some true
  | CallRom _ _ b => nth_error oks i = Some (negb (b =? 0))
  | CallAlias _ _ _ => True
  end.
Proof.
  intros Hu. revert i s oks.
  assert (Gen : forall s0 i s oks, Forall (call_ok g) cs -> api_run s0 cs = Some (s, oks) ->
    nth_error cs i = Some c ->
    match c with
    | CallRam _ _ | CallMmio _ _ _ _ | CallDestroy _ _ => nth_error oks i = Some true
    | CallRom _ _ b => nth_error oks i = Some (negb (b =? 0))
    | CallAlias _ _ _ => True
    end); [|intros; eapply Gen; eauto].
  induction cs as [|d cs IH]; intros s0 i s oks H E N; [destruct i; discriminate|].
  inversion_clear H as [|? ? Hd H']. cbn [api_run] in E.
  destruct (api_step s0 d) as [[s1 ok]|] eqn:Es; [|discriminate].
  destruct (api_run s1 cs) as [[s2 oks2]|] eqn:Er; [|discriminate]. injection E as <- <-.
  destruct i as [|i]; cbn [nth_error] in *; [|eapply IH; eauto].
  injection N as ->. destruct Hd as (_ & Hsz & _).
  unfold api_step in Es. destruct c; cbn [call_op call_size] in *; trivial.
  - unfold ram_region in Es. destruct (size =? 0) eqn:Ez; [lia|]. cbn in Es.
    destruct (insert _ _ _); [|discriminate]. injection Es as _ <-. reflexivity.
  - unfold mmio_region in Es. destruct (size =? 0) eqn:Ez; [lia|]. cbn in Es.
    destruct (insert _ _ _); [|discriminate]. injection Es as _ <-. reflexivity.
  - unfold rom_region in Es. destruct (size =? 0) eqn:Ez; [lia|]. cbn [orb] in Es.
    destruct (buffer =? 0); cbn in Es.
    + injection Es as _ <-. reflexivity.
    + destruct (insert _ _ _); [|discriminate]. injection Es as _ <-. reflexivity.
  - cbn [as_step option_map] in Es. destruct (erase _ _ _ _); [|discriminate].
    injection Es as _ <-. reflexivity.
Qed.

Lemma unsafe_wrong M s o ops :
  0 <= M -> safe_history M (as_create M) ops -> as_run M (as_create M) ops = Some s ->
  valid_op M o -> ~ safe_end s o ->
  exists s', as_step M s o = Some s' /\ op_end o < M /\
    lookup s' (op_end o + 1) = Some (match o with OpInsert r => r_info r | OpErase _ _ => info_default end).
Proof.
  intros HM H E V Hu.
  destruct (run_good M HM ops _ _ (inv_create M HM) (obs_create M) H) as (s1 & E1 & I & _).
  rewrite E in E1. injection E1 as <-.
  assert (X : exists n, In n (nodes s) /\ rs n = op_end o /\ op_start o < op_end o /\ op_end o < re n).
  { destruct (Exists_dec (fun n => rs n = op_end o /\ op_start o < op_end o /\ op_end o < re n) (nodes s)) as [Ex|Nx].
    - intros n. destruct (Z.eq_dec (rs n) (op_end o)); [|right; tauto].
      destruct (Z_lt_dec (op_start o) (op_end o)); [|right; tauto].
      destruct (Z_lt_dec (op_end o) (re n)); [left; tauto|right; tauto].
    - apply Exists_exists in Ex. destruct Ex as (n & In_ & P). exists n. tauto.
    - exfalso. apply Hu. intros n In_ Hs Hlt.
      assert (B : op_end o <= re n).
      { pose proof (seg_bounds _ _ _ (proj1 I)) as Bn. rewrite Forall_forall in Bn. specialize (Bn n In_).
        unfold rs in *. lia. }
      destruct (Z.eq_dec (re n) (op_end o)) as [He|Hne]; [exact He|].
      exfalso. apply Nx. apply Exists_exists. exists n. unfold rs, re in *. repeat split; auto; lia. }
  destruct (unsafe_step M s o I V X) as (s' & Es & L).
  exists s'. split; [exact Es|]. split; [|exact L].
  destruct X as (n & In_ & P1 & P2 & P3). pose proof (seg_bounds _ _ _ (proj1 I)) as Bn.
  rewrite Forall_forall in Bn. specialize (Bn n In_). lia.
Qed.
