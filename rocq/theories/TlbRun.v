(** * Guest and host accesses; histories *)

From Coq Require Import ZArith Bool List Lia ZifyBool.
From Verif Require Import MmuModel MmuSpec MmuProofs TlbProofs TlbInv TlbHist.
Import ListNotations.
Local Open Scope Z_scope.

Lemma flags_p2 priv : p2 priv = flags_of false priv false.
Proof. destruct priv; reflexivity. Qed.
Lemma flags_w2 priv : Z.lor MMU_IS_WRITE (p2 priv) = flags_of true priv false.
Proof. destruct priv; reflexivity. Qed.

Lemma acc_range (wr user : bool) : 
  let w := if wr then (if user then 8 else 2) else (if user then 4 else 1) in 0 <= w < 2 ^ 12.
Proof. destruct wr, user; cbv; split; congruence. Qed.

Lemma guest_read_inv hw E addr size (priv : bool) s :
  uniform E -> inv hw E s -> 0 <= addr < 2 ^ 32 -> 1 <= size <= 4096 ->
  match guest_read E addr size (p2 priv) s with
  | AOk bytes s' => agree E s addr size false priv bytes /\ kept hw E s s'
  | AFault a e s' => mmu_translate false false E a (flags_of false priv false) s = XFault a e s /\
      (a = addr \/ a = byte_of addr (size - 1)) /\ kept hw E s s' /\
      ((forall x, words s' x = words s x) \/
       (single addr size = false /\ a = byte_of addr (size - 1) /\ forall x, words s' x = if paging s then touched E s addr false x else words s x))
  end.
Proof.
  intros U I Ha Hs. unfold guest_read. pose proof (mem_slow_inv hw E addr size false priv s U I Ha Hs) as SL.
  set (acc := tlb_access 0 _). set (last := w32 _).
  assert (HL : 0 <= last < 2 ^ 32) by (unfold last; rewrite w32_eq; apply Z.mod_pos_bound; lia).
  assert (EA : acc = if as_user s priv then 4 else 1) by (apply (access_lv s false priv); apply I).
  assert (HA : 0 <= acc < 2 ^ 12) by (rewrite EA; destruct (as_user s priv); lia).
  destruct (find_line (guest_hits addr last acc) (dtlb s (tlb_idx false addr))) as [n |] eqn:FL.
  - destruct (find_line_in _ _ _ FL) as (HIn & HH). set (x := nth n _ 0) in *.
    rewrite guest_hits_eq in HH by assumption. apply andb_prop in HH. destruct HH as (HH & HP). apply Z.eqb_eq in HP.
    destruct (hit_query hw E s false addr false priv false acc x U I Ha HA) as ((info & Q) & _); [| exact HIn | exact HH |].
    { fold acc. apply Z.land_diag. }
    split; [| now apply kept_refl]. apply (agree_one E s addr size false priv _ info U Ha (proj1 Hs)); [| exact Q].
    pose proof (cross_iff addr size Ha Hs) as C. fold last in C. rewrite !page_eq, HP, Z.eqb_refl in C by assumption. lia.
  - rewrite flags_p2. destruct (mem_slow E addr size (flags_of false priv false) s); [| exact SL]. destruct SL as (A & K & _). auto.
Qed.

Lemma guest_write_inv hw E addr size (priv : bool) s :
  uniform E -> inv hw E s -> 0 <= addr < 2 ^ 32 -> 1 <= size <= 4096 ->
  match guest_write E addr size (p2 priv) s with
  | AOk bytes s' => agree E s addr size true priv bytes /\ kept hw E s s' /\
      (hw = true -> paging s = true -> forall i, 0 <= i < size -> leaf_dirty E s' (byte_of addr i))
  | AFault a e s' => mmu_translate false false E a (flags_of true priv false) s = XFault a e s /\
      (a = addr \/ a = byte_of addr (size - 1)) /\ kept hw E s s' /\
      ((forall x, words s' x = words s x) \/
       (single addr size = false /\ a = byte_of addr (size - 1) /\ forall x, words s' x = if paging s then touched E s addr true x else words s x))
  end.
Proof.
  intros U I Ha Hs. unfold guest_write. pose proof (mem_slow_inv hw E addr size true priv s U I Ha Hs) as SL.
  set (want := tlb_access 1 _). set (last := w32 _).
  assert (HL : 0 <= last < 2 ^ 32) by (unfold last; rewrite w32_eq; apply Z.mod_pos_bound; lia).
  assert (EA : want = if as_user s priv then 8 else 2) by (apply (access_lv s true priv); apply I).
  set (acc := Z.lor want TLB_DIRTY).
  assert (HA : 0 <= acc < 2 ^ 12) by (unfold acc; rewrite EA; destruct (as_user s priv); cbv; split; congruence).
  assert (HW : Z.land acc want = want) by (unfold acc; rewrite EA; destruct (as_user s priv); reflexivity).
  assert (H9 : Z.testbit acc 9 = true) by (unfold acc; rewrite EA; destruct (as_user s priv); reflexivity).
  destruct (find_line (guest_hits addr last acc) (dtlb s (tlb_idx false addr))) as [n |] eqn:FL.
  - destruct (find_line_in _ _ _ FL) as (HIn & HH). set (x := nth n _ 0) in *.
    rewrite guest_hits_eq in HH by assumption. apply andb_prop in HH. destruct HH as (HH & HP). apply Z.eqb_eq in HP.
    destruct (hit_query hw E s false addr true priv false acc x U I Ha HA) as ((info & Q) & D); [exact HW | exact HIn | exact HH |].
    pose proof (cross_iff addr size Ha Hs) as C. fold last in C. rewrite !page_eq, HP, Z.eqb_refl in C by assumption.
    split; [| split; [now apply kept_refl |]].
    + apply (agree_one E s addr size true priv _ info U Ha (proj1 Hs)); [lia | exact Q].
    + intros Hhw P i Hi. destruct (byte_first addr i) as (-> & DD & _); try lia.
      apply (leaf_dirty_page E s _ addr); [lia |]. apply D; auto.
  - rewrite flags_w2. destruct (mem_slow E addr size (flags_of true priv false) s); [| exact SL]. destruct SL as (A & K & DD). auto.
Qed.

(** ** Host accesses and fetches *)

Lemma tlb_find_in f a acc s n x : tlb_find f a acc s = Some (n, x) ->
  In x (lines f s (tlb_idx f a)) /\ hits f a acc x = true.
Proof.
  unfold tlb_find. destruct (find_line _ _) as [m |] eqn:F; [| discriminate]. intros H. injection H as <- <-.
  apply find_line_in in F. tauto.
Qed.

Lemma host_read_inv hw E a (priv : bool) s : uniform E -> inv hw E s -> 0 <= a < 2 ^ 32 ->
  match get_read_addr E a (p2 priv) s with
  | XOk pa _ s' => (exists info, mmu_translate false false E a (flags_of false priv false) s = XOk pa info s) /\ kept hw E s s'
  | XFault b e s' => mmu_translate false false E a (flags_of false priv false) s = XFault b e s /\ b = a /\ s' = s
  end.
Proof.
  intros U I Ha. unfold get_read_addr, tlb_get_read_addr. set (acc := tlb_access 0 _).
  assert (EA : acc = if as_user s priv then 4 else 1) by (apply (access_lv s false priv); apply I).
  assert (HA : 0 <= acc < 2 ^ 12) by (rewrite EA; destruct (as_user s priv); lia).
  destruct (tlb_find false a acc s) as [[n x] |] eqn:F.
  - apply tlb_find_in in F. destruct F as (HIn & HH).
    destruct (hit_query hw E s false a false priv false acc x U I Ha HA) as (Q & _); [| exact HIn | exact HH |].
    { fold acc. apply Z.land_diag. }
    split; [exact Q | now apply kept_refl].
  - rewrite flags_p2. pose proof (translate_inv hw false E a false priv false s Ha I) as T.
    destruct (mmu_translate false true E a (flags_of false priv false) s); [| exact T].
    destruct T as (Q & I1 & R & HC & G & _). unfold kept. auto.
Qed.

Lemma inv_weaken E s : forall hw, inv hw E s -> inv false E s.
Proof.
  intros hw (HC & HL). split; [exact HC |]. intros f i x Hx. destruct (HL f i x Hx) as [H | (a & p & prot & H1 & H2 & H3 & H4 & H5)]; [now left |].
  right. exists a, p, prot. repeat split; try tauto. unfold maps in *. destruct (paging s); [| tauto].
  destruct (found E s a) as [[l q] |]; [| tauto]. destruct H5 as (? & ? & ? & ?). repeat split; try tauto. discriminate.
Qed.

Lemma host_write_inv E a (priv : bool) s : uniform E -> inv false E s -> 0 <= a < 2 ^ 32 ->
  match get_write_addr E a (p2 priv) s with
  | XOk pa _ s' => (exists info, mmu_translate false false E a (flags_of true priv false) s = XOk pa info s) /\ kept false E s s'
  | XFault b e s' => mmu_translate false false E a (flags_of true priv false) s = XFault b e s /\ b = a /\ s' = s
  end.
Proof.
  intros U I Ha. unfold get_write_addr, tlb_get_write_addr. set (acc := tlb_access 1 _).
  assert (EA : acc = if as_user s priv then 8 else 2) by (apply (access_lv s true priv); apply I).
  assert (HA : 0 <= acc < 2 ^ 12) by (rewrite EA; destruct (as_user s priv); lia).
  destruct (tlb_find false a acc s) as [[n x] |] eqn:F.
  - apply tlb_find_in in F. destruct F as (HIn & HH).
    destruct (hit_query false E s false a true priv false acc x U I Ha HA) as (Q & _); [| exact HIn | exact HH |].
    { fold acc. apply Z.land_diag. }
    split; [exact Q |]. set (s' := set_dtlb _ s).
    split; [| split; [repeat split | split; [reflexivity | now apply grow_refl]]].
    apply (inv_line false E s s' false (tlb_idx false a) n (Z.lor x TLB_DIRTY) I); try reflexivity; [repeat split | now apply grow_refl |].
    destruct (proj2 I false _ x HIn) as [H | (b & p & prot & H1 & H2 & H3 & H4 & H5)].
    + left. rewrite Z.land_lor_distr_l, H. reflexivity.
    + right. exists b, p, (Z.lor prot TLB_DIRTY). repeat split; try tauto.
      * apply Z.lor_nonneg. unfold TLB_DIRTY. lia.
      * assert (0 <= Z.lor prot TLB_DIRTY) by (apply Z.lor_nonneg; unfold TLB_DIRTY; lia).
        destruct (Z.eq_dec (Z.lor prot TLB_DIRTY) 0) as [-> | N]; [lia |]. apply Z.log2_lt_pow2; [lia |].
        unfold TLB_DIRTY. rewrite Z.log2_lor by lia. apply Z.max_lub_lt; [| reflexivity].
        destruct (Z.eq_dec prot 0) as [-> | N']; [reflexivity |]. apply Z.log2_lt_pow2; lia.
      * rewrite H4. unfold pack. rewrite <- !Z.lor_assoc. f_equal. rewrite (Z.lor_comm (tlb_tag false b)). reflexivity.
      * unfold maps in *. change (paging s') with (paging s). change (found E s' b) with (found E s b).
        change (code_lv E s' b) with (code_lv E s b). change (cr0 s') with (cr0 s). change (words s') with (words s).
        change (global_pages s') with (global_pages s).
        assert (B8 : Z.testbit (Z.lor prot TLB_DIRTY) 8 = Z.testbit prot 8) by (rewrite Z.lor_spec; apply orb_false_r).
        assert (BL : Z.land (Z.lor prot TLB_DIRTY) 15 = Z.land prot 15) by (rewrite Z.land_lor_distr_l; apply Z.lor_0_r).
        rewrite B8, BL. destruct (paging s); [| tauto]. destruct (found E s b) as [[l q] |]; [| tauto].
        destruct H5 as (? & ? & ? & ?). repeat split; try tauto. discriminate.
  - rewrite flags_w2. pose proof (translate_inv false false E a true priv false s Ha I) as T.
    destruct (mmu_translate false true E a (flags_of true priv false) s); [| exact T].
    destruct T as (Q & I1 & R & HC & G & _). unfold kept. auto.
Qed.

Lemma fetch_inv hw E a s : uniform E -> inv hw E s -> 0 <= a < 2 ^ 32 ->
  match get_code_addr E a s with
  | XOk pa _ s' => (exists info, mmu_translate false false E a (flags_of false false true) s = XOk pa info s) /\ kept hw E s s'
  | XFault b e s' => mmu_translate false false E a (flags_of false false true) s = XFault b e s /\ b = a /\ s' = s
  end.
Proof.
  intros U I Ha. unfold get_code_addr, tlb_get_code_addr. 
  assert (EA : tlb_access 0 (cpl s) = if as_user s false then 4 else 1).
  { pose proof (access_lv s false false (proj1 I)) as X. cbn [p2] in X. rewrite Z.shiftr_0_r in X. exact X. }
  set (acc := tlb_access 0 _) in *.
  assert (HA : 0 <= acc < 2 ^ 12) by (rewrite EA; destruct (as_user s false); lia).
  destruct (tlb_find true a acc s) as [[n x] |] eqn:F.
  - apply tlb_find_in in F. destruct F as (HIn & HH).
    destruct (hit_query hw E s true a false false true acc x U I Ha HA) as (Q & _); [| exact HIn | exact HH |].
    { cbn [p2]. rewrite Z.shiftr_0_r. fold acc. apply Z.land_diag. }
    split; [exact Q |]. split; [| split; [repeat split | split; [reflexivity | now apply grow_refl]]].
    destruct I as (HC & HL). split; [exact HC |]. intros f i y Hy. apply (line_grow hw E s); [repeat split | now apply grow_refl |].
    apply HL. destruct f; exact Hy.
  - change MMU_SET_CODE with (flags_of false false true).
    pose proof (translate_inv hw true E a false false true s Ha I) as T.
    destruct (mmu_translate true true E a (flags_of false false true) s); [| exact T].
    destruct T as (Q & I1 & R & HC & G & _). unfold kept. auto.
Qed.

(** ** The other operations *)

Lemma line_zero hw E s f i : line_ok hw E s f i 0.
Proof. now left. Qed.
Lemma flush_lines f s i x : In x (lines f (tlb_flush_all s) i) -> x = 0.
Proof. destruct f; cbn; intros H; repeat (destruct H as [<- | H]; [reflexivity |]); destruct H. Qed.
Lemma inv_empty hw E s : 0 <= cpl s <= 3 -> (forall f i x, In x (lines f s i) -> x = 0) -> inv hw E s.
Proof. intros HC H. split; [exact HC |]. intros f i x Hx. rewrite (H f i x Hx). apply line_zero. Qed.

Lemma inval_one_inv hw E f a s : inv hw E s -> inv hw E (inval_one f a s).
Proof.
  intros I. unfold inval_one. destruct (find_line _ _) as [n |]; [| exact I].
  apply (inv_line hw E s _ f (tlb_idx f a) n 0 I); try (destruct f; reflexivity).
  - destruct f; repeat split.
  - apply grow_refl. destruct f; reflexivity.
  - apply line_zero.
Qed.

Lemma global_of hw E s f i x : line_ok hw E s f i x -> nz (Z.land x TLB_GLOBAL) = true -> Z.land x 15 <> 0 -> paging s = true ->
  exists addr p prot, 0 <= addr < 2 ^ 32 /\ tlb_idx f addr = i /\ 0 <= prot < 2 ^ 12 /\
    x = pack f addr (e_correct E p) prot /\ maps hw E s addr p prot /\ global_pages s = true /\ global_leaf E s addr = true.
Proof.
  intros [H | (a & p & prot & H1 & H2 & H3 & H4 & H5)] HG HV P; [contradiction |].
  exists a, p, prot. repeat (split; [assumption |]).
  rewrite H4, pack_low in HG by (assumption || (unfold TLB_GLOBAL; lia)). change TLB_GLOBAL with (2 ^ 8) in HG. rewrite nz_bit in HG by lia.
  unfold maps in H5. rewrite P in H5. unfold global_leaf, found in *.
  destruct (walk E s a) as [| l q | l q]; [contradiction | |]; destruct H5 as (_ & _ & G & _); destruct (G HG); auto.
Qed.

Lemma write_cr3_inv hw E v s : inv hw E s -> mop_ok E s (SetCr3 v) -> inv hw E (write_cr3 v s).
Proof.
  intros I (_ & OK). unfold write_cr3. change CR0_PG with (2 ^ 31). change CR4_PGE with (2 ^ 7). rewrite !nz_bit by lia.
  change (Z.testbit (cr0 s) 31) with (paging s). change (Z.testbit (cr4 s) 7) with (global_pages s).
  assert (WE : write_cr3 v s = let s' := if paging s then if global_pages s then tlb_flush_local s else tlb_flush_all s else s in
    mkmmu (cr0 s') v (cr4 s') (cpl s') (words s') (itlb s') (dtlb s') (smc s') (draws s')).
  { unfold write_cr3. change CR0_PG with (2 ^ 31). change CR4_PGE with (2 ^ 7). rewrite !nz_bit by lia. reflexivity. }
  rewrite WE in OK. cbv zeta in OK.
  destruct (paging s) eqn:P; [destruct (global_pages s) eqn:GP |].
  - split; [exact (proj1 I) |]. intros f i x Hx.
    assert (HM : exists y, In y (lines f s i) /\ x = if nz (Z.land y TLB_GLOBAL) then y else 0).
    { destruct f; cbn in Hx; unfold keep_global in Hx; apply in_map_iff in Hx; destruct Hx as (y & E1 & E2); exists y; auto. }
    destruct HM as (y & Hy & ->). destruct (nz (Z.land y TLB_GLOBAL)) eqn:NG; [| apply line_zero].
    destruct (Z.eq_dec (Z.land y 15) 0) as [Z0 | NV]; [now left |].
    destruct (global_of hw E s f i y (proj2 I f i y Hy) NG NV P) as (a & p & prot & H1 & H2 & H3 & H4 & H5 & H6 & H7).
    right. exists a, p, prot. repeat (split; [assumption |]).
    set (s' := mkmmu _ v _ _ _ _ _ _ _) in *.
    destruct (OK a H1 eq_refl H7) as (SW & SP). unfold maps in *.
    change (paging s') with (paging s). rewrite P in *. unfold found in *. rewrite SW.
    assert (LV : code_lv E s' a = code_lv E s a). { unfold code_lv. rewrite SW. change (words s') with (words s). rewrite SP. reflexivity. }
    rewrite LV. exact H5.
  - apply inv_empty; [exact (proj1 I) |]. intros f i x Hx. apply (flush_lines f s i). destruct f; exact Hx.
  - split; [exact (proj1 I) |]. intros f i x Hx. assert (Hx' : In x (lines f s i)) by (destruct f; exact Hx).
    destruct (proj2 I f i x Hx') as [H | (a & p & prot & H1 & H2 & H3 & H4 & H5)]; [now left |].
    right. exists a, p, prot. repeat (split; [assumption |]). unfold maps in *.
    match goal with |- context [paging ?t] => change (paging t) with (paging s) end. rewrite P in *. exact H5.
Qed.

Lemma write_cr0_inv hw E v s : inv hw E s -> inv hw E (write_cr0 v s).
Proof.
  intros I. unfold write_cr0. change CR0_PG with (2 ^ 31). change CR0_WP with (2 ^ 16). rewrite !nz_bit by lia.
  destruct (_ || _) eqn:FL.
  - apply inv_empty; [exact (proj1 I) |]. intros f i x Hx. apply (flush_lines f s i). destruct f; exact Hx.
  - apply orb_false_elim in FL. destruct FL as (F1 & F2). apply negb_false_iff, eqb_prop in F1.
    split; [exact (proj1 I) |]. intros f i x Hx. assert (Hx' : In x (lines f s i)) by (destruct f; exact Hx).
    destruct (proj2 I f i x Hx') as [H | (a & p & prot & H1 & H2 & H3 & H4 & H5)]; [now left |].
    right. exists a, p, prot. repeat (split; [assumption |]). set (s' := mkmmu v _ _ _ _ _ _ _ _).
    unfold maps in *. unfold paging in *. change (cr0 s') with v. rewrite <- F1.
    destruct (Z.testbit (cr0 s) 31); [| exact H5].
    change (found E s' a) with (found E s a). change (code_lv E s' a) with (code_lv E s a).
    change (words s') with (words s). change (global_pages s') with (global_pages s).
    destruct (found E s a) as [[l q] |]; [| exact H5]. 
    assert (GM : forall u w, tlb_gen_access_mask v u w = tlb_gen_access_mask (cr0 s) u w).
    { intros u w. unfold tlb_gen_access_mask. change CR0_WP with (2 ^ 16). rewrite !nz_bit by lia.
      rewrite <- F1, andb_true_r in F2. apply negb_false_iff, eqb_prop in F2. now rewrite F2. }
    rewrite GM. exact H5.
Qed.

Lemma write_cr4_inv hw E v s : inv hw E s -> inv hw E (write_cr4 v s).
Proof.
  intros I. unfold write_cr4. destruct (Z.eqb_spec (Z.land (cr4 s) (Z.lor CR4_PSE CR4_PGE)) (Z.land v (Z.lor CR4_PSE CR4_PGE))) as [e | n].
  - assert (B : forall k, 0 <= k -> Z.testbit (Z.lor CR4_PSE CR4_PGE) k = true -> Z.testbit v k = Z.testbit (cr4 s) k).
    { intros k Hk T. assert (X : Z.testbit (Z.land (cr4 s) (Z.lor CR4_PSE CR4_PGE)) k = Z.testbit (Z.land v (Z.lor CR4_PSE CR4_PGE)) k) by now rewrite e.
      rewrite !Z.land_spec, T, !andb_true_r in X. auto. }
    split; [exact (proj1 I) |]. intros f i x Hx. assert (Hx' : In x (lines f s i)) by (destruct f; exact Hx).
    destruct (proj2 I f i x Hx') as [H | (a & p & prot & H1 & H2 & H3 & H4 & H5)]; [now left |].
    right. exists a, p, prot. repeat (split; [assumption |]). set (s' := mkmmu _ _ v _ _ _ _ _ _).
    assert (L : large_pages s' = large_pages s) by (apply (B 4); [lia | reflexivity]).
    assert (G : global_pages s' = global_pages s) by (apply (B 7); [lia | reflexivity]).
    assert (W : walk E s' a = walk E s a).
    { unfold walk. change (pde_at E s' a) with (pde_at E s a). change (pte_at E s' a) with (pte_at E s a). change (words s') with (words s). now rewrite L. }
    unfold maps in *. change (paging s') with (paging s). destruct (paging s); [| exact H5].
    assert (LV : code_lv E s' a = code_lv E s a) by (unfold code_lv; rewrite W; reflexivity).
    unfold found in *. rewrite W, LV, G. exact H5.
  - apply inv_empty; [exact (proj1 I) |]. intros f i x Hx. apply (flush_lines f s i). destruct f; exact Hx.
Qed.

(** ** Histories *)

Lemma kept_inv hw E s s' : kept hw E s s' -> inv hw E s'.
Proof. intros (H & _). exact H. Qed.

Lemma step_inv hw E s o : uniform E -> inv hw E s -> mop_ok E s o -> (hw = true -> no_host_write o = true) -> inv hw E (mstep E s o).
Proof.
  intros U I OK NH. destruct o as [a n p | a n p | a | a p | a p | a | v | v | v | v | w]; cbn [mop_ok mstep] in *.
  - pose proof (guest_read_inv hw E a n p s U I (proj1 OK) (proj2 OK)) as H. destruct (guest_read E a n (p2 p) s); cbn [ast]; apply (kept_inv hw E s); tauto.
  - pose proof (guest_write_inv hw E a n p s U I (proj1 OK) (proj2 OK)) as H. destruct (guest_write E a n (p2 p) s); cbn [ast]; apply (kept_inv hw E s); tauto.
  - pose proof (fetch_inv hw E a s U I OK) as H. destruct (get_code_addr E a s); cbn [xst]; [apply (kept_inv hw E s); tauto |].
    destruct H as (_ & _ & ->). exact I.
  - pose proof (host_read_inv hw E a p s U I OK) as H. destruct (get_read_addr E a (p2 p) s); cbn [xst]; [apply (kept_inv hw E s); tauto |].
    destruct H as (_ & _ & ->). exact I.
  - destruct hw; [discriminate (NH eq_refl) |]. pose proof (host_write_inv E a p s U I OK) as H.
    destruct (get_write_addr E a (p2 p) s); cbn [xst]; [apply (kept_inv false E s); tauto |]. destruct H as (_ & _ & ->). exact I.
  - apply inval_one_inv, inval_one_inv. exact I.
  - split; [exact OK |]. intros f i x Hx. apply (line_grow hw E s); [repeat split | now apply grow_refl |].
    apply (proj2 I). destruct f; exact Hx.
  - now apply write_cr0_inv.
  - now apply write_cr3_inv.
  - now apply write_cr4_inv.
  - apply inv_empty; [exact (proj1 I) |]. intros f i x Hx. apply (flush_lines f s i). destruct f; exact Hx.
Qed.

Lemma run_inv hw E s l : uniform E -> inv hw E s -> hist_ok E s l -> (hw = true -> forallb no_host_write l = true) -> inv hw E (mrun E s l).
Proof.
  intros U. revert s. induction l as [| o tl IH]; intros s I H NH; [exact I |]. cbn [mrun fold_left hist_ok forallb] in *.
  destruct H as (H1 & H2). apply IH; [| exact H2 | intros X; specialize (NH X); apply andb_prop in NH; tauto].
  apply step_inv; auto. intros X. specialize (NH X). apply andb_prop in NH. tauto.
Qed.

Lemma inv0 hw E c0 c3 c4 lv w : 0 <= lv <= 3 -> inv hw E (mmu0 c0 c3 c4 lv w).
Proof.
  intros H. apply inv_empty; [exact H |]. intros f i x Hx.
  destruct f; cbn in Hx; repeat (destruct Hx as [<- | Hx]; [reflexivity |]); destruct Hx.
Qed.
