(** * When a page is cached in at most one line *)

From Coq Require Import ZArith Bool List Lia ZifyBool.
From Verif Require Import MmuModel MmuSpec MmuProofs TlbProofs TlbInv TlbHist TlbRun.
Import ListNotations.
Local Open Scope Z_scope.

Definition at_line (f : bool) (s : mmu) (a : Z) (n : nat) : Z := nth n (lines f s (tlb_idx f a)) 0.

Definition uniq (f : bool) (s : mmu) : Prop :=
  forall a n m, 0 <= a < 2 ^ 32 -> hits f a 1 (at_line f s a n) = true -> hits f a 1 (at_line f s a m) = true -> n = m.

Lemma hits_zero f a acc : 0 <= a < 2 ^ 32 -> Z.land acc 15 = acc -> acc <> 0 -> hits f a acc 0 = false.
Proof. intros Ha H1 H2. apply invalid_no_hit; auto. Qed.

Lemma at_line_in f s a n : at_line f s a n <> 0 -> In (at_line f s a n) (lines f s (tlb_idx f a)).
Proof.
  unfold at_line. intros H. apply nth_In. destruct (le_lt_dec (length (lines f s (tlb_idx f a))) n) as [L | L]; [| exact L].
  now rewrite (nth_overflow _ _ L) in H.
Qed.

Lemma nth_set_nth n v l m : nth m (set_nth n v l) 0 = if (Nat.eqb m n && (n <? length l)%nat) then v else nth m l 0.
Proof.
  revert n m. induction l as [| x tl IH]; intros n m.
  - rewrite andb_false_r. destruct n; destruct m; reflexivity.
  - destruct n as [| n]; cbn [set_nth].
    + destruct m; reflexivity.
    + destruct m as [| m]; cbn [nth]; [reflexivity |]. rewrite IH. reflexivity.
Qed.

Lemma line_upd f s s' i n v a m : lines f s' = upd (lines f s) i (set_nth n v (lines f s i)) ->
  at_line f s' a m = if (tlb_idx f a =? i) && Nat.eqb m n && (n <? length (lines f s i))%nat then v else at_line f s a m.
Proof.
  intros H. unfold at_line. rewrite H. unfold upd. destruct (Z.eqb_spec (tlb_idx f a) i) as [-> | N]; [| reflexivity].
  apply nth_set_nth.
Qed.

Lemma find_none p l m : find_line p l = None -> (m < length l)%nat -> p (nth m l 0) = false.
Proof.
  revert m. induction l as [| x tl IH]; intros m; cbn [find_line length]; [lia |].
  destruct (p x) eqn:PX; [discriminate |]. destruct (find_line p tl); [discriminate |]. intros _ H.
  destruct m; cbn [nth]; [exact PX |]. apply IH; [reflexivity | lia].
Qed.

Lemma mask_granted' c0 lv (user wr : bool) : In lv [0; 2; 4; 6] -> granted c0 lv user wr = true ->
  let acc := if wr then (if user then 8 else 2) else (if user then 4 else 1) in
  Z.land (tlb_gen_access_mask c0 (Z.land lv 4) (Z.land lv 2)) acc = acc.
Proof.
  intros HL. cbn [In] in HL. unfold granted, check_page_access, tlb_gen_access_mask.
  destruct HL as [<- | [<- | [<- | [<- | []]]]]; cbn [Z.eqb nz negb Z.land Pos.land Z.of_N];
  destruct user, wr, (nz (Z.land c0 CR0_WP)); vm_compute; congruence.
Qed.

(** a line caching the page of [a] grants every access the page tables grant *)
Lemma line_grants hw E s f a (wr priv code : bool) x pa info :
  inv hw E s -> 0 <= a < 2 ^ 32 -> In x (lines f s (tlb_idx f a)) ->
  mmu_translate false false E a (flags_of wr priv code) s = XOk pa info s ->
  hits f a 1 x = true -> hits f a (tlb_access (if wr then 1 else 0) (Z.shiftr (cpl s) (p2 priv))) x = true.
Proof.
  intros (HC & HL) Ha HIn Q H1. rewrite access_lv by exact HC. set (w := if wr then _ else _).
  assert (W : 0 <= w < 2 ^ 12 /\ Z.land w 15 = w) by (unfold w; destruct wr, (as_user s priv); split; (reflexivity || lia)).
  destruct (HL f _ x HIn) as [X0 | (addr & p & prot & K1 & K2 & K3 & -> & HM)].
  - rewrite invalid_no_hit in H1; [discriminate | exact Ha | exact X0 | reflexivity | lia].
  - rewrite hits_pack in H1 by (auto; lia). rewrite hits_pack by (auto; lia).
    apply andb_prop in H1. destruct H1 as (HP & _). rewrite HP. apply Z.eqb_eq in HP. cbn [andb]. apply Z.eqb_eq.
    assert (M : Z.land (Z.land prot 15) w = w).
    { pose proof (query_eq false E a wr priv code s Ha) as QE. rewrite Q in QE. unfold maps in HM. destruct (paging s).
      - destruct (found_page E s a addr HP) as (_ & _ & LV & FP). rewrite FP in QE.
        destruct (found E s addr) as [[l q] |] eqn:FA; [| contradiction]. destruct HM as (-> & -> & _).
        destruct (granted (cr0 s) (code_lv E s a) (as_user s priv) wr) eqn:G; [| discriminate].
        rewrite LV in G. exact (mask_granted' _ _ _ _ (lv_cases E s addr l q FA) G).
      - destruct HM as (_ & -> & _). unfold w. destruct wr, (as_user s priv); reflexivity. }
    rewrite <- Z.land_assoc, (Z.land_comm 15), (proj2 W) in M. exact M.
Qed.

(** filling a line for a page that is not cached *)
Lemma uniq_fill f E addr p prot s : 0 <= addr < 2 ^ 32 -> 
  let q := Z.land prot (Z.lnot 16) in 0 <= q < 2 ^ 12 ->
  uniq f s -> (forall m, hits f addr 1 (at_line f s addr m) = false) -> uniq f (snd (tlb_fill f E addr p prot s)).
Proof.
  intros Ha q Hq HU HN. pose proof (fill_facts f E addr p prot s) as FF. fold q in FF.
  destruct (tlb_fill f E addr p prot s) as [pa s']. cbn [snd].
  destruct FF as (-> & R & HC & HWD & n & flag & F1 & F2 & L1 & L2).
  set (v := pack _ _ _ _) in L2.
  assert (HQ : 0 <= Z.lor q flag < 2 ^ 12).
  { assert (0 <= Z.lor q flag) by (apply Z.lor_nonneg; lia). split; [lia |].
    destruct (Z.eq_dec (Z.lor q flag) 0) as [-> | N]; [lia |]. apply Z.log2_lt_pow2; [lia |].
    rewrite Z.log2_lor by lia. apply Z.max_lub_lt.
    - destruct (Z.eq_dec q 0) as [-> | N']; [reflexivity |]. apply Z.log2_lt_pow2; lia.
    - destruct (Z.eq_dec flag 0) as [-> | N']; [reflexivity |]. apply Z.log2_lt_pow2; lia. }
  intros a m1 m2 Hb. rewrite !(line_upd f s s' _ n v _ _ L2).
  destruct (Z.eqb_spec (tlb_idx f a) (tlb_idx f addr)) as [e | ne]; [| cbn [andb]; apply HU; exact Hb].
  destruct (n <? length (lines f s (tlb_idx f addr)))%nat; [| rewrite !andb_false_r; apply HU; exact Hb].
  rewrite !andb_true_r. cbn [andb].
  assert (HV : hits f a 1 v = true -> a / 2 ^ 12 = addr / 2 ^ 12).
  { unfold v. rewrite hits_pack by (auto; lia). intros X. apply andb_prop in X. destruct X as (X & _). now apply Z.eqb_eq in X. }
  assert (HO : a / 2 ^ 12 = addr / 2 ^ 12 -> forall m, hits f a 1 (at_line f s a m) = false).
  { intros X m. rewrite <- (HN m). unfold at_line. rewrite e. unfold hits. f_equal. f_equal. f_equal. rewrite !tag_eq by assumption.
    destruct (page_same f _ _ X) as (_ & ->). reflexivity. }
  destruct (Nat.eqb_spec m1 n) as [-> | N1], (Nat.eqb_spec m2 n) as [-> | N2].
  - auto.
  - intros X Y. rewrite (HO (HV X)) in Y. discriminate.
  - intros X Y. rewrite (HO (HV Y)) in X. discriminate.
  - apply HU; exact Hb.
Qed.

Lemma uniq_lines f s s' : lines f s' = lines f s -> uniq f s -> uniq f s'.
Proof. intros H U a n m. unfold at_line. rewrite H. apply U. Qed.

Lemma fill_other f f' E addr p prot s : f' <> f -> lines f' (snd (tlb_fill f E addr p prot s)) = lines f' s.
Proof.
  intros N. pose proof (fill_facts f E addr p prot s) as FF. destruct (tlb_fill f E addr p prot s) as [pa s'].
  destruct FF as (_ & _ & _ & _ & n & flag & _ & _ & L1 & _). cbn [snd].
  replace f' with (negb f) by (destruct f, f'; cbn; congruence). exact L1.
Qed.

(** a filling translation either leaves the lines alone or fills once *)
Lemma translate_fill f E addr (wr priv code : bool) s : 0 <= addr < 2 ^ 32 ->
  match mmu_translate f true E addr (flags_of wr priv code) s with
  | XOk _ _ s' => exists p prot w, 0 <= Z.land prot (Z.lnot 16) < 2 ^ 12 /\ s' = snd (tlb_fill f E addr p prot (set_words w s))
  | XFault _ _ s' => s' = s
  end.
Proof.
  intros Ha. destruct (paging s) eqn:P.
  - pose proof (translate_shape f true E addr wr priv code s Ha P) as H. cbv zeta in H.
    destruct (walk E s addr) as [| l p | l p]; [rewrite H; reflexivity | |];
    (destruct (granted _ _ _ _); [| rewrite H; reflexivity];
     destruct H as (w & _ & ->);
     match goal with |- context [tlb_fill f E addr p ?prot ?t] => 
       pose proof (fill_prot_facts s (code_lv E s addr) wr code (Z.testbit (words s l) 8 && global_pages s)) as PF;
       destruct (tlb_fill f E addr p prot t) as [pa s'] eqn:TF; exists p, prot, w; split; [apply PF | rewrite TF; reflexivity] end).
  - unfold mmu_translate. change CR0_PG with (2 ^ 31). rewrite nz_bit by lia. unfold paging in P. rewrite P, flags_code. cbn [negb].
    set (prot := Z.lor TLB_VALID _). destruct (tlb_fill f E addr addr prot s) as [pa s'] eqn:TF.
    exists addr, prot, (words s). split; [unfold prot; destruct code; cbv; split; congruence |].
    replace (set_words (words s) s) with s by (destruct s; reflexivity). now rewrite TF.
Qed.

Lemma uniq_translate_other f f' E addr (wr priv code : bool) s : 0 <= addr < 2 ^ 32 -> f' <> f ->
  uniq f' s -> uniq f' (xst (mmu_translate f true E addr (flags_of wr priv code) s)).
Proof.
  intros Ha N HU. pose proof (translate_fill f E addr wr priv code s Ha) as T.
  destruct (mmu_translate f true E addr (flags_of wr priv code) s) as [pa i s' | a e s']; cbn [xst]; [| now subst].
  destruct T as (p & prot & w & _ & ->). apply (uniq_lines f' s); [| exact HU]. rewrite fill_other by exact N. destruct f'; reflexivity.
Qed.

(** a translation made after a miss *)
Lemma uniq_translate hw f E addr (wr priv code : bool) s : 0 <= addr < 2 ^ 32 -> inv hw E s -> uniq f s ->
  (forall m, hits f addr (tlb_access (if wr then 1 else 0) (Z.shiftr (cpl s) (p2 priv))) (at_line f s addr m) = false) ->
  uniq f (xst (mmu_translate f true E addr (flags_of wr priv code) s)).
Proof.
  intros Ha I HU HM. pose proof (translate_fill f E addr wr priv code s Ha) as T.
  pose proof (translate_inv hw f E addr wr priv code s Ha I) as TI.
  destruct (mmu_translate f true E addr (flags_of wr priv code) s) as [pa i s' | a e s']; cbn [xst]; [| now subst].
  destruct T as (p & prot & w & HR & ->). destruct TI as ((info & Q) & _).
  apply uniq_fill; [exact Ha | exact HR | |].
  - apply (uniq_lines f s); [destruct f; reflexivity | exact HU].
  - intros m. replace (at_line f (set_words w s) addr m) with (at_line f s addr m) by (destruct f; reflexivity).
    destruct (hits f addr 1 (at_line f s addr m)) eqn:H1; [| reflexivity].
    rewrite <- (HM m). symmetry. apply (line_grants hw E s f addr wr priv code _ pa info I Ha); [| exact Q | exact H1].
    apply at_line_in. intros X. rewrite X in H1. rewrite hits_zero in H1; [discriminate | exact Ha | reflexivity | lia].
Qed.

Lemma miss_all f a acc s : 0 <= a < 2 ^ 32 -> Z.land acc 15 = acc -> acc <> 0 -> tlb_find f a acc s = None ->
  forall m, hits f a acc (at_line f s a m) = false.
Proof.
  intros Ha H1 H2 H m. unfold tlb_find in H. destruct (find_line _ _) eqn:F; [discriminate |]. unfold at_line.
  destruct (le_lt_dec (length (lines f s (tlb_idx f a))) m) as [L | L].
  - rewrite (nth_overflow _ _ L). now apply hits_zero.
  - exact (find_none _ _ _ F L).
Qed.
Lemma want_ok s (wr priv : bool) : 0 <= cpl s <= 3 ->
  let acc := tlb_access (if wr then 1 else 0) (Z.shiftr (cpl s) (p2 priv)) in Z.land acc 15 = acc /\ acc <> 0.
Proof.
  intros H. cbv zeta. rewrite access_lv by exact H. destruct wr, (as_user s priv); split; (reflexivity || lia).
Qed.

(** the operations that keep data lines unique *)
Definition calm (f : bool) (o : mop) : bool :=
  f || match o with GuestRead a n _ => single a n | GuestWrite _ _ _ => false | _ => true end.

Lemma mem_slow_itlb E addr size fl s : itlb (ast (mem_slow E addr size fl s)) = itlb s.
Proof.
  assert (T : forall a fl s, itlb (xst (mmu_translate false true E a fl s)) = itlb s).
  { clear. intros a fl s. unfold mmu_translate.
    assert (FI : forall p prot t, itlb (snd (tlb_fill false E a p prot t)) = itlb t).
    { intros p prot t. apply (fill_other false true). discriminate. }
    repeat (first [ progress cbv zeta | match goal with
      | |- context [tlb_fill false E a ?p ?prot ?t] =>
          let H := fresh in pose proof (FI p prot t) as H; destruct (tlb_fill false E a p prot t) as [? ?]; cbn [xst snd] in *; rewrite H; clear H
      | |- context [if ?b then _ else _] => destruct b
      end ]); reflexivity. }
  unfold mem_slow. destruct (_ && _).
  - pose proof (T addr fl s) as T1. destruct (mmu_translate false true E addr fl s) as [p1 i1 s1 | a e s1]; cbn [xst ast] in *; [| exact T1].
    pose proof (T (w32 (addr + size - 1)) fl s1) as T2. destruct (mmu_translate false true E _ fl s1); cbn [xst ast] in *; congruence.
  - pose proof (T addr fl s) as T1. destruct (mmu_translate false true E addr fl s) as [p1 i1 s1 | a e s1]; cbn [xst ast] in *; exact T1.
Qed.

Lemma uniq_guest_read hw E a n (priv : bool) s : inv hw E s -> 0 <= a < 2 ^ 32 -> 1 <= n <= 4096 -> single a n = true ->
  uniq false s -> uniq false (ast (guest_read E a n (p2 priv) s)).
Proof.
  intros I Ha Hn HS HU. unfold guest_read. set (acc := tlb_access 0 _). set (last := w32 _).
  pose proof (want_ok s false priv (proj1 I)) as (W1 & W2). fold acc in W1, W2.
  assert (HL : 0 <= last < 2 ^ 32) by (unfold last; rewrite w32_eq; apply Z.mod_pos_bound; lia).
  destruct (find_line _ _) as [m |] eqn:F; [exact HU |].
  pose proof (cross_iff a n Ha Hn) as C. fold last in C. unfold single in HS.
  unfold mem_slow. fold last. rewrite C, HS. cbn [negb]. rewrite andb_false_r. rewrite flags_p2.
  assert (X : uniq false (xst (mmu_translate false true E a (flags_of false priv false) s))).
  { apply (uniq_translate hw); [exact Ha | exact I | exact HU |]. intros m. fold acc. unfold at_line.
    destruct (le_lt_dec (length (lines false s (tlb_idx false a))) m) as [L | L].
    - rewrite (nth_overflow _ _ L). now apply hits_zero.
    - pose proof (find_none _ _ _ F L) as FN. cbn [lines]. rewrite guest_hits_eq in FN; [| assumption | assumption |].
      + assert (PE : (a / 2 ^ 12 =? last / 2 ^ 12) = true).
        { rewrite HS in C. apply Z.eqb_eq in C. rewrite !page_eq in C by assumption. apply Z.eqb_eq. lia. }
        rewrite PE, andb_true_r in FN. exact FN.
      + unfold acc. rewrite (access_lv s false priv (proj1 I)). destruct (as_user s priv); lia. }
  destruct (mmu_translate false true E a (flags_of false priv false) s); exact X.
Qed.

Lemma hits_dirty f a x : 0 <= a < 2 ^ 32 -> hits f a 1 (Z.lor x TLB_DIRTY) = hits f a 1 x.
Proof.
  intros Ha. unfold hits. do 2 f_equal. rewrite Z.land_lor_distr_l. 
  replace (Z.land TLB_DIRTY (Z.lor 1 (tlb_tag_mask f))) with 0 by (destruct f; reflexivity). apply Z.lor_0_r.
Qed.

Lemma uniq_sub f s s' : (forall a m, 0 <= a < 2 ^ 32 -> hits f a 1 (at_line f s' a m) = true -> hits f a 1 (at_line f s a m) = true) ->
  uniq f s -> uniq f s'.
Proof. intros H U a n m Ha X Y. apply (U a); auto. Qed.

Lemma uniq_inval f f' a s : uniq f s -> uniq f (inval_one f' a s).
Proof.
  intros HU. unfold inval_one. destruct (find_line _ _) as [n |]; [| exact HU].
  destruct (Bool.eqb_spec f f') as [<- | N].
  - apply (uniq_sub f s); [| exact HU]. intros b m Hb.
    rewrite (line_upd f s (set_lines f _ s) (tlb_idx f a) n 0) by (destruct f; reflexivity).
    destruct (_ && _); [| auto]. rewrite hits_zero by (auto; lia). discriminate.
  - apply (uniq_lines f s); [| exact HU]. destruct f, f'; congruence || reflexivity.
Qed.

Lemma uniq_flush f s : uniq f (tlb_flush_all s).
Proof.
  intros a n m Ha X _. exfalso. unfold at_line in X.
  assert (Z0 : nth n (lines f (tlb_flush_all s) (tlb_idx f a)) 0 = 0).
  { destruct (nth_in_or_default n (lines f (tlb_flush_all s) (tlb_idx f a)) 0) as [H | H]; [| exact H]. now apply flush_lines in H. }
  rewrite Z0, hits_zero in X by (auto; lia). discriminate.
Qed.

Lemma uniq_step f hw E s o : uniform E -> inv hw E s -> mop_ok E s o -> calm f o = true -> uniq f s -> uniq f (mstep E s o).
Proof.
  intros U I OK HCm HU. destruct o as [a n p | a n p | a | a p | a p | a | v | v | v | v | w]; cbn [mop_ok mstep calm] in *.
  - destruct f.
    + apply (uniq_lines true s); [| exact HU]. cbn [lines]. unfold guest_read. destruct (find_line _ _); [reflexivity | apply mem_slow_itlb].
    + apply (uniq_guest_read hw); tauto.
  - destruct f; [| discriminate]. apply (uniq_lines true s); [| exact HU]. cbn [lines]. unfold guest_write. destruct (find_line _ _); [reflexivity | apply mem_slow_itlb].
  - unfold get_code_addr, tlb_get_code_addr. destruct (tlb_find true a (tlb_access 0 (cpl s)) s) as [[n x] |] eqn:F.
    + apply (uniq_lines f s); [destruct f; reflexivity | exact HU].
    + change MMU_SET_CODE with (flags_of false false true). destruct f.
      * apply (uniq_translate hw); [exact OK | exact I | exact HU |]. cbn [p2]. rewrite Z.shiftr_0_r.
        pose proof (want_ok s false false (proj1 I)) as (W1 & W2). cbn [p2] in W1, W2. rewrite Z.shiftr_0_r in W1, W2. now apply miss_all.
      * apply uniq_translate_other; [exact OK | discriminate | exact HU].
  - unfold get_read_addr, tlb_get_read_addr. pose proof (want_ok s false p (proj1 I)) as (W1 & W2). cbv iota in W1, W2.
    destruct (tlb_find false a _ s) as [[n x] |] eqn:F; [exact HU |]. rewrite flags_p2. destruct f.
    + apply uniq_translate_other; [exact OK | discriminate | exact HU].
    + apply (uniq_translate hw); [exact OK | exact I | exact HU |]. now apply miss_all.
  - unfold get_write_addr, tlb_get_write_addr. pose proof (want_ok s true p (proj1 I)) as (W1 & W2). cbv iota in W1, W2.
    destruct (tlb_find false a _ s) as [[n x] |] eqn:F.
    + cbn [xst]. destruct f; [apply (uniq_lines true s); [reflexivity | exact HU] |].
      apply (uniq_sub false s); [| exact HU]. intros b m Hb.
      rewrite (line_upd false s _ (tlb_idx false a) n (Z.lor x TLB_DIRTY)) by reflexivity.
      destruct (_ && _) eqn:CC; [| auto]. rewrite hits_dirty by exact Hb. apply andb_prop in CC. destruct CC as (CC & _).
      apply andb_prop in CC. destruct CC as (C1 & C2). apply Z.eqb_eq in C1. apply Nat.eqb_eq in C2. subst m.
      unfold tlb_find in F. destruct (find_line _ _) as [k |]; [| discriminate]. injection F as <- <-. unfold at_line. now rewrite C1.
    + rewrite flags_w2. destruct f.
      * apply uniq_translate_other; [exact OK | discriminate | exact HU].
      * apply (uniq_translate hw); [exact OK | exact I | exact HU |]. now apply miss_all.
  - apply uniq_inval, uniq_inval. exact HU.
  - apply (uniq_lines f s); [destruct f; reflexivity | exact HU].
  - unfold write_cr0. destruct (_ || _).
    + apply (uniq_lines f (tlb_flush_all s)); [destruct f; reflexivity | apply uniq_flush].
    + apply (uniq_lines f s); [destruct f; reflexivity | exact HU].
  - unfold write_cr3. destruct (nz (Z.land (cr0 s) CR0_PG)).
    + destruct (nz (Z.land (cr4 s) CR4_PGE)).
      * apply (uniq_sub f s); [| exact HU]. intros b m Hb. unfold at_line.
        set (l := lines f s (tlb_idx f b)).
        match goal with |- context [nth m (lines f ?t _) 0] => replace (lines f t (tlb_idx f b)) with (keep_global l) by (unfold l; destruct f; reflexivity) end.
        rewrite (map_nth (fun x => if nz (Z.land x TLB_GLOBAL) then x else 0) l 0 m : nth m (keep_global l) 0 = _).
        destruct (nz (Z.land (nth m l 0) TLB_GLOBAL)); [auto |]. rewrite hits_zero by (auto; lia). discriminate.
      * apply (uniq_lines f (tlb_flush_all s)); [destruct f; reflexivity | apply uniq_flush].
    + apply (uniq_lines f s); [destruct f; reflexivity | exact HU].
  - unfold write_cr4. destruct (_ =? _).
    + apply (uniq_lines f s); [destruct f; reflexivity | exact HU].
    + apply (uniq_lines f (tlb_flush_all s)); [destruct f; reflexivity | apply uniq_flush].
  - apply uniq_flush.
Qed.

Lemma uniq_run f hw E s l : uniform E -> inv hw E s -> hist_ok E s l -> (hw = true -> forallb no_host_write l = true) ->
  forallb (calm f) l = true -> uniq f s -> uniq f (mrun E s l).
Proof.
  intros U. revert s. induction l as [| o tl IH]; intros s I H NH HCm HU; [exact HU |]. cbn [mrun fold_left hist_ok forallb] in *.
  destruct H as (H1 & H2). apply andb_prop in HCm. destruct HCm as (C1 & C2).
  assert (NH1 : hw = true -> no_host_write o = true /\ forallb no_host_write tl = true) by (intros X; specialize (NH X); apply andb_prop in NH; exact NH).
  apply IH; [| exact H2 | intros X; now apply NH1 | exact C2 |].
  - apply step_inv; auto. intros X. now apply NH1.
  - apply (uniq_step f hw); auto.
Qed.

(** a page cached at most once is gone after an invalidation *)
Lemma inval_gone f a s : 0 <= a < 2 ^ 32 -> uniq f s -> forall m, hits f a 1 (at_line f (inval_one f a s) a m) = false.
Proof.
  intros Ha HU m. unfold inval_one. destruct (find_line _ _) as [n |] eqn:F.
  - destruct (find_line_in _ _ _ F) as (HIn & HH). fold (at_line f s a n) in HH.
    rewrite (line_upd f s (set_lines f _ s) (tlb_idx f a) n 0) by (destruct f; reflexivity). rewrite Z.eqb_refl. cbn [andb].
    destruct (Nat.eqb_spec m n) as [-> | N]; cbn [andb].
    + destruct (Nat.ltb_spec n (length (lines f s (tlb_idx f a)))) as [L | L]; [apply hits_zero; auto; lia |].
      unfold at_line in *. rewrite (nth_overflow _ _ L). apply hits_zero; auto; lia.
    + destruct (hits f a 1 (at_line f s a m)) eqn:X; [| reflexivity]. elim N. apply (HU a); auto.
  - destruct (hits f a 1 (at_line f s a m)) eqn:X; [| reflexivity].
    assert (T : tlb_find f a 1 s = None) by (unfold tlb_find; change (hits f a 1) with (hits f a TLB_SUP_READ); rewrite F; reflexivity).
    rewrite (miss_all f a 1 s Ha eq_refl ltac:(lia) T m) in X. discriminate.
Qed.
Lemma inval_other f a s : lines f (inval_one (negb f) a s) = lines f s.
Proof. unfold inval_one. destruct (find_line _ _); destruct f; reflexivity. Qed.

Lemma invalidate_gone f a s : 0 <= a < 2 ^ 32 -> uniq f s -> forall m, hits f a 1 (at_line f (tlb_invalidate a s) a m) = false.
Proof.
  intros Ha HU m. unfold tlb_invalidate. destruct f.
  - unfold at_line. change (lines true (inval_one false a (inval_one true a s))) with (lines true (inval_one (negb true) a (inval_one true a s))).
    rewrite inval_other. now apply (inval_gone true).
  - apply inval_gone; [exact Ha |]. now apply uniq_inval.
Qed.

(** nothing hits without the supervisor read bit *)
Lemma no_sup_no_hit hw E s f a acc x : inv hw E s -> 0 <= a < 2 ^ 32 -> In x (lines f s (tlb_idx f a)) -> hits f a 1 x = false ->
  0 <= acc < 2 ^ 12 -> Z.land acc 15 <> 0 -> hits f a acc x = false.
Proof.
  intros (HC & HL) Ha HIn H1 Hacc HN. destruct (HL f _ x HIn) as [X0 | (addr & p & prot & K1 & K2 & K3 & -> & HM)].
  - unfold hits. apply Z.eqb_neq. intros HH. apply Z.lxor_eq in HH. apply HN.
    assert (T : Z.land (Z.land x (Z.lor acc (tlb_tag_mask f))) 15 = Z.land (Z.lor (tlb_tag f a) acc) 15) by now rewrite HH.
    rewrite <- Z.land_assoc, (Z.land_comm _ 15), Z.land_assoc, X0, Z.land_0_l, Z.land_lor_distr_l in T. symmetry in T.
    apply Z.lor_eq_0_iff in T. tauto.
  - rewrite hits_pack in H1 by (auto; lia). rewrite hits_pack by (auto; lia).
    destruct (a / 2 ^ 12 =? addr / 2 ^ 12); [| reflexivity]. cbn [andb] in *. exfalso. apply Z.eqb_neq in H1. apply H1.
    assert (M : In (Z.land prot 15) [1; 3; 5; 7; 15]).
    { unfold maps in HM. destruct (paging s); [| destruct HM as (_ & -> & _); cbn; auto 6].
      destruct (found E s addr) as [[l q] |]; [| contradiction]. destruct HM as (_ & -> & _). apply mask_cases. }
    change 1 with (Z.land 15 1) at 1. rewrite Z.land_assoc. cbn [In] in M.
    destruct M as [<- | [<- | [<- | [<- | [<- | []]]]]]; reflexivity.
Qed.
