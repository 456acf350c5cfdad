(** * Translations, accesses and histories preserve the TLB invariant *)

From Coq Require Import ZArith Bool List Lia ZifyBool.
From Verif Require Import MmuModel MmuSpec MmuProofs TlbProofs TlbInv.
Import ListNotations.
Local Open Scope Z_scope.

Lemma mask_cases c0 u w : In (tlb_gen_access_mask c0 u w) [1; 3; 5; 7; 15].
Proof.
  unfold tlb_gen_access_mask. destruct (u =? 0), (nz w), (nz (Z.land c0 CR0_WP)); cbn; auto 6.
Qed.
Lemma fill_prot_facts s lv (wr code glob : bool) :
  let q := Z.land (fill_prot s lv wr code glob) (Z.lnot 16) in
  0 <= q < 2 ^ 12 /\ Z.land q 15 = tlb_gen_access_mask (cr0 s) (Z.land lv 4) (Z.land lv 2) /\
  Z.testbit q 8 = glob /\ Z.testbit q 9 = wr.
Proof.
  unfold fill_prot. pose proof (mask_cases (cr0 s) (Z.land lv 4) (Z.land lv 2)) as M.
  set (m := tlb_gen_access_mask _ _ _) in *. clearbody m. cbv zeta.
  cbn [In] in M. destruct M as [<- | [<- | [<- | [<- | [<- | []]]]]];
  destruct wr, code, glob; vm_compute; repeat split; congruence.
Qed.

Definition leaf_dirty (E : menv) (s : mmu) (addr : Z) : Prop :=
  forall l p, found E s addr = Some (l, p) -> Z.testbit (words s l) 6 = true.

(** what a filling translation does *)
Lemma translate_inv hw f E addr (wr priv code : bool) s :
  0 <= addr < 2 ^ 32 -> inv hw E s ->
  match mmu_translate f true E addr (flags_of wr priv code) s with
  | XOk pa _ s' =>
      (exists info, mmu_translate false false E addr (flags_of wr priv code) s = XOk pa info s) /\
      inv hw E s' /\ sameregs s s' /\ cpl s' = cpl s /\ grow (words s) (words s') /\
      (forall x, words s' x = if paging s then touched E s addr wr x else words s x)
  | XFault a e s' =>
      mmu_translate false false E addr (flags_of wr priv code) s = XFault a e s /\ a = addr /\ s' = s
  end.
Proof.
  intros Ha I. pose proof (query_eq false E addr wr priv code s Ha) as Q.
  destruct (paging s) eqn:P.
  - pose proof (translate_shape f true E addr wr priv code s Ha P) as H. cbv zeta in H.
    assert (HH : match found E s addr with
      | None => mmu_translate f true E addr (flags_of wr priv code) s = XFault addr (pf_code false wr (cpl s =? 3)) s
      | Some (leaf, p) =>
          if granted (cr0 s) (code_lv E s addr) (as_user s priv) wr then
          exists w, (forall x, w x = touched E s addr wr x) /\
            mmu_translate f true E addr (flags_of wr priv code) s =
            (let '(pa, s') := tlb_fill f E addr p (fill_prot s (code_lv E s addr) wr code (Z.testbit (words s leaf) 8 && global_pages s)) (set_words w s) in XOk pa 0 s')
          else mmu_translate f true E addr (flags_of wr priv code) s = XFault addr (pf_code true wr (cpl s =? 3)) s
      end) by (unfold found; destruct (walk E s addr); exact H).
    clear H. destruct (found E s addr) as [[l p] |] eqn:FD.
    2:{ rewrite HH. rewrite Q. auto. }
    destruct (granted _ _ _ _).
    2:{ rewrite HH. rewrite Q. auto. }
    destruct Q as [info Q]. destruct HH as (w & HW & HT).
    set (prot := fill_prot s _ wr code _) in HT.
    pose proof (fill_facts f E addr p prot (set_words w s)) as FF.
    destruct (tlb_fill f E addr p prot (set_words w s)) as [pa s']. cbv zeta beta in HT. rewrite HT. clear HT.
    destruct FF as (-> & R & HC & HWD & n & flag & F1 & F2 & L1 & L2).
    assert (R' : sameregs s s') by exact R.
    assert (G : grow (words s) (words s')).
    { apply (grow_trans _ w); [exact (touched_grow E s addr wr w HW) |]. apply grow_refl. exact HWD. }
    split; [eauto |]. split.
    + apply (inv_line hw E s s' f (tlb_idx f addr) n _ I HC R' G L2 L1).
      right. exists addr, p, (Z.lor (Z.land prot (Z.lnot 16)) flag).
      pose proof (fill_prot_facts s (code_lv E s addr) wr code (Z.testbit (words s l) 8 && global_pages s)) as PF.
      fold prot in PF. cbv zeta in PF. destruct PF as (P1 & P2 & P3 & P4).
      split; [exact Ha |]. split; [reflexivity |]. split.
      { split; [apply Z.lor_nonneg; lia |].
        destruct (Z.eq_dec (Z.lor (Z.land prot (Z.lnot 16)) flag) 0) as [-> | N]; [lia |].
        apply Z.log2_lt_pow2; [pose proof (Z.lor_nonneg (Z.land prot (Z.lnot 16)) flag); lia |].
        rewrite Z.log2_lor by lia. apply Z.max_lub_lt.
        - destruct (Z.eq_dec (Z.land prot (Z.lnot 16)) 0) as [-> | N']; [reflexivity |]. apply Z.log2_lt_pow2; lia.
        - destruct (Z.eq_dec flag 0) as [-> | N']; [reflexivity |]. apply Z.log2_lt_pow2; lia. }
      split; [reflexivity |]. apply maps_flag; [exact F1 |].
      unfold maps. assert (P' : paging s' = true) by (unfold paging; destruct R' as (-> & _); exact P). rewrite P'.
      rewrite (found_grow E s s' addr R' G), (lv_grow E s s' addr R' G), FD.
      split; [reflexivity |]. destruct R' as (R0 & _ & R4). rewrite R0. split; [exact P2 |]. rewrite P3, P4. split.
      * intros X. apply andb_prop in X. unfold global_pages in *. rewrite R4. rewrite (grow_bit _ _ _ 8 G) by lia. exact X.
      * intros _ X. rewrite HWD. cbn [words set_words]. rewrite HW. unfold touched. rewrite X.
        unfold found in FD. destruct (walk E s addr) as [| l' p' | l' p']; [discriminate | |]; injection FD as -> ->;
          rewrite Z.eqb_refl, Z.lor_spec; apply orb_true_r.
    + split; [exact R' |]. split; [exact HC |]. split; [exact G |]. intros x. rewrite HWD. apply HW.
  - destruct Q as [info Q].
    assert (HT : mmu_translate f true E addr (flags_of wr priv code) s =
      let '(pa, s') := tlb_fill f E addr addr (Z.lor TLB_VALID (Z.lor TLB_DIRTY (if code then 16 else 0))) s in XOk pa 0 s').
    { unfold mmu_translate. change CR0_PG with (2 ^ 31). rewrite nz_bit by lia. unfold paging in P. rewrite P, flags_code. reflexivity. }
    rewrite HT. clear HT. set (prot := Z.lor TLB_VALID _).
    pose proof (fill_facts f E addr addr prot s) as FF. destruct (tlb_fill f E addr addr prot s) as [pa s'].
    destruct FF as (-> & R & HC & HWD & n & flag & F1 & F2 & L1 & L2).
    assert (G : grow (words s) (words s')) by (apply grow_refl; exact HWD).
    split; [eauto |]. split; [| auto].
    apply (inv_line hw E s s' f (tlb_idx f addr) n _ I HC R G L2 L1).
    right. exists addr, addr, (Z.lor (Z.land prot (Z.lnot 16)) flag).
    assert (PE : Z.land prot (Z.lnot 16) = 527) by (unfold prot; destruct code; reflexivity). rewrite PE.
    split; [exact Ha |]. split; [reflexivity |]. split.
    { split; [apply Z.lor_nonneg; lia |]. 
      assert (0 <= Z.lor 527 flag) by (apply Z.lor_nonneg; lia).
      destruct (Z.eq_dec (Z.lor 527 flag) 0) as [e | N]; [lia |]. apply Z.log2_lt_pow2; [lia |].
      rewrite Z.log2_lor by lia. apply Z.max_lub_lt; [reflexivity |].
      destruct (Z.eq_dec flag 0) as [-> | N']; [reflexivity |]. apply Z.log2_lt_pow2; lia. }
    split; [reflexivity |]. apply maps_flag; [exact F1 |].
    unfold maps. assert (P' : paging s' = false) by (unfold paging; destruct R as (-> & _); exact P). rewrite P'.
    repeat split.
Qed.

(** ** Hits *)

Lemma mask_granted c0 lv (user wr : bool) : In lv [0; 2; 4; 6] ->
  let acc := if wr then (if user then 8 else 2) else (if user then 4 else 1) in
  Z.land (tlb_gen_access_mask c0 (Z.land lv 4) (Z.land lv 2)) acc = acc -> granted c0 lv user wr = true.
Proof.
  intros HL. cbn [In] in HL. unfold granted, check_page_access, tlb_gen_access_mask.
  destruct HL as [<- | [<- | [<- | [<- | []]]]]; cbn [Z.eqb nz negb Z.land Pos.land Z.of_N];
  destruct user, wr, (nz (Z.land c0 CR0_WP)); vm_compute; congruence.
Qed.

Lemma access_lv s (wr priv : bool) : 0 <= cpl s <= 3 ->
  tlb_access (if wr then 1 else 0) (Z.shiftr (cpl s) (p2 priv)) =
  if wr then (if as_user s priv then 8 else 2) else (if as_user s priv then 4 else 1).
Proof.
  intros H. unfold tlb_access, as_user, p2. assert (C : cpl s = 0 \/ cpl s = 1 \/ cpl s = 2 \/ cpl s = 3) by lia.
  destruct C as [-> | [-> | [-> | ->]]]; destruct wr, priv; reflexivity.
Qed.

Lemma found_line hw E s f a l p prot addr :
  maps hw E s addr p prot -> paging s = true -> a / 2 ^ 12 = addr / 2 ^ 12 -> found E s a = Some (l, f) ->
  f / 2 ^ 12 = p / 2 ^ 12 /\ 0 <= p < 2 ^ 32.
Proof.
  intros M P H F. unfold maps in M. rewrite P in M. destruct (found_page E s a addr H) as (_ & _ & _ & FP). rewrite F in FP.
  destruct (found E s addr) as [[l' q] |] eqn:FA; [| discriminate]. destruct M as (-> & _).
  apply some_pair in FP. destruct (found_range E s addr l' q FA) as (R & MM). split; [| exact R].
  assert (X : f = q - addr mod 2 ^ 12 + a mod 2 ^ 12) by congruence. rewrite X.
  pose proof (Z.div_mod q (2 ^ 12)) as D. pose proof (Z.mod_pos_bound a (2 ^ 12)) as A.
  replace (q - addr mod 2 ^ 12 + a mod 2 ^ 12) with (q / 2 ^ 12 * 2 ^ 12 + a mod 2 ^ 12) by lia.
  rewrite Z.div_add_l by lia. rewrite (Z.div_small (a mod 2 ^ 12)) by lia. lia.
Qed.

Lemma acc_sub prot acc m : Z.land m acc = acc -> Z.land prot m = m -> Z.land prot acc = acc.
Proof.
  intros H1 H2. rewrite <- H1. rewrite Z.land_assoc, H2. reflexivity.
Qed.

(** a line that hits answers as the page tables would *)
Lemma hit_query hw E s f a (wr priv code : bool) acc x :
  uniform E -> inv hw E s -> 0 <= a < 2 ^ 32 -> 0 <= acc < 2 ^ 12 ->
  let want := tlb_access (if wr then 1 else 0) (Z.shiftr (cpl s) (p2 priv)) in
  Z.land acc want = want ->
  In x (lines f s (tlb_idx f a)) -> hits f a acc x = true ->
  (exists info, mmu_translate false false E a (flags_of wr priv code) s = XOk (hit_addr x a) info s) /\
  (hw = true -> Z.testbit acc 9 = true -> paging s = true -> leaf_dirty E s a).
Proof.
  intros U (HC & HL) Ha Hacc want HA HIn HH. unfold want in *. rewrite access_lv in HA by exact HC. clear want.
  set (w := if wr then (if as_user s priv then 8 else 2) else (if as_user s priv then 4 else 1)) in HA.
  assert (W15 : Z.land w 15 = w /\ w <> 0) by (unfold w; destruct wr, (as_user s priv); split; (reflexivity || lia)).
  destruct (HL f _ x HIn) as [X0 | (addr & p & prot & H1 & H2 & H3 & -> & HM)].
  - exfalso. assert (V : hits f a w x = false) by (apply invalid_no_hit; tauto).
    (* the bits of [w] are missing *)
    unfold hits in HH. apply Z.eqb_eq in HH. apply Z.lxor_eq in HH.
    assert (T : Z.land (Z.land x (Z.lor acc (tlb_tag_mask f))) 15 = Z.land (Z.lor (tlb_tag f a) acc) 15) by now rewrite HH.
    assert (T1 : Z.land (Z.land x (Z.lor acc (tlb_tag_mask f))) 15 = 0).
    { rewrite <- Z.land_assoc, (Z.land_comm _ 15), Z.land_assoc, X0. apply Z.land_0_l. }
    rewrite T1, Z.land_lor_distr_l in T. symmetry in T. apply Z.lor_eq_0_iff in T. destruct T as (_ & T).
    apply W15. assert (Y : Z.land (Z.land acc 15) w = w).
    { rewrite <- Z.land_assoc, (Z.land_comm 15 w), (proj1 W15). exact HA. }
    rewrite T, Z.land_0_l in Y. now symmetry.
  - rewrite hits_pack in HH by (auto; lia). apply andb_prop in HH. destruct HH as (HP & HG).
    apply Z.eqb_eq in HP. apply Z.eqb_eq in HG. rewrite hit_addr_pack by assumption.
    pose proof (query_eq false E a wr priv code s Ha) as Q.
    destruct (paging s) eqn:P.
    + destruct (found_page E s a addr HP) as (_ & _ & LV & FP).
      pose proof HM as HM0. unfold maps in HM. rewrite P in HM.
      destruct (found E s addr) as [[l q] |] eqn:FA; [| contradiction].
      destruct HM as (-> & HM & _ & HD). rewrite FP in Q.
      destruct (found_range E s addr l q FA) as (R & M).
      destruct (found_range E s a _ _ FP) as (R' & M').
      destruct (found_line hw E s _ a l q prot addr HM0 P HP FP) as (PG & _).
      assert (GR : granted (cr0 s) (code_lv E s a) (as_user s priv) wr = true).
      { rewrite LV. apply mask_granted; [exact (lv_cases E s addr l q FA) |]. fold w. rewrite <- HM.
        rewrite <- Z.land_assoc, (Z.land_comm 15 w), (proj1 W15). exact (acc_sub prot w acc HA HG). }
      rewrite GR in Q. destruct Q as [info Q]. split.
      * exists info. rewrite Q. f_equal.
        destruct (U q R) as (RQ & _). 
        rewrite (Z.mod_small (e_correct E q / 2 ^ 12)) by (split; [apply Z.div_pos; lia | apply Z.div_lt_upper_bound; lia]).
        rewrite (uniform_page E _ q U R' R PG), M', M.
        destruct (uniform_off E q U R) as (_ & O). rewrite M in O. lia.
      * intros Hhw H9 _ l' p' F'. rewrite FP in F'.
        assert (EL : l' = l) by congruence. rewrite EL. apply HD; [exact Hhw |].
        assert (B : Z.testbit (Z.land prot acc) 9 = true) by (rewrite HG; exact H9).
        rewrite Z.land_spec in B. apply andb_prop in B. tauto.
    + unfold maps in HM. rewrite P in HM. destruct HM as (-> & _). destruct Q as [info Q]. split; [| discriminate].
      exists info. rewrite Q. f_equal. destruct (U addr H1) as (RQ & _).
      rewrite (Z.mod_small (e_correct E addr / 2 ^ 12)) by (split; [apply Z.div_pos; lia | apply Z.div_lt_upper_bound; lia]).
      rewrite (uniform_page E a addr U Ha H1 HP). destruct (uniform_off E addr U H1) as (_ & O). lia.
Qed.

Lemma find_line_in p l n : find_line p l = Some n -> In (nth n l 0) l /\ p (nth n l 0) = true.
Proof.
  revert n. induction l as [| x tl IH]; intros n; cbn [find_line]; [discriminate |].
  destruct (p x) eqn:PX.
  - intros H. injection H as <-. cbn. auto.
  - destruct (find_line p tl) as [m |]; [| discriminate]. intros H. injection H as <-.
    destruct (IH m eq_refl) as (H1 & H2). cbn. auto.
Qed.

(** ** Accesses *)

Lemma query_grow f E addr (wr priv code : bool) s s' :
  0 <= addr < 2 ^ 32 -> sameregs s s' -> cpl s' = cpl s -> grow (words s) (words s') ->
  match mmu_translate f false E addr (flags_of wr priv code) s' with
  | XOk pa _ _ => exists info, mmu_translate f false E addr (flags_of wr priv code) s = XOk pa info s
  | XFault a e _ => mmu_translate f false E addr (flags_of wr priv code) s = XFault a e s
  end.
Proof.
  intros Ha R HC G. pose proof (query_eq f E addr wr priv code s Ha) as Q. pose proof (query_eq f E addr wr priv code s' Ha) as Q'.
  rewrite (found_grow E s s' addr R G), (lv_grow E s s' addr R G) in Q'. unfold as_user, paging in *. rewrite HC in Q'.
  destruct R as (R0 & _). rewrite R0 in Q'. destruct (Z.testbit (cr0 s) 31).
  - destruct (found E s addr) as [[l p] |].
    + destruct (granted _ _ _ _).
      * destruct Q' as [i ->]. exact Q.
      * rewrite Q'. exact Q.
    + rewrite Q'. exact Q.
  - destruct Q' as [i ->]. exact Q.
Qed.

Lemma touched_dirty E s s' addr : paging s = true -> sameregs s s' -> grow (words s) (words s') ->
  (forall x, words s' x = touched E s addr true x) -> leaf_dirty E s' addr.
Proof.
  intros P R G HW l p F. rewrite (found_grow E s s' addr R G) in F. rewrite HW. unfold touched. unfold found in F.
  destruct (walk E s addr) as [| l' p' | l' p']; [discriminate | |]; injection F as -> ->;
    rewrite Z.eqb_refl, Z.lor_spec; apply orb_true_r.
Qed.
Lemma leaf_dirty_page E s a b : a / 2 ^ 12 = b / 2 ^ 12 -> leaf_dirty E s b -> leaf_dirty E s a.
Proof.
  intros H D l p F. destruct (found_page E s a b H) as (_ & _ & _ & FP). rewrite F in FP.
  destruct (found E s b) as [[l' q] |] eqn:FB; [| discriminate]. injection FP as -> _. exact (D l' q FB).
Qed.
Lemma leaf_dirty_grow E s s' a : sameregs s s' -> grow (words s) (words s') -> leaf_dirty E s a -> leaf_dirty E s' a.
Proof.
  intros R G D l p F. rewrite (found_grow E s s' a R G) in F. apply (grow_dirty _ _ _ G). exact (D l p F).
Qed.

Lemma span_length pa n : length (span pa n) = n.
Proof. revert pa. induction n; cbn; [reflexivity |]. intros. now rewrite IHn. Qed.
Lemma span_nth pa n i : (i < n)%nat -> nth i (span pa n) 0 = pa + Z.of_nat i.
Proof.
  revert pa i. induction n as [| n IH]; intros pa i H; [lia |]. destruct i as [| i]; cbn [span nth]; [lia |].
  rewrite IH by lia. lia.
Qed.

Lemma w32_eq v : w32 v = v mod 2 ^ 32.
Proof. apply (Z.land_ones v 32). lia. Qed.
Lemma page_eq v : 0 <= v < 2 ^ 32 -> page v = v / 2 ^ 12 * 2 ^ 12.
Proof.
  intros H. unfold page, NOT_PAGE_MASK. rewrite frame_4k. rewrite Z.mod_small; [reflexivity |].
  split; [apply Z.div_pos; lia | apply Z.div_lt_upper_bound; lia].
Qed.

(** the bytes of an access on its first page *)
Lemma byte_first addr i : 0 <= addr < 2 ^ 32 -> 0 <= i -> addr mod 2 ^ 12 + i < 2 ^ 12 ->
  byte_of addr i = addr + i /\ (addr + i) / 2 ^ 12 = addr / 2 ^ 12 /\ (addr + i) mod 2 ^ 12 = addr mod 2 ^ 12 + i /\ addr + i < 2 ^ 32.
Proof.
  intros Ha Hi H. pose proof (Z.div_mod addr (2 ^ 12)) as D. pose proof (Z.mod_pos_bound addr (2 ^ 12)) as M.
  assert (B : addr / 2 ^ 12 < 2 ^ 20) by (apply Z.div_lt_upper_bound; lia).
  assert (L : addr + i < 2 ^ 32) by lia. split; [apply Z.mod_small; lia |].
  assert (E1 : addr + i = addr / 2 ^ 12 * 2 ^ 12 + (addr mod 2 ^ 12 + i)) by lia. split; [| split; [| exact L]].
  - rewrite E1, Z.div_add_l by lia. rewrite (Z.div_small (addr mod 2 ^ 12 + i)) by lia. lia.
  - rewrite E1, Z.add_comm, Z.mod_add by lia. apply Z.mod_small. lia.
Qed.
(** and on its second page *)
Lemma byte_second addr i : 0 <= addr < 2 ^ 32 -> 2 ^ 12 <= addr mod 2 ^ 12 + i < 2 ^ 13 ->
  byte_of addr i / 2 ^ 12 = (addr / 2 ^ 12 + 1) mod 2 ^ 20 /\ byte_of addr i mod 2 ^ 12 = addr mod 2 ^ 12 + i - 2 ^ 12 /\
  0 <= byte_of addr i < 2 ^ 32.
Proof.
  intros Ha H. pose proof (Z.div_mod addr (2 ^ 12)) as D. pose proof (Z.mod_pos_bound addr (2 ^ 12)) as M.
  assert (B : 0 <= addr / 2 ^ 12 < 2 ^ 20) by (split; [apply Z.div_pos; lia | apply Z.div_lt_upper_bound; lia]).
  unfold byte_of. set (q := addr / 2 ^ 12) in *. set (o := addr mod 2 ^ 12) in *.
  assert (V : (addr + i) mod 2 ^ 32 = (q + 1) mod 2 ^ 20 * 2 ^ 12 + (o + i - 2 ^ 12)).
  { destruct (Z.eq_dec (q + 1) (2 ^ 20)) as [e | n].
    - rewrite e, Z.mod_same by lia. symmetry. apply Z.mod_unique_pos with (q := 1); lia.
    - rewrite (Z.mod_small (q + 1)) by lia. rewrite Z.mod_small; lia. }
  rewrite V. pose proof (Z.mod_pos_bound (q + 1) (2 ^ 20)) as Q. split; [| split; [| lia]].
  - rewrite Z.div_add_l by lia. rewrite (Z.div_small (o + i - 2 ^ 12)) by lia. lia.
  - rewrite Z.add_comm, Z.mod_add by lia. apply Z.mod_small. lia.
Qed.

(** an access crosses a page exactly when the offset says so *)
Lemma cross_iff addr size : 0 <= addr < 2 ^ 32 -> 1 <= size <= 4096 ->
  (page addr =? page (w32 (addr + size - 1))) = (addr mod 2 ^ 12 + size <=? 2 ^ 12).
Proof.
  intros Ha Hs. rewrite w32_eq. replace (addr + size - 1) with (addr + (size - 1)) by lia.
  change ((addr + (size - 1)) mod 2 ^ 32) with (byte_of addr (size - 1)).
  pose proof (Z.mod_pos_bound addr (2 ^ 12)) as M.
  assert (B : 0 <= addr / 2 ^ 12 < 2 ^ 20) by (split; [apply Z.div_pos; lia | apply Z.div_lt_upper_bound; lia]).
  destruct (Z.leb_spec (addr mod 2 ^ 12 + size) (2 ^ 12)) as [L | L].
  - destruct (byte_first addr (size - 1)) as (-> & D & _ & LT); try lia. apply Z.eqb_eq. rewrite !page_eq, D by lia. reflexivity.
  - destruct (byte_second addr (size - 1)) as (D & _ & R); try lia. apply Z.eqb_neq. rewrite !page_eq, D by lia.
    intros X. assert (Y : addr / 2 ^ 12 = (addr / 2 ^ 12 + 1) mod 2 ^ 20) by lia.
    destruct (Z.eq_dec (addr / 2 ^ 12 + 1) (2 ^ 20)) as [e | n].
    + rewrite e, Z.mod_same in Y by lia. lia.
    + rewrite Z.mod_small in Y by lia. lia.
Qed.

Lemma agree_one E s addr size (wr priv : bool) pa info :
  uniform E -> 0 <= addr < 2 ^ 32 -> 1 <= size -> addr mod 2 ^ 12 + size <= 2 ^ 12 ->
  mmu_translate false false E addr (flags_of wr priv false) s = XOk pa info s ->
  agree E s addr size wr priv (span pa (Z.to_nat size)).
Proof.
  intros U Ha Hs HP Q. split; [rewrite span_length; lia |]. intros i Hi. rewrite span_nth by lia. rewrite Z2Nat.id by lia.
  destruct (byte_first addr i) as (-> & D & M & LT); try lia.
  destruct (query_page false E (addr + i) addr wr priv false s pa info U) as [info' Q']; try lia; [exact Q |].
  exists info'. rewrite Q'. f_equal. lia.
Qed.

Lemma query_range E s a (wr priv : bool) pa info : uniform E -> 0 <= a < 2 ^ 32 ->
  mmu_translate false false E a (flags_of wr priv false) s = XOk pa info s -> 0 <= pa < 2 ^ 32 /\ pa mod 2 ^ 12 = a mod 2 ^ 12.
Proof.
  intros U Ha Q. pose proof (query_eq false E a wr priv false s Ha) as QA. rewrite Q in QA.
  destruct (paging s).
  - destruct (found E s a) as [[l p] |] eqn:F; [| discriminate]. destruct (granted _ _ _ _); [| discriminate].
    destruct QA as [i QA]. injection QA as -> _. destruct (found_range E s a l p F) as (R & M).
    split; [apply (U p R) |]. rewrite <- M. apply (uniform_off E p U R).
  - destruct QA as [i QA]. injection QA as -> _. split; [apply (U a Ha) | apply (uniform_off E a U Ha)].
Qed.

Lemma agree_two E s addr size (wr priv : bool) pa1 pa2 i1 i2 :
  uniform E -> 0 <= addr < 2 ^ 32 -> 1 <= size <= 4096 -> 2 ^ 12 < addr mod 2 ^ 12 + size ->
  mmu_translate false false E addr (flags_of wr priv false) s = XOk pa1 i1 s ->
  mmu_translate false false E (byte_of addr (size - 1)) (flags_of wr priv false) s = XOk pa2 i2 s ->
  let n := w32 (page (byte_of addr (size - 1)) - addr) in
  agree E s addr size wr priv (span pa1 (Z.to_nat n) ++ span (page pa2) (Z.to_nat (size - n))).
Proof.
  intros U Ha Hs HP Q1 Q2 n. pose proof (Z.mod_pos_bound addr (2 ^ 12)) as M. pose proof (Z.div_mod addr (2 ^ 12)) as DM.
  assert (B : 0 <= addr / 2 ^ 12 < 2 ^ 20) by (split; [apply Z.div_pos; lia | apply Z.div_lt_upper_bound; lia]).
  destruct (byte_second addr (size - 1)) as (D2 & M2 & R2); try lia.
  assert (N : n = 2 ^ 12 - addr mod 2 ^ 12).
  { unfold n. rewrite w32_eq, page_eq, D2 by lia. destruct (Z.eq_dec (addr / 2 ^ 12 + 1) (2 ^ 20)) as [e | ne].
    - rewrite e, Z.mod_same by lia. symmetry. apply Z.mod_unique_pos with (q := -1); lia.
    - rewrite (Z.mod_small (addr / 2 ^ 12 + 1)) by lia. rewrite Z.mod_small; lia. }
  rewrite N. clear N n. destruct (query_range E s _ wr priv pa2 i2 U R2 Q2) as (RP & MP).
  split; [rewrite app_length, !span_length; lia |]. intros i Hi.
  destruct (Z_lt_ge_dec (addr mod 2 ^ 12 + i) (2 ^ 12)) as [L | L].
  - rewrite app_nth1 by (rewrite span_length; lia). rewrite span_nth by lia. rewrite Z2Nat.id by lia.
    destruct (byte_first addr i) as (-> & D & MM & LT); try lia.
    destruct (query_page false E (addr + i) addr wr priv false s pa1 i1 U) as [info' Q']; try lia; [exact Q1 |].
    exists info'. rewrite Q'. f_equal. lia.
  - rewrite app_nth2 by (rewrite span_length; lia). rewrite span_length, span_nth by lia.
    destruct (byte_second addr i) as (D & MM & R); try lia.
    destruct (query_page false E (byte_of addr i) (byte_of addr (size - 1)) wr priv false s pa2 i2 U R R2) as [info' Q']; [lia | exact Q2 |].
    exists info'. rewrite Q'. f_equal. rewrite page_eq by lia. pose proof (Z.div_mod pa2 (2 ^ 12)). lia.
Qed.

Definition kept (hw : bool) (E : menv) (s s' : mmu) : Prop :=
  inv hw E s' /\ sameregs s s' /\ cpl s' = cpl s /\ grow (words s) (words s').

Lemma kept_refl hw E s : inv hw E s -> kept hw E s s.
Proof. intros I. split; [exact I |]. split; [repeat split |]. split; [reflexivity | now apply grow_refl]. Qed.

Lemma mem_slow_inv hw E addr size (wr priv : bool) s :
  uniform E -> inv hw E s -> 0 <= addr < 2 ^ 32 -> 1 <= size <= 4096 ->
  match mem_slow E addr size (flags_of wr priv false) s with
  | AOk bytes s' => agree E s addr size wr priv bytes /\ kept hw E s s' /\
      (wr = true -> paging s = true -> forall i, 0 <= i < size -> leaf_dirty E s' (byte_of addr i))
  | AFault a e s' => mmu_translate false false E a (flags_of wr priv false) s = XFault a e s /\
      (a = addr \/ a = byte_of addr (size - 1)) /\ kept hw E s s' /\
      ((forall x, words s' x = words s x) \/
       (single addr size = false /\ a = byte_of addr (size - 1) /\ forall x, words s' x = if paging s then touched E s addr wr x else words s x))
  end.
Proof.
  intros U I Ha Hs. unfold mem_slow.
  assert (LAST : w32 (addr + size - 1) = byte_of addr (size - 1)).
  { rewrite w32_eq. unfold byte_of. f_equal. lia. }
  rewrite (cross_iff addr size Ha Hs). rewrite LAST.
  pose proof (translate_inv hw false E addr wr priv false s Ha I) as T1.
  pose proof (Z.mod_pos_bound addr (2 ^ 12)) as M.
  replace (negb (size =? 1) && negb (addr mod 2 ^ 12 + size <=? 2 ^ 12)) with (negb (addr mod 2 ^ 12 + size <=? 2 ^ 12)) by lia.
  destruct (Z.leb_spec (addr mod 2 ^ 12 + size) (2 ^ 12)) as [L | L]; cbn [negb].
  - destruct (mmu_translate false true E addr (flags_of wr priv false) s) as [pa i s1 | a e s1].
    + destruct T1 as ((info & Q) & I1 & R & HC & G & HW). split; [exact (agree_one E s addr size wr priv pa info U Ha (proj1 Hs) L Q) |].
      split; [unfold kept; auto |]. intros -> P i0 Hi. destruct (byte_first addr i0) as (-> & D & _); try lia.
      apply (leaf_dirty_page E s1 _ addr); [lia |]. apply (touched_dirty E s s1 addr P R G). intros x. rewrite HW, P. reflexivity.
    + destruct T1 as (Q & -> & ->). split; [exact Q |]. split; [now left |]. split; [now apply kept_refl |]. now left.
  - destruct (mmu_translate false true E addr (flags_of wr priv false) s) as [pa1 i1 s1 | a e s1].
    + destruct T1 as ((info & Q) & I1 & R & HC & G & HW).
      destruct (byte_second addr (size - 1)) as (D2 & M2 & R2); try lia.
      pose proof (translate_inv hw false E _ wr priv false s1 R2 I1) as T2.
      pose proof (query_grow false E (byte_of addr (size - 1)) wr priv false s s1 R2 R HC G) as QG.
      destruct (mmu_translate false true E (byte_of addr (size - 1)) (flags_of wr priv false) s1) as [pa2 i2 s2 | a e s2].
      * destruct T2 as ((info2 & Q2) & I2 & R' & HC' & G' & HW2). rewrite Q2 in QG. destruct QG as [info3 Q3].
        assert (G2 : grow (words s) (words s2)) by (now apply (grow_trans _ (words s1))).
        split; [exact (agree_two E s addr size wr priv pa1 pa2 info info3 U Ha Hs ltac:(lia) Q Q3) |].
        split.
        { split; [exact I2 |]. split; [| split; [congruence | exact G2]].
          destruct R as (? & ? & ?), R' as (? & ? & ?). repeat split; congruence. }
        intros -> P i0 Hi.
        assert (P1 : paging s1 = true) by (unfold paging; destruct R as (-> & _); exact P).
        destruct (Z_lt_ge_dec (addr mod 2 ^ 12 + i0) (2 ^ 12)) as [L1 | L1].
        -- destruct (byte_first addr i0) as (-> & D & _); try lia. apply (leaf_dirty_page E s2 _ addr); [lia |].
           apply (leaf_dirty_grow E s1 s2 addr R' G'). apply (touched_dirty E s s1 addr P R G). intros x. rewrite HW, P. reflexivity.
        -- destruct (byte_second addr i0) as (D & _ & _); try lia.
           apply (leaf_dirty_page E s2 _ (byte_of addr (size - 1))); [lia |].
           apply (touched_dirty E s1 s2 _ P1 R' G'). intros x. rewrite HW2, P1. reflexivity.
      * destruct T2 as (Q2 & -> & ->). rewrite Q2 in QG. split; [exact QG |]. split; [now right |].
        split; [unfold kept; auto |]. right. split; [unfold single; lia | auto].
    + destruct T1 as (Q & -> & ->). split; [exact Q |]. split; [now left |]. split; [now apply kept_refl |]. now left.
Qed.
