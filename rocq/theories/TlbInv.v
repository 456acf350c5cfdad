(** * The TLB invariant and its preservation *)

From Coq Require Import ZArith Bool List Lia ZifyBool.
From Verif Require Import MmuModel MmuSpec MmuProofs TlbProofs.
Import ListNotations.
Local Open Scope Z_scope.

Definition found (E : menv) (s : mmu) (addr : Z) : option (Z * Z) :=
  match walk E s addr with Absent => None | Large l p | Small l p => Some (l, p) end.

(** ** Page table entries only gain Accessed and Dirty bits *)

Definition grow (w w' : Z -> Z) : Prop := forall x, exists b, w' x = Z.lor (w x) b /\ In b [0; 32; 64; 96].
Definition sameregs (s s' : mmu) : Prop := cr0 s' = cr0 s /\ cr3 s' = cr3 s /\ cr4 s' = cr4 s.

Lemma grow_refl w w' : (forall x, w' x = w x) -> grow w w'.
Proof. intros H x. exists 0. rewrite H, Z.lor_0_r. cbn. auto. Qed.
Lemma grow_trans w1 w2 w3 : grow w1 w2 -> grow w2 w3 -> grow w1 w3.
Proof.
  intros G1 G2 x. destruct (G1 x) as (b & H1 & B1), (G2 x) as (c & H2 & B2). exists (Z.lor b c). split.
  - now rewrite H2, H1, Z.lor_assoc.
  - cbn in B1, B2. destruct B1 as [<- | [<- | [<- | [<- | []]]]], B2 as [<- | [<- | [<- | [<- | []]]]]; cbn; auto.
Qed.
Lemma grow_bit w w' x k : grow w w' -> 0 <= k -> k <> 5 -> k <> 6 -> Z.testbit (w' x) k = Z.testbit (w x) k.
Proof.
  intros G Hk H5 H6. destruct (G x) as (b & -> & B). rewrite Z.lor_spec.
  replace (Z.testbit b k) with false; [apply orb_false_r |]. symmetry.
  destruct B as [<- | [<- | [<- | [<- | []]]]].
  - apply Z.bits_0.
  - change 32 with (2 ^ 5). rewrite Z.pow2_bits_eqb by lia. lia.
  - change 64 with (2 ^ 6). rewrite Z.pow2_bits_eqb by lia. lia.
  - change 96 with (Z.lor (2 ^ 5) (2 ^ 6)). rewrite Z.lor_spec, !Z.pow2_bits_eqb by lia. lia.
Qed.
Lemma grow_dirty w w' x : grow w w' -> Z.testbit (w x) 6 = true -> Z.testbit (w' x) 6 = true.
Proof. intros G H. destruct (G x) as (b & -> & B). now rewrite Z.lor_spec, H. Qed.
Lemma grow_div w w' x n : grow w w' -> 7 <= n -> w' x / 2 ^ n = w x / 2 ^ n.
Proof.
  intros G Hn. rewrite <- !Z.shiftr_div_pow2 by lia. apply Z.bits_inj'. intros k Hk. rewrite !Z.shiftr_spec by lia.
  apply grow_bit; [exact G | lia..].
Qed.

Lemma pde_grow E s s' addr : sameregs s s' -> pde_at E s' addr = pde_at E s addr.
Proof. intros (_ & H & _). unfold pde_at. now rewrite H. Qed.
Lemma pte_grow E s s' addr : sameregs s s' -> grow (words s) (words s') -> pte_at E s' addr = pte_at E s addr.
Proof. intros R G. unfold pte_at. rewrite (pde_grow E s s' addr R). now rewrite (grow_div _ _ _ 12 G). Qed.
Lemma walk_grow E s s' addr : sameregs s s' -> grow (words s) (words s') -> walk E s' addr = walk E s addr.
Proof.
  intros R G. unfold walk. rewrite (pte_grow E s s' addr R G), (pde_grow E s s' addr R).
  rewrite !(grow_bit _ _ _ 0 G), !(grow_bit _ _ _ 7 G), !(grow_div _ _ _ 12 G), !(grow_div _ _ _ 22 G) by lia.
  unfold large_pages. destruct R as (_ & _ & ->). reflexivity.
Qed.
Lemma lv_grow E s s' addr : sameregs s s' -> grow (words s) (words s') -> code_lv E s' addr = code_lv E s addr.
Proof.
  intros R G. unfold code_lv. rewrite (walk_grow E s s' addr R G), (pde_grow E s s' addr R).
  rewrite !(grow_bit _ _ _ 1 G), !(grow_bit _ _ _ 2 G) by lia.
  destruct (walk E s addr); try reflexivity. now rewrite !(grow_bit _ _ _ 1 G), !(grow_bit _ _ _ 2 G) by lia.
Qed.
Lemma found_grow E s s' addr : sameregs s s' -> grow (words s) (words s') -> found E s' addr = found E s addr.
Proof. intros R G. unfold found. now rewrite (walk_grow E s s' addr R G). Qed.

Lemma touched_grow E s addr wr w : (forall x, w x = touched E s addr wr x) -> grow (words s) w.
Proof.
  intros H x. rewrite H. unfold touched.
  assert (B : In (if wr then 96 else 32) [0; 32; 64; 96]) by (destruct wr; cbn; auto).
  destruct (walk E s addr) as [| l p | l p].
  - exists 0. rewrite Z.lor_0_r. cbn. auto.
  - destruct (x =? l); [eauto | exists 0; rewrite Z.lor_0_r; cbn; auto].
  - destruct (x =? pde_at E s addr), (x =? l).
    + exists (if wr then 96 else 32). split; [| exact B]. rewrite <- Z.lor_assoc. f_equal. destruct wr; reflexivity.
    + exists 32. cbn. auto.
    + eauto.
    + exists 0. rewrite Z.lor_0_r. cbn. auto.
Qed.

(** ** Addresses of one page walk alike *)

Lemma page_22 a b : a / 2 ^ 12 = b / 2 ^ 12 -> a / 2 ^ 22 = b / 2 ^ 22.
Proof.
  intros H. assert (D : forall x, x / 2 ^ 22 = x / 2 ^ 12 / 2 ^ 10).
  { intros x. rewrite Z.div_div by lia. reflexivity. }
  now rewrite !D, H.
Qed.
Lemma off_22 a : a mod 2 ^ 22 = a / 2 ^ 12 mod 2 ^ 10 * 2 ^ 12 + a mod 2 ^ 12.
Proof.
  change (2 ^ 22) with (2 ^ 12 * 2 ^ 10). rewrite Z.rem_mul_r by lia. lia.
Qed.

Lemma found_page E s a b : a / 2 ^ 12 = b / 2 ^ 12 ->
  pde_at E s a = pde_at E s b /\ pte_at E s a = pte_at E s b /\ code_lv E s a = code_lv E s b /\
  found E s a = match found E s b with Some (l, p) => Some (l, p - b mod 2 ^ 12 + a mod 2 ^ 12) | None => None end.
Proof.
  intros H. assert (HD : pde_at E s a = pde_at E s b) by (unfold pde_at; now rewrite (page_22 _ _ H)).
  assert (HT : pte_at E s a = pte_at E s b) by (unfold pte_at; now rewrite HD, H).
  split; [exact HD |]. split; [exact HT |]. unfold code_lv, found, walk. rewrite HD, HT.
  destruct (negb (Z.testbit (words s (pde_at E s b)) 0)); [auto |].
  destruct (Z.testbit (words s (pde_at E s b)) 7 && large_pages s).
  - split; [reflexivity |]. rewrite !off_22, H. do 2 f_equal. lia.
  - destruct (negb (Z.testbit (words s (pte_at E s b)) 0)); [auto |]. split; [reflexivity |]. do 2 f_equal. lia.
Qed.

Lemma some_pair {A B} (a c : A) (b d : B) : Some (a, b) = Some (c, d) -> d = b.
Proof. congruence. Qed.
Lemma found_range E s a l p : found E s a = Some (l, p) -> 0 <= p < 2 ^ 32 /\ p mod 2 ^ 12 = a mod 2 ^ 12.
Proof.
  unfold found, walk. destruct (negb (Z.testbit (words s (pde_at E s a)) 0)); [discriminate |].
  destruct (Z.testbit (words s (pde_at E s a)) 7 && large_pages s).
  - intros H. apply some_pair in H. subst p. pose proof (Z.mod_pos_bound (words s (pde_at E s a) / 2 ^ 22) (2 ^ 10)).
    pose proof (Z.mod_pos_bound a (2 ^ 22)). split; [lia |]. rewrite off_22.
    set (u := words s (pde_at E s a) / 2 ^ 22 mod 2 ^ 10). set (v := a / 2 ^ 12 mod 2 ^ 10).
    replace (u * 2 ^ 22 + (v * 2 ^ 12 + a mod 2 ^ 12)) with (a mod 2 ^ 12 + (u * 2 ^ 10 + v) * 2 ^ 12) by lia.
    rewrite Z.mod_add by lia. apply Z.mod_mod. lia.
  - destruct (negb (Z.testbit (words s (pte_at E s a)) 0)); [discriminate |].
    intros H. apply some_pair in H. subst p. pose proof (Z.mod_pos_bound (words s (pte_at E s a) / 2 ^ 12) (2 ^ 20)).
    pose proof (Z.mod_pos_bound a (2 ^ 12)). split; [lia |]. rewrite (Z.add_comm (_ * _)), Z.mod_add by lia. apply Z.mod_mod. lia.
Qed.

Lemma lv_cases E s a l p : found E s a = Some (l, p) -> In (code_lv E s a) [0; 2; 4; 6].
Proof.
  unfold found, code_lv. destruct (walk E s a) as [| l' p' | l' p']; [discriminate | |]; intros _.
  - destruct (Z.testbit (words s (pde_at E s a)) 1), (Z.testbit (words s (pde_at E s a)) 2); cbn; auto.
  - destruct (Z.testbit (words s (pde_at E s a)) 1), (Z.testbit (words s (pde_at E s a)) 2),
      (Z.testbit (words s l') 1), (Z.testbit (words s l') 2); cbn; auto.
Qed.

(** ** The query translation, in one equation *)

Lemma query_eq f E addr (wr priv code : bool) s :
  0 <= addr < 2 ^ 32 ->
  if paging s then
    match found E s addr with
    | None => mmu_translate f false E addr (flags_of wr priv code) s = XFault addr (pf_code false wr (cpl s =? 3)) s
    | Some (l, p) =>
        if granted (cr0 s) (code_lv E s addr) (as_user s priv) wr
        then exists info, mmu_translate f false E addr (flags_of wr priv code) s = XOk (e_correct E p) info s
        else mmu_translate f false E addr (flags_of wr priv code) s = XFault addr (pf_code true wr (cpl s =? 3)) s
    end
  else exists info, mmu_translate f false E addr (flags_of wr priv code) s = XOk (e_correct E addr) info s.
Proof.
  intros Ha. destruct (paging s) eqn:P.
  - pose proof (translate_shape f false E addr wr priv code s Ha P) as H. cbv zeta in H. unfold found.
    destruct (walk E s addr); exact H.
  - unfold mmu_translate. change CR0_PG with (2 ^ 31). rewrite nz_bit by lia. unfold paging in P. rewrite P.
    eexists. reflexivity.
Qed.

Lemma query_f f E addr fl s : mmu_translate f false E addr fl s = mmu_translate false false E addr fl s.
Proof. reflexivity. Qed.

Lemma uniform_page E a b : uniform E -> 0 <= a < 2 ^ 32 -> 0 <= b < 2 ^ 32 -> a / 2 ^ 12 = b / 2 ^ 12 ->
  e_correct E a = e_correct E b - b mod 2 ^ 12 + a mod 2 ^ 12.
Proof.
  intros U Ha Hb H. destruct (U a Ha) as (_ & ->), (U b Hb) as (_ & ->). rewrite H. lia.
Qed.
Lemma uniform_off E a : uniform E -> 0 <= a < 2 ^ 32 -> e_correct E a mod 2 ^ 12 = a mod 2 ^ 12 /\
  e_correct E a / 2 ^ 12 * 2 ^ 12 + a mod 2 ^ 12 = e_correct E a.
Proof.
  intros U Ha. destruct (U a Ha) as (_ & H).
  assert (M : e_correct E a mod 2 ^ 12 = a mod 2 ^ 12).
  { rewrite H at 1. rewrite Z.add_comm, Z.mod_add by lia. apply Z.mod_mod. lia. }
  split; [exact M |]. rewrite <- M. pose proof (Z.div_mod (e_correct E a) (2 ^ 12)). lia.
Qed.

(** on one page the query answers alike *)
Lemma query_page f E a b (wr priv code : bool) s pa info :
  uniform E -> 0 <= a < 2 ^ 32 -> 0 <= b < 2 ^ 32 -> a / 2 ^ 12 = b / 2 ^ 12 ->
  mmu_translate f false E b (flags_of wr priv code) s = XOk pa info s ->
  exists info', mmu_translate f false E a (flags_of wr priv code) s = XOk (pa - b mod 2 ^ 12 + a mod 2 ^ 12) info' s.
Proof.
  intros U Ha Hb H Q. pose proof (query_eq f E b wr priv code s Hb) as QB. pose proof (query_eq f E a wr priv code s Ha) as QA.
  destruct (found_page E s a b H) as (_ & _ & LV & FD).
  destruct (paging s) eqn:P.
  - rewrite FD, LV in QA. destruct (found E s b) as [[l p] |] eqn:FB.
    + destruct (granted _ _ _ _).
      * destruct QB as [i QB], QA as [j QA]. rewrite Q in QB. injection QB as -> _. exists j. rewrite QA. f_equal.
        destruct (found_range E s b l p FB) as (R & M). destruct (found_range E s a _ _ FD) as (R' & M').
        rewrite (uniform_page E _ p U R' R); [| ].
        -- rewrite M', M. lia.
        -- pose proof (Z.div_mod p (2 ^ 12)) as D. pose proof (Z.mod_pos_bound a (2 ^ 12)) as A.
           replace (p - b mod 2 ^ 12 + a mod 2 ^ 12) with (p / 2 ^ 12 * 2 ^ 12 + a mod 2 ^ 12) by lia.
           rewrite Z.div_add_l by lia. rewrite (Z.div_small (a mod 2 ^ 12)) by lia. lia.
      * rewrite Q in QB. discriminate.
    + rewrite Q in QB. discriminate.
  - destruct QB as [i QB], QA as [j QA]. rewrite Q in QB. injection QB as -> _. exists j. rewrite QA. f_equal.
    now apply uniform_page.
Qed.

(** ** The invariant *)

(** [hw] says no host write has happened *)
Definition maps (hw : bool) (E : menv) (s : mmu) (addr p prot : Z) : Prop :=
  if paging s then
    match found E s addr with
    | None => False
    | Some (l, q) =>
        p = q /\ Z.land prot 15 = tlb_gen_access_mask (cr0 s) (Z.land (code_lv E s addr) 4) (Z.land (code_lv E s addr) 2) /\
        (Z.testbit prot 8 = true -> Z.testbit (words s l) 8 = true /\ global_pages s = true) /\
        (hw = true -> Z.testbit prot 9 = true -> Z.testbit (words s l) 6 = true)
    end
  else p = addr /\ Z.land prot 15 = 15 /\ Z.testbit prot 8 = false.

Definition line_ok (hw : bool) (E : menv) (s : mmu) (f : bool) (i x : Z) : Prop :=
  Z.land x 15 = 0 \/
  exists addr p prot, 0 <= addr < 2 ^ 32 /\ tlb_idx f addr = i /\ 0 <= prot < 2 ^ 12 /\
    x = pack f addr (e_correct E p) prot /\ maps hw E s addr p prot.

Definition inv (hw : bool) (E : menv) (s : mmu) : Prop :=
  0 <= cpl s <= 3 /\ forall f i x, In x (lines f s i) -> line_ok hw E s f i x.

Lemma maps_grow hw E s s' addr p prot : sameregs s s' -> grow (words s) (words s') -> maps hw E s addr p prot -> maps hw E s' addr p prot.
Proof.
  intros R G. unfold maps, paging. pose proof R as R0. destruct R0 as (-> & _ & C4).
  destruct (Z.testbit (cr0 s) 31); [| auto]. rewrite (found_grow E s s' addr R G), (lv_grow E s s' addr R G).
  destruct (found E s addr) as [[l q] |]; [| auto]. intros (-> & HM & HG & HD). repeat split; auto.
  - rewrite (grow_bit _ _ _ 8 G) by lia. now apply HG.
  - unfold global_pages. rewrite C4. now apply HG.
  - intros H1 H2. now apply (grow_dirty _ _ _ G), HD.
Qed.
Lemma line_grow hw E s s' f i x : sameregs s s' -> grow (words s) (words s') -> line_ok hw E s f i x -> line_ok hw E s' f i x.
Proof.
  intros R G [H | (a & p & prot & H1 & H2 & H3 & H4 & H5)]; [now left |]. right. exists a, p, prot. repeat split; try tauto.
  now apply (maps_grow hw E s s').
Qed.
Lemma maps_flag hw E s addr p prot flag : Z.land flag 783 = 0 -> maps hw E s addr p prot -> maps hw E s addr p (Z.lor prot flag).
Proof.
  intros HF. assert (K : forall k, 0 <= k -> Z.testbit 783 k = true -> Z.testbit flag k = false).
  { intros k Hk T. assert (X : Z.testbit (Z.land flag 783) k = false) by (rewrite HF; apply Z.bits_0).
    rewrite Z.land_spec, T, andb_true_r in X. exact X. }
  assert (L : Z.land (Z.lor prot flag) 15 = Z.land prot 15).
  { rewrite Z.land_lor_distr_l. replace (Z.land flag 15) with 0; [apply Z.lor_0_r |].
    change 15 with (Z.land 783 15). rewrite Z.land_assoc, HF. reflexivity. }
  pose proof (K 8 ltac:(lia) eq_refl) as K8. pose proof (K 9 ltac:(lia) eq_refl) as K9.
  unfold maps. rewrite L, !Z.lor_spec, K8, K9, !orb_false_r. auto.
Qed.

Lemma in_set_nth x n v l : In x (set_nth n v l) -> x = v \/ In x l.
Proof.
  revert n. induction l as [| y tl IH]; intros n; [destruct n; intros [] |].
  destruct n as [| m]; cbn [In set_nth]; [intros [-> | H]; auto |]. intros [-> | H]; [auto |]. destruct (IH m H); auto.
Qed.
Lemma lines_set f f' t s : lines f (set_lines f' t s) = if Bool.eqb f f' then t else lines f s.
Proof. destruct f, f'; reflexivity. Qed.

(** replacing one line *)
Lemma inv_line hw E s s' f i n v :
  inv hw E s -> cpl s' = cpl s -> sameregs s s' -> grow (words s) (words s') ->
  lines f s' = upd (lines f s) i (set_nth n v (lines f s i)) -> lines (negb f) s' = lines (negb f) s ->
  line_ok hw E s' f i v -> inv hw E s'.
Proof.
  intros (HC & HL) HC' R G H1 H2 HV. split; [now rewrite HC' |]. intros f' j x Hx.
  destruct (Bool.eqb_spec f' f) as [-> | N].
  - rewrite H1 in Hx. unfold upd in Hx. destruct (Z.eqb_spec j i) as [-> | N'].
    + apply in_set_nth in Hx. destruct Hx as [-> | Hx]; [exact HV | apply (line_grow hw E s); auto].
    + apply (line_grow hw E s); auto.
  - assert (EF : f' = negb f) by (destruct f, f'; cbn; congruence). subst f'. rewrite H2 in Hx. apply (line_grow hw E s); auto.
Qed.

Lemma fill_facts f E addr p prot s :
  let '(pa, s') := tlb_fill f E addr p prot s in
  pa = e_correct E p /\ sameregs s s' /\ cpl s' = cpl s /\ (forall x, words s' x = words s x) /\
  exists n flag, Z.land flag 783 = 0 /\ 0 <= flag < 2 ^ 12 /\
    lines (negb f) s' = lines (negb f) s /\
    lines f s' = upd (lines f s) (tlb_idx f addr)
      (set_nth n (pack f addr (e_correct E p) (Z.lor (Z.land prot (Z.lnot 16)) flag)) (lines f s (tlb_idx f addr))).
Proof.
  unfold tlb_fill, pack, MMU_SET_CODE, sameregs. set (pa := e_correct E p).
  destruct (nz (Z.land prot 16)); destruct (e_kind E pa);
  (match goal with |- context [find_line ?q ?l] => destruct (find_line q l) as [n |] end);
  repeat (split; [try reflexivity; try (destruct f; reflexivity) |]);
  try (intros; destruct f; reflexivity);
  rewrite ?lines_set;
  eexists; 
  first [ exists TLB_RAM; split; [reflexivity |]; split; [unfold TLB_RAM; lia |]; split; destruct f; rewrite <- ?Z.lor_assoc; reflexivity
        | exists TLB_ROM; split; [reflexivity |]; split; [unfold TLB_ROM; lia |]; split; destruct f; rewrite <- ?Z.lor_assoc; reflexivity
        | exists TLB_MMIO; split; [reflexivity |]; split; [unfold TLB_MMIO; lia |]; split; destruct f; rewrite <- ?Z.lor_assoc; reflexivity
        | exists 0; split; [reflexivity |]; split; [lia |]; split; destruct f; rewrite <- ?Z.lor_assoc; reflexivity
        | exists TLB_SUBPAGE; split; [reflexivity |]; split; [unfold TLB_SUBPAGE; lia |]; split; destruct f; rewrite <- ?Z.lor_assoc; reflexivity ].
Qed.
