(** * Address translation: the page walk *)

From Coq Require Import ZArith Bool List Lia ZifyBool.
From Verif Require Import MmuModel MmuSpec.
Import ListNotations.
Local Open Scope Z_scope.

(** ** Bits and fields *)

Lemma pow2_bit v k : 0 <= k -> Z.land v (2 ^ k) = if Z.testbit v k then 2 ^ k else 0.
Proof.
  intros Hk. apply Z.bits_inj'. intros n Hn. rewrite Z.land_spec, Z.pow2_bits_eqb by lia.
  destruct (Z.eqb_spec k n) as [-> | N].
  - destruct (Z.testbit v n); [now rewrite Z.pow2_bits_true | now rewrite Z.bits_0].
  - rewrite andb_false_r. destruct (Z.testbit v k); [now rewrite Z.pow2_bits_false | now rewrite Z.bits_0].
Qed.

Lemma nz_bit v k : 0 <= k -> nz (Z.land v (2 ^ k)) = Z.testbit v k.
Proof.
  intros Hk. rewrite pow2_bit by exact Hk. unfold nz. destruct (Z.testbit v k); [| reflexivity].
  pose proof (Z.pow_pos_nonneg 2 k). replace (2 ^ k =? 0) with false by lia. reflexivity.
Qed.

Lemma mask_field v lo n : 0 <= lo -> 0 <= n ->
  Z.land v (Z.shiftl (Z.ones n) lo) = v / 2 ^ lo mod 2 ^ n * 2 ^ lo.
Proof.
  intros Hl Hn. rewrite <- Z.shiftl_mul_pow2, <- Z.shiftr_div_pow2, <- Z.land_ones by lia.
  apply Z.bits_inj'. intros i Hi. rewrite Z.land_spec.
  destruct (Z.ltb_spec i lo).
  - rewrite !Z.shiftl_spec_low by lia. apply andb_false_r.
  - rewrite !Z.shiftl_spec_high, Z.land_spec, Z.shiftr_spec by lia. now replace (i - lo + lo) with i by lia.
Qed.

Lemma lor_add a b k : 0 <= k -> 0 <= b < 2 ^ k -> Z.lor (a * 2 ^ k) b = a * 2 ^ k + b.
Proof.
  intros Hk Hb. assert (Z.land (a * 2 ^ k) b = 0).
  { rewrite <- Z.shiftl_mul_pow2 by lia. apply Z.bits_inj'. intros i Hi. rewrite Z.land_spec, Z.bits_0.
    destruct (Z.ltb_spec i k).
    - now rewrite Z.shiftl_spec_low.
    - destruct (Z.eq_dec b 0) as [-> | N]; [now rewrite Z.bits_0, andb_false_r |].
      rewrite (Z.bits_above_log2 b); [apply andb_false_r | lia |].
      assert (Z.log2 b < k) by (apply Z.log2_lt_pow2; lia). lia. }
  rewrite <- Z.lxor_lor by assumption. symmetry. now apply Z.add_nocarry_lxor.
Qed.

Lemma frame_4k v : Z.land v 0xFFFFF000 = v / 2 ^ 12 mod 2 ^ 20 * 2 ^ 12.
Proof. apply (mask_field v 12 20); lia. Qed.
Lemma frame_4m v : Z.land v 0xFFC00000 = v / 2 ^ 22 mod 2 ^ 10 * 2 ^ 22.
Proof. apply (mask_field v 22 10); lia. Qed.
Lemma low_mask v n : 0 <= n -> Z.land v (Z.ones n) = v mod 2 ^ n.
Proof. apply Z.land_ones. Qed.

Lemma pde_addr_eq E s addr : 0 <= addr < 2 ^ 32 ->
  e_correct E (Z.lor (Z.land (cr3 s) CR3_PD_MASK) (Z.shiftr addr 22 * 4)) = pde_at E s addr.
Proof.
  intros Ha. unfold pde_at, CR3_PD_MASK. f_equal. rewrite frame_4k, Z.shiftr_div_pow2 by lia.
  apply lor_add; [lia |]. assert (0 <= addr / 2 ^ 22 < 2 ^ 10); [| lia].
  split; [apply Z.div_pos; lia | apply Z.div_lt_upper_bound; lia].
Qed.

Lemma pte_addr_eq E s addr :
  e_correct E (Z.lor (Z.land (words s (pde_at E s addr)) PTE_ADDR_4K) (Z.land (Z.shiftr addr 12) 0x3FF * 4)) = pte_at E s addr.
Proof.
  unfold pte_at, PTE_ADDR_4K. f_equal. rewrite frame_4k, Z.shiftr_div_pow2 by lia.
  change 0x3FF with (Z.ones 10). rewrite low_mask by lia.
  apply lor_add; [lia |]. pose proof (Z.mod_pos_bound (addr / 2 ^ 12) (2 ^ 10)). lia.
Qed.

(** ** The walk *)

Definition granted (c0 lv : Z) (user wr : bool) : bool :=
  nz (check_page_access c0 lv ((if wr then 2 else 0) + (if user then 4 else 0))).

(** the level the code works with *)
Definition code_lv (E : menv) (s : mmu) (addr : Z) : Z :=
  let rights v := (if bit v 1 then 2 else 0) + (if bit v 2 then 4 else 0) in
  let pde := words s (pde_at E s addr) in
  match walk E s addr with
  | Absent => 0
  | Large _ _ => rights pde
  | Small l _ => check_page_privilege (rights pde) (rights (words s l))
  end.

Definition fill_prot (s : mmu) (lv : Z) (wr code glob : bool) : Z :=
  Z.lor (Z.lor (Z.lor (tlb_gen_access_mask (cr0 s) (Z.land lv 4) (Z.land lv 2)) (if wr then 512 else 0))
    (if code then 16 else 0)) (if glob then 256 else 0).

Lemma rights_eq v : Z.lor (Z.land v PTE_WRITE) (Z.land v PTE_USER) = (if bit v 1 then 2 else 0) + (if bit v 2 then 4 else 0).
Proof.
  change PTE_WRITE with (2 ^ 1). change PTE_USER with (2 ^ 2). rewrite !pow2_bit by lia.
  destruct (Z.testbit v 1), (Z.testbit v 2); reflexivity.
Qed.

Lemma flags_write wr priv code : Z.land (flags_of wr priv code) MMU_IS_WRITE = if wr then 1 else 0.
Proof. destruct wr, priv, code; reflexivity. Qed.
Lemma flags_priv wr priv code : Z.land (flags_of wr priv code) MMU_IS_PRIV = if priv then 2 else 0.
Proof. destruct wr, priv, code; reflexivity. Qed.
Lemma flags_code wr priv code : Z.land (flags_of wr priv code) MMU_SET_CODE = if code then 16 else 0.
Proof. destruct wr, priv, code; reflexivity. Qed.

Lemma access_eq s (wr priv : bool) :
  Z.lor (Z.shiftl (if wr then 1 else 0) 1) (Z.land (Z.shiftr (if cpl s =? 3 then 4 else 0) (if priv then 2 else 0)) 4)
  = (if wr then 2 else 0) + (if as_user s priv then 4 else 0).
Proof. unfold as_user. destruct (cpl s =? 3), wr, priv; reflexivity. Qed.

Lemma glob_eq v s : Z.land (Z.land v PTE_GLOBAL) (Z.shiftl (Z.land (cr4 s) CR4_PGE) 1)
  = if bit v 8 && global_pages s then 256 else 0.
Proof.
  change PTE_GLOBAL with (2 ^ 8). change CR4_PGE with (2 ^ 7). rewrite !pow2_bit by lia. unfold global_pages.
  destruct (Z.testbit v 8), (Z.testbit (cr4 s) 7); reflexivity.
Qed.

Lemma prot_eq s lv (wr code glob : bool) :
  Z.lor (Z.lor (Z.lor (tlb_gen_access_mask (cr0 s) (Z.land lv PTE_USER) (Z.land lv PTE_WRITE))
    (Z.shiftl (if wr then 1 else 0) 9)) (if code then 16 else 0)) (if glob then 256 else 0) = fill_prot s lv wr code glob.
Proof. unfold fill_prot. destruct wr; reflexivity. Qed.

Lemma set_acc v (wr : bool) : Z.lor (Z.lor v PTE_ACCESSED) (if wr then PTE_DIRTY else 0) = Z.lor v (if wr then 96 else 32).
Proof. rewrite <- Z.lor_assoc. destruct wr; reflexivity. Qed.

Lemma lor_bit v k : 0 <= k -> Z.testbit v k = true -> Z.lor v (2 ^ k) = v.
Proof.
  intros Hk H. apply Z.bits_inj'. intros n Hn. rewrite Z.lor_spec, Z.pow2_bits_eqb by lia.
  destruct (Z.eqb_spec k n) as [<- | N]; [now rewrite H | apply orb_false_r].
Qed.

(** with paging on *)
Lemma translate_shape (f fill : bool) E addr (wr priv code : bool) s :
  0 <= addr < 2 ^ 32 -> paging s = true ->
  let go (leaf p : Z) : Prop :=
    if granted (cr0 s) (code_lv E s addr) (as_user s priv) wr then
      if fill then
        exists w, (forall x, w x = touched E s addr wr x) /\
          let g := bit (words s leaf) 8 && global_pages s in
          mmu_translate f fill E addr (flags_of wr priv code) s =
          let '(pa, s') := tlb_fill f E addr p (fill_prot s (code_lv E s addr) wr code g) (set_words w s) in XOk pa 0 s'
      else exists info, mmu_translate f fill E addr (flags_of wr priv code) s = XOk (e_correct E p) info s
    else mmu_translate f fill E addr (flags_of wr priv code) s = XFault addr (pf_code true wr (cpl s =? 3)) s in
  match walk E s addr with
  | Absent => mmu_translate f fill E addr (flags_of wr priv code) s = XFault addr (pf_code false wr (cpl s =? 3)) s
  | Large leaf p => go leaf p
  | Small leaf p => go leaf p
  end.
Proof.
  intros Ha Hp go. subst go. cbv beta. unfold code_lv, touched, walk.
  unfold mmu_translate. rewrite flags_write, flags_priv, flags_code, access_eq.
  change CR0_PG with (2 ^ 31). rewrite nz_bit by lia. unfold paging in Hp. rewrite Hp. cbn [negb].
  rewrite pde_addr_eq by exact Ha.
  set (da := pde_at E s addr). set (pde := words s da).
  change PTE_PRESENT with (2 ^ 0). rewrite nz_bit by lia.
  destruct (Z.testbit pde 0) eqn:P0; cbn [negb].
  2:{ f_equal. unfold pf_code. destruct wr, (cpl s =? 3); reflexivity. }
  change PTE_LARGE with (2 ^ 7). change CR4_PSE with (2 ^ 4). rewrite !nz_bit by lia. rewrite rights_eq.
  change (Z.testbit (cr4 s) 4) with (large_pages s).
  destruct (Z.testbit pde 7 && large_pages s) eqn:L7.
  - change (granted _ _ _ _) with (nz (check_page_access (cr0 s)
      ((if Z.testbit pde 1 then 2 else 0) + (if Z.testbit pde 2 then 4 else 0))
      ((if wr then 2 else 0) + (if as_user s priv then 4 else 0)))).
    destruct (nz (check_page_access _ _ _)) eqn:G.
    + assert (PA : Z.lor (Z.land pde PTE_ADDR_4M) (Z.land addr PAGE_MASK_LARGE) = pde / 2 ^ 22 mod 2 ^ 10 * 2 ^ 22 + addr mod 2 ^ 22).
      { unfold PTE_ADDR_4M, PAGE_MASK_LARGE. rewrite frame_4m. change 0x3FFFFF with (Z.ones 22). rewrite low_mask by lia.
        apply lor_add; [lia |]. apply Z.mod_pos_bound. lia. }
      rewrite PA. destruct fill; [| eexists; reflexivity].
      assert (W : nz (if wr then 1 else 0) = wr) by (destruct wr; reflexivity). rewrite W, set_acc, glob_eq, prot_eq.
      change PTE_ACCESSED with (2 ^ 5). rewrite !nz_bit by lia.
      destruct (negb (Z.testbit pde 5) || wr) eqn:A5.
      * exists (upd (words s) da (Z.lor pde (if wr then 96 else 32))). split; [| reflexivity].
        intros x. unfold upd. destruct (Z.eqb_spec x da) as [-> | N]; reflexivity.
      * exists (words s). split.
        -- intros x. destruct (Z.eqb_spec x da) as [-> | N]; [| reflexivity].
           destruct wr; [destruct (Z.testbit pde 5); discriminate |]. 
           assert (B : Z.testbit pde 5 = true) by (destruct (Z.testbit pde 5); [reflexivity | discriminate]).
           symmetry. apply (lor_bit pde 5); [lia | exact B].
        -- destruct s; reflexivity.
    + f_equal. unfold pf_code. destruct wr, (cpl s =? 3); reflexivity.
  - unfold pde, da. rewrite pte_addr_eq. fold da. fold pde. set (ta := pte_at E s addr). set (pte := words s ta).
    rewrite ?nz_bit by lia. destruct (Z.testbit pte 0) eqn:Q0; cbn [negb].
    2:{ f_equal. unfold pf_code. destruct wr, (cpl s =? 3); reflexivity. }
    rewrite rights_eq.
    set (lv := check_page_privilege _ _).
    change (granted (cr0 s) lv (as_user s priv) wr) with (nz (check_page_access (cr0 s) lv
      ((if wr then 2 else 0) + (if as_user s priv then 4 else 0)))).
    destruct (nz (check_page_access _ _ _)) eqn:G.
    + assert (PA : Z.lor (Z.land pte PTE_ADDR_4K) (Z.land addr PAGE_MASK) = pte / 2 ^ 12 mod 2 ^ 20 * 2 ^ 12 + addr mod 2 ^ 12).
      { unfold PTE_ADDR_4K, PAGE_MASK. rewrite frame_4k. change 0xFFF with (Z.ones 12). rewrite low_mask by lia.
        apply lor_add; [lia |]. apply Z.mod_pos_bound. lia. }
      rewrite PA. destruct fill; [| eexists; reflexivity].
      assert (W : nz (if wr then 1 else 0) = wr) by (destruct wr; reflexivity). rewrite W, set_acc, glob_eq.
      change PTE_ACCESSED with (2 ^ 5). rewrite !nz_bit by lia.
      rewrite <- (prot_eq s).
      destruct (Z.testbit pde 5) eqn:A5; cbn [negb]; destruct (negb (Z.testbit pte 5) || wr) eqn:B5; cbn [cr0 cr4 set_words words].
      * eexists. split; [| reflexivity]. intros x. unfold upd.
        destruct (Z.eqb_spec x ta) as [-> | N].
        -- destruct (Z.eqb_spec ta da) as [e | N']; [| reflexivity].
           fold pte. rewrite <- Z.lor_assoc. f_equal. destruct wr; reflexivity.
        -- destruct (Z.eqb_spec x da) as [-> | N']; [| reflexivity]. symmetry. apply (lor_bit _ 5); [lia | exact A5].
      * exists (words s). split; [| destruct s; reflexivity]. intros x.
        destruct wr; [destruct (Z.testbit pte 5); discriminate |].
        assert (B : Z.testbit pte 5 = true) by (destruct (Z.testbit pte 5); [reflexivity | discriminate]).
        assert (D : x = da -> Z.lor (words s x) 32 = words s x) by (intros ->; apply (lor_bit pde 5); [lia | exact A5]).
        assert (T : x = ta -> Z.lor (words s x) 32 = words s x) by (intros ->; apply (lor_bit pte 5); [lia | exact B]).
        destruct (Z.eqb_spec x da) as [e | N]; destruct (Z.eqb_spec x ta) as [e' | N']; rewrite ?D, ?T by assumption; reflexivity.
      * eexists. split; [| reflexivity]. intros x. unfold upd.
        destruct (Z.eqb_spec x ta) as [-> | N].
        -- destruct (Z.eqb_spec ta da) as [e | N']; [| reflexivity].
           fold pte. rewrite <- Z.lor_assoc. f_equal. destruct wr; reflexivity.
        -- destruct (Z.eqb_spec x da) as [-> | N']; reflexivity.
      * exists (upd (words s) da (Z.lor pde 32)). split; [| reflexivity]. intros x. unfold upd.
        destruct wr; [destruct (Z.testbit pte 5); discriminate |].
        assert (B : Z.testbit pte 5 = true) by (destruct (Z.testbit pte 5); [reflexivity | discriminate]).
        assert (T : x = ta -> Z.lor (words s x) 32 = words s x) by (intros ->; apply (lor_bit pte 5); [lia | exact B]).
        destruct (Z.eqb_spec x da) as [e | N]; destruct (Z.eqb_spec x ta) as [e' | N']; rewrite ?T by assumption; rewrite ?T by assumption;
          try reflexivity; unfold pde; rewrite <- e; rewrite ?T by assumption; reflexivity.
    + f_equal. unfold pf_code. destruct wr, (cpl s =? 3); reflexivity.
Qed.
