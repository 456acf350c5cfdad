(** * The TLB: cached translations agree with the page tables *)

From Coq Require Import ZArith Bool List Lia ZifyBool.
From Verif Require Import MmuModel MmuSpec MmuProofs.
Import ListNotations.
Local Open Scope Z_scope.

(** ** Decisions of the walk *)

Lemma granted_allowed E s addr wr priv :
  walk E s addr <> Absent ->
  granted (cr0 s) (code_lv E s addr) (as_user s priv) wr
  = allowed E s addr wr priv || (disagree E s addr && negb (as_user s priv) && wr).
Proof.
  intros H. unfold granted, code_lv, allowed, disagree, may_user, may_write, write_protect.
  destruct (walk E s addr) as [| l p | l p]; [now elim H | |];
    unfold check_page_access; change CR0_WP with (2 ^ 16); rewrite nz_bit by lia.
  - destruct (as_user s priv), wr, (Z.testbit (cr0 s) 16), (Z.testbit (words s (pde_at E s addr)) 1),
      (Z.testbit (words s (pde_at E s addr)) 2); reflexivity.
  - destruct (Z.testbit (words s (pde_at E s addr)) 1), (Z.testbit (words s (pde_at E s addr)) 2),
      (Z.testbit (words s l) 1), (Z.testbit (words s l) 2); destruct (as_user s priv), wr, (Z.testbit (cr0 s) 16); reflexivity.
Qed.

(** ** Entries *)

Definition pack (f : bool) (addr pa prot : Z) : Z :=
  Z.lor (Z.lor (Z.land pa NOT_PAGE_MASK) prot) (tlb_tag f addr).

Definition tagw (f : bool) : Z := if f then 21 else 23.

Lemma tag_eq f addr : 0 <= addr < 2 ^ 32 -> tlb_tag f addr = addr / 2 ^ tagw f * 2 ^ 32.
Proof.
  intros Ha. unfold tlb_tag, tlb_tag_mask, ITLB_TAG_MASK64, DTLB_TAG_MASK64, tagw.
  destruct f.
  - change 0x7FF with (Z.ones 11). rewrite mask_field, Z.shiftl_mul_pow2 by lia.
    change (2 ^ 32) with (2 ^ 21 * 2 ^ 11) at 1. rewrite Z.div_mul_cancel_r by lia.
    rewrite Z.mod_small; [reflexivity |]. split; [apply Z.div_pos; lia | apply Z.div_lt_upper_bound; lia].
  - change 0x1FF with (Z.ones 9). rewrite mask_field, Z.shiftl_mul_pow2 by lia.
    change (2 ^ 32) with (2 ^ 23 * 2 ^ 9) at 1. rewrite Z.div_mul_cancel_r by lia.
    rewrite Z.mod_small; [reflexivity |]. split; [apply Z.div_pos; lia | apply Z.div_lt_upper_bound; lia].
Qed.

Lemma idx_eq f addr : tlb_idx f addr = addr / 2 ^ 12 mod 2 ^ (tagw f - 12).
Proof.
  unfold tlb_idx, tagw. rewrite Z.shiftr_div_pow2 by lia. destruct f.
  - change 0x1FF with (Z.ones 9). rewrite Z.land_ones by lia. reflexivity.
  - change 0x7FF with (Z.ones 11). rewrite Z.land_ones by lia. reflexivity.
Qed.

(** set index and tag together are the page number *)
Lemma page_split f a b :
  tlb_idx f a = tlb_idx f b -> a / 2 ^ tagw f = b / 2 ^ tagw f -> a / 2 ^ 12 = b / 2 ^ 12.
Proof.
  rewrite !idx_eq. intros I T.
  assert (D : forall x, x / 2 ^ tagw f = x / 2 ^ 12 / 2 ^ (tagw f - 12)).
  { intros x. rewrite Z.div_div by (destruct f; cbn; lia). f_equal. destruct f; reflexivity. }
  rewrite !D in T.
  rewrite (Z.div_mod (a / 2 ^ 12) (2 ^ (tagw f - 12))) by (destruct f; cbn; lia).
  rewrite (Z.div_mod (b / 2 ^ 12) (2 ^ (tagw f - 12))) by (destruct f; cbn; lia).
  now rewrite I, T.
Qed.
Lemma page_same f a b : a / 2 ^ 12 = b / 2 ^ 12 -> tlb_idx f a = tlb_idx f b /\ a / 2 ^ tagw f = b / 2 ^ tagw f.
Proof.
  intros H. rewrite !idx_eq, H. split; [reflexivity |].
  assert (D : forall x, x / 2 ^ tagw f = x / 2 ^ 12 / 2 ^ (tagw f - 12)).
  { intros x. rewrite Z.div_div by (destruct f; cbn; lia). f_equal. destruct f; reflexivity. }
  now rewrite !D, H.
Qed.

Lemma pack_add f addr pa prot : 0 <= addr < 2 ^ 32 -> 0 <= prot < 2 ^ 12 ->
  pack f addr pa prot = addr / 2 ^ tagw f * 2 ^ 32 + (pa / 2 ^ 12 mod 2 ^ 20 * 2 ^ 12 + prot).
Proof.
  intros Ha Hp. unfold pack, NOT_PAGE_MASK. rewrite tag_eq, frame_4k by exact Ha.
  rewrite lor_add by lia. rewrite Z.lor_comm. apply lor_add; [lia |].
  pose proof (Z.mod_pos_bound (pa / 2 ^ 12) (2 ^ 20)). lia.
Qed.

Lemma tagw_pos f : 0 < 2 ^ tagw f. Proof. destruct f; cbn; lia. Qed.

Lemma pack_low f addr pa prot m : 0 <= addr < 2 ^ 32 -> 0 <= prot < 2 ^ 12 -> 0 <= m < 2 ^ 12 ->
  Z.land (pack f addr pa prot) m = Z.land prot m.
Proof.
  intros Ha Hp Hm. rewrite pack_add by assumption.
  assert (M : m = Z.land (Z.ones 12) m).
  { rewrite Z.land_comm, Z.land_ones by lia. symmetry. now apply Z.mod_small. }
  rewrite M, !Z.land_assoc, !Z.land_ones by lia. f_equal.
  replace (addr / 2 ^ tagw f * 2 ^ 32 + (pa / 2 ^ 12 mod 2 ^ 20 * 2 ^ 12 + prot))
    with (prot + (addr / 2 ^ tagw f * 2 ^ 20 + pa / 2 ^ 12 mod 2 ^ 20) * 2 ^ 12) by ring.
  apply Z.mod_add. lia.
Qed.

Lemma tag_range f addr : 0 <= addr < 2 ^ 32 -> 0 <= addr / 2 ^ tagw f < 2 ^ (32 - tagw f).
Proof.
  intros Ha. split; [apply Z.div_pos; [lia | apply tagw_pos] |].
  apply Z.div_lt_upper_bound; [apply tagw_pos |]. destruct f; cbn; lia.
Qed.

Lemma pack_tag f addr pa prot : 0 <= addr < 2 ^ 32 -> 0 <= prot < 2 ^ 12 ->
  Z.land (pack f addr pa prot) (tlb_tag_mask f) = tlb_tag f addr.
Proof.
  intros Ha Hp. rewrite pack_add, tag_eq by assumption.
  pose proof (tag_range f addr Ha) as T. pose proof (Z.mod_pos_bound (pa / 2 ^ 12) (2 ^ 20)) as Q.
  assert (D : (addr / 2 ^ tagw f * 2 ^ 32 + (pa / 2 ^ 12 mod 2 ^ 20 * 2 ^ 12 + prot)) / 2 ^ 32 = addr / 2 ^ tagw f).
  { rewrite Z.div_add_l by lia. rewrite (Z.div_small (_ + prot)) by lia. lia. }
  unfold tlb_tag_mask, ITLB_TAG_MASK64, DTLB_TAG_MASK64. destruct f.
  - change 0x7FF with (Z.ones 11). rewrite mask_field, D by lia. now rewrite Z.mod_small.
  - change 0x1FF with (Z.ones 9). rewrite mask_field, D by lia. now rewrite Z.mod_small.
Qed.

Lemma land_range a b n : 0 <= n -> 0 <= b < 2 ^ n -> 0 <= Z.land a b < 2 ^ n.
Proof.
  intros Hn Hb. split; [apply Z.land_nonneg; lia |].
  assert (M : b = Z.land b (Z.ones n)) by (rewrite Z.land_ones by lia; symmetry; now apply Z.mod_small).
  rewrite M, Z.land_assoc, Z.land_ones by lia. apply Z.mod_pos_bound. lia.
Qed.

(** a line hits when it caches the page and grants the access *)
Lemma hits_pack f a addr pa prot acc :
  0 <= a < 2 ^ 32 -> 0 <= addr < 2 ^ 32 -> 0 <= prot < 2 ^ 12 -> 0 <= acc < 2 ^ 12 ->
  tlb_idx f a = tlb_idx f addr ->
  hits f a acc (pack f addr pa prot) = (a / 2 ^ 12 =? addr / 2 ^ 12) && (Z.land prot acc =? acc).
Proof.
  intros H1 H2 H3 H4 HI. unfold hits. rewrite Z.land_lor_distr_r, pack_low, pack_tag by assumption.
  rewrite !tag_eq by assumption. rewrite Z.lor_comm, !lor_add by (lia || (apply land_range; lia) || idtac).
  pose proof (land_range prot acc 12 ltac:(lia) H4) as L.
  destruct (Z.eqb_spec (a / 2 ^ 12) (addr / 2 ^ 12)) as [e | n]; cbn [andb].
  - destruct (page_same f _ _ e) as [_ ->]. destruct (Z.eqb_spec (Z.land prot acc) acc) as [-> | n].
    + rewrite Z.lxor_nilpotent. reflexivity.
    + apply Z.eqb_neq. intros X. apply Z.lxor_eq in X. lia.
  - apply Z.eqb_neq. intros X. apply Z.lxor_eq in X. apply n. apply (page_split f); [exact HI | lia].
Qed.

Lemma hit_addr_pack f a addr pa prot : 0 <= a < 2 ^ 32 -> 0 <= addr < 2 ^ 32 -> 0 <= prot < 2 ^ 12 ->
  hit_addr (pack f addr pa prot) a = pa / 2 ^ 12 mod 2 ^ 20 * 2 ^ 12 + a mod 2 ^ 12.
Proof.
  intros H1 H2 H3. unfold hit_addr, NOT_PAGE_MASK, PAGE_MASK. rewrite frame_4k, pack_add by assumption.
  pose proof (Z.mod_pos_bound (pa / 2 ^ 12) (2 ^ 20)) as Q.
  replace ((addr / 2 ^ tagw f * 2 ^ 32 + (pa / 2 ^ 12 mod 2 ^ 20 * 2 ^ 12 + prot)) / 2 ^ 12)
    with (addr / 2 ^ tagw f * 2 ^ 20 + pa / 2 ^ 12 mod 2 ^ 20).
  2:{ replace (addr / 2 ^ tagw f * 2 ^ 32 + (pa / 2 ^ 12 mod 2 ^ 20 * 2 ^ 12 + prot))
        with ((addr / 2 ^ tagw f * 2 ^ 20 + pa / 2 ^ 12 mod 2 ^ 20) * 2 ^ 12 + prot) by ring.
      rewrite Z.div_add_l by lia. rewrite (Z.div_small prot) by lia. lia. }
  rewrite (Z.add_comm (_ * 2 ^ 20)), Z.mod_add by lia. rewrite Z.mod_mod by lia.
  change 0xFFF with (Z.ones 12). change 0xFFFFFFFF with (Z.ones 32). rewrite !Z.land_ones by lia.
  pose proof (Z.mod_pos_bound a (2 ^ 12)). rewrite lor_add by lia. apply Z.mod_small. lia.
Qed.

(** an invalid line never hits *)
Lemma invalid_no_hit f a acc x : 0 <= a < 2 ^ 32 -> Z.land x 15 = 0 -> Z.land acc 15 = acc -> acc <> 0 -> hits f a acc x = false.
Proof.
  intros Ha Hx Hacc Hne. unfold hits. apply Z.eqb_neq. intros X. apply Z.lxor_eq in X.
  apply Hne. rewrite <- Hacc. assert (T : Z.land (Z.lor (tlb_tag f a) acc) 15 = Z.land acc 15).
  { rewrite Z.land_lor_distr_l, tag_eq by exact Ha. replace (Z.land (a / 2 ^ tagw f * 2 ^ 32) 15) with 0; [apply Z.lor_0_l |].
    change 15 with (Z.ones 4). rewrite Z.land_ones by lia. symmetry. change (2 ^ 32) with (2 ^ 28 * 2 ^ 4). rewrite Z.mul_assoc. apply Z.mod_mul. lia. }
  rewrite <- T, <- X. rewrite <- Z.land_assoc, (Z.land_comm _ 15), Z.land_assoc, Hx. apply Z.land_0_l.
Qed.

(** the guest's line test also requires the access to stay on the page *)
Lemma guest_hits_eq a last acc x : 0 <= a < 2 ^ 32 -> 0 <= last < 2 ^ 32 -> 0 <= acc < 2 ^ 12 ->
  guest_hits a last acc x = hits false a acc x && (a / 2 ^ 12 =? last / 2 ^ 12).
Proof.
  intros Ha Hl Hacc. unfold guest_hits, hits, page, NOT_PAGE_MASK. rewrite !frame_4k.
  assert (DV : forall v, 0 <= v < 2 ^ 32 -> v / 2 ^ 12 mod 2 ^ 20 = v / 2 ^ 12).
  { intros v Hv. apply Z.mod_small. split; [apply Z.div_pos; lia | apply Z.div_lt_upper_bound; lia]. }
  rewrite !DV by assumption. change (tlb_tag_mask false) with DTLB_TAG_MASK64.
  set (y := Z.land x (Z.lor acc DTLB_TAG_MASK64)).
  assert (Y : exists hi lo, 0 <= lo < 2 ^ 12 /\ 0 <= hi /\ y = hi * 2 ^ 32 + lo).
  { exists (x / 2 ^ 32 mod 2 ^ 9), (Z.land x acc). pose proof (land_range x acc 12). split; [lia |].
    split; [apply Z.mod_pos_bound; lia |]. unfold y. rewrite Z.land_lor_distr_r. unfold DTLB_TAG_MASK64. change 0x1FF with (Z.ones 9).
    rewrite mask_field by lia. rewrite Z.lor_comm. apply lor_add; lia. }
  destruct Y as (hi & lo & Hlo & Hhi & Y). rewrite Y, tag_eq by exact Ha. clearbody y. clear Y.
  assert (PV : forall v, 0 <= v < 2 ^ 32 -> 0 <= v / 2 ^ 12 < 2 ^ 20).
  { intros v Hv. split; [apply Z.div_pos; lia | apply Z.div_lt_upper_bound; lia]. }
  pose proof (PV a Ha) as PA. pose proof (PV last Hl) as PL.
  set (pa := a / 2 ^ 12) in *. set (pl := last / 2 ^ 12) in *. set (t := a / 2 ^ tagw false).
  assert (L1 : Z.lor (hi * 2 ^ 32 + lo) (pa * 2 ^ 12) = hi * 2 ^ 32 + (pa * 2 ^ 12 + lo)).
  { rewrite <- (lor_add hi lo 32) by lia. rewrite <- Z.lor_assoc, (Z.lor_comm lo), (lor_add pa lo 12) by lia. apply lor_add; lia. }
  assert (L2 : Z.lor (Z.lor (t * 2 ^ 32) (pl * 2 ^ 12)) acc = t * 2 ^ 32 + (pl * 2 ^ 12 + acc)).
  { rewrite <- Z.lor_assoc, (lor_add pl acc 12) by lia. apply lor_add; lia. }
  assert (L3 : Z.lor (t * 2 ^ 32) acc = t * 2 ^ 32 + acc) by (apply lor_add; lia).
  rewrite L1, L2, L3.
  destruct (Z.eqb_spec pa pl) as [e | n]; rewrite ?andb_true_r, ?andb_false_r.
  - destruct (Z.eqb_spec (Z.lxor (hi * 2 ^ 32 + lo) (t * 2 ^ 32 + acc)) 0) as [X | X].
    + apply Z.lxor_eq in X. apply Z.eqb_eq. replace (hi * 2 ^ 32 + (pa * 2 ^ 12 + lo)) with (t * 2 ^ 32 + (pl * 2 ^ 12 + acc)) by lia.
      apply Z.lxor_nilpotent.
    + apply Z.eqb_neq. intros Y. apply Z.lxor_eq in Y. apply X.
      replace (hi * 2 ^ 32 + lo) with (t * 2 ^ 32 + acc) by lia. apply Z.lxor_nilpotent.
  - apply Z.eqb_neq. intros Y. apply Z.lxor_eq in Y. apply n.
    assert (hi = t) by lia. assert (pa * 2 ^ 12 + lo = pl * 2 ^ 12 + acc) by lia. lia.
Qed.
