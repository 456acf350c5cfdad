(** * C25, the TLB part: what a control register write leaves in the TLBs

    The other part of C25 (validation and the value stored) is in ModeProps.v; that
    every TLB hit agrees with the page tables over whole histories is C12_hits_agree. *)
From Coq Require Import ZArith List Lia Bool.
From Verif Require Import MmuModel TlbRun.
Import ListNotations.
Open Scope Z_scope.

(** two translations give the same address and page information, or the same fault *)
Definition same_answer (r r' : xres) : Prop :=
  match r, r' with
  | XOk pa info _, XOk pa' info' _ => pa = pa' /\ info = info'
  | XFault a e _, XFault a' e' _ => a = a' /\ e = e'
  | _, _ => False
  end.
Definition tlbs_empty (s : mmu) : Prop := forall f i x, In x (lines f s i) -> x = 0.
Definition tlbs_kept (s s' : mmu) : Prop := forall f i, lines f s' i = lines f s i.
(** the page tables translate every address, for every kind of access, as before *)
Definition translates_alike (s s' : mmu) : Prop :=
  forall f E addr flags, same_answer (mmu_translate f false E addr flags s) (mmu_translate f false E addr flags s').

Lemma same_refl r : same_answer r r.
Proof. destruct r; cbn; auto. Qed.

Lemma translate_alike s c0 c3 c4 sm d i1 i2 :
  nz (Z.land (cr0 s) CR0_PG) = nz (Z.land c0 CR0_PG) ->
  (nz (Z.land (cr0 s) CR0_PG) = true ->
    nz (Z.land (cr0 s) CR0_WP) = nz (Z.land c0 CR0_WP) /\ cr3 s = c3 /\ nz (Z.land (cr4 s) CR4_PSE) = nz (Z.land c4 CR4_PSE)) ->
  translates_alike s (mkmmu c0 c3 c4 (cpl s) (words s) i1 i2 sm d).
Proof.
  intros HP H f E addr flags. unfold mmu_translate. cbn [cr0 cr3 cr4 cpl words].
  rewrite <- HP. destruct (nz (Z.land (cr0 s) CR0_PG)) eqn:P; cbn [negb]; [| cbn; auto].
  destruct (H eq_refl) as (W & <- & PS). rewrite <- PS.
  assert (A : forall l a, check_page_access c0 l a = check_page_access (cr0 s) l a).
  { intros l a. unfold check_page_access. now rewrite W. }
  rewrite !A.
  repeat (match goal with |- same_answer (if ?b then _ else _) _ => destruct b end); cbn; auto.
Qed.

(** After a write to CR0, CR3 or CR4 either both TLBs are empty, or they are as before and
    no translation has changed; a write to CR3 while global pages are enabled may in
    addition keep the lines marked global, and only these. *)
Theorem C25_tlb : forall s v,
  (tlbs_empty (write_cr0 v s) \/ tlbs_kept s (write_cr0 v s) /\ translates_alike s (write_cr0 v s)) /\
  (tlbs_empty (write_cr4 v s) \/ tlbs_kept s (write_cr4 v s) /\ translates_alike s (write_cr4 v s)) /\
  (tlbs_empty (write_cr3 v s) \/ tlbs_kept s (write_cr3 v s) /\ translates_alike s (write_cr3 v s) \/
   Z.testbit (cr4 s) 7 = true /\
   forall f i x, In x (lines f (write_cr3 v s) i) -> x = 0 \/ In x (lines f s i) /\ Z.land x TLB_GLOBAL <> 0).
Proof.
  intros s v. split; [| split].
  - unfold write_cr0.
    destruct (Bool.eqb (nz (Z.land (cr0 s) CR0_PG)) (nz (Z.land v CR0_PG))) eqn:EP; cbn [negb orb].
    2: { left. intros f i x Hx. apply (flush_lines f s i). destruct f; exact Hx. }
    apply eqb_prop in EP.
    destruct (Bool.eqb (nz (Z.land (cr0 s) CR0_WP)) (nz (Z.land v CR0_WP))) eqn:EW; cbn [negb andb].
    + right. split; [intros [] i; reflexivity |]. apply eqb_prop in EW. apply translate_alike; auto.
    + destruct (nz (Z.land v CR0_PG)) eqn:PG.
      * left. intros f i x Hx. apply (flush_lines f s i). destruct f; exact Hx.
      * right. split; [intros [] i; reflexivity |]. apply translate_alike; [congruence |]. intros Q. congruence.
  - unfold write_cr4. destruct (_ =? _) eqn:E4.
    + right. split; [intros [] i; reflexivity |]. apply translate_alike; [reflexivity |]. intros _.
      split; [reflexivity |]. split; [reflexivity |].
      apply Z.eqb_eq in E4. apply (f_equal (fun x => Z.land x CR4_PSE)) in E4.
      rewrite <- !Z.land_assoc in E4. change (Z.land (Z.lor CR4_PSE CR4_PGE) CR4_PSE) with CR4_PSE in E4. now rewrite E4.
    + left. intros f i x Hx. apply (flush_lines f s i). destruct f; exact Hx.
  - unfold write_cr3. destruct (nz (Z.land (cr0 s) CR0_PG)) eqn:PG.
    + destruct (nz (Z.land (cr4 s) CR4_PGE)) eqn:G.
      * right; right. split.
        { unfold nz in G. apply negb_true_iff, Z.eqb_neq in G. destruct (Z.testbit (cr4 s) 7) eqn:T; [reflexivity |].
          exfalso. apply G. change CR4_PGE with (2 ^ 7). rewrite Z.land_comm. apply Z.bits_inj'. intros n Hn.
          rewrite Z.land_spec, Z.bits_0, Z.pow2_bits_eqb by lia. destruct (Z.eqb_spec 7 n); [subst; now rewrite T | reflexivity]. }
        intros f i x Hx. destruct f; cbn in Hx; unfold keep_global in Hx; apply in_map_iff in Hx as (y & <- & Hy);
          destruct (nz (Z.land y TLB_GLOBAL)) eqn:Q; auto; right; split; auto;
          unfold nz in Q; apply negb_true_iff, Z.eqb_neq in Q; exact Q.
      * left. intros f i x Hx. apply (flush_lines f s i). destruct f; exact Hx.
    + right; left. split; [intros [] i; reflexivity |]. apply translate_alike; [reflexivity |]. intros Q; congruence.
Qed.
Print Assumptions C25_tlb.

(** every disjunct occurs: turning paging on, setting an unrelated bit, and loading CR3
    with a global and a local line present *)
Definition tlb_ex : mmu :=
  mkmmu 0x80000001 0x1000 0x80 0 (fun _ => 0)
    (fun _ => [Z.lor 0x5001 TLB_GLOBAL; 0x6001; 0; 0; 0; 0; 0; 0]) (fun _ => repeat 0 4) (fun _ => false) O.
Example C25_tlb_example :
  itlb (write_cr0 0x1 tlb_ex) 0 = repeat 0 8 /\
  itlb (write_cr0 0x80000009 tlb_ex) 0 = itlb tlb_ex 0 /\
  itlb (write_cr4 0x90 tlb_ex) 0 = repeat 0 8 /\
  itlb (write_cr3 0x2000 tlb_ex) 0 = Z.lor 0x5001 TLB_GLOBAL :: repeat 0 7.
Proof. vm_compute. repeat split. Qed.
