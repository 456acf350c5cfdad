(** * Properties of the A20 gate (C36) *)

From Coq Require Import ZArith Bool List Lia ZifyBool.
From Verif Require Import AddrSpaceModel AddrSpaceSpec MmuModel MmuSpec MmuProofs TlbProofs TlbInv TlbHist TlbRun MmuProps A20Model A20Spec A20Proofs.
Import ListNotations.
Local Open Scope Z_scope.

(** After any history the mask in force is the one of the specification. *)
Theorem C36_last_request_partial : forall E junk s l p,
  0 <= p < 2 ^ 32 ->
  Z.land p (mask (gt (grun E (mkgm (gate0 junk) s) l))) = gated (fst (gate_after l)) p.
Proof. intros E junk s l p H. destruct (gate_inv l E junk s) as (-> & _). now apply land_mask. Qed.
Print Assumptions C36_last_request_partial.

Example C36_example_requests :
  let l := [GSet false true; GMem (SetCpl 3); GSet true true; GSet false true; GInt; GSet true false] in
  map (fun n => fst (gate_after (firstn n l))) [1; 4; 5; 6]%nat = [true; true; false; true] /\
  gated false 0x123456 = 0x023456 /\ gated true 0x123456 = 0x123456.
Proof. repeat split. Qed.

(** Requests made by another thread while the CPU thread processes an earlier one
    can be lost: the gate stays open for ever although the last request closed
    it. *)
Theorem C36_refuted_lost_request :
  exists l x, x = gev_run (mkgc (gate0 0) false) l /\
    last_request l = true /\ pending (gg x) = false /\
    forall l', (forall e, In e l' -> match e with EvReq _ => False | _ => True end) ->
      Z.land 0x100000 (mask (gg (gev_run x l'))) = 0.
Proof.
  exists [EvReq false; EvRead; EvApply; EvReq true; EvClear]. eexists. split; [reflexivity |].
  split; [reflexivity |]. split; [reflexivity |]. cbn [gev_run fold_left gev_step gg seen].
  intros l' H.
  assert (G : forall l', (forall e, In e l' -> match e with EvReq _ => False | _ => True end) ->
    gev_run (mkgc (mkgate 0xFFEFFFFF 0xFFFFFFFF false) false) l' = mkgc (mkgate 0xFFEFFFFF 0xFFFFFFFF false) false).
  { clear. induction l' as [| e l' IH]; intros H; [reflexivity |]. cbn [gev_run fold_left].
    assert (HT : forall e, In e l' -> match e with EvReq _ => False | _ => True end) by (intros e' I; apply H; now right).
    pose proof (H e (or_introl eq_refl)) as HE.
    destruct e; [contradiction | | |]; exact (IH HT). }
  change (gev_run _ l') with (gev_run (mkgc (mkgate 0xFFEFFFFF 0xFFFFFFFF false) false) l'). rewrite (G l' H). reflexivity.
Qed.
Print Assumptions C36_refuted_lost_request.

(** ** Regions *)

Definition no_alias_call (c : call) : Prop := match c with CallAlias _ _ _ => False | _ => True end.

(** With any memory map made by API calls other than mem_init_region_alias,
    every guest access, whether it hits or misses the TLB, is dispatched to the
    gated address and to the region that owns that address. *)
Theorem C36_region_partial : forall g cs s oks fuel (closed : bool) p,
  unit_ok g -> Forall (call_ok g) cs -> Forall no_alias_call cs ->
  api_run (as_create MEM_MAX) cs = Some (s, oks) -> 0 <= p < 2 ^ 32 ->
  let m := Z.lxor 0xFFFFFFFF (Z.shiftl (if closed then 0 else 1) 20) in
  exists r, search s (gated closed p) = Some r /\
    touch_miss s fuel m p = Some (r, gated closed p) /\
    touch_hit s fuel m p = Some (r, gated closed p).
Proof.
  intros g cs s oks fuel c p Hg Hc NA R Hp. cbv zeta. rewrite want_eq. apply touch_ok; [| exact Hp].
  apply (api_map_ok g cs s oks Hg Hc R). rewrite Forall_forall in NA. exact NA.
Qed.
Print Assumptions C36_region_partial.

Definition plain : list call := [CallRam 0 0xA0000; CallMmio 0xA0000 0x20000 7 9; CallRom 0x100000 0x40000 5; CallRam 0x140000 0x100000].
Example C36_example_regions :
  unit_ok 4096 /\ Forall (call_ok 4096) plain /\ Forall no_alias_call plain /\
  match api_run (as_create MEM_MAX) plain with
  | Some (s, _) =>
      touch_hit s 4 0xFFEFFFFF 0x100010 = touch_hit s 4 0xFFEFFFFF 0x10 /\
      option_map (fun x => i_type (r_info (fst x))) (touch_hit s 4 0xFFEFFFFF 0x1B0000) = Some mmio /\
      option_map (fun x => i_type (r_info (fst x))) (touch_hit s 4 0xFFFFFFFF 0x1B0000) = Some ram
  | None => False
  end.
Proof.
  split; [split; [lia | reflexivity] |]. split; [repeat constructor; cbn; try lia; left; reflexivity |].
  split; [repeat constructor |]. vm_compute. repeat split.
Qed.

(** With aliases it is false: the mask is applied after the alias was resolved.
    An access whose address has bit 20 clear is changed, because the target of
    the alias has it set... *)
Definition aliased : list call := [CallRam 0 0x400000; CallAlias 0xE00000 0x100000 0x1000].
Theorem C36_refuted_alias_target :
  exists s oks, api_run (as_create MEM_MAX) aliased = Some (s, oks) /\
    gated false 0xE00010 = 0xE00010 /\
    dispatch 4 s 0xE00010 = option_map (fun r => (r, 0x100010)) (search s 0) /\
    touch_hit s 4 0xFFEFFFFF 0xE00010 = option_map (fun r => (r, 0x10)) (search s 0) /\
    touch_miss s 4 0xFFEFFFFF 0xE00010 = option_map (fun r => (r, 0x10)) (search s 0).
Proof. eexists. eexists. split; [vm_compute; reflexivity |]. vm_compute. repeat split. Qed.
Print Assumptions C36_refuted_alias_target.

(** ... and an access to an alias whose own address has bit 20 set reaches the
    target of the alias, not the address with bit 20 clear. *)
Definition aliased' : list call := [CallRam 0 0x100000; CallAlias 0x100000 0x80000 0x1000].
Theorem C36_refuted_alias_source :
  exists s oks, api_run (as_create MEM_MAX) aliased' = Some (s, oks) /\
    gated false 0x100010 = 0x10 /\
    dispatch 4 s 0x10 = option_map (fun r => (r, 0x10)) (search s 0) /\
    touch_hit s 4 0xFFEFFFFF 0x100010 = option_map (fun r => (r, 0x80010)) (search s 0) /\
    touch_miss s 4 0xFFEFFFFF 0x100010 = option_map (fun r => (r, 0x80010)) (search s 0).
Proof. eexists. eexists. split; [vm_compute; reflexivity |]. vm_compute. repeat split. Qed.
Print Assumptions C36_refuted_alias_source.

(** A page walk uses the masked address with the region of the unmasked one.  In
    the example map an entry at 0x100000 is read from the read-only memory there,
    at an offset before its start, not from the ram at 0. *)
Theorem C36_refuted_walk :
  exists s oks r, api_run (as_create MEM_MAX) plain = Some (s, oks) /\
    gated false 0x100000 = 0 /\ touch_walk s 4 0xFFEFFFFF 0x100000 = Some (r, 0) /\
    i_type (r_info r) = rom /\ r_start r = 0x100000 /\
    exists r0, search s 0 = Some r0 /\ i_type (r_info r0) = ram /\ touch_hit s 4 0xFFEFFFFF 0x100000 = Some (r0, 0).
Proof.
  eexists. eexists. eexists. split; [vm_compute; reflexivity |]. split; [reflexivity |]. split; [vm_compute; reflexivity |].
  split; [reflexivity |]. split; [reflexivity |]. eexists. split; [vm_compute; reflexivity |]. split; [reflexivity |]. vm_compute. reflexivity.
Qed.
Print Assumptions C36_refuted_walk.

(** the walk is right when one region holds both addresses *)
Theorem C36_walk_partial : forall g cs s oks fuel (closed : bool) p r,
  unit_ok g -> Forall (call_ok g) cs -> Forall no_alias_call cs ->
  api_run (as_create MEM_MAX) cs = Some (s, oks) -> 0 <= p < 2 ^ 32 ->
  search s p = Some r -> r_start r <= gated closed p ->
  let m := Z.lxor 0xFFFFFFFF (Z.shiftl (if closed then 0 else 1) 20) in
  touch_walk s fuel m p = Some (r, gated closed p) /\ search s (gated closed p) = Some r.
Proof.
  intros g cs s oks fuel c p r Hg Hc NA R Hp S B. cbv zeta. rewrite want_eq.
  assert (MO : map_ok s) by (apply (api_map_ok g cs s oks Hg Hc R); rewrite Forall_forall in NA; exact NA).
  destruct (corrected_ok s fuel c p MO Hp) as (r1 & S1 & C). assert (r1 = r) by congruence. subst r1.
  split; [exact C |]. destruct (MO p Hp) as (r1 & S2 & B1 & _ & U). assert (r1 = r) by congruence. subst r1. apply U.
  unfold gated in *. destruct c; [lia |]. destruct (p / 2 ^ 20 mod 2 =? 1); lia.
Qed.
Print Assumptions C36_walk_partial.

(** ** Accesses through the TLBs *)

Lemma pde_range s a : 0 <= a < 2 ^ 32 -> 0 <= cr3 s / 2 ^ 12 mod 2 ^ 20 * 2 ^ 12 + a / 2 ^ 22 * 4 < 2 ^ 32.
Proof. intros H. pose proof (Z.mod_pos_bound (cr3 s / 2 ^ 12) (2 ^ 20) ltac:(lia)). assert (0 <= a / 2 ^ 22 < 2 ^ 10) by (Z.div_mod_to_equations; lia). lia. Qed.
Lemma pte_range v a : 0 <= v / 2 ^ 12 mod 2 ^ 20 * 2 ^ 12 + a / 2 ^ 12 mod 2 ^ 10 * 4 < 2 ^ 32.
Proof. pose proof (Z.mod_pos_bound (v / 2 ^ 12) (2 ^ 20) ltac:(lia)). pose proof (Z.mod_pos_bound (a / 2 ^ 12) (2 ^ 10) ltac:(lia)). lia. Qed.

Section Ext.
Variables E G : menv.
Hypothesis same : forall p, 0 <= p < 2 ^ 32 -> e_correct E p = e_correct G p.

Lemma pde_ext s a : 0 <= a < 2 ^ 32 -> pde_at E s a = pde_at G s a.
Proof. intros H. unfold pde_at. apply same. now apply pde_range. Qed.
Lemma pte_ext s a : 0 <= a < 2 ^ 32 -> pte_at E s a = pte_at G s a.
Proof. intros H. unfold pte_at. rewrite pde_ext by exact H. apply same, pte_range. Qed.
Lemma walk_ext s a : 0 <= a < 2 ^ 32 -> walk E s a = walk G s a.
Proof. intros H. unfold walk. now rewrite pde_ext, pte_ext by exact H. Qed.
Lemma target_ext s a : 0 <= a < 2 ^ 32 -> target E s a = target G s a.
Proof.
  intros H. unfold target. rewrite walk_ext by exact H. destruct (paging s); [| now rewrite same].
  unfold walk. destruct (negb (Z.testbit _ 0)); [reflexivity |]. destruct (_ && _).
  - rewrite same; [reflexivity |].
    pose proof (Z.mod_pos_bound (words s (pde_at G s a) / 2 ^ 22) (2 ^ 10) ltac:(lia)). pose proof (Z.mod_pos_bound a (2 ^ 22) ltac:(lia)). lia.
  - destruct (negb (Z.testbit _ 0)); [reflexivity |]. rewrite same; [reflexivity |].
    pose proof (Z.mod_pos_bound (words s (pte_at G s a) / 2 ^ 12) (2 ^ 20) ltac:(lia)). pose proof (Z.mod_pos_bound a (2 ^ 12) ltac:(lia)). lia.
Qed.
Lemma permits_ext s a wr priv : 0 <= a < 2 ^ 32 -> permits E s a wr priv = permits G s a wr priv.
Proof. intros H. unfold permits, present, allowed, may_user, may_write. now rewrite walk_ext, pde_ext by exact H. Qed.
Lemma agreeing_ext s a : 0 <= a < 2 ^ 32 -> agreeing G s a -> agreeing E s a.
Proof. intros H. unfold agreeing, disagree, may_user. now rewrite walk_ext, pde_ext by exact H. Qed.
End Ext.

Lemma gated_uniform c E : (forall p, 0 <= p < 2 ^ 32 -> e_correct E p = gated c p) -> uniform E.
Proof.
  intros H p Hp. rewrite (H p Hp), H by (change (2 ^ 12) with 4096; Z.div_mod_to_equations; lia).
  split; [now apply gated_range |]. unfold gated. destruct c; [change (2 ^ 12) with 4096; Z.div_mod_to_equations; lia |].
  assert (Q : p / 2 ^ 12 * 2 ^ 12 / 2 ^ 20 = p / 2 ^ 20) by (change (2 ^ 12) with 4096; change (2 ^ 20) with 1048576; Z.div_mod_to_equations; lia).
  rewrite Q. destruct (p / 2 ^ 20 mod 2 =? 1); change (2 ^ 12) with 4096; change (2 ^ 20) with 1048576; Z.div_mod_to_equations; lia.
Qed.

Lemma flush_inv E s : 0 <= cpl s <= 3 -> inv false E (tlb_flush_all s).
Proof. intros H. apply inv_empty; [exact H |]. intros f. apply flush_lines. Qed.

Lemma ghist_inv (E : Z -> menv) : (forall c, uniform (E (mask_of c))) -> forall l x,
  (exists c, mask (gt x) = mask_of c) ->
  (pending (gt x) = true -> exists c, wanted (gt x) = mask_of c) ->
  inv false (E (mask (gt x))) (mm x) -> ghist_ok E x l ->
  inv false (E (mask (gt (grun E x l)))) (mm (grun E x l)).
Proof.
  intros U. induction l as [| o l IH]; intros x HM HW I H; [exact I |].
  cbn [ghist_ok] in H. destruct H as (HO & H). change (grun E x (o :: l)) with (grun E (gstep E x o) l).
  destruct x as [g s]. cbn [gt mm] in *. pose proof (proj1 I) as HC.
  destruct o as [o | c i |]; cbn [gstep gt mm] in *.
  - apply IH; auto. cbn [gt mm]. destruct HM as (c & HM). apply step_inv; auto; [rewrite HM; apply U | discriminate].
  - unfold cpu_set_a20 in *. rewrite want_eq in *. destruct (Z.eqb_spec (mask g) (mask_of c)) as [Q | N]; [| destruct i].
    + apply IH; auto. cbn. intros _. now exists c.
    + apply IH; auto. cbn. intros _. now exists c.
    + apply IH; auto; cbn [gt mm mask flushed wanted]; [now exists c | intros _; now exists c |]. now apply flush_inv.
  - unfold do_a20, int_apply, int_clear in *. destruct (pending g) eqn:P.
    + apply IH; cbn [gt mm mask flushed wanted pending]; [destruct (HW eq_refl) as (c & ->); now exists c | discriminate | now apply flush_inv | exact H].
    + apply IH; auto. cbn [gt]. rewrite P. exact HW.
Qed.

(** In any history of accesses, fetches, register loads and gate requests, an
    access that succeeds reaches, byte by byte, the gated address of what the
    page tables (read through the gate) say; one that fails fails because the
    tables refuse it.  Whatever the TLBs were filled with before. *)
Theorem C36_accesses_partial : forall g cs s oks fuel K R junk c0 c3 c4 lv w l,
  unit_ok g -> Forall (call_ok g) cs -> Forall no_alias_call cs ->
  api_run (as_create MEM_MAX) cs = Some (s, oks) -> 0 <= lv <= 3 ->
  let E := env_of s fuel K R in
  let x0 := mkgm (gate0 junk) (mmu0 c0 c3 c4 lv w) in
  let x := grun E x0 l in
  let Now := E (mask (gt x)) in
  let G := mkmenv (gated (fst (gate_after l))) K R in
  ghist_ok E x0 l ->
  (forall a n (wr priv : bool), 0 <= a < 2 ^ 32 -> 1 <= n <= 4096 ->
     match (if wr then guest_write else guest_read) Now a n (p2 priv) (mm x) with
     | AOk bytes _ => Z.of_nat (length bytes) = n /\
         forall i, 0 <= i < n -> target G (mm x) (byte_of a i) = Some (nth (Z.to_nat i) bytes 0)
     | AFault b _ _ => agreeing G (mm x) b -> permits G (mm x) b wr priv = false
     end) /\
  (forall a, 0 <= a < 2 ^ 32 ->
     match get_code_addr Now a (mm x) with
     | XOk pa _ _ => target G (mm x) a = Some pa
     | XFault b _ _ => agreeing G (mm x) b -> permits G (mm x) b false false = false
     end).
Proof.
  intros g cs s oks fuel K R junk c0 c3 c4 lv w l Hg Hc NA AR Hlv E x0 x Now G HO.
  assert (MO : map_ok s) by (apply (api_map_ok g cs s oks Hg Hc AR); rewrite Forall_forall in NA; exact NA).
  assert (EC : forall c p, 0 <= p < 2 ^ 32 -> e_correct (E (mask_of c)) p = gated c p).
  { intros c p Hp. cbn [E env_of e_correct]. destruct (corrected_ok s fuel c p MO Hp) as (r & _ & ->). reflexivity. }
  assert (UA : forall c, uniform (E (mask_of c))) by (intros c; apply (gated_uniform c), EC).
  assert (HM : mask (gt x) = mask_of (fst (gate_after l))) by (apply (gate_inv l E junk (mmu0 c0 c3 c4 lv w))).
  assert (I : inv false Now (mm x)).
  { apply ghist_inv; auto; [now exists true | cbn; discriminate | now apply inv0]. }
  assert (U : uniform Now) by (unfold Now; rewrite HM; apply UA).
  assert (SM : forall p, 0 <= p < 2 ^ 32 -> e_correct Now p = e_correct G p) by (intros p Hp; unfold Now; rewrite HM; now apply EC).
  assert (QT : forall b wr priv code pa info, 0 <= b < 2 ^ 32 ->
    mmu_translate false false Now b (flags_of wr priv code) (mm x) = XOk pa info (mm x) -> target G (mm x) b = Some pa).
  { intros b wr priv code pa info Hb Q. rewrite <- (target_ext Now G SM) by exact Hb.
    pose proof (query_eq false Now b wr priv code (mm x) Hb) as QE. unfold target, found in *. destruct (paging (mm x)).
    - destruct (walk Now (mm x) b) as [| lf p | lf p]; [rewrite Q in QE; discriminate | |];
      (destruct (granted _ _ _ _); [destruct QE as (i & QE) |]; rewrite Q in QE; congruence).
    - destruct QE as (i & QE). rewrite Q in QE. congruence. }
  assert (QF : forall b wr priv code f e t, 0 <= b < 2 ^ 32 ->
    mmu_translate false false Now b (flags_of wr priv code) (mm x) = XFault f e t -> agreeing G (mm x) b -> permits G (mm x) b wr priv = false).
  { intros b wr priv code f e t Hb Q AG. rewrite <- (permits_ext Now G SM) by exact Hb.
    pose proof (C10_walk_partial false false Now (mm x) b wr priv code Hb (agreeing_ext Now G SM (mm x) b Hb AG)) as C. now rewrite Q in C. }
  assert (BR : forall a i, 0 <= byte_of a i < 2 ^ 32) by (intros a i; apply Z.mod_pos_bound; lia).
  split.
  - intros a n wr priv Ha Hn.
    assert (T : match (if wr then guest_write else guest_read) Now a n (p2 priv) (mm x) with
      | AOk bytes _ => agree Now (mm x) a n wr priv bytes
      | AFault b e _ => mmu_translate false false Now b (flags_of wr priv false) (mm x) = XFault b e (mm x) /\ (b = a \/ b = byte_of a (n - 1))
      end).
    { destruct wr.
      - pose proof (guest_write_inv false Now a n priv (mm x) U I Ha Hn) as T. destruct (guest_write Now a n (p2 priv) (mm x)); tauto.
      - pose proof (guest_read_inv false Now a n priv (mm x) U I Ha Hn) as T. destruct (guest_read Now a n (p2 priv) (mm x)); tauto. }
    destruct ((if wr then guest_write else guest_read) Now a n (p2 priv) (mm x)) as [bytes t | b e t].
    + destruct T as (T1 & T2). split; [exact T1 |]. intros i Hi. destruct (T2 i Hi) as (info & Q). eapply QT; [apply BR | exact Q].
    + destruct T as (T & HB). apply (QF b wr priv false b e (mm x)); [destruct HB as [-> | ->]; [exact Ha | apply BR] | exact T].
  - intros a Ha. pose proof (fetch_inv false Now a (mm x) U I Ha) as T. destruct (get_code_addr Now a (mm x)) as [pa i t | b e t].
    + destruct T as ((info & Q) & _). eapply QT; [exact Ha | exact Q].
    + destruct T as (Q & -> & _). eapply QF; [exact Ha | exact Q].
Qed.
Print Assumptions C36_accesses_partial.

Example C36_example_accesses :
  match api_run (as_create MEM_MAX) plain with
  | Some (s, _) =>
      let E := env_of s 4 (fun _ => KRam) (fun _ => O) in
      let x0 := mkgm (gate0 0) (mmu0 1 0 0 0 (fun _ => 0)) in
      let l := [GMem (GuestRead 0x100010 4 false); GSet false true; GMem (GuestRead 0x100010 4 false); GInt; GMem (Fetch 0x100010)] in
      ghist_ok E x0 l /\ fst (gate_after l) = false /\
      match guest_read (E (mask (gt (grun E x0 l)))) 0x100010 2 0 (mm (grun E x0 l)) with AOk b _ => b = [0x10; 0x11] | _ => False end
  | None => False
  end.
Proof. vm_compute. repeat split; intros; discriminate. Qed.
