(** C88: calls that change the memory map while the cpu runs.  C89: new handlers of a region *)
From Coq Require Import ZArith List Bool Lia ZifyBool.
From Verif Require Import AddrSpaceModel AddrSpaceSpec AddrSpaceProofs RegionApiProofs RgModel RgSpec RgProofs.
Import ListNotations.
Open Scope Z_scope.

(** ** C88 *)
(** Whatever mixture of calls with and without an interrupt, requests for A20, ports and guest
    code a history consists of: the calls return what they would return if all took effect at
    once, and when no call waits any more the map is the one they would have left *)
Theorem C88_in_turn_partial : forall l s bs m oks, in_turn false l -> run init l = Some (s, bs) ->
  api_run (as_create MEM_MAX) (calls l) = Some (m, oks) ->
  statuses l bs = oks /\ (waits false l = false -> mem s = m /\ chg s = []).
Proof.
  intros l s bs m oks T R A.
  assert (Lz : lazy false init (as_create MEM_MAX)) by (split; [reflexivity | split; [reflexivity | split; [intro H; destruct (H eq_refl) | reflexivity]]]).
  destruct (lazy_run l false init _ s bs Lz T R) as (m' & E & L1 & L2 & _); [intros a _ H; destruct (H eq_refl) | intros x <-; rewrite A; discriminate |].
  assert (m' = m) by congruence; assert (statuses l bs = oks) by congruence; subst m'; split; [assumption |].
  intro W; rewrite W in L2; pose proof (L2 eq_refl) as Ec; rewrite Ec in L1; cbn [as_run] in L1; split; [congruence | exact Ec].
Qed.
Print Assumptions C88_in_turn_partial.

(** With ranges in units of [g] bytes: once no call waits, every address belongs to the last
    call over it, and no history is undefined *)
Theorem C88_owner_partial : forall g gp l, unit_ok g -> port_unit gp -> Forall (ev_ok g gp) l -> in_turn false l ->
  exists s bs, run init l = Some (s, bs) /\
    (waits false l = false -> forall a, 0 <= a < 2 ^ 32 ->
       option_map visible (lookup (mem s) a) = Some match most_recent (combine (calls l) (statuses l bs)) a with Some c => call_effect c | None => Nothing end).
Proof.
  intros g gp l Hu Hp H T; destruct (run_ok g gp l init Hu Hp (ok_init g gp Hu Hp) H) as (s & bs & R & _).
  exists s, bs; split; [exact R |]; intros W a Ha.
  assert (Hc : Forall (call_ok g) (calls l)).
  { clear R T W; induction H as [| e l He Hl IH]; cbn [calls]; [constructor |]; destruct e; try exact IH; constructor; [exact He | exact IH]. }
  destruct (api_most_recent g (calls l) Hu Hc) as (m & oks & A & _ & V).
  destruct (C88_in_turn_partial l s bs m oks T R A) as (Es & Em); destruct (Em W) as (-> & _); rewrite Es; exact (V a Ha).
Qed.
Print Assumptions C88_owner_partial.

(** Until cpu_do_int serves the interrupt the guest sees the map as it was *)
Theorem C88_not_before : forall l s s' bs, run s l = Some (s', bs) ->
  Forall (fun e => match e with Serve | Call _ false => False | _ => True end) l -> mem s' = mem s.
Proof.
  induction l as [| e l IH]; intros s s' bs R H; cbn [run] in R; [congruence |].
  destruct (step s e) as [[s1 b] |] eqn:Es; [| discriminate]; destruct (run s1 l) as [[s2 bs2] |] eqn:Er; [| discriminate].
  assert (s2 = s') by congruence; subst s2; inversion_clear H as [| ? ? He Hl]; rewrite (IH _ _ _ Er Hl); clear Er R IH.
  destruct e as [c [|] | a n h o | a n | k later u | | | | ]; cbn [step] in Es; try (destruct He; fail).
  - destruct (call_op (mem s) c) as [[o |] |]; [| | discriminate]; assert (X := f_equal (fun x => match x with Some (t, _) => mem t | None => mem s end) Es); cbn in X; congruence.
  - destruct (pmio_region a n h o); [destruct (insert IO_MAX (io s) r); [| discriminate] |]; assert (X := f_equal (fun x => match x with Some (t, _) => mem t | None => mem s end) Es); cbn in X; congruence.
  - destruct (erase IO_MAX (io s) _ _); [| discriminate]; assert (X := f_equal (fun x => match x with Some (t, _) => mem t | None => mem s end) Es); cbn in X; congruence.
  - destruct (negb later), (k =? 1), (k =? 2), (k =? 3); assert (X := f_equal (fun x => match x with Some (t, _) => mem t | None => mem s end) Es); cbn in X; congruence.
  - assert (X := f_equal (fun x => match x with Some (t, _) => mem t | None => mem s end) Es); cbn in X; congruence.
  - assert (X := f_equal (fun x => match x with Some (t, _) => mem t | None => mem s end) Es); cbn in X; congruence.
  - assert (X := f_equal (fun x => match x with Some (t, _) => mem t | None => mem s end) Es); cbn in X; congruence.
Qed.
Print Assumptions C88_not_before.

(** cpu_do_int leaves no interrupt of regions, handlers or A20 behind, and nothing that an
    interrupt announced still waits *)
Theorem C88_served : forall s s', serve s = Some s' ->
  i_reg s' = false /\ i_hnd s' = false /\ i_a20 s' = false /\
  (i_reg s = true -> chg s' = []) /\ (i_hnd s = true -> upd s' = []).
Proof.
  intros s s'; unfold serve.
  destruct (i_reg s) eqn:E1, (i_hnd s) eqn:E2, (i_a20 s) eqn:E3; cbn [orb negb];
    try (destruct (updates _ _ _) as [[m p] |]; [| discriminate]);
    try (destruct (as_run _ _ _); [| discriminate]);
    intro H; (assert (X := f_equal (fun x => match x with Some t => (i_reg t, i_hnd t, i_a20 t, chg t, upd t) | None => (true, true, true, [], []) end) H));
    cbn in X; rewrite ?E1, ?E2, ?E3 in X;
    (assert (i_reg s' = false) by congruence; assert (i_hnd s' = false) by congruence; assert (i_a20 s' = false) by congruence);
    (split; [assumption | split; [assumption | split; [assumption | split; intro; congruence]]]).
Qed.
Print Assumptions C88_served.

Example C88_served_example : exists s s', run init [Call (CallRam 0 4096) true; A20] = Some (s, [true; true]) /\ serve s = Some s' /\ i_reg s = true /\ chg s <> [].
Proof. eexists; eexists; split; [vm_compute; reflexivity | split; [vm_compute; reflexivity | split; [reflexivity | discriminate]]]. Qed.

(** The caches never hold regions of an earlier map *)
Theorem C88_caches : forall g gp l s bs, unit_ok g -> port_unit gp -> Forall (ev_ok g gp) l -> run init l = Some (s, bs) ->
  Forall (fun m => outline m = outline (mem s)) (fills s).
Proof.
  intros g gp l s bs Hu Hp H R; destruct (run_ok g gp l init Hu Hp (ok_init g gp Hu Hp) H) as (s' & bs' & R' & K).
  assert (s' = s) by congruence; subst s'; exact (k_fill g gp s K).
Qed.
Print Assumptions C88_caches.

Definition demo : list ev :=
  [Call (CallRam 0 0x4000000) false; Call (CallRom 0xFFFC0000 0x40000 7) false; Run; Call (CallMmio 0xA0000 0x20000 1 2) true; PortNew 0x60 2 3 4;
   Call (CallDestroy 0xB0000 0x1000) true; A20; Run; Serve; Run].
Example C88_sat : unit_ok 4096 /\ port_unit 2 /\ Forall (ev_ok 4096 2) demo /\ in_turn false demo /\ waits false demo = false /\
  exists s bs, run init demo = Some (s, bs) /\ length (fills s) = 1%nat /\ option_map visible (lookup (mem s) 0xA0010) = Some (Mmio 1 2) /\ option_map visible (lookup (mem s) 0xB0010) = Some Nothing.
Proof.
  split; [split; [lia | reflexivity] |]; split; [split; [lia | reflexivity] |].
  split; [repeat constructor; cbn; try lia; try reflexivity; left; reflexivity |].
  split; [cbn; repeat split; reflexivity |]; split; [reflexivity |].
  eexists; eexists; split; [vm_compute; reflexivity |]; split; [reflexivity | split; vm_compute; reflexivity].
Qed.

(** A call that takes effect at once overtakes one that waits: the older one is in force in the end *)
Theorem C88_refuted_overtaken : exists l s bs m oks, Forall (ev_ok 4096 2) l /\ waits false l = false /\ run init l = Some (s, bs) /\
  api_run (as_create MEM_MAX) (calls l) = Some (m, oks) /\
  option_map visible (lookup m 0x1000) = Some (Ram 0x1000) /\ option_map visible (lookup (mem s) 0x1000) = Some Nothing.
Proof.
  exists [Call (CallDestroy 0x1000 0x1000) true; Call (CallRam 0x1000 0x1000) false; Serve].
  eexists; eexists; eexists; eexists.
  split; [repeat constructor; cbn; try lia; try reflexivity; left; reflexivity |]; split; [reflexivity |].
  split; [vm_compute; reflexivity |]; split; [vm_compute; reflexivity |]; split; vm_compute; reflexivity.
Qed.
Print Assumptions C88_refuted_overtaken.

(** An alias of a region that is still waiting is refused *)
Theorem C88_refuted_alias_of_waiting : exists l s bs m oks, Forall (ev_ok 4096 2) l /\ run init l = Some (s, bs) /\
  api_run (as_create MEM_MAX) (calls l) = Some (m, oks) /\ statuses l bs = [true; false] /\ oks = [true; true].
Proof.
  exists [Call (CallRam 0 0x10000) true; Call (CallAlias 0x80000000 0 0x1000) true; Serve].
  eexists; eexists; eexists; eexists.
  split; [repeat constructor; cbn; try lia; try reflexivity; left; reflexivity |].
  split; [vm_compute; reflexivity |]; split; [vm_compute; reflexivity |]; split; reflexivity.
Qed.
Print Assumptions C88_refuted_alias_of_waiting.

(** An alias of a region that is waiting to be destroyed is accepted, and points to freed memory *)
Theorem C88_refuted_alias_of_destroyed : exists l s bs r, Forall (ev_ok 4096 2) l /\ run init l = Some (s, bs) /\ Forall (fun b => b = true) (statuses l bs) /\
  search (mem s) 0x80000000 = Some r /\ i_type (r_info r) = alias /\ dispatch 8 (mem s) 0x80000000 = None /\
  (exists m, api_run (as_create MEM_MAX) (calls l) = Some (m, [true; true; false])).
Proof.
  exists [Call (CallRam 0 0x10000) false; Call (CallDestroy 0 0x10000) true; Call (CallAlias 0x80000000 0 0x1000) true; Serve].
  eexists; eexists; eexists.
  split; [repeat constructor; cbn; try lia; try reflexivity; left; reflexivity |].
  split; [vm_compute; reflexivity |]; split; [repeat constructor |]; split; [vm_compute; reflexivity |]; split; [reflexivity |]; split; [vm_compute; reflexivity |].
  eexists; vm_compute; reflexivity.
Qed.
Print Assumptions C88_refuted_alias_of_destroyed.

(** Loading a snapshot takes the interrupt away and leaves the call waiting: however often
    interrupts are served afterwards, it takes no effect *)
Theorem C88_refuted_load : forall l, Forall (fun e => match e with Serve | Run | A20 => True | _ => False end) l ->
  exists s bs, run init ([Call (CallRam 0 0x1000) true; Load; Serve] ++ l) = Some (s, bs) /\ chg s <> [] /\ option_map visible (lookup (mem s) 0) = Some Nothing.
Proof.
  assert (G : forall l s, Forall (fun e => match e with Serve | Run | A20 => True | _ => False end) l -> i_reg s = false -> i_hnd s = false ->
    exists s' bs, run s l = Some (s', bs) /\ chg s' = chg s /\ mem s' = mem s).
  { induction l as [| e l IH]; intros s H E1 E2; cbn [run]; [exists s, []; split; [reflexivity | split; reflexivity] |].
    inversion_clear H as [| ? ? He Hl].
    assert (S : exists s1, step s e = Some (s1, true) /\ chg s1 = chg s /\ mem s1 = mem s /\ i_reg s1 = false /\ i_hnd s1 = false).
    { destruct e; try (destruct He; fail); cbn [step].
      - eexists; split; [reflexivity |]; cbn [chg mem i_reg i_hnd]; auto.
      - unfold serve; rewrite E1, E2; cbn [orb]; destruct (i_a20 s); cbn [negb]; eexists; split; try reflexivity; cbn [chg mem i_reg i_hnd]; auto.
      - eexists; split; [reflexivity |]; cbn [chg mem i_reg i_hnd]; auto. }
    destruct S as (s1 & Es & C1 & M1 & R1 & H1); rewrite Es; destruct (IH s1 Hl R1 H1) as (s' & bs & Er & C2 & M2); rewrite Er.
    exists s', (true :: bs); split; [reflexivity | split; congruence]. }
  intros l H; cbn [app run step call_op ram_region Z.eqb option_map]; unfold serve; cbn [i_reg i_hnd i_a20 orb negb chg mem io upd fills].
  match goal with |- context [run ?x l] => destruct (G l x H eq_refl eq_refl) as (s' & bs & Er & C2 & M2) end.
  rewrite Er; exists s'; eexists; split; [reflexivity |]; rewrite C2, M2; cbn [chg mem]; split; [discriminate | vm_compute; reflexivity].
Qed.
Print Assumptions C88_refuted_load.

(** ** C89 *)
(** When the interrupt is served and no change of the map waits, every region of mmio or pmio has
    the handlers and the pointer of the last update whose address lies in it; nothing else changed *)
Theorem C89_served_partial : forall g gp l s bs, unit_ok g -> port_unit gp -> Forall (ev_ok g gp) l -> run init l = Some (s, bs) ->
  i_hnd s = true -> i_reg s = false -> Forall (fun u => c_io u = true -> c_start u < 65536) (upd s) ->
  exists s', step s Serve = Some (s', true) /\ upd s' = [] /\ chg s' = chg s /\ outline (mem s') = outline (mem s) /\ outline (io s') = outline (io s) /\
    (forall a, 0 <= a < 2 ^ 32 -> exists r, search (mem s) a = Some r /\ r_start r <= a <= r_end r /\ search (mem s') a = Some (with_updates false (upd s) r)) /\
    (forall a, 0 <= a < 65536 -> exists r, search (io s) a = Some r /\ r_start r <= a <= r_end r /\ search (io s') a = Some (with_updates true (upd s) r)).
Proof.
  intros g gp l s bs Hu Hp H R Eh Er Hio; destruct (run_ok g gp l init Hu Hp (ok_init g gp Hu Hp) H) as (s0 & bs' & R' & K).
  assert (s0 = s) by congruence; subst s0; destruct K as [K1 K2 K3 K4 K5 K6 _ K8].
  destruct (updates_spec (upd s) (mem s) (io s) K1 K3 K6) as (m & p & E & J1 & J2 & _ & _ & J5 & J6 & J7 & J8).
  assert (Em : map port (upd s) = upd s).
  { rewrite <- (map_id (upd s)) at 2; apply map_ext_in; intros u Hin; rewrite Forall_forall in Hio, K6; specialize (Hio u Hin); specialize (K6 u Hin); destruct u as [b a h o]; unfold port; cbn [c_io c_start c_h c_o] in *.
    destruct b; [rewrite (Z.mod_small a) by (specialize (Hio eq_refl); lia) |]; reflexivity. }
  rewrite Em in J7, J8.
  assert (W : forall M sp a, inv M sp -> 0 <= a <= M -> exists r, search sp a = Some r /\ r_start r <= a <= r_end r).
  { intros M sp a (G & _) Ha; destruct (locate M sp a G Ha) as (l1 & n & l2 & _ & _ & _ & B & _ & Gi); exists (n_reg n); unfold search; rewrite Gi; split; [reflexivity | exact B]. }
  exists (mkst m p (chg s) [] false false false (if i_a20 s then [] else fills s)); cbn [step mem io chg upd].
  split; [unfold serve; rewrite Eh, Er, E; cbn [orb negb]; destruct (i_a20 s); reflexivity |].
  split; [reflexivity | split; [reflexivity | split; [exact J5 | split; [exact J6 |]]]]; split; intros a Ha.
  - destruct (W MEM_MAX (mem s) a K1) as (r & E1 & B); [unfold MEM_MAX; lia |]; exists r; split; [exact E1 | split; [exact B |]]; rewrite (J7 a) by (unfold MEM_MAX; lia); rewrite E1; reflexivity.
  - destruct (W IO_MAX (io s) a K3) as (r & E1 & B); [unfold IO_MAX; lia |]; exists r; split; [exact E1 | split; [exact B |]]; rewrite (J8 a) by (unfold IO_MAX; lia); rewrite E1; reflexivity.
Qed.
Print Assumptions C89_served_partial.

(** Updates wait in the order in which they were requested until the interrupt is requested: with
    update 1 nothing is raised, with 2 or 3 it is *)
Theorem C89_collected : forall s k later u, exists s' b, step s (Update k later u) = Some (s', b) /\ mem s' = mem s /\ io s' = io s /\ chg s' = chg s /\
  (b = true <-> later = true /\ 1 <= k <= 3) /\ upd s' = upd s ++ (if b && (k <? 3) then [u] else []) /\ i_hnd s' = i_hnd s || (b && (1 <? k)).
Proof.
  intros s k later u; cbn [step].
  destruct later; cbn [negb]; [| exists s, false; cbn [andb]; rewrite app_nil_r, orb_false_r; repeat (split; [reflexivity |]); split; [split; [discriminate | intros [? _]; discriminate] | split; reflexivity]].
  destruct (Z.eqb_spec k 1) as [-> |]; [| destruct (Z.eqb_spec k 2) as [-> |]; [| destruct (Z.eqb_spec k 3) as [-> |]]].
  - eexists; exists true; split; [reflexivity |]; cbn [mem io chg upd i_hnd]; repeat (split; [reflexivity |]); split; [split; [intros _; split; [reflexivity | lia] | reflexivity] | split; [reflexivity | cbn; rewrite orb_false_r; reflexivity]].
  - eexists; exists true; split; [reflexivity |]; cbn [mem io chg upd i_hnd]; repeat (split; [reflexivity |]); split; [split; [intros _; split; [reflexivity | lia] | reflexivity] | split; [reflexivity | cbn; rewrite orb_true_r; reflexivity]].
  - eexists; exists true; split; [reflexivity |]; cbn [mem io chg upd i_hnd]; repeat (split; [reflexivity |]); split; [split; [intros _; split; [reflexivity | lia] | reflexivity] | split; [cbn; rewrite app_nil_r; reflexivity | cbn; rewrite orb_true_r; reflexivity]].
  - exists s, false; cbn [andb]; rewrite app_nil_r, orb_false_r; repeat (split; [reflexivity |]); split; [split; [discriminate | intros [_ ?]; lia] | split; reflexivity].
Qed.
Print Assumptions C89_collected.

Definition upds : list ev :=
  [Call (CallMmio 0xA0000 0x20000 1 2) false; PortNew 0x60 2 3 4; Update 1 true (mkc false 0xA1234 5 6); Update 1 true (mkc true 0x61 7 8); Update 3 true (mkc false 0 0 0)].
Example C89_sat : Forall (ev_ok 4096 2) upds /\ exists s bs s', run init upds = Some (s, bs) /\ i_hnd s = true /\ i_reg s = false /\ Forall (fun u => c_io u = true -> c_start u < 65536) (upd s) /\
  step s Serve = Some (s', true) /\ option_map visible (lookup (mem s) 0xB0000) = Some (Mmio 1 2) /\ option_map visible (lookup (mem s') 0xB0000) = Some (Mmio 5 6) /\
  option_map visible (lookup (io s') 0x60) = Some (Mmio 7 8).
Proof.
  split; [repeat constructor; cbn; try lia; try reflexivity; left; reflexivity |].
  eexists; eexists; eexists; split; [vm_compute; reflexivity |]; split; [reflexivity |]; split; [reflexivity |].
  split; [repeat constructor; cbn; intros; lia |]; split; [vm_compute; reflexivity |]; split; [vm_compute; reflexivity |]; split; vm_compute; reflexivity.
Qed.

(** An update of a region that waits for the same interrupt is lost, and goes to the region that
    is there before it: here the rest of that region gets the handlers meant for the new one *)
Theorem C89_refuted_waiting_region : exists l s bs, Forall (ev_ok 4096 2) l /\ run init l = Some (s, bs) /\ Forall (fun b => b = true) bs /\
  l = [Call (CallMmio 0xA0000 0x20000 1 1) false; Call (CallMmio 0xA0000 0x1000 2 2) true; Update 2 true (mkc false 0xA0000 3 3); Serve] /\
  option_map visible (lookup (mem s) 0xA0000) = Some (Mmio 2 2) /\ option_map visible (lookup (mem s) 0xB0000) = Some (Mmio 3 3).
Proof.
  eexists; eexists; eexists; split; [| split; [| split; [| split; [reflexivity |]]]].
  - repeat constructor; cbn; try lia; try reflexivity; left; reflexivity.
  - vm_compute; reflexivity.
  - repeat constructor.
  - split; vm_compute; reflexivity.
Qed.
Print Assumptions C89_refuted_waiting_region.

(** An update of ports that are replaced before the interrupt is served goes to the new region *)
Theorem C89_refuted_replaced_ports : exists l s bs, Forall (ev_ok 4096 2) l /\ run init l = Some (s, bs) /\ Forall (fun b => b = true) bs /\
  l = [PortNew 0x60 2 1 1; Update 2 true (mkc true 0x60 2 2); PortNew 0x60 2 3 3; Serve] /\ option_map visible (lookup (io s) 0x60) = Some (Mmio 2 2).
Proof.
  eexists; eexists; eexists; split; [| split; [| split; [| split; [reflexivity |]]]].
  - repeat constructor; cbn; try lia; reflexivity.
  - vm_compute; reflexivity.
  - repeat constructor.
  - vm_compute; reflexivity.
Qed.
Print Assumptions C89_refuted_replaced_ports.

(** The number of a port is cut to 16 bits: an address that is no port changes one *)
Theorem C89_refuted_port_number : exists l s bs, Forall (ev_ok 4096 2) l /\ run init l = Some (s, bs) /\ Forall (fun b => b = true) bs /\
  l = [PortNew 0x60 2 1 1; Update 2 true (mkc true 0x10060 2 2); Serve] /\ option_map visible (lookup (io s) 0x60) = Some (Mmio 2 2) /\
  pmio_region 0x10060 2 2 2 = None.
Proof.
  eexists; eexists; eexists; split; [| split; [| split; [| split; [reflexivity |]]]].
  - repeat constructor; cbn; try lia; reflexivity.
  - vm_compute; reflexivity.
  - repeat constructor.
  - split; [vm_compute; reflexivity | reflexivity].
Qed.
Print Assumptions C89_refuted_port_number.

(** A region with a hole made in it later is two regions: an update reaches the part of its address *)
Theorem C89_refuted_split : exists l s bs, Forall (ev_ok 4096 2) l /\ run init l = Some (s, bs) /\ Forall (fun b => b = true) bs /\
  l = [Call (CallMmio 0xA0000 0x20000 1 1) false; Call (CallRam 0xB0000 0x1000) false; Update 2 true (mkc false 0xA0000 2 2); Serve] /\
  option_map visible (lookup (mem s) 0xA0000) = Some (Mmio 2 2) /\ option_map visible (lookup (mem s) 0xBF000) = Some (Mmio 1 1).
Proof.
  eexists; eexists; eexists; split; [| split; [| split; [| split; [reflexivity |]]]].
  - repeat constructor; cbn; try lia; try reflexivity; left; reflexivity.
  - vm_compute; reflexivity.
  - repeat constructor.
  - split; vm_compute; reflexivity.
Qed.
Print Assumptions C89_refuted_split.

(** Loading a snapshot leaves updates waiting as well *)
Theorem C89_refuted_load : exists l s bs, Forall (ev_ok 4096 2) l /\ run init l = Some (s, bs) /\ Forall (fun b => b = true) bs /\
  l = [PortNew 0x60 2 1 1; Update 2 true (mkc true 0x60 2 2); Load; Serve] /\ option_map visible (lookup (io s) 0x60) = Some (Mmio 1 1) /\ upd s <> [].
Proof.
  eexists; eexists; eexists; split; [| split; [| split; [| split; [reflexivity |]]]].
  - repeat constructor; cbn; try lia; reflexivity.
  - vm_compute; reflexivity.
  - repeat constructor.
  - split; [vm_compute; reflexivity | discriminate].
Qed.
Print Assumptions C89_refuted_load.
