(** Properties C03 (aliases) and C41 (region arguments). *)
From Coq Require Import ZArith List Bool Lia.
From Verif Require Import AddrSpaceModel AddrSpaceSpec AddrSpaceProofs RegionApiProofs.
Import ListNotations.
Open Scope Z_scope.

(** C03 as far as it holds: after the alias is created, and whatever is created or
    destroyed later outside the alias and outside the region it points to,
    an access at [al + k] ends up exactly where an access at [ori + k] does;
    when the target is not itself an alias, that is address [ori + k] of the
    target region. Chains follow by applying this at every link. Missing from
    the full property: changes that touch the alias or its target (refuted
    below). *)
Theorem C03_alias_translates_every_offset_partial g cs1 al ori sz cs2 s1 oks1 s2 s3 oks2 t :
  unit_ok g -> Forall (call_ok g) (cs1 ++ CallAlias al ori sz :: cs2) ->
  api_run (as_create MEM_MAX) cs1 = Some (s1, oks1) ->
  search s1 ori = Some t ->
  api_step s1 (CallAlias al ori sz) = Some (s2, true) ->
  api_run s2 cs2 = Some (s3, oks2) ->
  apart (r_start t) (r_end t) (CallAlias al ori sz) ->
  Forall (apart (r_start t) (r_end t)) cs2 ->
  Forall (apart al (al + sz - 1)) cs2 ->
  forall k fuel, 0 <= k < sz -> al + k < 2 ^ 32 ->
    dispatch (S fuel) s3 (al + k) = dispatch fuel s3 (ori + k) /\
    (i_type (r_info t) <> alias -> dispatch fuel s3 (ori + k) = Some (t, ori + k)).
Proof. exact (alias_history g cs1 al ori sz cs2 s1 oks1 s2 s3 oks2 t). Qed.
Print Assumptions C03_alias_translates_every_offset_partial.

(** An alias of an alias with later unrelated changes meets the hypotheses. *)
Example C03_example :
  let cs1 := [CallRam 0 0x4000000; CallAlias 0x80000000 0x1000 0x10000] in
  let cs2 := [CallMmio 0xE0000000 0x1000 1 2; CallDestroy 0xD0000000 0x2000] in
  exists s1 oks1 s2 s3 oks2 t,
    Forall (call_ok 4096) (cs1 ++ CallAlias 0xF0000000 0x80002000 0x3000 :: cs2) /\
    api_run (as_create MEM_MAX) cs1 = Some (s1, oks1) /\
    search s1 0x80002000 = Some t /\ i_type (r_info t) = alias /\
    api_step s1 (CallAlias 0xF0000000 0x80002000 0x3000) = Some (s2, true) /\
    api_run s2 cs2 = Some (s3, oks2) /\
    apart (r_start t) (r_end t) (CallAlias 0xF0000000 0x80002000 0x3000) /\
    Forall (apart (r_start t) (r_end t)) cs2 /\ Forall (apart 0xF0000000 (0xF0000000 + 0x3000 - 1)) cs2 /\
    option_map snd (dispatch 2 s3 0xF0000010) = Some 0x3010.
Proof.
  cbv zeta. do 6 eexists.
  split. { repeat constructor; cbn; try lia; try reflexivity; left; reflexivity. }
  split; [vm_compute; reflexivity|]. split; [vm_compute; reflexivity|]. split; [reflexivity|].
  split; [vm_compute; reflexivity|]. split; [vm_compute; reflexivity|].
  unfold apart; cbn [call_start call_size r_start r_end].
  split; [lia|]. split; [repeat constructor; cbn; lia|]. split; [repeat constructor; cbn; lia|].
  vm_compute. reflexivity.
Qed.

(** The fast path (correct_phys_addr) and the dispatcher resolve an alias to
    the same region and address, for every reachable map and any chain. *)
Theorem C03_fast_and_slow_path_agree g cs s oks n a fuel :
  unit_ok g -> Forall (call_ok g) cs -> api_run (as_create MEM_MAX) cs = Some (s, oks) ->
  In n (nodes s) ->
  correct_phys fuel (nodes s) (n_reg n) a = dispatch_resolve fuel (nodes s) (n_reg n) a.
Proof.
  intros Hu H E I. exact (paths_agree s n a fuel (proj2 (proj2 (proj2 (api_reach g cs s oks Hu H E)))) I).
Qed.
Print Assumptions C03_fast_and_slow_path_agree.

(** Mapping something over the middle of an alias breaks the part of the
    alias above it: 0x80003000 should read 0x3000 of ram and reads 0x0. *)
Theorem C03_refuted_by_split :
  exists cs s oks,
    Forall (call_ok 4096) cs /\ api_run (as_create MEM_MAX) cs = Some (s, oks) /\
    most_recent (combine cs oks) 0x80003000 = Some (CallAlias 0x80000000 0 0x10000) /\
    most_recent (combine cs oks) 0x3000 = Some (CallRam 0 0x4000000) /\
    option_map snd (dispatch 2 s 0x80003000) = Some 0.
Proof.
  exists [CallRam 0 0x4000000; CallAlias 0x80000000 0 0x10000; CallMmio 0x80002000 0x1000 1 2].
  do 2 eexists.
  split; [repeat constructor; cbn; try lia; try reflexivity; left; reflexivity|].
  split; [vm_compute; reflexivity|]. repeat split; vm_compute; reflexivity.
Qed.
Print Assumptions C03_refuted_by_split.

(** Destroying memory around an aliased region leaves the alias with a
    dangling pointer: the next access through it is undefined. *)
Theorem C03_refuted_dangling :
  exists cs s oks,
    Forall (call_ok 4096) cs /\ api_run (as_create MEM_MAX) cs = Some (s, oks) /\
    most_recent (combine cs oks) 0x80000000 = Some (CallAlias 0x80000000 0x10000 0x1000) /\
    forall fuel, dispatch fuel s 0x80000000 = None.
Proof.
  exists [CallRam 0x10000 0x1000; CallAlias 0x80000000 0x10000 0x1000; CallDestroy 0x10000 0x1000].
  do 2 eexists.
  split; [repeat constructor; cbn; try lia; try reflexivity; left; reflexivity|].
  split; [vm_compute; reflexivity|]. split; [vm_compute; reflexivity|].
  intros fuel. destruct fuel; vm_compute; reflexivity.
Qed.
Print Assumptions C03_refuted_dangling.

(** C41: a call whose 64-bit range does not wrap names a non-empty range that
    starts at [start] and ends at the last byte asked for or at the top. *)
Theorem C41_region_arguments_partial st sz :
  0 <= st < 2 ^ 32 -> 0 < sz -> st + sz <= 2 ^ 64 ->
  exists e, e = Z.min (st + sz - 1) (2 ^ 32 - 1) /\ st <= e /\
    (exists r, ram_region st sz = Some r /\ r_start r = st /\ r_end r = e) /\
    (forall h o, exists r, mmio_region st sz h o = Some r /\ r_start r = st /\ r_end r = e) /\
    (forall b, b <> 0 -> exists r, rom_region st sz b = Some r /\ r_start r = st /\ r_end r = e) /\
    destroy_mem_range st sz = (st, e).
Proof.
  intros H1 H2 H3. exists (Z.min (st + sz - 1) (2 ^ 32 - 1)).
  pose proof (last_addr_eq st sz H1 H2 H3) as L.
  assert (E : (sz =? 0) = false) by lia.
  unfold ram_region, mmio_region, rom_region, destroy_mem_range. rewrite E, L. cbn [orb].
  split; [reflexivity|]. split; [lia|].
  split; [eexists; repeat split|]. split; [intros; eexists; repeat split|].
  split; [|reflexivity]. intros b Hb. destruct (b =? 0) eqn:Eb; [lia|]. eexists; repeat split.
Qed.
Print Assumptions C41_region_arguments_partial.

Example C41_example : 0 <= 0xFFFF0000 < 2 ^ 32 /\ 0 < 0x20000 /\ 0xFFFF0000 + 0x20000 <= 2 ^ 64.
Proof. lia. Qed.

(** Ports: exactly the ranges within the 65536 ports are accepted, and they are
    taken as they are; destroying cuts the range at the last port. *)
Theorem C41_ports st sz h o :
  0 <= st < 2 ^ 32 -> 0 < sz -> st + sz < 2 ^ 64 ->
  (st + sz <= 65536 -> exists r, pmio_region st sz h o = Some r /\
     r_start r = st /\ r_end r = st + sz - 1 /\ i_type (r_info r) = pmio /\
     i_handlers (r_info r) = h /\ i_opaque (r_info r) = o) /\
  (65536 < st + sz -> pmio_region st sz h o = None) /\
  (st <= 65535 -> destroy_io_range st sz = (st, Z.min (st + sz - 1) 65535)).
Proof.
  intros H1 H2 H3. unfold pmio_region, destroy_io_range, last_addr, U64, IO_MAX.
  replace (sz =? 0) with false by lia. rewrite (Z.mod_small (st + sz)) by lia.
  split; [| split]; intros H.
  - replace (65535 <? st) with false by lia. replace (65536 <? st + sz) with false by lia. cbn [orb].
    rewrite (Z.mod_small st (2 ^ 16)) by lia. rewrite (Z.mod_small (st + sz - 1) (2 ^ 64)) by lia.
    rewrite Z.min_l by lia. rewrite (Z.mod_small (st + sz - 1)) by lia. eexists. repeat split.
  - replace ((65535 <? st) || (65536 <? st + sz)) with true by lia. reflexivity.
  - rewrite (Z.mod_small st (2 ^ 16)) by lia. rewrite (Z.mod_small (st + sz - 1) (2 ^ 64)) by lia. reflexivity.
Qed.
Print Assumptions C41_ports.

Example C41_ports_example :
  (exists r, pmio_region 0xFFF0 16 1 2 = Some r /\ r_end r = 0xFFFF) /\ pmio_region 0xFFF0 17 1 2 = None /\
  destroy_io_range 0xFFF0 17 = (0xFFF0, 0xFFFF).
Proof. split; [eexists; split; reflexivity | split; reflexivity]. Qed.

(** An alias is accepted exactly when its target lies in one mapped region, and
    covers as many addresses as asked for, cut at the top.  [t] is the region of
    the first target address, in any reachable map. *)
Theorem C41_alias g cs s oks al ori sz t :
  unit_ok g -> Forall (call_ok g) cs -> api_run (as_create MEM_MAX) cs = Some (s, oks) ->
  0 <= al < 2 ^ 32 -> 0 <= ori < 2 ^ 32 -> 0 < sz -> al + sz <= 2 ^ 64 -> ori + sz <= 2 ^ 64 ->
  search s ori = Some t ->
  (i_type (r_info t) <> unmapped /\ ori + sz - 1 <= r_end t ->
     exists r, alias_region s al ori sz = Some (Some r) /\
       r_start r = al /\ r_end r = Z.min (al + sz - 1) (2 ^ 32 - 1) /\ i_type (r_info r) = alias) /\
  (i_type (r_info t) = unmapped \/ r_end t < ori + sz - 1 -> alias_region s al ori sz = Some None).
Proof.
  intros Hu Hc Hr H1 H2 H3 H4 H5 St.
  pose proof (api_reach g cs s oks Hu Hc Hr) as ((G & _) & _).
  destruct (locate MEM_MAX s ori) as (la & nt & lb & E & S1 & K & B & S2 & Gi);
    [exact G | unfold MEM_MAX; lia |].
  unfold search in St. unfold alias_region. rewrite Gi in *. injection St as <-.
  replace (sz =? 0) with false by lia. cbv zeta. unfold rs, re in B.
  replace (r_start (n_reg nt) <=? ori) with true by lia.
  rewrite (Z.mod_small (ori + sz - 1)) by (unfold U64; lia). rewrite last_addr_eq by lia. cbn [andb].
  assert (U : mem_type_eqb (i_type (r_info (n_reg nt))) unmapped = true <-> i_type (r_info (n_reg nt)) = unmapped)
    by (destruct (i_type (r_info (n_reg nt))); cbn; split; congruence).
  split; [intros [T L] | intros T].
  - replace (_ <=? _) with true by lia. destruct (mem_type_eqb _ unmapped); [now elim T; apply U |].
    cbn [andb negb]. eexists. repeat split.
  - destruct T as [T | T].
    + apply U in T. rewrite T. cbn [negb]. now rewrite andb_false_r.
    + now replace (_ <=? _) with false by lia.
Qed.
Print Assumptions C41_alias.

Example C41_alias_example : exists s oks t,
  api_run (as_create MEM_MAX) [CallRam 0 0x10000] = Some (s, oks) /\ search s 0xF000 = Some t /\
  0xF000 + 0x1000 - 1 <= r_end t /\ r_end t < 0xF000 + 0x1001 - 1 /\ i_type (r_info t) <> unmapped.
Proof. do 3 eexists. split; [vm_compute; reflexivity |]. split; [vm_compute; reflexivity |]. repeat split; vm_compute; congruence. Qed.

(** What is refused: nothing has size zero, and a rom needs its contents. *)
Theorem C41_refused s st al ori sz h o b :
  ram_region st 0 = None /\ mmio_region st 0 h o = None /\ pmio_region st 0 h o = None /\
  rom_region st 0 b = None /\ alias_region s al ori 0 = Some None /\ rom_region st sz 0 = None.
Proof. repeat split. unfold rom_region. now rewrite orb_true_r. Qed.
Print Assumptions C41_refused.

(** Accepted although the range is empty: the 64-bit sum wraps. *)
Theorem C41_refuted_wrap :
  exists st sz r, 0 <= st < 2 ^ 32 /\ 0 < sz < 2 ^ 64 /\ ram_region st sz = Some r /\ r_end r < r_start r.
Proof.
  exists 2, (2 ^ 64 - 1). eexists. split; [lia|]. split; [lia|]. split; [reflexivity|]. vm_compute. reflexivity.
Qed.
Print Assumptions C41_refuted_wrap.

(** mem_destroy_region with size 0 is not a no-op: it unmaps the rest of the
    region that contains [start]. *)
Theorem C41_refuted_destroy_zero :
  exists cs s oks s' a,
    Forall (call_ok 4096) cs /\ api_run (as_create MEM_MAX) cs = Some (s, oks) /\
    option_map visible (lookup s a) = Some (Ram 0) /\
    api_step s (CallDestroy 0x2000 0) = Some (s', true) /\
    option_map visible (lookup s' a) = Some Nothing.
Proof.
  exists [CallRam 0 0x4000]. do 3 eexists. exists 0x3000.
  split; [repeat constructor; cbn; try lia; try reflexivity; left; reflexivity|].
  split; [vm_compute; reflexivity|]. split; [vm_compute; reflexivity|].
  split; vm_compute; reflexivity.
Qed.
Print Assumptions C41_refuted_destroy_zero.
