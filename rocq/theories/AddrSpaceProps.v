(** Properties C01 and C02: the region map. *)
From Coq Require Import ZArith List Bool Lia.
From Verif Require Import AddrSpaceModel AddrSpaceSpec RegionApiProofs.
Import ListNotations.
Open Scope Z_scope.

(** C01, exact domain: as long as no call ends on the first address of a
    longer region that starts inside its range, every address is owned by the
    last call that covered it. Holds for the memory space and the io space. *)
Theorem C01_most_recent_mapping_wins_partial M ops :
  0 <= M -> safe_history M (as_create M) ops ->
  exists s, as_run M (as_create M) ops = Some s /\
    forall a, 0 <= a <= M -> lookup s a = Some (ideal_run ideal_init ops a).
Proof. exact (most_recent_wins M ops). Qed.
Print Assumptions C01_most_recent_mapping_wins_partial.

Definition io_info (h : Z) : rinfo := mk_info pmio h 0 0 None 0 0.

(** Non-vacuity: overlapping port ranges. *)
Example C01_example_ports :
  safe_history IO_MAX (as_create IO_MAX)
    [OpInsert (mk_region 0x60 0x6F (io_info 1)); OpInsert (mk_region 0x64 0x64 (io_info 2));
     OpErase 0x62 0x66].
Proof.
  cbn [safe_history].
  split; [unfold valid_op, IO_MAX; cbn; repeat split; try lia; discriminate|].
  split; [intros n; cbn; intros [<-|[]]; cbn; lia|].
  vm_compute as_step. cbn [safe_history].
  split; [unfold valid_op, IO_MAX; cbn; repeat split; try lia; discriminate|].
  split; [intros n; cbn; intros [<-|[<-|[<-|[]]]]; cbn; lia|].
  vm_compute as_step. cbn [safe_history].
  split; [unfold valid_op, IO_MAX; cbn; repeat split; lia|].
  split; [|exact I].
  intros n; cbn; intuition (subst; cbn in *; lia).
Qed.

(** C01 in full (no condition on where a range ends) is false: registering
    ports 0x64-0x67 and then 0x60-0x64 hands ports 0x65-0x67 to the second
    device. *)
Theorem C01_refuted :
  exists ops a,
    Forall (valid_op IO_MAX) ops /\ 0 <= a <= IO_MAX /\
    match as_run IO_MAX (as_create IO_MAX) ops with
    | None => True
    | Some s => lookup s a <> Some (ideal_run ideal_init ops a)
    end.
Proof.
  exists [OpInsert (mk_region 0x64 0x67 (io_info 1)); OpInsert (mk_region 0x60 0x64 (io_info 2))], 0x65.
  split; [repeat constructor; unfold valid_op, IO_MAX; cbn; repeat split; try lia; discriminate|].
  split; [unfold IO_MAX; lia|]. vm_compute. discriminate.
Qed.
Print Assumptions C01_refuted.

(** The condition is exact: whenever it fails, the address after the range is
    taken over by the call although the call does not name it. *)
Theorem C01_condition_is_exact M s o ops :
  0 <= M -> safe_history M (as_create M) ops -> as_run M (as_create M) ops = Some s ->
  valid_op M o -> ~ safe_end s o ->
  exists s', as_step M s o = Some s' /\ op_end o < M /\
    lookup s' (op_end o + 1) = Some (match o with OpInsert r => r_info r | OpErase _ _ => info_default end).
Proof. exact (unsafe_wrong M s o ops). Qed.
Print Assumptions C01_condition_is_exact.

(** Layouts made of units of [g > 1] addresses always meet the condition. *)
Theorem C01_aligned_layouts_are_safe M g ops :
  0 <= M -> 1 < g -> (M + 1) mod g = 0 ->
  Forall (fun o => valid_op M o /\ aligned_op g o) ops -> safe_history M (as_create M) ops.
Proof. exact (aligned_history_safe M g ops). Qed.
Print Assumptions C01_aligned_layouts_are_safe.

(** C01 for the memory API: with ranges in units of [g] bytes, the owner of
    every address is the most recent successful call covering it. *)
Theorem C01_memory_api g cs :
  unit_ok g -> Forall (call_ok g) cs ->
  exists s oks, api_run (as_create MEM_MAX) cs = Some (s, oks) /\ length oks = length cs /\
    forall a, 0 <= a < 2 ^ 32 ->
      option_map visible (lookup s a) =
      Some match most_recent (combine cs oks) a with
           | Some c => call_effect c
           | None => Nothing
           end.
Proof. exact (api_most_recent g cs). Qed.
Print Assumptions C01_memory_api.

(** Which of those calls succeed. *)
Theorem C01_memory_api_status g cs s oks i c :
  unit_ok g -> Forall (call_ok g) cs -> api_run (as_create MEM_MAX) cs = Some (s, oks) ->
  nth_error cs i = Some c ->
  match c with
  | CallRam _ _ | CallMmio _ _ _ _ | CallDestroy _ _ => nth_error oks i = Some true
  | CallRom _ _ b => nth_error oks i = Some (negb (b =? 0))
  | CallAlias _ _ _ => True
  end.
Proof. exact (api_ops_accepted g cs s oks i c). Qed.
Print Assumptions C01_memory_api_status.

Example C01_api_example :
  unit_ok 4096 /\
  Forall (call_ok 4096)
    [CallRam 0 0x4000000; CallMmio 0xA0000 0x20000 7 9; CallRom 0xFFFC0000 0x40000 5;
     CallAlias 0xF0000000 0 0x1000; CallDestroy 0xB0000 0x1000].
Proof.
  split; [split; [lia|reflexivity]|].
  repeat constructor; cbn; try lia; try reflexivity; left; reflexivity.
Qed.

(** C02, exact domain. *)
Theorem C02_region_map_is_partition_partial M ops :
  0 <= M -> safe_history M (as_create M) ops ->
  exists s, as_run M (as_create M) ops = Some s /\ partition M s /\ merged s /\
    forall a, 0 <= a <= M -> exists r, search s a = Some r /\ r_start r <= a <= r_end r.
Proof. exact (always_partition M ops). Qed.
Print Assumptions C02_region_map_is_partition_partial.

(** C02 in full is false: the same history leaves ports in no region. *)
Theorem C02_refuted :
  exists ops a s,
    Forall (valid_op IO_MAX) ops /\ 0 <= a <= IO_MAX /\
    as_run IO_MAX (as_create IO_MAX) ops = Some s /\
    forall n, In n (nodes s) -> ~ contains a n.
Proof.
  exists [OpInsert (mk_region 0x64 0x67 (io_info 1)); OpInsert (mk_region 0x60 0x64 (io_info 2))], 0x65.
  eexists.
  split; [repeat constructor; unfold valid_op, IO_MAX; cbn; repeat split; try lia; discriminate|].
  split; [unfold IO_MAX; lia|]. split; [vm_compute; reflexivity|].
  intros n. unfold contains. cbn. intros H. intuition (subst; cbn in *; lia).
Qed.
Print Assumptions C02_refuted.
