(** * Properties of host pointers to guest memory *)
From Coq Require Import ZArith List Bool Lia.
From Verif Require Import AddrSpaceModel AddrSpaceSpec AddrSpaceProofs RegionApiProofs BlockModel BlockSpec BlockProofs BlockProps PtrModel.
Import ListNotations.
Open Scope Z_scope.

(** The byte of host memory behind a pointer, in the terms of the specification of block
    transfers *)
Definition points_to (q : hptr) (c : cell) : Prop :=
  match q, c with PRam i, CellRam j => i = j | PRom b i, CellRom b' j => b = b' /\ i = j | _, _ => False end.

(** ** C94: a host pointer names the bytes the guest uses *)

(** A pointer that is not null names the byte that an access of the guest at the address
    uses, and its successors those of the following addresses, to the end of the page or
    of the region, whichever is first. *)
Theorem C94_host_ptr : forall fuel s tr addr q p r, coherent s -> paged tr -> 0 <= addr < 2 ^ 32 ->
  get_host_ptr s tr addr = Some q -> (forall e, q <> PNull e) -> tr addr = Some p -> search s p = Some r ->
  forall j, 0 <= j < 4096 - addr mod 4096 -> p + j <= r_end r -> host_index r p + j < 2 ^ 32 ->
  exists c, byte_cell fuel s tr addr j = Some c /\ points_to (offset q j) c.
Proof.
  intros fuel s tr addr q p r C P A G N T S j J E I. unfold get_host_ptr in G. rewrite T, S in G.
  destruct (P addr p A T) as (Pp & Pm & Pj). destruct (C p Pp) as (r' & S' & B0 & B1 & B2 & All).
  assert (r' = r) by congruence. subst r'.
  assert (Aj : (addr + j) mod 2 ^ 32 = addr + j).
  { apply Z.mod_small. pose proof (Z.div_mod addr 4096 ltac:(lia)). assert (addr / 4096 < 2 ^ 20) by (apply Z.div_lt_upper_bound; lia). lia. }
  unfold byte_cell. rewrite Aj, (Pj j J). unfold cell_of, dispatch. rewrite (All (p + j)) by lia.
  unfold dispatch_resolve. unfold host_index in *.
  destruct (i_type (r_info r)) eqn:Ty; assert (Q := G); injection Q as <-; try (exfalso; eapply N; reflexivity); rewrite Ty;
    (eexists; split; [reflexivity |]); cbn [points_to offset]; [| split; [reflexivity |]]; rewrite idx_step by lia; reflexivity.
Qed.
Print Assumptions C94_host_ptr.

(** Reading a byte through it gives what mem_read_block gives. *)
Theorem C94_load : forall fuel s tr m addr q v, coherent s -> paged tr -> sized m -> 0 <= addr < 2 ^ 32 ->
  get_host_ptr s tr addr = Some q -> load m q = Some v -> read_block fuel s tr m addr 1 = Some (BSuccess, 1, [v]).
Proof.
  intros fuel s tr m addr q v C P Sz A G L. unfold get_host_ptr in G.
  destruct (tr addr) as [p |] eqn:T; [| injection G as <-; discriminate L].
  destruct (P addr p A T) as (Pp & _ & _). destruct (C p Pp) as (r & S & B0 & B1 & B2 & _). rewrite S in G.
  assert (In : inside r p 1 = true).
  { unfold inside. replace (p + 1 - 1) with p by lia. rewrite Z.mod_small by lia. apply andb_true_intro. split; apply Z.leb_le; lia. }
  assert (M : Z.min (4096 - addr mod 4096) 1 = 1) by (pose proof (Z.mod_pos_bound addr 4096); lia).
  unfold read_block. change (iterations 1) with 2%nat. cbn [read_loop]. change (1 =? 0) with false. cbv iota. rewrite M, T.
  unfold chunk. rewrite S, In. unfold host_read.
  destruct (i_type (r_info r)) eqn:Ty; injection G as <-; cbn [load] in L; try discriminate L; rewrite Ty; cbv zeta.
  - destruct ((0 <=? host_index r p) && (host_index r p <? h_ram_size m)) eqn:B; [| discriminate L]. apply andb_prop in B as [_ B].
    apply Z.ltb_lt in B. replace (host_index r p + 1 <=? h_ram_size m) with true by (symmetry; apply Z.leb_le; lia).
    injection L as <-. reflexivity.
  - destruct ((0 <=? host_index r p) && (host_index r p <? h_rom_size m (i_rom_ptr (r_info r)))) eqn:B; [| discriminate L]. apply andb_prop in B as [_ B].
    apply Z.ltb_lt in B. replace (host_index r p + 1 <=? h_rom_size m (i_rom_ptr (r_info r))) with true by (symmetry; apply Z.leb_le; lia).
    injection L as <-. reflexivity.
Qed.
Print Assumptions C94_load.

(** A byte stored through it is read by the guest at that address, at no other address
    that does not share the byte, and rom is as before. *)
Theorem C94_store : forall fuel s tr m m' addr q v, coherent s -> paged tr -> sized m -> 0 <= addr < 2 ^ 32 ->
  get_host_ptr s tr addr = Some q -> store m q v = Some m' ->
  read_block fuel s tr m' addr 1 = Some (BSuccess, 1, [v]) /\
  forall c, byte_cell fuel s tr addr 0 <> Some c -> peek m' c = peek m c.
Proof.
  intros fuel s tr m m' addr q v C P Sz A G W.
  destruct q as [i | b i | e]; cbn [store] in W; [| discriminate W | discriminate W].
  destruct ((0 <=? i) && (i <? h_ram_size m)) eqn:B; [| discriminate W]. injection W as <-. split.
  - apply (C94_load fuel s tr _ addr (PRam i) v C P).
    + destruct Sz as [Z1 Z2]. split; [exact Z1 | exact Z2].
    + exact A.
    + exact G.
    + cbn [load set_ram h_ram_size h_ram]. rewrite B, Z.eqb_refl. reflexivity.
  - intros c N. destruct c as [k | b k]; cbn [peek set_ram h_ram h_rom]; [| reflexivity].
    destruct (Z.eqb_spec k i) as [-> | _]; [exfalso; apply N | reflexivity].
    unfold get_host_ptr in G. destruct (tr addr) as [p |] eqn:T; [| discriminate G].
    destruct (P addr p A T) as (Pp & _ & _). destruct (C p Pp) as (r & S & B0 & B1 & B2 & _). rewrite S in G.
    unfold byte_cell. rewrite Z.add_0_r, Z.mod_small, T by lia. unfold cell_of, dispatch. rewrite S. unfold dispatch_resolve.
    destruct (i_type (r_info r)) eqn:Ty; try discriminate G. rewrite Ty. unfold host_index in G. congruence.
Qed.
Print Assumptions C94_store.

(** It is null for a guest exception, with that error, and for addresses that are
    neither ram nor rom, with the other; for memory that is not reached through an alias
    it is not null. *)
Theorem C94_null_partial : forall fuel s tr addr, coherent s -> paged tr -> 0 <= addr < 2 ^ 32 ->
  (get_host_ptr s tr addr = Some (PNull true) <-> tr addr = None) /\
  (forall p r, tr addr = Some p -> search s p = Some r -> i_type (r_info r) <> alias ->
     (get_host_ptr s tr addr = Some (PNull false) <-> cell_of fuel s p = None)).
Proof.
  intros fuel s tr addr C P A. unfold get_host_ptr. split.
  - destruct (tr addr) as [p |] eqn:T; [| split; reflexivity]. destruct (search s p) as [r |]; [| split; discriminate].
    destruct (i_type (r_info r)); split; discriminate.
  - intros p r T S Na. rewrite T, S. unfold cell_of, dispatch. rewrite S. unfold dispatch_resolve.
    destruct (i_type (r_info r)) eqn:Ty; try contradiction; rewrite ?Ty; split; (reflexivity || discriminate).
Qed.
Print Assumptions C94_null_partial.

(** In a layout with ram at one start address and without aliases get_ram_ptr and
    get_host_ptr agree: the pointer to the physical address [p] of ram is as many bytes
    into the ram buffer as [p] is behind the start of ram. *)
Theorem C94_ram_ptr : forall g cs s oks st tr addr p r, unit_ok g -> Forall (call_ok g) cs -> Forall (plain st) cs ->
  api_run (as_create MEM_MAX) cs = Some (s, oks) -> 0 <= p < 2 ^ 32 -> tr addr = Some p -> search s p = Some r -> i_type (r_info r) = ram ->
  get_host_ptr s tr addr = Some (offset get_ram_ptr ((p - st) mod 2 ^ 32)).
Proof.
  intros g cs s oks st tr addr p r Hu H Pl E Pp T S Ty. unfold get_host_ptr. rewrite T, S, Ty. unfold get_ram_ptr, host_index. cbn [offset].
  rewrite Z.add_0_l. do 2 f_equal. enough (i_buff_off (r_info r) = st) as -> by reflexivity.
  destruct (api_most_recent g cs Hu H) as (s' & oks' & E' & Ln & V).
  assert (s' = s /\ oks' = oks) as [-> ->] by (rewrite E in E'; injection E' as -> ->; auto).
  specialize (V p Pp). unfold lookup in V. rewrite S in V. cbn [option_map] in V.
  assert (Pc : forall c, most_recent (combine cs oks) p = Some c -> plain st c).
  { intros c Hc. unfold most_recent in Hc. destruct (find _ _) as [[c' b]|] eqn:F; [|discriminate]. injection Hc as <-.
    apply find_some in F as [F _]. apply in_rev in F. apply in_combine_l in F. rewrite Forall_forall in Pl. apply Pl, F. }
  unfold visible in V. destruct (most_recent (combine cs oks) p) as [c|].
  - specialize (Pc c eq_refl). destruct c; cbn [call_effect plain] in *; rewrite Ty in V; congruence.
  - rewrite Ty in V. congruence.
Qed.
Print Assumptions C94_ram_ptr.

Example C94_example : get_host_ptr (layout pc) phys_tr 0x1234 = Some (offset get_ram_ptr 0x1234) /\
  get_host_ptr (layout pc) phys_tr 0xF0010 = Some (PRom 5 0x10) /\ get_host_ptr (layout pc) phys_tr 0xA004 = Some (PNull false) /\
  load (demo_mem 0x20000) (PRom 5 0x10) = Some 0x15.
Proof. vm_compute. repeat split. Qed.

(** Refuted: an address that is an alias of ram maps to ram for the guest, and the
    pointer is null all the same. *)
Theorem C94_refuted_alias : exists cs, Forall (call_ok 4096) cs /\
  get_host_ptr (layout cs) phys_tr 0x100010 = Some (PNull false) /\
  byte_cell 4 (layout cs) phys_tr 0x100010 0 = Some (CellRam 0x10) /\
  read_block 4 (layout cs) phys_tr (demo_mem 0x20000) 0x100010 1 = Some (BSuccess, 1, [0x10]).
Proof.
  exists [CallRam 0 0x20000; CallAlias 0x100000 0 0x1000].
  split; [| repeat split; vm_compute; reflexivity].
  apply Forall_cons; [| apply Forall_cons; [| apply Forall_nil]]; unfold call_ok; cbn [call_start call_size].
  - split; [lia |]. split; [lia |]. split; [lia |]. split; [reflexivity |]. split; [left; reflexivity | exact I].
  - split; [lia |]. split; [lia |]. split; [lia |]. split; [reflexivity |]. split; [left; reflexivity | lia].
Qed.
Print Assumptions C94_refuted_alias.

(** Refuted: for a ram region larger than ram the pointer is not null and lies outside of
    the ram buffer. *)
Theorem C94_refuted_outside : get_host_ptr (layout [CallRam 0 0x40000]) phys_tr 0x30000 = Some (PRam 0x30000) /\
  load (demo_mem 0x20000) (PRam 0x30000) = None.
Proof. split; vm_compute; reflexivity. Qed.
Print Assumptions C94_refuted_outside.
