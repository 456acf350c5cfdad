(** Property C04: block transfers. *)
From Coq Require Import ZArith List Bool Lia.
From Verif Require Import AddrSpaceModel AddrSpaceSpec BlockModel BlockSpec BlockProofs.
Import ListNotations.
Open Scope Z_scope.

(** Layouts made by the region API in units of [g] bytes are coherent, the
    hypothesis of the theorems below. *)
Theorem C04_layouts_are_coherent g cs s oks :
  unit_ok g -> Forall (call_ok g) cs -> api_run (as_create MEM_MAX) cs = Some (s, oks) -> coherent s.
Proof. exact (api_coherent g cs s oks). Qed.
Print Assumptions C04_layouts_are_coherent.

(** A read, whatever its status: actual_size is the number of bytes stored in
    the output, and each of them is the current contents of its address. *)
Theorem C04_read_returns_contents fuel s tr m addr size st a out :
  coherent s -> paged tr -> sized m -> 0 <= addr < 2 ^ 32 -> 0 <= size ->
  read_block fuel s tr m addr size = Some (st, a, out) ->
  0 <= a <= size /\ length out = Z.to_nat a /\ (st = BSuccess <-> a = size) /\
  forall i, 0 <= i < a ->
    exists c, byte_cell fuel s tr addr i = Some c /\ nth (Z.to_nat i) out 0 = peek m c.
Proof.
  intros C P Sz Ha Hs H.
  destruct (read_block_spec fuel s tr m addr size st a out C P Sz Ha Hs H) as (A1 & A2 & A3 & A4 & A5 & _).
  split; [exact A1|]. split; [exact A2|]. split; [|exact A3]. split; [exact A4|].
  intros E. destruct st; [reflexivity| |]; destruct A5 as (B & _); try discriminate; lia.
Qed.
Print Assumptions C04_read_returns_contents.

(** A write or fill, whatever its status: exactly the first actual_size bytes
    are stored, in order; every other byte of ram, and all of rom, is as
    before. *)
Theorem C04_write_stores_exactly fuel s tr src m addr size st a m' :
  coherent s -> paged tr -> sized m -> 0 <= addr < 2 ^ 32 -> 0 <= size ->
  write_handler fuel s tr src m addr size = Some (st, a, m') ->
  0 <= a <= size /\ (st = BSuccess <-> a = size) /\
  (forall i, 0 <= i < a -> exists c, byte_cell fuel s tr addr i = Some c) /\
  (forall x, last_store (byte_cell fuel s tr addr) src a (CellRam x) (h_ram m x) (h_ram m' x)) /\
  h_rom m' = h_rom m /\ h_ram_size m' = h_ram_size m /\ h_rom_size m' = h_rom_size m.
Proof.
  intros C P Sz Ha Hs H.
  destruct (write_handler_spec fuel s tr src m addr size st a m' C P Sz Ha Hs H)
    as (W1 & W2 & W3 & A1 & A2 & A3 & A4 & A5 & _).
  split; [exact A1|]. split; [|auto]. split; [exact A4|].
  intros E. destruct st; [reflexivity| |]; destruct A5 as (B & _); try discriminate; lia.
Qed.
Print Assumptions C04_write_stores_exactly.

Lemma no_piece fuel s p n :
  coherent s -> 0 <= p < 2 ^ 32 -> 0 < n -> chunk fuel s p n = Some WFail ->
  ~ exists r, search s p = Some r /\ (i_type (r_info r) = ram \/ i_type (r_info r) = rom) /\
      p + n - 1 <= r_end r.
Proof.
  intros C Hp Hn F (r & S & T & E). destruct (C p Hp) as (r0 & S0 & B0 & B1 & B2 & _).
  assert (r0 = r) as -> by congruence.
  rewrite (chunk_served fuel s p n r) in F by (auto; lia). discriminate.
Qed.

(** Where a transfer stops: at a page boundary (or at once), with guest_exp
    exactly at an untranslatable address, and with internal_error only where
    the rest of that page is not held by one ram or rom region. *)
Theorem C04_failure_position fuel s tr m addr size :
  coherent s -> paged tr -> sized m -> 0 <= addr < 2 ^ 32 -> 0 <= size ->
  let stops st a :=
    st <> BSuccess -> a < size /\ (a = 0 \/ (addr + a) mod 4096 = 0) /\
    match tr ((addr + a) mod 2 ^ 32) with
    | None => st = BGuestExp
    | Some p => st = BInternal /\
        ~ exists r, search s p = Some r /\ (i_type (r_info r) = ram \/ i_type (r_info r) = rom) /\
            p + piece addr size a - 1 <= r_end r
    end in
  (forall st a out, read_block fuel s tr m addr size = Some (st, a, out) -> stops st a) /\
  (forall src st a m', write_handler fuel s tr src m addr size = Some (st, a, m') -> stops st a).
Proof.
  intros C P Sz Ha Hs stops.
  assert (forall st a, 0 <= a ->
    (st <> BSuccess -> a < size /\ (a = 0 \/ (addr + a) mod 4096 = 0)) ->
    (st = BGuestExp -> tr ((addr + a) mod 2 ^ 32) = None) ->
    (st = BInternal -> exists p, tr ((addr + a) mod 2 ^ 32) = Some p /\
       chunk fuel s p (piece addr size a) = Some WFail) -> stops st a) as K.
  { intros st a Ha0 A B D Ns. destruct (A Ns) as (A1 & A2). split; [exact A1|]. split; [exact A2|].
    destruct st; [congruence| |rewrite B by reflexivity; reflexivity].
    destruct D as (p & T & Ch); [reflexivity|]. rewrite T. split; [reflexivity|].
    apply no_piece with fuel; auto.
    - apply (P ((addr + a) mod 2 ^ 32)); auto. apply Z.mod_pos_bound. lia.
    - destruct (piece_bounds addr size a _ ltac:(lia) eq_refl) as (N & _). exact N. }
  split.
  - intros st a out H.
    destruct (read_block_spec fuel s tr m addr size st a out C P Sz Ha Hs H) as (A1 & A2 & A3 & A4 & A5 & A6 & A7).
    apply K; auto; lia.
  - intros src st a m' H.
    destruct (write_handler_spec fuel s tr src m addr size st a m' C P Sz Ha Hs H)
      as (W1 & W2 & W3 & A1 & A2 & A3 & A4 & A5 & A6 & A7).
    apply K; auto; lia.
Qed.
Print Assumptions C04_failure_position.

(** Transfers inside ram complete: when every page of the range is held by a
    ram region backed by the buffer, reads and writes return success. *)
Theorem C04_transfer_completes fuel s tr src m addr size :
  0 <= addr < 2 ^ 32 -> 0 <= size -> served s tr m addr size ->
  (exists out, read_block fuel s tr m addr size = Some (BSuccess, size, out)) /\
  (exists m', write_handler fuel s tr src m addr size = Some (BSuccess, size, m')).
Proof. exact (transfers_total fuel s tr src m addr size). Qed.
Print Assumptions C04_transfer_completes.

(** Round trip. In a layout where no two addresses share a byte of ram, a
    successful write of up to 4 GiB followed by any read: the read has the
    same status and size as before the write, and returns the written byte at
    ram addresses inside the written range, the old byte everywhere else (rom
    included). Missing: layouts where addresses share storage, where only
    [C04_write_stores_exactly] applies. *)
Theorem C04_write_then_read_partial fuel s src m a1 n1 m' a2 n2 st k before after_ :
  coherent s -> sized m -> unshared fuel s ->
  0 <= a1 < 2 ^ 32 -> 0 <= n1 <= 2 ^ 32 -> 0 <= a2 < 2 ^ 32 -> 0 <= n2 ->
  read_block fuel s phys_tr m a2 n2 = Some (st, k, before) ->
  write_handler fuel s phys_tr src m a1 n1 = Some (BSuccess, n1, m') ->
  after_ = read_block fuel s phys_tr m' a2 n2 ->
  exists out, after_ = Some (st, k, out) /\ length out = length before /\
  forall i, 0 <= i < k ->
    let a := (a2 + i) mod 2 ^ 32 in
    (forall x j, cell_of fuel s a = Some (CellRam x) -> 0 <= j < n1 -> a = (a1 + j) mod 2 ^ 32 ->
       nth (Z.to_nat i) out 0 = src j) /\
    (((forall j, 0 <= j < n1 -> a <> (a1 + j) mod 2 ^ 32) \/
      (exists b x, cell_of fuel s a = Some (CellRom b x))) ->
       nth (Z.to_nat i) out 0 = nth (Z.to_nat i) before 0).
Proof.
  intros C Sz Un H1 Hn1 H2 Hn2 R W ->.
  destruct (write_handler_spec fuel s phys_tr src m a1 n1 BSuccess n1 m' C phys_paged Sz H1 ltac:(lia) W)
    as (W1 & W2 & W3 & _ & A2 & A3 & _).
  destruct (read_loop_same fuel s phys_tr m m' (eq_sym W1) (eq_sym W3) _ _ _ _ _ _ [] _ _ _ R) as (out & R').
  exists out. split; [exact R'|].
  assert (sized m') as Sz' by (destruct Sz as (Q1 & Q2); split; [lia|intros b; rewrite W3; apply Q2]).
  destruct (read_block_spec fuel s phys_tr m a2 n2 st k before C phys_paged Sz H2 Hn2 R) as (B1 & B2 & B3 & _).
  destruct (read_block_spec fuel s phys_tr m' a2 n2 st k out C phys_paged Sz' H2 Hn2 R') as (D1 & D2 & D3 & _).
  split; [congruence|]. intros i Hi a.
  destruct (B3 i Hi) as (c & Ec & Vc). destruct (D3 i Hi) as (c' & Ec' & Vc').
  assert (c' = c) as -> by congruence.
  unfold byte_cell, phys_tr in Ec. fold a in Ec.
  assert (0 <= a < 2 ^ 32) as Ba by (apply Z.mod_pos_bound; lia).
  assert (forall j, 0 <= j -> 0 <= (a1 + j) mod 2 ^ 32 < 2 ^ 32) as Bj by (intros; apply Z.mod_pos_bound; lia).
  split.
  - intros x j Cx Hj Ej. assert (c = CellRam x) as -> by congruence. rewrite Vc'. cbn [peek].
    destruct (A3 x) as [(i0 & I1 & I2 & I3 & I4)|(I1 & I2)].
    + rewrite I3. f_equal. unfold byte_cell, phys_tr in I2.
      pose proof (Un _ _ x Ba (Bj i0 (proj1 I1)) Cx I2) as E.
      rewrite Ej in E. clear - E Hj I1 Hn1. change (2 ^ 32) with 4294967296 in *. 
      assert (forall u v, u mod 4294967296 = v mod 4294967296 -> exists q, u - v = q * 4294967296) as Q.
      { intros u v Huv. exists (u / 4294967296 - v / 4294967296).
        pose proof (Z.div_mod u 4294967296). pose proof (Z.div_mod v 4294967296). lia. }
      destruct (Q _ _ E). lia.
    + exfalso. apply (I1 j Hj). unfold byte_cell, phys_tr. rewrite <- Ej. exact Cx.
  - intros [Out|(b & x & Cx)].
    + rewrite Vc', Vc. destruct c as [x|b x]; cbn [peek].
      * destruct (A3 x) as [(i0 & I1 & I2 & I3 & I4)|(I1 & I2)]; [|exact I2].
        exfalso. unfold byte_cell, phys_tr in I2. apply (Out i0 I1).
        apply (Un _ _ x Ba (Bj i0 (proj1 I1)) Ec I2).
      * rewrite W2. reflexivity.
    + assert (c = CellRom b x) as -> by congruence. rewrite Vc', Vc. cbn [peek]. rewrite W2. reflexivity.
Qed.
Print Assumptions C04_write_then_read_partial.

(** Which layouts qualify: all ram calls with the same start, no aliases.
    Other regions may overlay the ram and uncover it again. *)
Theorem C04_plain_layouts_are_unshared g cs s oks st fuel :
  unit_ok g -> Forall (call_ok g) cs -> Forall (plain st) cs ->
  api_run (as_create MEM_MAX) cs = Some (s, oks) -> unshared fuel s.
Proof. exact (plain_unshared g cs s oks st fuel). Qed.
Print Assumptions C04_plain_layouts_are_unshared.

(** ** Examples and refutations *)

Definition demo_mem (ram_size : Z) : hmem :=
  mk_hmem (fun i => i mod 256) ram_size (fun b i => (b + i) mod 256) (fun _ => 0x10000).

Definition layout (cs : list call) : aspace :=
  match api_run (as_create MEM_MAX) cs with Some (s, _) => s | None => as_create MEM_MAX end.

Definition pc : list call := [CallRam 0 0x20000; CallMmio 0xA000 0x1000 7 9; CallRom 0xF0000 0x10000 5].

Definition view (r : option (bstatus * Z * list Z)) : option (bstatus * Z * list Z) :=
  match r with Some (st, a, o) => Some (st, a, firstn 2 o) | None => None end.

(** 6 bytes written across a page boundary are read back with their
    neighbours; a write that runs into mmio stops at the page in front of it. *)
Example C04_example :
  exists m, mem_write_block 4 (layout pc) phys_tr (demo_mem 0x20000) 0x1FFD 6 [1;2;3;4;5;6] = Some (BSuccess, 6, m) /\
    read_block 4 (layout pc) phys_tr m 0x1FFC 8 = Some (BSuccess, 8, [0xFC;1;2;3;4;5;6;3]).
Proof. eexists. split; vm_compute; reflexivity. Qed.

Example C04_example_stops :
  match mem_fill_block 4 (layout pc) phys_tr (demo_mem 0x20000) 0x8FF0 0x3000 0x1FF with
  | Some (st, a, m) => (st, a, h_ram m 0x8FEF, h_ram m 0x8FF0, h_ram m 0x9FFF, h_ram m 0xA000)
  | None => (BSuccess, 0, 0, 0, 0, 0)
  end = (BInternal, 0x1010, 0xEF, 0xFF, 0xFF, 0).
Proof. vm_compute. reflexivity. Qed.

Example C04_example_hypotheses :
  unit_ok 4096 /\ Forall (call_ok 4096) pc /\ Forall (plain 0) pc /\ sized (demo_mem 0x20000) /\ paged phys_tr.
Proof.
  split; [split; [lia|reflexivity]|]. split; [repeat constructor; cbn; try lia; try reflexivity; left; reflexivity|].
  split; [repeat constructor|]. split; [split; cbn; lia|apply phys_paged].
Qed.

(** C04 in full is false. A write to rom reports success and the full size,
    and nothing is stored. *)
Theorem C04_refuted_rom_write_succeeds :
  exists m', mem_write_block 4 (layout pc) phys_tr (demo_mem 0x20000) 0xF0000 2 [0xAA; 0xBB] = Some (BSuccess, 2, m') /\
    read_block 4 (layout pc) phys_tr m' 0xF0000 2 = Some (BSuccess, 2, [5; 6]).
Proof. eexists. split; vm_compute; reflexivity. Qed.
Print Assumptions C04_refuted_rom_write_succeeds.

(** Two ram regions share storage: a write to the second one changes what the
    first one reads. *)
Definition two_rams : list call := [CallRam 0 0x10000; CallRam 0x100000 0x10000].

Theorem C04_refuted_shared_storage :
  Forall (call_ok 4096) two_rams /\
  exists m', mem_write_block 4 (layout two_rams) phys_tr (demo_mem 0x20000) 0x100000 2 [0xAA; 0xBB] = Some (BSuccess, 2, m') /\
    read_block 4 (layout two_rams) phys_tr (demo_mem 0x20000) 0 2 = Some (BSuccess, 2, [0; 1]) /\
    read_block 4 (layout two_rams) phys_tr m' 0 2 = Some (BSuccess, 2, [0xAA; 0xBB]).
Proof.
  split; [repeat constructor; cbn; try lia; try reflexivity; left; reflexivity|].
  eexists. split; [vm_compute; reflexivity|]. split; vm_compute; reflexivity.
Qed.
Print Assumptions C04_refuted_shared_storage.

(** A page made of two ram regions cannot be read at once: every byte can be
    read alone, the block of two cannot. *)
Definition split_page : list call := [CallRam 0 0x1000; CallRam 0x800 0x800].

Theorem C04_refuted_split_page :
  Forall (call_ok 16) split_page /\
  read_block 4 (layout split_page) phys_tr (demo_mem 0x20000) 0x7FF 1 = Some (BSuccess, 1, [0xFF]) /\
  read_block 4 (layout split_page) phys_tr (demo_mem 0x20000) 0x800 1 = Some (BSuccess, 1, [0]) /\
  read_block 4 (layout split_page) phys_tr (demo_mem 0x20000) 0x7FF 2 = Some (BInternal, 0, []).
Proof.
  split; [repeat constructor; cbn; try lia; try reflexivity; left; reflexivity|].
  repeat split; vm_compute; reflexivity.
Qed.
Print Assumptions C04_refuted_split_page.

(** A ram region larger than the ram of the cpu is accepted, and a transfer to
    its upper part touches host memory outside the buffer. *)
Theorem C04_refuted_overrun :
  snd (match api_run (as_create MEM_MAX) [CallRam 0 0x40000] with Some p => p | None => (as_create MEM_MAX, []) end) = [true] /\
  mem_write_block 4 (layout [CallRam 0 0x40000]) phys_tr (demo_mem 0x20000) 0x30000 2 [0xAA; 0xBB] = None.
Proof. split; vm_compute; reflexivity. Qed.
Print Assumptions C04_refuted_overrun.
