(** Model of the block transfer API of lib86cpu: mem_read_block and
    mem_write_handler in /repo/lib86cpu/interface.cpp (909-1130), over the
    region map of AddrSpaceModel.

    Host memory is the ram buffer of the cpu and one buffer per rom region.
    Touching a host byte outside its buffer is undefined behaviour, outcome
    [None]. Address translation of the _virt entry points is a function [tr]
    from virtual to physical addresses ([None] = a guest exception); the _phys
    entry points use [Some]. Not modelled: the accessed and dirty bits set
    by a translation, and the invalidation of translated code
    (interface.cpp 1018-1026). *)
From Coq Require Import ZArith List Bool.
From Verif Require Import AddrSpaceModel.
Import ListNotations.
Open Scope Z_scope.

(** The ram buffer allocated by cpu_new (interface.cpp 59-75) and the rom
    buffers passed to mem_init_region_rom, each with its size in bytes. *)
Record hmem := mk_hmem {
  h_ram : Z -> Z;
  h_ram_size : Z;
  h_rom : Z -> Z -> Z;
  h_rom_size : Z -> Z
}.

Inductive bstatus := BSuccess | BInternal | BGuestExp.

(** interface.cpp 929, 1031: [(phys >= start) && ((phys + n - 1) <= end)] in
    uint32_t. *)
Definition inside (r : region) (phys n : Z) : bool :=
  (r_start r <=? phys) && ((phys + n - 1) mod 2 ^ 32 <=? r_end r).

Inductive where_ := WHost (r : region) (phys : Z) | WFail.

(** interface.cpp 927-957, 1029-1064, the code from the search to the switch:
    which region and address serve a chunk of [n] bytes at [phys]. The
    [goto retry] after an alias runs the same test on the resolved region;
    a resolved region of type alias would loop for ever ([None]). *)
Definition chunk (fuel : nat) (s : aspace) (phys n : Z) : option where_ :=
  match search s phys with
  | None => None
  | Some r =>
      if inside r phys n then
        match i_type (r_info r) with
        | ram | rom => Some (WHost r phys)
        | alias =>
            match resolve_loop fuel (nodes s) r (i_alias_offset (r_info r)) with
            | None => None
            | Some (r', off) =>
                let phys' := (r_start r' + off + (phys - r_start r)) mod 2 ^ 32 in
                if inside r' phys' n then
                  match i_type (r_info r') with
                  | ram | rom => Some (WHost r' phys')
                  | alias => None
                  | _ => Some WFail
                  end
                else Some WFail
            end
        | _ => Some WFail
        end
      else Some WFail
  end.

(** get_ram_host_ptr and get_rom_host_ptr (memory_management.cpp/.hpp): index
    [addr - buff_off_start] in uint32_t. *)
Definition host_index (r : region) (phys : Z) : Z := (phys - i_buff_off (r_info r)) mod 2 ^ 32.

(** [n] bytes starting at [i]. *)
Fixpoint bytes_from (f : Z -> Z) (i : Z) (n : nat) : list Z :=
  match n with
  | O => []
  | S k => f i :: bytes_from f (i + 1) k
  end.

(** std::memcpy out of a ram or rom region (interface.cpp 931-938). *)
Definition host_read (m : hmem) (r : region) (phys n : Z) : option (list Z) :=
  let i := host_index r phys in
  match i_type (r_info r) with
  | rom =>
      let b := i_rom_ptr (r_info r) in
      if i + n <=? h_rom_size m b then Some (bytes_from (h_rom m b) i (Z.to_nat n)) else None
  | _ => if i + n <=? h_ram_size m then Some (bytes_from (h_ram m) i (Z.to_nat n)) else None
  end.

(** interface.cpp 909-980 [mem_read_block]: one iteration per call, [vec] is
    [vec_offset] and [out] the bytes stored so far. [k] bounds the iterations
    (see [read_block]). Result: status, actual_size, the bytes in [out]. *)
Fixpoint read_loop (k : nat) (fuel : nat) (s : aspace) (tr : Z -> option Z) (m : hmem)
    (addr page_offset size_left vec : Z) (out : list Z) : option (bstatus * Z * list Z) :=
  if size_left =? 0 then Some (BSuccess, vec, out)
  else
    match k with
    | O => None
    | S k' =>
        let n := Z.min (4096 - page_offset) size_left in
        match tr addr with
        | None => Some (BGuestExp, vec, out)
        | Some phys =>
            match chunk fuel s phys n with
            | None => None
            | Some WFail => Some (BInternal, vec, out)
            | Some (WHost r p) =>
                match host_read m r p n with
                | None => None
                | Some bs =>
                    read_loop k' fuel s tr m ((addr + n) mod 2 ^ 32) 0 (size_left - n) (vec + n)
                      (out ++ bs)
                end
            end
        end
    end.

(** Enough iterations for [size] bytes: one per page touched. *)
Definition iterations (size : Z) : nat := Z.to_nat (size / 4096 + 2).

Definition read_block (fuel : nat) (s : aspace) (tr : Z -> option Z) (m : hmem) (addr size : Z) :=
  read_loop (iterations size) fuel s tr m addr (addr mod 4096) size 0 [].

Definition set_ram (m : hmem) (f : Z -> Z) : hmem :=
  mk_hmem f (h_ram_size m) (h_rom m) (h_rom_size m).

(** std::memcpy or std::memset into a ram region, nothing for rom
    (interface.cpp 1033-1044). [src] maps an offset in the request to the byte
    to store: the caller's buffer for mem_write_block, the fill value for
    mem_fill_block. *)
Definition host_write (m : hmem) (r : region) (phys n : Z) (src : Z -> Z) (tot : Z) : option hmem :=
  match i_type (r_info r) with
  | rom => Some m
  | _ =>
      let i := host_index r phys in
      if i + n <=? h_ram_size m then
        Some (set_ram m (fun x => if (i <=? x) && (x <? i + n) then src (tot + (x - i)) else h_ram m x))
      else None
  end.

(** interface.cpp 1004-1090 [mem_write_handler]. *)
Fixpoint write_loop (k : nat) (fuel : nat) (s : aspace) (tr : Z -> option Z) (src : Z -> Z) (m : hmem)
    (addr page_offset size_left tot : Z) : option (bstatus * Z * hmem) :=
  if size_left =? 0 then Some (BSuccess, tot, m)
  else
    match k with
    | O => None
    | S k' =>
        let n := Z.min (4096 - page_offset) size_left in
        match tr addr with
        | None => Some (BGuestExp, tot, m)
        | Some phys =>
            match chunk fuel s phys n with
            | None => None
            | Some WFail => Some (BInternal, tot, m)
            | Some (WHost r p) =>
                match host_write m r p n src tot with
                | None => None
                | Some m' =>
                    write_loop k' fuel s tr src m' ((addr + n) mod 2 ^ 32) 0 (size_left - n) (tot + n)
                end
            end
        end
    end.

Definition write_handler (fuel : nat) (s : aspace) (tr : Z -> option Z) (src : Z -> Z) (m : hmem)
    (addr size : Z) :=
  write_loop (iterations size) fuel s tr src m addr (addr mod 4096) size 0.

(** interface.cpp 1103-1130: the four write entry points. *)
Definition block_src (buffer : list Z) (j : Z) : Z := nth (Z.to_nat j) buffer 0.
Definition fill_src (val : Z) (j : Z) : Z := val mod 256.

Definition mem_write_block fuel s tr m addr size buffer :=
  write_handler fuel s tr (block_src buffer) m addr size.
Definition mem_fill_block fuel s tr m addr size val :=
  write_handler fuel s tr (fill_src val) m addr size.

(** The _phys entry points: no translation (interface.cpp 924, 1024). *)
Definition phys_tr (a : Z) : option Z := Some a.
