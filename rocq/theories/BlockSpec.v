(** What a block transfer should do, one byte at a time. *)
From Coq Require Import ZArith List Bool.
From Verif Require Import AddrSpaceModel BlockModel.
Import ListNotations.
Open Scope Z_scope.

(** Where the byte at a physical address is kept: a byte of the ram buffer or
    of a rom buffer. [None]: the address belongs to no memory (or the access
    is undefined). Aliases are resolved as for an access of the guest. *)
Inductive cell := CellRam (i : Z) | CellRom (b i : Z).

Definition cell_of (fuel : nat) (s : aspace) (a : Z) : option cell :=
  match dispatch fuel s a with
  | None => None
  | Some (r, p) =>
      let i := (p - i_buff_off (r_info r)) mod 2 ^ 32 in
      match i_type (r_info r) with
      | ram => Some (CellRam i)
      | rom => Some (CellRom (i_rom_ptr (r_info r)) i)
      | _ => None
      end
  end.

Definition peek (m : hmem) (c : cell) : Z :=
  match c with
  | CellRam i => h_ram m i
  | CellRom b i => h_rom m b i
  end.

(** The cell of byte [i] of a request at [addr]; addresses wrap at 4 GiB. *)
Definition byte_cell (fuel : nat) (s : aspace) (tr : Z -> option Z) (addr i : Z) : option cell :=
  match tr ((addr + i) mod 2 ^ 32) with
  | None => None
  | Some p => cell_of fuel s p
  end.

(** A translation works page by page and yields 32-bit addresses. *)
Definition paged (tr : Z -> option Z) : Prop :=
  forall a p, 0 <= a < 2 ^ 32 -> tr a = Some p ->
    0 <= p < 2 ^ 32 /\ p mod 4096 = a mod 4096 /\
    forall j, 0 <= j < 4096 - a mod 4096 -> tr (a + j) = Some (p + j).

(** Every address is found in a region that holds it, and all addresses of a
    region are found in it. *)
Definition coherent (s : aspace) : Prop :=
  forall a, 0 <= a < 2 ^ 32 -> exists r, search s a = Some r /\
    0 <= r_start r /\ r_start r <= a <= r_end r /\ r_end r < 2 ^ 32 /\
    forall b, r_start r <= b <= r_end r -> search s b = Some r.

(** The buffers are no larger than what 32 bits can index. *)
Definition sized (m : hmem) : Prop :=
  h_ram_size m <= 2 ^ 32 /\ forall b, h_rom_size m b <= 2 ^ 32.

(** [v] is what cell [c] holds after bytes [0..k) of a request were stored in
    order over [old]: the last byte aimed at the cell wins. *)
Definition last_store (f : Z -> option cell) (src : Z -> Z) (k : Z) (c : cell) (old v : Z) : Prop :=
  (exists i, 0 <= i < k /\ f i = Some c /\ v = src i /\
     forall j, i < j < k -> f j <> Some c) \/
  ((forall i, 0 <= i < k -> f i <> Some c) /\ v = old).

(** No two physical addresses share a byte of ram. *)
Definition unshared (fuel : nat) (s : aspace) : Prop :=
  forall a b i, 0 <= a < 2 ^ 32 -> 0 <= b < 2 ^ 32 ->
    cell_of fuel s a = Some (CellRam i) -> cell_of fuel s b = Some (CellRam i) -> a = b.

(** The bytes of the request from offset [k] to the end of its page. *)
Definition piece (addr size k : Z) : Z := Z.min (4096 - (addr + k) mod 4096) (size - k).

(** Every page piece of the request lies in one ram region with enough buffer. *)
Definition served (s : aspace) (tr : Z -> option Z) (m : hmem) (addr size : Z) : Prop :=
  forall k, 0 <= k < size -> k = 0 \/ (addr + k) mod 4096 = 0 ->
    exists p r, tr ((addr + k) mod 2 ^ 32) = Some p /\ search s p = Some r /\ i_type (r_info r) = ram /\
      0 <= r_start r /\ r_start r <= p /\ p + piece addr size k - 1 <= r_end r /\ r_end r < 2 ^ 32 /\
      host_index r p + piece addr size k <= h_ram_size m.

(** All ram calls use the same start address, and there are no aliases. *)
Definition plain (st : Z) (c : call) : Prop :=
  match c with CallRam s0 _ => s0 = st | CallAlias _ _ _ => False | _ => True end.
