(** * Model: host pointers to guest memory

    get_host_ptr and get_ram_ptr, lib86cpu/interface.cpp 602-642, over the region map of
    [AddrSpaceModel] and the buffers of [BlockModel].  A host pointer is a buffer and an
    index in it; the translation of virtual addresses is a function as in [BlockModel]. *)
From Coq Require Import ZArith List Bool.
From Verif Require Import AddrSpaceModel BlockModel.
Open Scope Z_scope.

(** A pointer into the ram buffer, into the rom buffer [b], or null with the error that
    get_last_error reports. *)
Inductive hptr := PRam (i : Z) | PRom (b i : Z) | PNull (guest_exp : bool).

(** interface.cpp 606-610: get_ram_ptr *)
Definition get_ram_ptr : hptr := PRam 0.

(** interface.cpp 619-642: get_host_ptr; [None] is a region map without the address *)
Definition get_host_ptr (s : aspace) (tr : Z -> option Z) (addr : Z) : option hptr :=
  match tr addr with
  | None => Some (PNull true)
  | Some p =>
      match search s p with
      | None => None
      | Some r =>
          Some match i_type (r_info r) with
               | ram => PRam (host_index r p)
               | rom => PRom (i_rom_ptr (r_info r)) (host_index r p)
               | _ => PNull false
               end
      end
  end.

(** What the client does with it: pointer arithmetic, a load and a store of a byte.  A
    byte outside of the buffer, a store to rom the client does not own and the null
    pointer are undefined. *)
Definition offset (q : hptr) (j : Z) : hptr :=
  match q with PRam i => PRam (i + j) | PRom b i => PRom b (i + j) | PNull e => PNull e end.
Definition load (m : hmem) (q : hptr) : option Z :=
  match q with
  | PRam i => if (0 <=? i) && (i <? h_ram_size m) then Some (h_ram m i) else None
  | PRom b i => if (0 <=? i) && (i <? h_rom_size m b) then Some (h_rom m b i) else None
  | PNull _ => None
  end.
Definition store (m : hmem) (q : hptr) (v : Z) : option hmem :=
  match q with
  | PRam i => if (0 <=? i) && (i <? h_ram_size m) then Some (set_ram m (fun x => if x =? i then v else h_ram m x)) else None
  | _ => None
  end.
