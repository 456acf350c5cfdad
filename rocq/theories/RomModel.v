(** * Model: the rom views of the xbox build on Linux

    lib86cpu/core/emitter/x64/linux/ipt.cpp 122-167, 196-212 and lib86cpu/interface.cpp
    842-875.  Conventions, events and answers of the system as in [RamModel].  The bytes
    of the rom are left out, and so is what becomes of the region in the region map. *)

From Coq Require Import ZArith Bool List.
From Verif Require Import RamModel.
Import ListNotations.
Local Open Scope Z_scope.

(** ipt.cpp 26, 29: rom_fd[2] and g_romsize[2], zero when the process starts *)
Record roms := Roms { fd0 : Z; fd1 : Z; size0 : Z; size1 : Z }.
Definition no_roms : roms := Roms 0 0 0 0.

(** The two arrays; an index out of range is undefined *)
Definition fd_at (s : roms) (i : Z) : option Z := if i =? 0 then Some (fd0 s) else if i =? 1 then Some (fd1 s) else None.
Definition size_at (s : roms) (i : Z) : option Z := if i =? 0 then Some (size0 s) else if i =? 1 then Some (size1 s) else None.

(** core/internal.hpp 41-42: the addresses of the two roms *)
Definition FLASH : Z := 0xFF000000.
Definition MCPX : Z := 0xFFFFFE00.

(** ipt.cpp 126: the slot of a rom *)
Definition slot (start : Z) : Z := if start =? FLASH then 0 else 1.
Definition set_slot (start f n : Z) (s : roms) : roms :=
  if slot start =? 0 then Roms f (fd1 s) n (size1 s) else Roms (fd0 s) f (size0 s) n.

(** lib86cpu_priv.hpp 74-85: what the region holds *)
Record rom := Rom { r_at : Z; r_ptr : Z; r_alias : Z }.

(** The answers of mkstemp, ftruncate, mmap for the two views and mprotect *)
Record ranswers := RAnswers { b_fd : Z; b_trunc : bool; b_ptr : Z; b_alias : Z; b_prot : bool }.

(** ipt.cpp 122-167: ipt_rom_init *)
Definition rom_init (start n : Z) (a : ranswers) (s : roms) : bool * rom * roms * list ev :=
  let m := w64 (n + 16) in
  let s1 := set_slot start (b_fd a) n s in
  let t1 := opened (b_fd a) in
  if b_fd a =? -1 then (false, Rom start failed failed, s1, t1)
  else if negb (b_trunc a) then (false, Rom start failed failed, s1, t1)
  else if b_ptr a =? failed then (false, Rom start failed failed, s1, t1)
  else let t2 := t1 ++ [Get (View (b_ptr a) m)] in
    if b_alias a =? failed then (false, Rom start (b_ptr a) failed, s1, t2)
    else (b_prot a, Rom start (b_ptr a) (b_alias a), set_slot start (-1) n s,
          t2 ++ [Get (View (b_alias a) m); Put (File (b_fd a))]).

(** ipt.cpp 196-212: ipt_rom_deinit, which the destructor of a rom region calls
    (lib86cpu_priv.hpp 86-92).  [rom_fd_idx] is read out of rom_fd, as uint32_t. *)
Definition rom_deinit (r : rom) (s : roms) : option (list ev) :=
  match fd_at s (slot (r_at r)) with
  | None => None
  | Some f =>
      let i := f mod 2 ^ 32 in
      match size_at s i, fd_at s i with
      | Some n, Some g =>
          Some (unmapped (r_ptr r) (w64 (n + 16)) ++ unmapped (r_alias r) (w64 (n + 16))
                ++ (if g =? -1 then [] else [Put (File g)]))
      | _, _ => None
      end
  end.

(** interface.cpp 842-875: mem_init_region_rom up to the insertion.  [buffer] is the
    client's, [junk] what rom_alias_ptr, which no constructor sets, happens to hold.  On
    every error the region is destroyed.  The result: whether it succeeded, the region,
    and the events, [None] when something undefined was done. *)
Definition mem_init_rom (start n buffer junk : Z) (a : ranswers) (s : roms) : option rom * roms * option (list ev) :=
  if (n =? 0) || (buffer =? 0) then (None, s, Some [])
  else if negb (start =? FLASH) && negb (start =? MCPX) then (None, s, rom_deinit (Rom start buffer junk) s)
  else match rom_init start n a s with
    | (true, r, s1, tr) => (Some r, s1, Some tr)
    | (false, r, s1, tr) => (None, s1, match rom_deinit r s1 with None => None | Some t => Some (tr ++ t) end)
    end.
