(** * FXSAVE and FXRSTOR

    FPI = core/fpu_instructions.cpp, JT = core/emitter/x64/jit.cpp, IN = core/internal.hpp.
    Guest memory is RAM reached through a page map; the instructions run at a fixed
    privilege level, so the map is a function.  MMIO, watchpoints and writes to pages with
    translated code are not modelled here. *)

From Coq Require Import ZArith Bool List.
From Verif Require Import FpuModel.
Import ListNotations.
Local Open Scope Z_scope.

(** the guest's pages as the paging unit sees them for this access: the frame behind a
    page number, and whether a read or write of it faults *)
Record pages := mkpages { frame : Z -> Z; readable : Z -> bool; writable : Z -> bool }.

(** physical address behind the virtual address [a], a uint32_t *)
Definition w32 (a : Z) : Z := a mod 2 ^ 32.
Definition vpage (a : Z) : Z := w32 a / 4096.
Definition phys (P : pages) (a : Z) : Z := frame P (vpage a) * 4096 + w32 a mod 4096.

(** bytes of an [n] byte little endian access; the accesses below are aligned to their size
    or to 16, so none crosses a page (core/memory_management.hpp: mem_read_helper,
    mem_write_helper on a single page) *)
Fixpoint put_bytes (P : pages) (n : nat) (a v : Z) (m : Z -> Z) : Z -> Z :=
  match n with
  | O => m
  | S n => put_bytes P n (a + 1) (v / 256) (upd m (phys P a) (v mod 256))
  end.
Fixpoint get_bytes (P : pages) (n : nat) (a : Z) (m : Z -> Z) : Z :=
  match n with
  | O => 0
  | S n => m (phys P a) + 256 * get_bytes P n (a + 1) m
  end.

(** a sequence of writes; the first one that faults ends it, keeping the ones before *)
Fixpoint do_writes (P : pages) (a : Z) (l : list (Z * nat * Z)) (m : Z -> Z) : bool * (Z -> Z) :=
  match l with
  | [] => (true, m)
  | (o, n, v) :: l =>
    if writable P (vpage (a + o)) then do_writes P a l (put_bytes P n (a + o) v m) else (false, m)
  end.

(** the abridged tag word (FPI 15-18) *)
Definition abridged (s : fpu) : Z :=
  fold_left (fun acc i => Z.lor acc (Z.shiftl (if ftag s i =? TAG_EMPTY then 0 else 1) i)) [0; 1; 2; 3; 4; 5; 6; 7] 0.

(** [fxsave_helper] (FPI 10-38): the writes, as (offset, size, value) *)
Definition fxsave_writes (osfxsr : bool) (s : fpu) : list (Z * nat * Z) :=
  [(0, 2%nat, fctrl s); (2, 2%nat, read_fstatus s); (4, 1%nat, abridged s); (6, 2%nat, fop (ptr s));
   (8, 4%nat, fip (ptr s)); (12, 2%nat, fcs (ptr s)); (16, 4%nat, fdp (ptr s)); (20, 2%nat, fds (ptr s))] ++
  (if osfxsr then [(24, 4%nat, mxcsr s); (28, 4%nat, MXCSR_MASK)] else []) ++
  map (fun i => (32 + 16 * i, 10%nat, fr s i)) [0; 1; 2; 3; 4; 5; 6; 7] ++
  (if osfxsr then map (fun i => (160 + 16 * i, 16%nat, xmm s i)) [0; 1; 2; 3; 4; 5; 6; 7] else []).

Inductive xout := XDone (s : fpu) (m : Z -> Z) | XPage (s : fpu) (m : Z -> Z) | XExc (n : Z) (s : fpu) (m : Z -> Z).

(** FXSAVE (JT 6617-6638) *)
Definition fxsave (em_ts osfxsr : bool) (P : pages) (a : Z) (s : fpu) (m : Z -> Z) : xout :=
  if em_ts then XExc 7 s m
  else if nz (Z.land a 15) then XExc 13 s m
  else let r := do_writes P a (fxsave_writes osfxsr s) m in
       if fst r then XDone s (snd r) else XPage s (snd r).

(** [fpu_update_tag] for the eight registers with TOP = 0 (FPI 80-89) *)
Definition retag (ab : Z) (s : fpu) : fpu :=
  fold_left (fun s i => update_tag (nz (Z.land ab (Z.shiftl 1 i))) i s) [0; 1; 2; 3; 4; 5; 6; 7] s.

(** The reads of [fxrstor_helper] after the page check of the first and last byte; a read
    of a page that was not checked faults, keeping what was restored before it. *)
Definition rd (P : pages) (a : Z) (o : Z) (n : nat) (m : Z -> Z) : option Z :=
  if readable P (vpage (a + o)) then Some (get_bytes P n (a + o) m) else None.

(** run [f] on the value read, or stop with the state reached *)
Definition rd_then (P : pages) (a : Z) (m : Z -> Z) (o : Z) (n : nat) (f : Z -> fpu -> fpu) (r : bool * fpu) : bool * fpu :=
  if fst r then match rd P a o n m with Some v => (true, f v (snd r)) | None => (false, snd r) end else r.

(** the part after the MXCSR check (FPI 61-91) *)
Definition eight : list Z := [0; 1; 2; 3; 4; 5; 6; 7].
Definition setp (f : Z -> ptrs -> ptrs) (v : Z) (s : fpu) : fpu := set_ptr (f v (ptr s)) s.
(** FPI 61-63 *)
Definition restore_words (R : Z -> nat -> (Z -> fpu -> fpu) -> bool * fpu -> bool * fpu) (r : bool * fpu) : bool * fpu :=
  R 2 2%nat write_fstatus
    (R 0 2%nat (fun v s => set_frp (Z.lor (Z.lor v 0x40) EXP_ALL) (set_fctrl (Z.lor v 0x40) s)) r).
(** FPI 65-69 *)
Definition restore_ptrs (R : Z -> nat -> (Z -> fpu -> fpu) -> bool * fpu -> bool * fpu) (r : bool * fpu) : bool * fpu :=
  R 20 2%nat (setp (fun v p => mkptrs (fcs p) (fip p) (fop p) v (fdp p)))
    (R 16 4%nat (setp (fun v p => mkptrs (fcs p) (fip p) (fop p) (fds p) v))
      (R 12 2%nat (setp (fun v p => mkptrs v (fip p) (fop p) (fds p) (fdp p)))
        (R 8 4%nat (setp (fun v p => mkptrs (fcs p) v (fop p) (fds p) (fdp p)))
          (R 6 2%nat (setp (fun v p => mkptrs (fcs p) (fip p) (Z.land v 0x7FF) (fds p) (fdp p))) r)))).
(** FPI 70-72, 73-77 *)
Definition restore_fr (R : Z -> nat -> (Z -> fpu -> fpu) -> bool * fpu -> bool * fpu) (r : bool * fpu) : bool * fpu :=
  fold_left (fun r i => R (32 + 16 * i) 10%nat (fun v s => set_fr (upd (fr s) i v) s) r) eight r.
Definition restore_xmm (R : Z -> nat -> (Z -> fpu -> fpu) -> bool * fpu -> bool * fpu) (r : bool * fpu) : bool * fpu :=
  fold_left (fun r i => R (160 + 16 * i) 16%nat (fun v s => set_xmm (upd (xmm s) i v) s) r) eight r.
Definition restore (P : pages) (a : Z) (m : Z -> Z) (osfxsr : bool) (s : fpu) : bool * fpu :=
  let R := rd_then P a m in
  let r := restore_words R (true, s) in
  match rd P a 4 1%nat m with
  | None => (false, snd r)
  | Some ab =>
    let r := restore_fr R (restore_ptrs R r) in
    let r := if osfxsr then restore_xmm R r else r in
    if fst r then (true, set_ftop (ftop (snd r)) (retag ab (set_ftop 0 (snd r)))) else r
  end.

(** [fxrstor_helper] (FPI 40-93) and FXRSTOR (JT 6593-6615) *)
Definition fxrstor (em_ts osfxsr : bool) (P : pages) (a : Z) (s : fpu) (m : Z -> Z) : xout :=
  if em_ts then XExc 7 s m
  else if nz (Z.land a 15) then XExc 13 s m
  else if negb (readable P (vpage a)) || negb (readable P (vpage (a + 287))) then XPage s m
  else
    let go s := let r := restore P a m osfxsr s in if fst r then XDone (snd r) m else XPage (snd r) m in
    if osfxsr then
      match rd P a 24 4%nat m with
      | None => XPage s m
      | Some t =>
        if nz (Z.land t (Z.lxor 0xFFFFFFFF MXCSR_MASK)) then XExc 13 s m
        else go (set_mxcsr t (Z.land (Z.lor t (Z.shiftl EXP_ALL 7)) (Z.lxor 0xFFFFFFFF EXP_ALL)) s)
      end
    else go s.
