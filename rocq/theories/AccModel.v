(** * Accesses of the guest to the regions of memory and to the ports

    Files: MM = lib86cpu/core/memory_management.cpp, MH = memory_management.hpp,
    SH = lib86cpu/support.hpp, IF = lib86cpu/interface.cpp.

    What a data access of 1, 2, 4, 8, 10 or 16 bytes does once its address is translated: the
    kind of region kept in a TLB line, the direct access on a hit, the dispatch by region on a
    miss, the split of an access that crosses a page, and the calls of the handlers of devices.
    The map is that of [AddrSpaceModel], host memory that of [BlockModel].

    Simplifications:
    - the translation [tr] of pages is total and does not change (page walks, permissions,
      faults and the choice of the line to replace are in [MmuModel]); a line may be dropped at
      any time, and an access may miss although there is a line;
    - the map does not change (a change flushes the TLB, see [RgModel]);
    - the A20 mask is all ones (see [A20Model]);
    - watchpoints ([DrModel]), invalidation of code ([CodeModel]) and log messages are left out;
    - a handler returns a number that may depend on everything devices were asked before. *)
From Coq Require Import ZArith List Bool.
From Verif Require Import AddrSpaceModel BlockModel.
Import ListNotations.
Open Scope Z_scope.

(** a call of one of fnr8/16/32/64 or fnw8/16/32/64: table of handlers, opaque, address, bytes *)
Inductive dcall := DRead (h o a n : Z) | DWrite (h o a n v : Z).
(** what the handlers answer *)
Definition device := list dcall -> Z -> Z -> Z -> Z -> Z.

(** a TLB line: the page of [entry], its bits TLB_RAM, TLB_ROM, TLB_MMIO, TLB_SUBPAGE, or none
    of them, and [region] *)
Inductive lkind := LRam | LRom | LMmio | LSub | LNone.
Record line := mkl { l_page : Z; l_kind : lkind; l_reg : region }.

Record st := mkst { hm : hmem; calls : list dcall; tlb : Z -> option line }.
Definition init (m : hmem) : st := mkst m [] (fun _ => None).

(** the outcome of an access: done, a host byte outside its buffer or a dangling pointer is
    touched, or LIB86CPU_ABORT *)
Inductive res (A : Type) := Ok (a : A) | Undefined | Abort.
Arguments Ok {A}. Arguments Undefined {A}. Arguments Abort {A}.
Definition bind {A B} (x : res A) (f : A -> res B) : res B :=
  match x with Ok a => f a | Undefined => Undefined | Abort => Abort end.
Definition of_opt {A} (x : option A) : res A := match x with Some a => Ok a | None => Undefined end.

(** little endian *)
Fixpoint word (l : list Z) : Z := match l with [] => 0 | b :: t => b + 256 * word t end.
Definition byte_of (v i : Z) : Z := (v / 2 ^ (8 * i)) mod 256.

Definition page (a : Z) : Z := a / 4096.

Section Access.
Variable s : aspace.
Variable fuel : nat.
Variable dev : device.
Variable tr : Z -> Z.

Definition call_read (h o a n : Z) (x : st) : Z * st :=
  (dev (calls x) h o a n mod 2 ^ (8 * n), mkst (hm x) (calls x ++ [DRead h o a n]) (tlb x)).
Definition call_write (h o a n v : Z) (x : st) : st :=
  mkst (hm x) (calls x ++ [DWrite h o a n v]) (tlb x).
Definition handled (n : Z) : bool := (n =? 1) || (n =? 2) || (n =? 4) || (n =? 8).

(** the loop over a rom that ends inside the access (MH 79-88): [k] bytes are left to the end of
    the rom, each is dispatched by itself, the rest of the value stays zero.  The region found
    for a byte of a rom is that rom, unless the map is broken. *)
Definition rom_byte (r : region) (a : Z) (x : st) : res Z :=
  match i_type (r_info r) with
  | ram | rom => bind (of_opt (host_read (hm x) r a 1)) (fun l => Ok (word l))
  | _ => Undefined
  end.
Fixpoint rom_loop (k : nat) (a i : Z) (x : st) : res Z :=
  match k with
  | O => Ok 0
  | S k =>
      bind (of_opt (search s a)) (fun r =>
      bind (rom_byte r a x) (fun b =>
      bind (rom_loop k (a + 1) (i + 1) x) (fun v => Ok (b * 2 ^ (8 * i) + v))))
  end.

(** as_memory_dispatch_read (MH 67-124) of a region that is no alias *)
Definition read_in (r : region) (a n : Z) (x : st) : res (Z * st) :=
  match i_type (r_info r) with
  | ram => bind (of_opt (host_read (hm x) r a n)) (fun l => Ok (word l, x))
  | rom =>
      if r_end r <? a + n - 1 then bind (rom_loop (Z.to_nat (r_end r - a + 1)) a 0 x) (fun v => Ok (v, x))
      else bind (of_opt (host_read (hm x) r a n)) (fun l => Ok (word l, x))
  | mmio => if handled n then Ok (call_read (i_handlers (r_info r)) (i_opaque (r_info r)) a n x) else Abort
  | unmapped => Ok (0, x)
  | alias | pmio => Abort
  end.
(** with the alias resolved first (MH 105-110) *)
Definition dispatch_read (r : region) (a n : Z) (x : st) : res (Z * st) :=
  bind (of_opt (dispatch_resolve fuel (nodes s) r a)) (fun '(r, a) => read_in r a n x).

(** as_memory_dispatch_write (MH 126-177) *)
Definition write_in (r : region) (a n v : Z) (x : st) : res st :=
  match i_type (r_info r) with
  | ram => bind (of_opt (host_write (hm x) r a n (byte_of v) 0)) (fun m => Ok (mkst m (calls x) (tlb x)))
  | rom => Ok x
  | mmio => if handled n then Ok (call_write (i_handlers (r_info r)) (i_opaque (r_info r)) a n v x) else Abort
  | unmapped => Ok x
  | alias | pmio => Abort
  end.
Definition dispatch_write (r : region) (a n v : Z) (x : st) : res st :=
  bind (of_opt (dispatch_resolve fuel (nodes s) r a)) (fun '(r, a) => write_in r a n v x).

(** does the region cover the page (MM 66-67, 79) *)
Definition covers_page (r : region) (q : Z) : bool :=
  (r_start r <=? page q * 4096) && (page q * 4096 + 4095 <=? r_end r).
Definition kind_of (r : region) (q : Z) : lkind :=
  if covers_page r q then
    match i_type (r_info r) with ram => LRam | unmapped => LNone | mmio => LMmio | _ => LRom end
  else LSub.
(** tlb_fill (MM 59-147): the corrected address, and the line of the virtual page *)
Definition fill (va : Z) (x : st) : res (Z * st) :=
  let pa := tr (page va) * 4096 + va mod 4096 in
  bind (of_opt (search s pa)) (fun r0 =>
  bind (of_opt (correct_phys fuel (nodes s) r0 pa)) (fun '(r, q) =>
  Ok (q, mkst (hm x) (calls x)
           (fun p => if p =? page va then Some (mkl (page q) (kind_of r q) r) else tlb x p)))).

(** the bytes of an access that crosses a page (MH 246-262, 287-311): [a] is the address of the
    next byte, [left] the bytes left in the first page, [a2] the start of the second page *)
Fixpoint read_bytes (k : nat) (a left a2 i : Z) (x : st) : res (Z * st) :=
  match k with
  | O => Ok (0, x)
  | S k =>
      bind (of_opt (search s a)) (fun r =>
      bind (dispatch_read r a 1 x) (fun '(b, x) =>
      bind (read_bytes k (if i + 1 =? left then a2 else a + 1) left a2 (i + 1) x) (fun '(v, x) =>
      Ok (b * 2 ^ (8 * i) + v, x))))
  end.
Fixpoint write_bytes (k : nat) (a left a2 i v : Z) (x : st) : res st :=
  match k with
  | O => Ok x
  | S k =>
      bind (of_opt (search s a)) (fun r =>
      bind (dispatch_write r a 1 (byte_of v i) x) (fun x =>
      write_bytes k (if i + 1 =? left then a2 else a + 1) left a2 (i + 1) v x))
  end.

Definition crosses (va n : Z) : bool := negb (page va =? page (va + n - 1)).

(** mem_read_slow (MH 239-269); the last byte of an access at the top of the address space is at
    the bottom *)
Definition read_slow (va n : Z) (x : st) : res (Z * st) :=
  if crosses va n then
    bind (fill va x) (fun '(q, x) =>
    bind (fill ((va + n - 1) mod 2 ^ 32) x) (fun '(q2, x) =>
    read_bytes (Z.to_nat n) q (page (va + n - 1) * 4096 - va) (page q2 * 4096) 0 x))
  else
    bind (fill va x) (fun '(q, x) => bind (of_opt (search s q)) (fun r => dispatch_read r q n x)).
(** mem_write_slow (MH 271-331) *)
Definition write_slow (va n v : Z) (x : st) : res st :=
  if crosses va n then
    bind (fill va x) (fun '(q, x) =>
    bind (fill ((va + n - 1) mod 2 ^ 32) x) (fun '(q2, x) =>
    write_bytes (Z.to_nat n) q (page (va + n - 1) * 4096 - va) (page q2 * 4096) 0 v x))
  else
    bind (fill va x) (fun '(q, x) => bind (of_opt (search s q)) (fun r => dispatch_write r q n v x)).

(** a hit (MM 705-755): [p] is the page of the line and the offset of the address *)
Definition read_hit (l : line) (va n : Z) (x : st) : res (Z * st) :=
  let p := l_page l * 4096 + va mod 4096 in
  match l_kind l with
  | LRam | LRom => bind (of_opt (host_read (hm x) (l_reg l) p n)) (fun b => Ok (word b, x))
  | LMmio => if handled n then Ok (call_read (i_handlers (r_info (l_reg l))) (i_opaque (r_info (l_reg l))) p n x) else Abort
  | LSub => bind (of_opt (search s p)) (fun r => dispatch_read r p n x)
  | LNone => Ok (0, x)
  end.
(** (MM 795-850) *)
Definition write_hit (l : line) (va n v : Z) (x : st) : res st :=
  let p := l_page l * 4096 + va mod 4096 in
  match l_kind l with
  | LRam => bind (of_opt (host_write (hm x) (l_reg l) p n (byte_of v) 0)) (fun m => Ok (mkst m (calls x) (tlb x)))
  | LRom => Ok x
  | LMmio => if handled n then Ok (call_write (i_handlers (r_info (l_reg l))) (i_opaque (r_info (l_reg l))) p n v x) else Abort
  | LSub => bind (of_opt (search s p)) (fun r => dispatch_write r p n v x)
  | LNone => Ok x
  end.

(** mem_read_helper (MM 686-761), mem_write_helper (MM 763-875): an access that crosses a page
    always misses; [hit] tells whether the line allows the access *)
Definition mem_read (hit : bool) (va n : Z) (x : st) : res (Z * st) :=
  match tlb x (page va) with
  | Some l => if hit && negb (crosses va n) then read_hit l va n x else read_slow va n x
  | None => read_slow va n x
  end.
Definition mem_write (hit : bool) (va n v : Z) (x : st) : res st :=
  match tlb x (page va) with
  | Some l => if hit && negb (crosses va n) then write_hit l va n v x else write_slow va n v x
  | None => write_slow va n v x
  end.

Inductive ev := Read (hit : bool) (va n : Z) | Write (hit : bool) (va n v : Z) | Drop (p : Z).
Definition step (x : st) (e : ev) : res st :=
  match e with
  | Read h va n => bind (mem_read h va n x) (fun '(_, x) => Ok x)
  | Write h va n v => mem_write h va n v x
  | Drop p => Ok (mkst (hm x) (calls x) (fun q => if q =? p then None else tlb x q))
  end.
Fixpoint run (x : st) (l : list ev) : res st :=
  match l with [] => Ok x | e :: t => bind (step x e) (fun x => run x t) end.
End Access.

(** ** Ports *)

(** as_io_search_port and as_io_dispatch_read, as_io_dispatch_write (MH 61-65, 179-227), called by
    IN, OUT, INS, OUTS and by io_read_8/16/32, io_write_8/16/32 (IF 1131-1215) *)
Definition port_read (s : aspace) (dev : device) (p n : Z) (c : list dcall) : res (Z * list dcall) :=
  bind (of_opt (search s p)) (fun r =>
  match i_type (r_info r) with
  | pmio => Ok (dev c (i_handlers (r_info r)) (i_opaque (r_info r)) p n mod 2 ^ (8 * n),
                c ++ [DRead (i_handlers (r_info r)) (i_opaque (r_info r)) p n])
  | unmapped => Ok (0, c)
  | _ => Abort
  end).
Definition port_write (s : aspace) (p n v : Z) (c : list dcall) : res (list dcall) :=
  bind (of_opt (search s p)) (fun r =>
  match i_type (r_info r) with
  | pmio => Ok (c ++ [DWrite (i_handlers (r_info r)) (i_opaque (r_info r)) p n v])
  | unmapped => Ok c
  | _ => Abort
  end).

(** mem_init_region_io and mem_destroy_region with io_space set and should_int clear
    (IF 698-789, 872-907); a call that is refused changes nothing *)
Inductive pcall := PortMap (start size h o : Z) | PortUnmap (start size : Z).
Definition port_op (c : pcall) : option asop :=
  match c with
  | PortMap st sz h o => option_map OpInsert (pmio_region st sz h o)
  | PortUnmap st sz => Some (OpErase (fst (destroy_io_range st sz)) (snd (destroy_io_range st sz)))
  end.
Fixpoint ports_run (s : aspace) (l : list pcall) : option aspace :=
  match l with
  | [] => Some s
  | c :: t =>
      match port_op c with
      | None => ports_run s t
      | Some o => match as_step IO_MAX s o with Some s => ports_run s t | None => None end
      end
  end.
