(** * The A20 gate

    Files: IF = lib86cpu/interface.cpp, TR = lib86cpu/core/translate.cpp,
    MM = lib86cpu/core/memory_management.cpp, MH = memory_management.hpp.

    The gate itself (requests, deferred requests, the mask), what the mask does
    to the address and to the region of a guest access, and the histories that
    mix gate requests with accesses through the TLBs of [MmuModel].

    Simplifications:
    - the code cache, flushed together with the TLBs ([tc_clear_cache_and_tlb]),
      is not repeated here: see [CodeModel];
    - the region map does not change during a history;
    - [MmuModel.e_kind], which only selects flag bits of a TLB line, is arbitrary. *)

From Coq Require Import ZArith Bool List.
From Verif Require Import AddrSpaceModel MmuModel MmuSpec.
Import ListNotations.
Local Open Scope Z_scope.

(** [a20_mask], [new_a20] and the CPU_A20_INT bit of the interrupt word *)
Record gate := mkgate { mask : Z; wanted : Z; pending : bool }.

(** the state [cpu_reset] leaves (TR 416); [new_a20] is not initialised *)
Definition gate0 (junk : Z) : gate := mkgate 0xFFFFFFFF junk false.

(** [cpu_set_a20] (IF 394-408).  The second component tells whether the TLBs and
    the code cache were flushed. *)
Definition cpu_set_a20 (closed should_int : bool) (g : gate) : gate * bool :=
  let want := Z.lxor 0xFFFFFFFF (Z.shiftl (if closed then 0 else 1) 20) in
  if mask g =? want then (mkgate (mask g) want (pending g), false)
  else if should_int then (mkgate (mask g) want true, false)
  else (mkgate want want (pending g), true).

(** The A20 part of [cpu_do_int] (TR 1400-1403, 1449) is two steps: apply the
    request, then (after everything else the function does) clear the bit that
    was set when the word was read. *)
Definition int_apply (seen : bool) (g : gate) : gate * bool :=
  if seen then (mkgate (wanted g) (wanted g) (pending g), true) else (g, false).
Definition int_clear (seen : bool) (g : gate) : gate :=
  if seen then mkgate (mask g) (wanted g) false else g.
Definition do_a20 (g : gate) : gate * bool :=
  let '(g', fl) := int_apply (pending g) g in (int_clear (pending g) g', fl).

(** ** Physical addresses *)

(** [correct_phys_addr] after [as_memory_search_addr] (MM 40-57, 64-65): the
    region is looked up, and aliases are resolved, with the address as it was
    before masking.  [None]: no region, or a dangling alias. *)
Definition corrected (s : aspace) (fuel : nat) (m p : Z) : option (region * Z) :=
  match search s p with
  | None => None
  | Some r => match correct_phys fuel (nodes s) r p with
              | None => None
              | Some (r', q) => Some (r', Z.land q m)
              end
  end.

(** the region test of [tlb_fill] (MM 66-67, 79): does the region found above
    cover the page of the masked address? *)
Definition covers_page (r : region) (q : Z) : bool :=
  (r_start r <=? Z.land q NOT_PAGE_MASK) &&
  (Z.land (q + 4096) (Z.lnot 0xFFF) - 1 <=? r_end r).

(** The region and the address an access is dispatched to.
    On a TLB miss (MH 263-291, 293-331) the masked address is looked up. *)
Definition touch_miss (s : aspace) (fuel : nat) (m p : Z) : option (region * Z) :=
  match corrected s fuel m p with
  | None => None
  | Some (_, q) => match search s q with None => None | Some r => Some (r, q) end
  end.
(** On a hit (MM 715-755, 795-850) it is the region stored in the line, unless
    the line is marked as a page of several regions. *)
Definition touch_hit (s : aspace) (fuel : nat) (m p : Z) : option (region * Z) :=
  match corrected s fuel m p with
  | None => None
  | Some (r, q) =>
      if covers_page r q then Some (r, q)
      else match search s q with None => None | Some r => Some (r, q) end
  end.
(** The page walk (MM 324-327, 366-369) reads and writes a directory or table
    entry with the region found before masking and the masked address. *)
Definition touch_walk (s : aspace) (fuel : nat) (m p : Z) : option (region * Z) := corrected s fuel m p.

(** ** Histories *)

Definition env_of (s : aspace) (fuel : nat) (K : Z -> kind) (R : nat -> nat) (m : Z) : menv :=
  mkmenv (fun p => match corrected s fuel m p with Some (_, q) => q | None => p end) K R.

Inductive gop :=
| GMem (o : mop)
| GSet (closed should_int : bool)
| GInt.                                (* cpu_do_int between two blocks *)

Record gmach := mkgm { gt : gate; mm : mmu }.

Definition flushed (fl : bool) (s : mmu) : mmu := if fl then tlb_flush_all s else s.

Definition gstep (E : Z -> menv) (x : gmach) (o : gop) : gmach :=
  match o with
  | GMem o => mkgm (gt x) (mstep (E (mask (gt x))) (mm x) o)
  | GSet c i => let '(g, fl) := cpu_set_a20 c i (gt x) in mkgm g (flushed fl (mm x))
  | GInt => let '(g, fl) := do_a20 (gt x) in mkgm g (flushed fl (mm x))
  end.
Definition grun (E : Z -> menv) (x : gmach) (l : list gop) : gmach := fold_left (gstep E) l x.
Fixpoint ghist_ok (E : Z -> menv) (x : gmach) (l : list gop) : Prop :=
  match l with
  | [] => True
  | o :: tl => match o with GMem o => mop_ok (E (mask (gt x))) (mm x) o | _ => True end /\ ghist_ok E (gstep E x o) tl
  end.

(** ** Requests from another thread

    [cpu_set_a20] with [should_int] may run at any point of [cpu_do_int]. *)
Inductive gev :=
| EvReq (closed : bool)                (* cpu_set_a20(cpu, closed, true) *)
| EvRead                               (* the run loop reads the interrupt word *)
| EvApply                              (* a20_mask = new_a20, flush *)
| EvClear.                             (* clear_int *)
Record gconc := mkgc { gg : gate; seen : bool }.
Definition gev_step (x : gconc) (e : gev) : gconc :=
  match e with
  | EvReq c => mkgc (fst (cpu_set_a20 c true (gg x))) (seen x)
  | EvRead => mkgc (gg x) (pending (gg x))
  | EvApply => mkgc (fst (int_apply (seen x) (gg x))) (seen x)
  | EvClear => mkgc (int_clear (seen x) (gg x)) false
  end.
Definition gev_run (x : gconc) (l : list gev) : gconc := fold_left gev_step l x.
