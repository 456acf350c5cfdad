(** * Hooks

    Models [hook_add] and [hook_remove] (lib86cpu/interface.cpp, IF) and the choice between hook and guest
    code in the main loop (lib86cpu/core/translate.cpp, TR), on top of the code cache and the translation
    of addresses.  [kind] says what a block does, by its number: call a host function or run guest code.
    The effect of the host function is not modelled. *)

From Coq Require Import ZArith Bool List.
From Verif Require Import CodeModel.
From Verif Require MmuModel.
Import ListNotations.
Local Open Scope Z_scope.

Record hstate := mkhs { code : state; hooks : Z -> option Z; kind : Z -> option Z }.
Inductive status := Success | Not_found | Guest_exp.

(** HFLG_TRAMP (internal.hpp 89) *)
Definition HFLG_TRAMP : Z := 0x40.
Definition is_tramp (c : ctx) : bool := negb (Z.land (c_hfl c) HFLG_TRAMP =? 0).

(** [hook_add] (IF 1255-1274); [pa] is the result of [get_code_addr], which marks the page *)
Definition hook_add (pa : option Z) (addr h : Z) (cur : ctx) (s : hstate) : status * hstate :=
  match pa with
  | None => (Guest_exp, s)
  | Some p =>
      let c := fst (invalidate false p 1 cur (fetch (mkctx addr p 0 0 0) (code s))) in
      (Success, mkhs c (upd (hooks s) addr (Some h)) (kind s))
  end.
(** [hook_remove] (IF 1282-1301); [pa] is the result of [query_write_addr] *)
Definition hook_remove (pa : option Z) (addr : Z) (cur : ctx) (s : hstate) : status * hstate :=
  match hooks s addr with
  | None => (Not_found, s)
  | Some _ =>
      match pa with
      | None => (Guest_exp, s)
      | Some p => (Success, mkhs (fst (invalidate true p 0 cur (code s))) (upd (hooks s) addr None) (kind s))
      end
  end.

(** the hook that the translation of a block uses (TR 1537-1553).  In the main loop that does not run a
    trampoline the flag is never set, so the two variants agree. *)
Definition take_hook (c : ctx) (s : hstate) : option Z := if is_tramp c then None else hooks s (c_vpc c).
(** one turn of the main loop (TR 1512-1577): the state and what runs; [t] is the block that is made if none is found *)
Definition run (c : ctx) (t : tc) (s : hstate) : hstate * option Z :=
  let s1 := fetch c (code s) in
  match search c s1 with
  | Some u => (mkhs s1 (hooks s) (kind s), kind s (tid u))
  | None => (mkhs (add_block t s1) (hooks s) (upd (kind s) (tid t) (take_hook c s)), take_hook c s)
  end.

(** the translations that the two functions use (IF 1264, 1293; MM.cpp 590-600) *)
Definition pa_of (r : MmuModel.xres) : option Z := match r with MmuModel.XOk pa _ _ => Some pa | MmuModel.XFault _ _ _ => None end.
Definition code_pa (E : MmuModel.menv) (addr : Z) (m : MmuModel.mmu) : option Z := pa_of (MmuModel.get_code_addr E addr m).
Definition query_write_pa (E : MmuModel.menv) (addr : Z) (m : MmuModel.mmu) : option Z :=
  match MmuModel.tlb_find false addr (MmuModel.tlb_access 1 (Z.shiftr (MmuModel.cpl m) 2)) m with
  | Some (_, x) => Some (MmuModel.hit_addr x addr)
  | None => pa_of (MmuModel.mmu_translate false false E addr (Z.lor MmuModel.MMU_IS_WRITE 2) m)
  end.
