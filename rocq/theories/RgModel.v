(** * Changes of the region maps while the cpu runs

    Files: IF = lib86cpu/interface.cpp, TR = lib86cpu/core/translate.cpp,
    PR = lib86cpu/lib86cpu_priv.hpp, SU = lib86cpu/support.cpp.

    A call of mem_init_region_* or mem_destroy_region with should_int set is put in a list and
    takes effect when cpu_do_int serves the interrupt it raised.  So do new handlers of a region
    of mmio or pmio.  The maps themselves are those of [AddrSpaceModel].

    Simplifications:
    - IF 107-108: these functions are called by the thread that runs the cpu (or before it
      runs), so cpu_do_int is one step;
    - the value of the A20 mask is left out (see [A20Model]), the request only decides which of
      the two branches of cpu_do_int inserts the regions;
    - the caches of regions (TLB, code cache) are represented by the maps they were filled from
      since they were last flushed;
    - a struct of handlers, after the defaults were filled in, is a number. *)
From Coq Require Import ZArith List Bool.
From Verif Require Import AddrSpaceModel.
Import ListNotations.
Open Scope Z_scope.

(** region_update_info_t: io_space, start, handlers, opaque *)
Record change := mkc { c_io : bool; c_start : Z; c_h : Z; c_o : Z }.

(** memory_space_tree, io_space_tree, regions_changed, regions_updated (PR 230-231), the bits
    CPU_REGION_INT, CPU_HANDLER_INT and CPU_A20_INT of the interrupt word, and the maps the
    caches were filled from *)
Record st := mkst { mem : aspace; io : aspace; chg : list asop; upd : list change;
                    i_reg : bool; i_hnd : bool; i_a20 : bool; fills : list aspace }.
Definition init : st := mkst (as_create MEM_MAX) (as_create IO_MAX) [] [] false false false [].

(** handlers = data.handlers, opaque = data.opaque (TR 1384-1387, 1391-1394) *)
Definition set_info (h o : Z) (i : rinfo) : rinfo := mk_info (i_type i) h o (i_alias_offset i) (i_aliased i) (i_rom_ptr i) (i_buff_off i).
Definition set_node (h o : Z) (n : node) : node := set_reg (mk_region (r_start (n_reg n)) (r_end (n_reg n)) (set_info h o (r_info (n_reg n)))) n.
(** search the region of an address and change it if it is of the right type (TR 1382-1396) *)
Definition update (ty : mem_type) (s : aspace) (a h o : Z) : option aspace :=
  match get_it (nodes s) a with
  | None => None
  | Some n => Some (if mem_type_eqb (i_type (r_info (n_reg n))) ty then mk_as (modify (nodes s) (n_key n) (set_node h o)) (next_id s) else s)
  end.
(** the for_each of CPU_HANDLER_INT (TR 1381-1396); search(data.start) of the io space takes a port_t *)
Fixpoint updates (m p : aspace) (l : list change) : option (aspace * aspace) :=
  match l with
  | [] => Some (m, p)
  | u :: tl =>
      if c_io u then match update pmio p (c_start u mod 2 ^ 16) (c_h u) (c_o u) with Some p => updates m p tl | None => None end
      else match update mmio m (c_start u) (c_h u) (c_o u) with Some m => updates m p tl | None => None end
  end.

(** cpu_do_int (TR 1364-1450), the bits of regions, handlers and A20 *)
Definition serve (s : st) : option st :=
  if negb (i_reg s || i_hnd s || i_a20 s) then Some s
  else
    match (if i_hnd s then updates (mem s) (io s) (upd s) else Some (mem s, io s)) with
    | None => None
    | Some (m, p) =>
        let us := if i_hnd s then [] else upd s in
        if i_a20 s then
          (** flush, then change the map (TR 1400-1417) *)
          if i_reg s then match as_run MEM_MAX m (chg s) with Some m => Some (mkst m p [] us false false false []) | None => None end
          else Some (mkst m p (chg s) us false false false [])
        else if i_reg s then
          (** change the map, then flush (TR 1418-1431) *)
          match as_run MEM_MAX m (chg s) with Some m => Some (mkst m p [] us false false false []) | None => None end
        else Some (mkst m p (chg s) us false false false (fills s))
    end.

Inductive ev :=
| Call (c : call) (later : bool)                 (* mem_init_region_*, mem_destroy_region of memory; later = should_int *)
| PortNew (start size h o : Z)                   (* mem_init_region_io with io_space, update 0 *)
| PortErase (start size : Z)                     (* mem_destroy_region with io_space *)
| Update (k : Z) (later : bool) (c : change)     (* mem_init_region_io with update <> 0 *)
| A20                                            (* cpu_set_a20 with should_int and a new value (IF 394-408) *)
| Serve                                          (* cpu_do_int *)
| Load                                           (* cpu_load_state: all interrupts cleared, caches flushed (SU 143, 149) *)
| Run.                                           (* guest code runs and fills the caches *)

(** the new state and whether the call returned success *)
Definition step (s : st) (e : ev) : option (st * bool) :=
  match e with
  | Call c true =>
      (** IF 673, 778, 817, 867, 898: put in the list, raise the interrupt *)
      match call_op (mem s) c with
      | None => None
      | Some None => Some (s, false)
      | Some (Some o) => Some (mkst (mem s) (io s) (chg s ++ [o]) (upd s) true (i_hnd s) (i_a20 s) (fills s), true)
      end
  | Call c false =>
      (** IF 677-678, 782-783, 821-822, 871-872, 902-903: change the map, flush *)
      match call_op (mem s) c with
      | None => None
      | Some None => Some (s, false)
      | Some (Some o) => match as_step MEM_MAX (mem s) o with
                         | Some m => Some (mkst m (io s) (chg s) (upd s) (i_reg s) (i_hnd s) (i_a20 s) [], true)
                         | None => None
                         end
      end
  | PortNew a n h o =>
      (** IF 744-762: at once, whatever should_int is *)
      match pmio_region a n h o with
      | None => Some (s, false)
      | Some r => match insert IO_MAX (io s) r with
                  | Some p => Some (mkst (mem s) p (chg s) (upd s) (i_reg s) (i_hnd s) (i_a20 s) (fills s), true)
                  | None => None
                  end
      end
  | PortErase a n =>
      (** IF 889-893 *)
      match erase IO_MAX (io s) (fst (destroy_io_range a n)) (snd (destroy_io_range a n)) with
      | Some p => Some (mkst (mem s) p (chg s) (upd s) (i_reg s) (i_hnd s) (i_a20 s) (fills s), true)
      | None => None
      end
  | Update k later u =>
      (** IF 700-738 *)
      if negb later then Some (s, false)
      else if k =? 1 then Some (mkst (mem s) (io s) (chg s) (upd s ++ [u]) (i_reg s) (i_hnd s) (i_a20 s) (fills s), true)
      else if k =? 2 then Some (mkst (mem s) (io s) (chg s) (upd s ++ [u]) (i_reg s) true (i_a20 s) (fills s), true)
      else if k =? 3 then Some (mkst (mem s) (io s) (chg s) (upd s) (i_reg s) true (i_a20 s) (fills s), true)
      else Some (s, false)
  | A20 => Some (mkst (mem s) (io s) (chg s) (upd s) (i_reg s) (i_hnd s) true (fills s), true)
  | Serve => match serve s with Some s => Some (s, true) | None => None end
  | Load => Some (mkst (mem s) (io s) (chg s) (upd s) false false false [], true)
  | Run => Some (mkst (mem s) (io s) (chg s) (upd s) (i_reg s) (i_hnd s) (i_a20 s) (mem s :: fills s), true)
  end.

(** a history: the final state and the status of each call *)
Fixpoint run (s : st) (l : list ev) : option (st * list bool) :=
  match l with
  | [] => Some (s, [])
  | e :: tl => match step s e with
               | None => None
               | Some (s, b) => match run s tl with Some (s, bs) => Some (s, b :: bs) | None => None end
               end
  end.
