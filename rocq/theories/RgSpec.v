(** What a client expects of calls that take effect later *)
From Coq Require Import ZArith List Bool.
From Verif Require Import AddrSpaceModel AddrSpaceSpec RgModel.
Import ListNotations.
Open Scope Z_scope.

(** the calls of a history that concern the memory map, and their statuses *)
Fixpoint calls (l : list ev) : list call := match l with [] => [] | Call c _ :: tl => c :: calls tl | _ :: tl => calls tl end.
Fixpoint statuses (l : list ev) (bs : list bool) : list bool :=
  match l, bs with
  | Call _ _ :: l, b :: bs => b :: statuses l bs
  | _ :: l, _ :: bs => statuses l bs
  | _, _ => []
  end.
(** is a call waiting for an interrupt? *)
Fixpoint waits (w : bool) (l : list ev) : bool :=
  match l with
  | [] => w
  | Call _ true :: tl => waits true tl
  | Serve :: tl => waits false tl
  | _ :: tl => waits w tl
  end.
(** Histories in which every call takes effect in its turn: a call that is to take effect at once
    is not made while another waits, nothing but cpu_do_int takes the interrupt away, no region
    is aliased, and no handlers are updated *)
Fixpoint in_turn (w : bool) (l : list ev) : Prop :=
  match l with
  | [] => True
  | Call (CallAlias _ _ _) _ :: _ => False
  | Call _ true :: tl => in_turn true tl
  | Call _ false :: tl => w = false /\ in_turn w tl
  | Serve :: tl => in_turn false tl
  | Load :: tl => w = false /\ in_turn w tl
  | Update _ _ _ :: _ => False
  | _ :: tl => in_turn w tl
  end.

(** Two maps have the same regions in the same places (handlers and opaque pointers may differ);
    a region is known by the address of its object *)
Definition outline (s : aspace) : list (Z * Z * Z * mem_type) := map (fun n => (n_id n, r_start (n_reg n), r_end (n_reg n), i_type (r_info (n_reg n)))) (nodes s).

(** Calls in units of [g] addresses of memory and [gp] ports *)
Definition ev_ok (g gp : Z) (e : ev) : Prop :=
  match e with
  | Call c _ => call_ok g c
  | PortNew a n _ _ | PortErase a n => 0 <= a < 65536 /\ 0 < n /\ a + n <= 65536 /\ a mod gp = 0 /\ n mod gp = 0
  | Update _ _ u => 0 <= c_start u < 2 ^ 32
  | _ => True
  end.

(** The properties of a region after the updates [l] of one of the two spaces: the last one whose
    address lies in the region, if the region is of that kind *)
Definition updated (io : bool) (l : list change) (r : region) : rinfo :=
  match find (fun u => Bool.eqb (c_io u) io && (r_start r <=? c_start u) && (c_start u <=? r_end r)) (rev l) with
  | Some u => if mem_type_eqb (i_type (r_info r)) (if io then pmio else mmio)
              then mk_info (i_type (r_info r)) (c_h u) (c_o u) (i_alias_offset (r_info r)) (i_aliased (r_info r)) (i_rom_ptr (r_info r)) (i_buff_off (r_info r))
              else r_info r
  | None => r_info r
  end.
Definition with_updates (io : bool) (l : list change) (r : region) : region := mk_region (r_start r) (r_end r) (updated io l r).
