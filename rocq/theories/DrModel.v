(** * Debug registers and watchpoints

    Models lib86cpu/core/breakpoint.cpp (BP), [update_drN_helper] of
    lib86cpu/core/instructions.cpp (IS), the MOV DR emitters of
    lib86cpu/core/emitter/x64/jit.cpp (JT) and the places of
    lib86cpu/core/translate.cpp (TR) that touch the debug registers.
    Not modelled: the host page protection that makes data accesses of watched pages reach the
    checks in the XBOX_CPU build. *)

From Coq Require Import ZArith Bool List.
Import ListNotations.
Local Open Scope Z_scope.

(** [wp_info] (lib86cpu_priv.hpp): register number, first and last address *)
Record wp := mkwp { w_idx : Z; w_lo : Z; w_hi : Z }.
(** DR0-DR3, DR6, DR7, CR4.DE, EFLAGS.RF, the lists [wp_io] and [wp_data] of [cpu_t], and whether
    CPU_DBG_TRAP_INT is raised *)
Record dbg := mkdbg { dr : Z -> Z; dr6 : Z; dr7 : Z; de : bool; rf : bool; io : list wp; data : list wp; trap : bool }.

(** [cpu_check_watchpoint_enabled] (BP 11-16) *)
Definition enabled (d7 i : Z) : bool := negb (Z.land (Z.shiftr d7 (i * 2)) 3 =? 0).
(** [cpu_get_watchpoint_type] (BP 18-22), the DR7_TYPE values (internal.hpp 357-362) *)
Definition wtype (d7 i : Z) : Z := Z.land (Z.shiftr d7 (16 + i * 4)) 3.
(** [cpu_get_watchpoint_length] (BP 24-29) *)
Definition wlen (d7 i : Z) : Z := let l := Z.land (Z.shiftr d7 (18 + i * 4)) 3 in if l =? 2 then 8 else l + 1.
(** the entries built by [update_drN_helper]: 32 bit (IS 1006-1008, 1036-1038) and 16 bit (IS 994-996, 1031-1033) addresses *)
Definition align (v len : Z) : Z := Z.land v (Z.lxor 0xFFFFFFFF (len - 1)).
Definition data_wp (d7 v i : Z) : wp :=
  let lo := align v (wlen d7 i) in mkwp i lo ((lo + wlen d7 i - 1) mod 2 ^ 32).
Definition io_wp (d7 v i : Z) : wp :=
  let lo := align v (wlen d7 i) mod 2 ^ 16 in mkwp i lo ((lo + wlen d7 i - 1) mod 2 ^ 16).

(** the loops that replace the first entry of a register (IS 992-999, 1004-1015) *)
Fixpoint replace (i : Z) (w : wp) (l : list wp) : list wp :=
  match l with
  | [] => []
  | x :: t => if w_idx x =? i then w :: t else x :: replace i w t
  end.

(** [update_drN_helper], cases 0-3 (IS 984-1019) *)
Definition write_dri (i v : Z) (s : dbg) : dbg :=
  let d := fun k => if k =? i then v else dr s k in
  if wtype (dr7 s) i =? 2 then
    mkdbg d (dr6 s) (dr7 s) (de s) (rf s)
      (if enabled (dr7 s) i && de s then replace i (io_wp (dr7 s) v i) (io s) else io s) (data s) (trap s)
  else
    mkdbg d (dr6 s) (dr7 s) (de s) (rf s) (io s)
      (if enabled (dr7 s) i then replace i (data_wp (dr7 s) v i) (data s) else data s) (trap s).
(** [update_drN_helper], case 7 (IS 1021-1048) *)
Definition write_dr7 (v : Z) (s : dbg) : dbg :=
  let idx := [0; 1; 2; 3] in
  mkdbg (dr s) (dr6 s) v (de s) (rf s)
    (map (fun i => io_wp v (dr s i) i) (filter (fun i => enabled v i && (wtype v i =? 2)) idx))
    (map (fun i => data_wp v (dr s i) i) (filter (fun i => enabled v i && negb (wtype v i =? 2)) idx))
    (trap s).
Definition set_dr6 (v : Z) (s : dbg) : dbg := mkdbg (dr s) v (dr7 s) (de s) (rf s) (io s) (data s) (trap s).
Definition set_trap (b : bool) (s : dbg) : dbg := mkdbg (dr s) (dr6 s) (dr7 s) (de s) (rf s) (io s) (data s) b.
Definition set_de (b : bool) (s : dbg) : dbg := mkdbg (dr s) (dr6 s) (dr7 s) b (rf s) (io s) (data s) (trap s).
Definition set_rf (b : bool) (s : dbg) : dbg := mkdbg (dr s) (dr6 s) (dr7 s) (de s) b (io s) (data s) (trap s).
(** entering the #DB handler clears DR7.GD without the helper (TR 592, 833, 965) *)
Definition clear_gd (s : dbg) : dbg :=
  mkdbg (dr s) (dr6 s) (Z.land (dr7 s) (Z.lxor 0xFFFFFFFF 0x2000)) (de s) (rf s) (io s) (data s) (trap s).

(** MOV DRn, r32 and MOV r32, DRn (JT 7901-7931, 7972-8040): #DB with DR6.BD if DR7.GD, then #GP
    unless CPL is 0, then #UD for DR4 and DR5 if CR4.DE, else the access.  The block link that
    follows is not modelled. *)
Inductive dout (A : Type) := DOk (a : A) | DDb (s : dbg) | DGp | DUd.
Arguments DOk {A}. Arguments DDb {A}. Arguments DGp {A}. Arguments DUd {A}.
Definition guard {A : Type} (cpl n : Z) (s : dbg) (k : dout A) : dout A :=
  if negb (Z.land (dr7 s) 0x2000 =? 0) then DDb (set_dr6 (Z.lor (dr6 s) 0x2000) s)
  else if negb (cpl =? 0) then DGp
  else if ((n =? 4) || (n =? 5)) && de s then DUd
  else k.
Definition mov_to (cpl n v : Z) (s : dbg) : dout dbg :=
  guard cpl n s
    (DOk (if n <? 4 then write_dri n v s
          else if (n =? 4) || (n =? 6) then set_dr6 (Z.lor v 0xFFFF0FF0) s
          else write_dr7 v s)).
Definition mov_from (cpl n : Z) (s : dbg) : dout Z :=
  guard cpl n s (DOk (if n <? 4 then dr s n else if (n =? 4) || (n =? 6) then dr6 s else dr7 s)).

(** kinds of access passed to the checks *)
Inductive kind := Write | Read | Fetch | Port.
(** [cpu_check_watchpoints] (BP 42-73): whether the watched register of type [t] matches *)
Definition matches (k : kind) (t : Z) (s : dbg) : bool :=
  match k with
  | Write => (t =? 1) || (t =? 3)
  | Fetch => negb (rf s)
  | Read => t =? 3
  | Port => t =? 2
  end.
(** DR6 |= 1 << idx; a fetch throws, the other accesses raise CPU_DBG_TRAP_INT (BP 61-72) *)
Definition hit (i : Z) (s : dbg) : dbg := set_dr6 (Z.lor (dr6 s) (Z.shiftl 1 i)) s.
(** the loops of [cpu_check_data_watchpoints] and [cpu_check_io_watchpoints] (BP 75-93); [last] is the
    last address of the access as the C++ arithmetic computes it; the result tells whether a debug
    exception was thrown *)
Fixpoint check (k : kind) (a last : Z) (l : list wp) (s : dbg) : dbg * bool :=
  match l with
  | [] => (s, false)
  | w :: t =>
    if (w_lo w <=? last) && (a <=? w_hi w) && matches k (wtype (dr7 s) (w_idx w)) s then
      match k with
      | Fetch => (hit (w_idx w) s, true)
      | _ => check k a last t (set_trap true (hit (w_idx w) s))
      end
    else check k a last t s
  end.
(** data: [addr + size - 1] in uint32_t; ports: [port + size - 1] is computed in uint32_t from a uint16_t *)
Definition check_data (k : kind) (a size : Z) (s : dbg) : dbg * bool := check k a ((a + size - 1) mod 2 ^ 32) (data s) s.
Definition check_io (p size : Z) (s : dbg) : dbg * bool := check Port p (p + size - 1) (io s) s.

(** after [cpu_new] (TR 392-412): the lists are empty, the registers hold their reset values *)
Definition reset : dbg := mkdbg (fun _ => 0) 0xFFFF0FF0 0x400 false false [] [] false.
