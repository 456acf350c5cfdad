(** * Permission of port accesses

    Models [gen_check_io_priv] of lib86cpu/core/emitter/x64/jit.cpp (JT 2149-2202), which the
    emitters of IN, OUT, INS and OUTS run before the access (JT 6900, 6914, 7004, 8993, 9007, 9059).
    Simplified: a page fault of the two loads is not modelled, [mem] returns a byte for every
    linear address. *)

From Coq Require Import ZArith Bool.
Local Open Scope Z_scope.

Definition wrap (x : Z) : Z := x mod 2 ^ 32.
(** LD_MEMs(SIZE16) *)
Definition mem16 (mem : Z -> Z) (a : Z) : Z := mem a + 256 * mem (wrap (a + 1)).

(** the state the check depends on; [t_mem] is the linear memory *)
Record env := mkenv { e_cpl : Z; e_iopl : Z; e_vm : bool; t_base : Z; t_limit : Z; t_mem : Z -> Z }.

(** the test made when the block is translated; CPL, IOPL and VM are part of the block's key
    (EFLAGS_CONST, HFLG_CONST), so it is the test of the running code (JT 2153) *)
Definition restricted (e : env) : bool := (e_iopl e <? e_cpl e) || e_vm e.

(** [imm] tells whether the port is an immediate (JT 2168-2175); [size] is 1, 2 or 4.  R10D and R11D hold the
    base plus 102 and the limit before the first load and are used after it; the load is a call
    that does not preserve them, or goes through [load_ipt], which overwrites them (JT 1893-1911).
    [r10] and [r11] are their values after the load. *)
Definition check (e : env) (imm : bool) (port size r10 r11 : Z) : bool :=
  if restricted e then
    if t_limit e <? 103 then false
    else
      let iob := mem16 (t_mem e) (wrap (t_base e + 102)) in
      let off := wrap (iob + Z.shiftr port 3 + (if imm then 1 else 0)) in
      if r11 <? off then false
      else
        let w := mem16 (t_mem e) (wrap (off + r10)) in
        Z.land (Z.shiftr w (Z.land port 7)) (Z.shiftl 1 size - 1) =? 0
  else true.
(** the check if the load left both registers alone *)
Definition check_kept (e : env) (imm : bool) (port size : Z) : bool :=
  check e imm port size (wrap (t_base e + 102)) (t_limit e).
