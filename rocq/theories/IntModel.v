(** * Transcription of INT3, INT n and INTO

    lc86_jit::int_ (lib86cpu/core/emitter/x64/jit.cpp 3762-3800), on top of
    cpu_raise_exception ([raise] in [SegModel]). *)

From Coq Require Import ZArith Bool List.
From Verif Require Import SegModel.
Import ListNotations.
Local Open Scope Z_scope.

Inductive swint := Int3 | IntN (imm : Z) | Into.

(** the template argument idx of int_ and of cpu_raise_exception (INT3_, INTN, INTO:
    jit.cpp 7071-7088) *)
Definition swint_idx (k : swint) : Z := match k with Int3 => 1 | IntN _ => 2 | Into => 3 end.
(** the vector: EXP_BP, the immediate as a byte, EXP_OF (jit.cpp 3775, 3785, 3788) *)
Definition swint_vec (k : swint) : Z := match k with Int3 => 3 | IntN i => i mod 256 | Into => 4 end.

Section Int.
Context (X : memsys).
Notation st := (st X).

(** ld_of (jit.cpp 1815-1821): LEA, XOR and AND on the auxiliary flags word *)
Definition ld_of (a : Z) : Z := Z.land (Z.lxor (w32 (w32 a + w32 a)) (w32 a)) 0x80000000.

(** the stores to exp_info and EIP before the call (jit.cpp 3773-3776, 3783-3794) *)
Definition swint_regs (k : swint) (next : Z) (s : st) : st :=
  set_eip X next (set_xidx X (swint_vec k) (set_xcode X 0 (set_xaddr X 0 s))).

(** The instruction; [next] is instr_eip + instr_bytes.  A debugger
    (CPU_DBG_PRESENT, translate.cpp 526-533) is left out.  INTO with OF clear falls
    through to the next instruction, which is rendered by setting EIP. *)
Definition exec_int (fuel : nat) (k : swint) (next : Z) (s : st) : delivered X :=
  match k with
  | Into => if ld_of (laux X s) =? 0 then Delivered X (set_eip X next s)
            else raise X fuel 3 false (swint_regs Into next s)
  | _ => raise X fuel (swint_idx k) false (swint_regs k next s)
  end.

End Int.
