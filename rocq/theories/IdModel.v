(** * Model: what the guest is told about its processor

    cpuid_helper (core/instructions.cpp 1461-1493) over the model specific registers of
    [MsrModel]. *)

From Coq Require Import ZArith Bool List.
From Verif Require Import MsrModel.
Import ListNotations.
Local Open Scope Z_scope.

Record quad := Q { q_eax : Z; q_ebx : Z; q_ecx : Z; q_edx : Z }.

(** core/internal.hpp 505 *)
Definition MICROCODE_ID : Z := Z.shiftl 1 32.

(** instructions.cpp 1466-1492: the registers and what happens to the revision *)
Definition cpuid (leaf : Z) (r : msrs) : quad * msrs :=
  if leaf =? 1 then (Q 0x68A 0 0 0x0383F9FF, if updated r then set_sign_id MICROCODE_ID r else r)
  else if leaf =? 0 then (Q 2 0x756E6547 0x6C65746E 0x49656E69, r)
  else (Q 0x03020101 0 0 0x0C040841, r).

(** What a guest does at privilege level 0: CPUID with EAX, WRMSR with ECX and EDX:EAX *)
Inductive gev := Cpuid (leaf : Z) | Wr (c v : Z).

(** None is an abort of the process; a #GP leaves the registers as they are *)
Definition gstep (e : gev) (r : msrs) : option msrs :=
  match e with
  | Cpuid l => Some (snd (cpuid l r))
  | Wr c v => match write c v r with MOk r1 => Some r1 | MGp => Some r | MAbort => None end
  end.

Fixpoint grun (l : list gev) (r : msrs) : option msrs :=
  match l with [] => Some r | e :: t => match gstep e r with Some r1 => grun t r1 | None => None end end.
