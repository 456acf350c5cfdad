(** * Instruction at a time: what a translated block has to agree with

    Each instruction is fetched by itself, from the linear address CS:EIP names, and
    executed by itself, with the mode, flags, CS base and page tables that the cpu has at
    that moment. *)

From Coq Require Import ZArith Bool List.
From Verif Require Import SegModel CtxModel.
Import ListNotations.
Local Open Scope Z_scope.

Section Spec.
Context (X : memsys).

Definition pc (s : st X) : Z := w32 (base (seg X s CS) + eip X s).

(** [k] instructions; the first exception or abort stops *)
Fixpoint steps (code : st X -> Z -> ins * Z) (k : nat) (s : st X) : out X unit :=
  match k with
  | O => Ok X _ tt s
  | S k =>
      let '(i, n) := code s (pc s) in
      match emit_all X (ctx_of X s) (pc s) n i s with
      | Ok _ _ _ s1 => steps code k s1
      | o => o
      end
  end.

(** what an instruction fetch depends on: the registers of paging and the privilege level
    (the code itself and the page tables are not written meanwhile) *)
Definition same_tables (s s' : st X) : Prop :=
  cr0 X s = cr0 X s' /\ cr3 X s = cr3 X s' /\ cr4 X s = cr4 X s' /\ cpl X s = cpl X s'.
Definition by_tables (code : st X -> Z -> ins * Z) : Prop := forall s s' p, same_tables s s' -> code s p = code s' p.
(** all page tables the program uses map this code alike *)
Definition by_mode (code : st X -> Z -> ins * Z) : Prop := forall s s' p,
  cr0 X s = cr0 X s' -> cr4 X s = cr4 X s' -> cpl X s = cpl X s' -> code s p = code s' p.

(** the cpu may run a block translated in the state [s0] *)
Definition agrees (s0 s : st X) : Prop := same_tables s0 s /\ key (ctx_of X s0) = key (ctx_of X s).

Definition sets_cr3 (x : ins * Z) : Prop := exists v, fst x = MovCr 3 v.
Definition bytes (l : list (ins * Z)) : Z := fold_right (fun x v => snd x + v) 0 l.

End Spec.
