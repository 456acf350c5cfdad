(** * Specification: the settings in force *)

From Coq Require Import ZArith Bool List.
From Verif Require Import SetModel.
Import ListNotations.
Local Open Scope Z_scope.

(** The documented settings: one of three syntaxes in the low three bits, bit 11 for the
    debugger, bit 12 for the abort, no others *)
Definition documented (f : Z) : Prop :=
  exists syntax dbg abort, (syntax = 0 \/ syntax = 1 \/ syntax = 2) /\ (dbg = 0 \/ dbg = 1) /\ (abort = 0 \/ abort = 1) /\
    f = syntax + 2 ^ 11 * dbg + 2 ^ 12 * abort.

(** The settings in force after a history: those of the last call with documented ones,
    and none of them at first *)
Inductive in_force : list ev -> Z -> Prop :=
| force_none : in_force [] 0
| force_set l f old : in_force l old -> documented f -> in_force (l ++ [SetFlags f]) f
| force_bad l f old : in_force l old -> ~ documented f -> in_force (l ++ [SetFlags f]) old
| force_other l e old : in_force l old -> (forall f, e <> SetFlags f) -> in_force (l ++ [e]) old.

(** The syntax instructions are printed in, on whichever cpu, after a history with [k]
    cpus made: that of the last cpu made or valid call on any cpu *)
Inductive prints : list wev -> nat -> Z -> Prop :=
| prints_none : prints [] 0 0
| prints_new h k s : prints h k s -> prints (h ++ [New]) (S k) 0
| prints_set h k s i f : prints h k s -> (i < k)%nat -> documented f -> prints (h ++ [On i (SetFlags f)]) k (f mod 8)
| prints_other h k s i e : prints h k s -> ((k <= i)%nat \/ forall f, e = SetFlags f -> ~ documented f) -> prints (h ++ [On i e]) k s.
