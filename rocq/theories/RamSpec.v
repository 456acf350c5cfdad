(** * Specification: what a process holds *)

From Coq Require Import ZArith List.
From Verif Require Import RamModel.
Import ListNotations.
Local Open Scope Z_scope.

(** [holds l tr l']: a process that holds [l] holds [l'] after the events [tr], and every
    release was one of something it held at that moment.  delete[] of the null pointer
    does nothing. *)
Inductive holds : list res -> list ev -> list res -> Prop :=
| holds_end l : holds l [] l
| holds_get r l tr l' : holds (r :: l) tr l' -> holds l (Get r :: tr) l'
| holds_put r l1 l2 tr l' : holds (l1 ++ l2) tr l' -> holds (l1 ++ r :: l2) (Put r :: tr) l'
| holds_delete p n l1 l2 tr l' : holds (l1 ++ l2) tr l' -> holds (l1 ++ Heap p n :: l2) (Delete p :: tr) l'
| holds_null l tr l' : holds l tr l' -> holds l (Delete 0 :: tr) l'.

(** Everything acquired is released, nothing else is *)
Definition clean (tr : list ev) : Prop := holds [] tr [].

(** 64 bit words; the documented alignments *)
Definition word (x : Z) : Prop := 0 <= x < 2 ^ 64.
Definition power_of_two (a : Z) : Prop := exists k, 0 <= k /\ a = 2 ^ k.

(** The bytes from [a] to [b] lie in the block of [n] bytes at [p] *)
Definition inside (a b p n : Z) : Prop := p <= a /\ b <= p + n.

(** mmap fails or returns the address of a page *)
Definition page_or_failed (p : Z) : Prop := p = failed \/ 0 < p < 2 ^ 64 /\ p mod 4096 = 0.
