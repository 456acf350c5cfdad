(** * Mode flags and control registers: what they should be, on their own terms

    Nothing here uses the functions of SegModel.v, only its state type. *)

From Coq Require Import ZArith Bool List.
From Verif Require Import SegModel SegSpec.
Import ListNotations.
Local Open Scope Z_scope.

Section Spec.
Context (X : memsys).
Notation st := (st X).

Definition pe (s : st) : bool := Z.testbit (cr0 X s) 0.
Definition big (s : st) (r : sr) : bool := Z.testbit (sflags (seg X s r)) 22.
Definition flat_base (s : st) (r : sr) : bool := base (seg X s r) =? 0.

(** The bits of the derived mode word.  In real mode the privilege level is 0 and code
    and stack are 16 bits wide; in protected mode they come from CS and SS, except
    that the privilege level is 3 in virtual 8086 mode. *)
Definition mode_bits (s : st) : list (Z * bool) :=
  [(0, pe s && (vm X s || Z.testbit (sel (seg X s CS)) 0)); (1, pe s && (vm X s || Z.testbit (sel (seg X s CS)) 1));
   (2, pe s && big s CS); (3, pe s && big s SS); (4, pe s);
   (5, Z.testbit (cr0 X s) 2); (7, Z.testbit (cr0 X s) 5); (9, Z.testbit (cr4 X s) 9);
   (10, Z.testbit (cr0 X s) 3); (11, Z.testbit (cr4 X s) 10); (15, Z.testbit (cr0 X s) 1);
   (19, Z.testbit (cr4 X s) 0); (20, Z.testbit (cr4 X s) 1);
   (21, flat_base s ES); (22, flat_base s CS); (23, flat_base s SS); (24, flat_base s DS);
   (25, flat_base s FS); (26, flat_base s GS)].
Definition mode_ok (s : st) : Prop := Forall (fun p => Z.testbit (hfl X s) (fst p) = snd p) (mode_bits s).

(** the positions of these bits *)
Definition mode_positions : list Z := [0; 1; 2; 3; 4; 5; 7; 9; 10; 11; 15; 19; 20; 21; 22; 23; 24; 25; 26].

End Spec.

(** ** Control registers *)
(** CR0 values the architecture refuses: paging without protection, write-through
    without cache disable *)
Definition cr0_bad (v : Z) : bool :=
  (negb (Z.testbit v 0) && Z.testbit v 31) || (negb (Z.testbit v 30) && Z.testbit v 29).
(** bits of CR0 that can be stored: PE MP EM TS (ET always set) NE WP AM NW CD PG *)
Definition cr0_stored (v : Z) (i : Z) : bool :=
  (i =? 4) || (existsb (Z.eqb i) [0; 1; 2; 3; 5; 16; 18; 29; 30; 31] && Z.testbit v i).
