(** * What the architecture says about debug exceptions

    The registers a program sees, computed from what has been observed alone. *)

From Coq Require Import ZArith Bool List.
From Verif Require Import DtModel.
Import ListNotations.
Local Open Scope Z_scope.

(** Why an exception has to follow now: a trap, for a single step and the registers of the data breakpoints hit, or the
    exception, software interrupt or wake-up [v] *)
Inductive reason := Nothing | Trap (single : bool) (regs : list Z) | Event (v : Z).
(** Address of the next instruction, TF, RF, the armed instruction breakpoints, whether all translated
    code was dropped since they were last changed *)
Record arch := mkarch { apc : Z; atf : bool; arf : bool; aarm : Z -> option Z; afresh : bool; due : reason }.

(** The address after the instruction at [a], modulo 2^32, or where it transfers to *)
Definition next_of (P : prog) (a : Z) (e : effect) : Z :=
  match knd P a with Jump | Call => target e | _ => (a + len P a) mod 2 ^ 32 end.
Definition loads (P : prog) (a : Z) : bool := match knd P a with Jump => true | _ => false end.
Definition or_else {A} (o : option A) (x : A) : A := match o with Some y => y | None => x end.
Definition tf_after (P : prog) (a : Z) (t : bool) (e : effect) : bool := if loads P a then or_else (ltf e) t else t.
(** RF lasts for one instruction, unless that is IRET, which loads it *)
Definition rf_after (P : prog) (a : Z) (e : effect) : bool := if loads P a then or_else (lrf e) false else false.
Definition vectored (P : prog) (a : Z) : bool := match knd P a with Int | Halt => true | _ => false end.
Definition rearms (P : prog) (a : Z) (e : effect) : option (Z -> option Z) :=
  match knd P a with MovDr => larm e | _ => None end.

(** An INT instruction enters its handler with TF clear and is not followed by a single step; a halted cpu waits for
    an interrupt, unless it is to be single stepped *)
Definition after (P : prog) (g : arch) (o : obs) : arch :=
  match o with
  | Exec a t r e =>
    match fault e with
    | Some v => mkarch (apc g) (atf g) (arf g) (aarm g) (afresh g) (Event v)
    | None =>
      mkarch (next_of P a e) (tf_after P a t e) (rf_after P a e)
        (or_else (rearms P a e) (aarm g)) (match rearms P a e with Some _ => false | None => afresh g end)
        (match knd P a, t, hits e with
         | Int, _, _ => Event (vector e)
         | Halt, false, [] => Event (vector e)
         | _, false, [] => Nothing
         | _, _, h => Trap t h
         end)
    end
  | Exc v _ _ _ _ => mkarch (vec P v) false false (aarm g) (afresh g) Nothing
  | Flushed => mkarch (apc g) (atf g) (arf g) (aarm g) true (due g)
  end.

(** When what is observed next is right: instructions are executed in order with the right flags, none
    that is armed unless RF is set, and none while an exception is due; an exception is the one due, or
    that of an armed breakpoint; it saves the address, TF and RF and reports the reason in DR6 *)
Definition right (g : arch) (o : obs) : Prop :=
  match o with
  | Exec a t r _ => due g = Nothing /\ a = apc g /\ t = atf g /\ r = arf g /\ (afresh g = true -> r = false -> aarm g a = None)
  | Exc v p t r d =>
    p = apc g /\ t = atf g /\ r = arf g /\
    match due g with
    | Nothing => v = 1 /\ r = false /\ exists i, aarm g p = Some i /\ (0 <= i -> Z.testbit d i = true)
    | Trap s h => v = 1 /\ (s = true -> Z.testbit d 14 = true) /\ (forall i, In i h -> 0 <= i -> Z.testbit d i = true)
    | Event w => v = w
    end
  | Flushed => due g = Nothing
  end.

Fixpoint all_right (P : prog) (g : arch) (l : list obs) : Prop :=
  match l with [] => due g = Nothing | o :: t => right g o /\ all_right P (after P g o) t end.

(** The executions for which the emulator is right *)
Definition plain (P : prog) (o : obs) : Prop :=
  match o with
  | Exec a t r e =>
    (hits e <> [] -> t = false /\ fault e = None /\ vectored P a = false /\ (loads P a = true -> ldr6 e = None)) /\
    (knd P a = Halt -> t = false) /\
    (r = true -> fault e = None -> vectored P a = false /\ (loads P a = true -> lrf e <> Some true))
  | _ => True
  end.

Definition start (p : Z) : arch := mkarch p false false (fun _ => None) true Nothing.
