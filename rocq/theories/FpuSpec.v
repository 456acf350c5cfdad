(** * What the x87 stack instructions should do, stated on the guest's view of the stack *)

From Coq Require Import ZArith Bool List.
From Verif Require Import FpuModel.
Import ListNotations.
Local Open Scope Z_scope.

(** TOP and the tags are in range *)
Definition wf (s : fpu) : Prop := 0 <= ftop s < 8 /\ forall k, 0 <= k < 8 -> 0 <= ftag s k <= 3.

(** ST(i): the value of register (TOP + i) mod 8, or nothing if that register is empty *)
Definition st (s : fpu) (i : Z) : option Z :=
  let k := (ftop s + i) mod 8 in if ftag s k =? 3 then None else Some (fr s k).

(** the stack after a push of [v], a pop, a replacement of ST(i); or unchanged *)
Definition pushed (v : Z) (s s' : fpu) : Prop :=
  ftop s' = (ftop s - 1) mod 8 /\ st s' 0 = Some v /\ forall i, 0 <= i < 7 -> st s' (i + 1) = st s i.
Definition popped (s s' : fpu) : Prop :=
  ftop s' = (ftop s + 1) mod 8 /\ st s' 7 = None /\ forall i, 0 <= i < 7 -> st s' i = st s (i + 1).
Definition replaced (i v : Z) (s s' : fpu) : Prop :=
  ftop s' = ftop s /\ st s' i = Some v /\ forall j, 0 <= j < 8 -> j <> i -> st s' j = st s j.
Definition same_stack (s s' : fpu) : Prop :=
  ftop s' = ftop s /\ forall i, 0 <= i < 8 -> st s' i = st s i.
Fixpoint popped_n (n : nat) (s s' : fpu) : Prop :=
  match n with O => same_stack s s' | S n => exists m, popped_n n s m /\ popped m s' end.
Definition then_ (P Q : fpu -> fpu -> Prop) (s s' : fpu) : Prop := exists m, P s m /\ Q m s'.

(** the invalid operation exception is masked *)
Definition im (s : fpu) : bool := Z.testbit (fctrl s) 0.
(** an unmasked exception is pending *)
Definition pending (s : fpu) : bool := Z.testbit (fstatus s) 7.

(** the status word after a stack fault: IE and SF set, C1 telling overflow from
    underflow, ES set if the exception is unmasked; [cc] are condition codes the
    instruction sets besides *)
Definition fault_status (over : bool) (cc : Z -> bool) (s s' : fpu) : Prop :=
  forall b, 0 <= b < 16 ->
    Z.testbit (fstatus s') b =
      if (b =? 0) || (b =? 6) then true
      else if b =? 9 then over
      else if (b =? 7) && negb (im s) then true
      else if cc b then true
      else Z.testbit (fstatus s) b.
Definition no_cc (b : Z) : bool := false.

(** a tag agrees with the class of the value: 0 normal, 1 zero, 2 anything else *)
Definition exponent (v : Z) : Z := (v / 2 ^ 64) mod 2 ^ 15.
Definition significand (v : Z) : Z := v mod 2 ^ 64.
Definition class (v : Z) : Z :=
  if (exponent v =? 0) && (significand v =? 0) then 1
  else if (0 <? exponent v) && (exponent v <? 2 ^ 15 - 1) && (2 ^ 63 <=? significand v) then 0
  else 2.
Definition tags_agree (s : fpu) : Prop :=
  forall k, 0 <= k < 8 -> ftag s k = 3 \/ ftag s k = class (fr s k).

(** the "real indefinite" QNaN *)
Definition indefinite : Z := 2 ^ 80 - 2 ^ 62.
