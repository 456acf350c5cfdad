(** * The frame of a far CALL: what the architecture says, on its own terms

    Nothing here uses the functions of SegModel.v, only its state type (Intel manual,
    volume 2, CALL; volume 3, 5.8.5). *)

From Coq Require Import ZArith Bool List.
From Verif Require Import SegModel SegSpec ExcSpec.
Import ListNotations.
Local Open Scope Z_scope.

(** the operand size of a call gate and the number of parameters it copies *)
Definition call_size (g : Z) : Z := if type_of g =? 12 then 4 else 2.
Definition call_params (g : Z) : nat := Z.to_nat (g / 2 ^ 32 mod 32).

Section Spec.
Context (X : memsys).
Notation st := (st X).

(** the wrap-around of the current stack *)
Definition own_width (s : st) : Z := stack_width (Z.testbit (hfl X s) 3).
(** the [k]-th item of [n] bytes on the stack of the caller *)
Definition caller_item (s : st) (n k : Z) : Z := (base (seg X s SS) + (esp X s + n * k) mod own_width s) mod 2 ^ 32.

(** the parameters [k] - 1, ..., 0 on the stack of the caller are pushed below [e] in
    the segment with base [b], where offsets wrap at [w] *)
Fixpoint copied (s : st) (n w b : Z) (k : nat) (e : Z) (m m' : M X) : Prop :=
  match k with
  | O => m' = m
  | S k => exists m1 v m2, rd X (ring X s) 2 n (caller_item s n (Z.of_nat k)) m = (m1, MVal v) /\
      wr X (ring X s) 2 n ((b + (e - n) mod w) mod 2 ^ 32) v m1 = (m2, None) /\ copied s n w b k (e - n) m2 m'
  end.

(** SS and ESP after a far return through the selector [cs], whose frame without the
    stack pointer ends at item [k]: a return to an outer ring pops both *)
Definition returned (s : st) (n k : Z) (m : M X) (cs : Z) (s' : st) : Prop :=
  if ring X s <? rpl cs then
    exists m0 m1 m2 nsp ss d sd, descriptor X (set_mem X m s) cs m0 d /\ pops X s n k [nsp; ss] m0 m1 /\
      descriptor X (set_mem X m1 s) (ss mod 2 ^ 16) m2 sd /\ stack_ok (rpl cs) (ss mod 2 ^ 16) sd = true /\ is_present sd = true /\
      seg X s' SS = decode (ss mod 2 ^ 16) sd /\ esp X s' = new_esp (stack_width (is_big sd)) (esp X s) nsp
  else seg X s' SS = seg X s SS /\ esp X s' = new_esp (own_width s) (esp X s) (esp X s + n * k).
End Spec.
