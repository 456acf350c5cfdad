(** * Segmentation: what the architecture says, on its own terms

    Nothing here uses the functions of SegModel.v, only its state type. *)

From Coq Require Import ZArith Bool List.
From Verif Require Import SegModel.
Local Open Scope Z_scope.

(** ** Segment descriptors (64-bit values) *)
Definition is_system (d : Z) : bool := negb (Z.testbit d 44).
Definition is_code (d : Z) : bool := Z.testbit d 43.
Definition is_conforming (d : Z) : bool := Z.testbit d 43 && Z.testbit d 42.
Definition is_rw (d : Z) : bool := Z.testbit d 41.           (* readable code, writable data *)
Definition is_present (d : Z) : bool := Z.testbit d 47.
Definition is_big (d : Z) : bool := Z.testbit d 54.
Definition dpl_of (d : Z) : Z := d / 2 ^ 45 mod 4.
Definition type_of (d : Z) : Z := d / 2 ^ 40 mod 16.
Definition base_of (d : Z) : Z := d / 2 ^ 16 mod 2 ^ 24 + d / 2 ^ 56 mod 2 ^ 8 * 2 ^ 24.
Definition limit_of (d : Z) : Z :=
  let raw := d mod 2 ^ 16 + d / 2 ^ 48 mod 2 ^ 4 * 2 ^ 16 in
  if Z.testbit d 55 then raw * 2 ^ 12 + (2 ^ 12 - 1) else raw.
Definition decode (sl d : Z) : segr := mkseg sl (base_of d) (limit_of d) (d / 2 ^ 32).

(** gates *)
Definition gate_sel (d : Z) : Z := d / 2 ^ 16 mod 2 ^ 16.
Definition gate_off32 (d : Z) : Z := d / 2 ^ 48 mod 2 ^ 16 * 2 ^ 16 + d mod 2 ^ 16.
Definition gate_off16 (d : Z) : Z := d mod 2 ^ 16.

(** ** Selectors *)
Definition rpl (sl : Z) : Z := sl mod 4.
Definition is_null (sl : Z) : bool := sl <? 4.
Definition index (sl : Z) : Z := sl / 8.
Definition in_ldt (sl : Z) : bool := Z.testbit sl 2.
(** the error code pushed for a selector: without its RPL *)
Definition errcode (sl : Z) : Z := sl / 4 * 4.

Section Spec.
Context (X : memsys).
Notation st := (st X).

Definition tbl_base (s : st) (sl : Z) : Z := if in_ldt sl then base (seg X s LDTR) else gdtb X s.
Definition tbl_limit (s : st) (sl : Z) : Z := if in_ldt sl then limit (seg X s LDTR) else gdtl X s.
(** the descriptor lies within the table *)
Definition in_table (s : st) (sl : Z) : bool := index sl * 8 + 7 <=? tbl_limit s sl.
(** the table does not wrap around the end of the linear address space *)
Definition tables_ok (s : st) : Prop :=
  0 <= gdtb X s /\ 0 <= gdtl X s < 2 ^ 16 /\ gdtb X s + 2 ^ 16 <= 2 ^ 32 /\
  0 <= base (seg X s LDTR) /\ 0 <= limit (seg X s LDTR) /\
  base (seg X s LDTR) + 2 ^ 16 <= 2 ^ 32 /\ base (seg X s LDTR) + limit (seg X s LDTR) < 2 ^ 32.

(** memory delivers [d] for the descriptor of [sl] (read with supervisor rights) *)
Definition descriptor (s : st) (sl : Z) (m : M X) (d : Z) : Prop :=
  rd X (hfl X s mod 4) 2 8 ((tbl_base s sl + index sl * 8) mod 2 ^ 32) (mem X s) = (m, MVal d).

Definition ring (s : st) : Z := hfl X s mod 4.
Definition vm (s : st) : bool := Z.testbit (ef X s) 17.
Definition iopl (s : st) : Z := ef X s / 2 ^ 12 mod 4.

(** the [k]-th item of [n] bytes on the stack; the offset wraps at 64K unless the
    stack is 32-bit and the operand size 32 bits *)
Definition stack_mod (s : st) (n : Z) : Z := if Z.testbit (hfl X s) 3 && (n =? 4) then 2 ^ 32 else 2 ^ 16.
Definition stack_item (s : st) (n k : Z) : Z := ((esp X s + n * k) mod stack_mod s n + base (seg X s SS)) mod 2 ^ 32.
(** reading the items [k], [k+1], ... one after the other gives [vs] *)
Fixpoint pops (s : st) (n k : Z) (vs : list Z) (m m' : M X) : Prop :=
  match vs with
  | nil => m' = m
  | cons v vs => exists m1, rd X (ring s) 0 n (stack_item s n k) m = (m1, MVal v) /\ pops s n (k + 1) vs m1 m'
  end.

End Spec.

(** ** Privilege rules *)

(** DS, ES, FS, GS may be loaded with [d] through [sl] at ring [c] *)
Definition data_type_ok (d : Z) : bool := negb (is_system d) && (negb (is_code d) || is_rw d).
Definition data_priv_ok (c sl d : Z) : bool := is_conforming d || ((c <=? dpl_of d) && (rpl sl <=? dpl_of d)).
(** the rule the code implements: only one of CPL and RPL has to be low enough *)
Definition data_priv_weak (c sl d : Z) : bool := is_conforming d || (c <=? dpl_of d) || (rpl sl <=? dpl_of d).

(** SS may be loaded *)
Definition stack_ok (c sl d : Z) : bool :=
  negb (is_system d) && negb (is_code d) && is_rw d && (dpl_of d =? c) && (rpl sl =? c).

(** what a segment register should hold after returning to ring [c] *)
Definition dropped (c : Z) (f : Z) : bool :=      (* f: the hidden flags word, bits 8..15 are the access byte *)
  Z.testbit f 12 && negb (Z.testbit f 11 && Z.testbit f 10) && (f / 2 ^ 13 mod 4 <? c).

(** a direct transfer to the code segment [d] is allowed at ring [c] *)
Definition direct_ok (c sl d : Z) : bool :=
  negb (is_system d) && is_code d && is_present d &&
  (if is_conforming d then dpl_of d <=? c else (rpl sl <=? c) && (dpl_of d =? c)).
(** the gate [g] may be used at ring [c] *)
Definition gate_ok (c sl g : Z) : bool :=
  is_system g && ((type_of g =? 4) || (type_of g =? 12)) && is_present g && (c <=? dpl_of g) && (rpl sl <=? dpl_of g).


(** what a completed far return through [cs] has checked, apart from the DPL of a
    nonconforming segment *)
Definition cs_checked (X : memsys) (s : st X) (cs d : Z) (m : M X) : Prop :=
  is_null cs = false /\ descriptor X s cs m d /\ is_system d = false /\ is_code d = true /\ is_present d = true /\
  ring X s <= rpl cs /\ (is_conforming d = true -> dpl_of d <= rpl cs).
