(** * DIV and IDIV

    lib86cpu/core/instructions.cpp 1344-1459: divd_helper .. idivb_helper, called
    by the code of DIV (jit.cpp 5815-5888) and IDIV (6675-6748) with the
    zero-extended register or memory operand.  Registers are values below 2^32.
    The C++ expressions are evaluated at the width the language gives them;
    signed division overflow is the distinct outcome [DUndef]. *)

From Coq Require Import ZArith Bool.
Local Open Scope Z_scope.

Inductive dout :=
| DDone (eax edx : Z)
| DRaise                 (* raise_exp_helper(cpu, 0, EXP_DE): #DE with the registers as they were *)
| DUndef.                (* signed overflow in C++: the host's idiv traps *)

Definition sx (n v : Z) : Z :=            (* two's complement of the low [n] bits *)
  let m := Z.land v (Z.ones n) in if Z.testbit m (n - 1) then m - 2 ^ n else m.
Definition zx (n v : Z) : Z := Z.land v (Z.ones n).
Definition put16 (r v : Z) : Z := Z.lor (Z.land r 0xFFFF0000) v.

(** divd_helper (1344-1360) *)
Definition divd (eax edx d : Z) : dout :=
  let D := Z.lor eax (Z.shiftl edx 32) in
  if d =? 0 then DRaise
  else let q := D / d in let r := D mod d in
  if 0xFFFFFFFF <? q then DRaise else DDone (zx 32 q) (zx 32 r).

(** divw_helper (1362-1381) *)
Definition divw (eax edx d : Z) : dout :=
  let D := Z.lor (Z.land eax 0xFFFF) (Z.shiftl (Z.land edx 0xFFFF) 16) in
  if d =? 0 then DRaise
  else let q := D / d in let r := D mod d in
  if 0xFFFF <? q then DRaise
  else DDone (put16 eax (zx 16 q)) (put16 edx (zx 16 r)).

(** divb_helper (1383-1400) *)
Definition divb (eax edx d : Z) : dout :=
  let D := Z.land eax 0xFFFF in
  if d =? 0 then DRaise
  else let q := zx 16 (D / d) in let r := zx 16 (D mod d) in
  if 0xFF <? q then DRaise
  else DDone (Z.lor (Z.lor (Z.land eax 0xFFFF0000) (Z.shiftl (zx 8 r) 8)) (zx 8 q)) edx.

(** C++ division of signed values at [n] bits *)
Definition cdiv (n a b : Z) : option (Z * Z) :=
  if (a =? - 2 ^ (n - 1)) && (b =? -1) then None else Some (Z.quot a b, Z.rem a b).

(** idivd_helper (1402-1419): int64 / int32 promoted to int64 *)
Definition idivd (eax edx d : Z) : dout :=
  let D := sx 64 (Z.lor eax (Z.shiftl edx 32)) in
  let d0 := sx 32 d in
  if d0 =? 0 then DRaise
  else match cdiv 64 D d0 with
  | None => DUndef
  | Some (q, r) => if negb (q =? sx 32 q) then DRaise else DDone (zx 32 q) (zx 32 r)
  end.

(** idivw_helper (1421-1440): int32 / int16 promoted to int *)
Definition idivw (eax edx d : Z) : dout :=
  let D := sx 32 (Z.lor (Z.land eax 0xFFFF) (Z.shiftl (Z.land edx 0xFFFF) 16)) in
  let d0 := sx 16 d in
  if d0 =? 0 then DRaise
  else match cdiv 32 D d0 with
  | None => DUndef
  | Some (q, r) =>
      if negb (q =? sx 16 q) then DRaise
      else DDone (put16 eax (zx 16 q)) (put16 edx (zx 16 r))
  end.

(** idivb_helper (1442-1459): both operands promoted to int, then stored to int16 *)
Definition idivb (eax edx d : Z) : dout :=
  let D := sx 16 (Z.land eax 0xFFFF) in
  let d0 := sx 8 d in
  if d0 =? 0 then DRaise
  else match cdiv 32 D d0 with
  | None => DUndef
  | Some (q, r) =>
      let q := sx 16 q in let r := sx 16 r in
      if negb (q =? sx 8 q) then DRaise
      else DDone (Z.lor (Z.lor (Z.land eax 0xFFFF0000) (Z.shiftl (zx 8 r) 8)) (zx 8 q)) edx
  end.

Definition div_helper (n : Z) (eax edx d : Z) : dout :=
  if n =? 32 then divd eax edx d else if n =? 16 then divw eax edx d else divb eax edx d.
Definition idiv_helper (n : Z) (eax edx d : Z) : dout :=
  if n =? 32 then idivd eax edx d else if n =? 16 then idivw eax edx d else idivb eax edx d.
