(** * What shifts, rotates, bit instructions, multiplications, conversions and
      decimal adjustments are supposed to do

    Arithmetic on operand values, after the architecture manual.  Flags that the
    manual leaves undefined are not constrained. *)

From Coq Require Import ZArith Bool List.
From Verif Require Import HostModel AluModel AluSpec ShiftModel.
Import ListNotations.
Local Open Scope Z_scope.

(** the top bit of a word *)
Definition sign_bit (w : width) (v : Z) : bool := Z.testbit v (wbits w - 1).

(** PF, ZF and SF describe [v] *)
Definition result_flags (w : width) (v : Z) (fl : aflags) : Prop :=
  f_pf fl = even_parity v /\ f_zf fl = (v =? 0) /\ f_sf fl = (signed w v <? 0).

(** the five-bit count: an immediate, or CL *)
Definition count_of (count : option Z) (c : gctx) : Z :=
  (match count with Some n => n | None => gget W8 false ECX (gprs c) end) mod 32.

(** ** Shifts of an operand [a] by [n], 1 <= n <= 31 *)

Definition shift_value (op : shop) (w : width) (a n : Z) : Z :=
  match op with
  | SShl => (a * 2 ^ n) mod modulus w
  | SShr => a / 2 ^ n
  | SSar => (signed w a / 2 ^ n) mod modulus w
  end.

(** the last bit shifted out *)
Definition shift_carry (op : shop) (w : width) (a n : Z) : bool :=
  match op with
  | SShl => Z.testbit a (wbits w - n)
  | SShr => Z.testbit a (n - 1)
  | SSar => Z.testbit (signed w a) (n - 1)
  end.

Definition shift_flags (op : shop) (w : width) (a n : Z) (fl : aflags) : Prop :=
  let v := shift_value op w a n in
  result_flags w v fl /\
  ((n <= wbits w \/ op = SSar) -> f_cf fl = shift_carry op w a n) /\
  (n = 1 -> f_of fl =
     match op with
     | SShl => xorb (sign_bit w v) (shift_carry op w a n)
     | SShr => sign_bit w a
     | SSar => false
     end).

(** ** Double shifts: the bits shifted in come from [b]; 1 <= n <= width *)

Definition dshift_value (op : shdop) (w : width) (a b n : Z) : Z :=
  match op with
  | DShld => (a * 2 ^ n + b / 2 ^ (wbits w - n)) mod modulus w
  | DShrd => (a / 2 ^ n + b * 2 ^ (wbits w - n)) mod modulus w
  end.

Definition dshift_carry (op : shdop) (w : width) (a n : Z) : bool :=
  match op with DShld => Z.testbit a (wbits w - n) | DShrd => Z.testbit a (n - 1) end.

Definition dshift_flags (op : shdop) (w : width) (a b n : Z) (fl : aflags) : Prop :=
  let v := dshift_value op w a b n in
  result_flags w v fl /\ f_cf fl = dshift_carry op w a n /\
  (n = 1 -> f_of fl = xorb (sign_bit w a) (sign_bit w v)).

(** ** Rotates by [n], 1 <= n <= 31: a ring of [w] bits, or of [w] + 1 bits with
    CF on top for the rotates through carry *)

Definition ring_bit (w : width) (a : Z) (cf : bool) (i : Z) : bool :=
  if i <? wbits w then Z.testbit a i else cf.

(** [v] is [a] rotated, [c] the carry afterwards *)
Definition rotated (op : rotop) (w : width) (a : Z) (cf : bool) (n v : Z) (c : bool) : Prop :=
  0 <= v < modulus w /\
  match op with
  | ORol => (forall i, 0 <= i < wbits w -> Z.testbit v i = Z.testbit a ((i - n) mod wbits w)) /\
            c = Z.testbit v 0
  | ORor => (forall i, 0 <= i < wbits w -> Z.testbit v i = Z.testbit a ((i + n) mod wbits w)) /\
            c = sign_bit w v
  | ORcl => forall i, 0 <= i <= wbits w ->
              ring_bit w v c i = ring_bit w a cf ((i - n) mod (wbits w + 1))
  | ORcr => forall i, 0 <= i <= wbits w ->
              ring_bit w v c i = ring_bit w a cf ((i + n) mod (wbits w + 1))
  end.

(** only CF and OF change *)
Definition rotate_flags (op : rotop) (w : width) (v : Z) (c : bool) (n : Z) (old fl : aflags) : Prop :=
  f_cf fl = c /\ f_pf fl = f_pf old /\ f_af fl = f_af old /\ f_zf fl = f_zf old /\
  f_sf fl = f_sf old /\
  (n = 1 -> f_of fl =
     match op with
     | ORol | ORcl => xorb (sign_bit w v) c
     | ORor | ORcr => xorb (sign_bit w v) (Z.testbit v (wbits w - 2))
     end).

(** ** Bit tests *)

Definition bit_value (op : bitop) (a i : Z) : Z :=
  match op with
  | TBt => a
  | TBtc => if Z.testbit a i then a - 2 ^ i else a + 2 ^ i
  | TBtr => if Z.testbit a i then a - 2 ^ i else a
  | TBts => if Z.testbit a i then a else a + 2 ^ i
  end.

Definition bit_flags (a i : Z) (old fl : aflags) : Prop :=
  f_cf fl = Z.testbit a i /\ f_zf fl = f_zf old.

(** where the manual puts bit [idx] of a bit string in memory: [idx] is a signed
    number of the operand's width, the string starts at the operand *)
Definition bit_address (w : width) (base idx : Z) : Z :=
  (base + wbytes w * (signed w idx / wbits w)) mod 2 ^ 32.

(** ** Scans *)

Definition lowest_set (a i : Z) : Prop :=
  0 <= i /\ Z.testbit a i = true /\ forall j, 0 <= j < i -> Z.testbit a j = false.
Definition highest_set (a i : Z) : Prop :=
  0 <= i /\ Z.testbit a i = true /\ forall j, i < j -> Z.testbit a j = false.

(** byte [k] of a word *)
Definition byte_of (v k : Z) : Z := v / 2 ^ (8 * k) mod 256.

(** ** Multiplication *)

(** CF and OF tell that the upper half of the product is needed *)
Definition mul_flags_ok (wide : bool) (fl : aflags) : Prop := f_cf fl = wide /\ f_of fl = wide.

(** the registers of the one-operand forms receive the double-width product *)
Definition product_regs (w : width) (p : Z) (s : hst) : greg -> Z :=
  match w with
  | W8 => gput W16 false EAX p (gprs (ctx s))
  | _ => gput w false EDX (p / modulus w) (gput w false EAX p (gprs (ctx s)))
  end.

(** ** Decimal adjustments, after the manual's pseudo code.  [al], [ah]: old
    values; result: AL, AH, AF, CF *)

Definition aaa_spec (al ah : Z) (af : bool) : Z * Z * bool :=
  if (9 <? al mod 16) || af
  then let ax := (256 * ah + al + 0x106) mod 65536 in (ax mod 16, ax / 256, true)
  else (al mod 16, ah, false).

Definition aas_spec (al ah : Z) (af : bool) : Z * Z * bool :=
  if (9 <? al mod 16) || af
  then let ax := (256 * ah + al - 6) mod 65536 in (ax mod 16, (ax / 256 - 1) mod 256, true)
  else (al mod 16, ah, false).

(** AL, AF, CF *)
Definition daa_spec (al : Z) (af cf : bool) : Z * bool * bool :=
  let low := (9 <? al mod 16) || af in
  let al1 := if low then al + 6 else al in
  let high := (0x99 <? al) || cf in
  ((if high then al1 + 0x60 else al1) mod 256, low, high).

Definition das_spec (al : Z) (af cf : bool) : Z * bool * bool :=
  let low := (9 <? al mod 16) || af in
  let al1 := if low then al - 6 else al in
  let cf1 := low && (cf || (al <? 6)) in
  let high := (0x99 <? al) || cf in
  ((if high then al1 - 0x60 else al1) mod 256, low, if high then true else cf1).

(** ** Shared by the statements *)

(** the instruction completes and the guest sees no change *)
Definition no_change (E : henv) (l : list instr) (s : hst) : Prop :=
  exists s', run E l s = Done s' /\ h_rcx (hr s') = P PCtx /\ untouched s s'.

(** the bit number of a bit test *)
Definition bit_index (w : width) (src : bitsrc) (c : gctx) : Z :=
  match src with BReg g => read_gop w g c | BImm i => i mod 256 end.

(** the bit lies in the addressed word: always with a register operand or an
    immediate index *)
Definition bit_in_range (w : width) (o : rm) (src : bitsrc) (c : gctx) : Prop :=
  match o, src with RmMem _, BReg g => read_gop w g c < wbits w | _, _ => True end.

(** BT stores nothing *)
Definition bit_regs (op : bitop) (w : width) (o : rm) (v : Z) (s : hst) : greg -> Z :=
  if is_bt op then gprs (ctx s) else regs_after w o v s.
Definition bit_mem (op : bitop) (w : width) (o : rm) (v : Z) (s : hst) : Z -> Z :=
  if is_bt op then gmem s else mem_after w o v s.

(** the immediate of the three-operand IMUL, sign-extended *)
Definition imm_value (short : bool) (w : width) (imm : Z) : Z :=
  if short then signed W8 (imm mod 2 ^ 8) else signed w (imm mod modulus w).

(** CBW, CWDE, CWD, CDQ: the sign of the accumulator is extended into AH, the
    upper half of EAX, DX or EDX *)
Inductive conv := KCbw | KCwde | KCwd | KCdq.
Definition emit_conv (k : conv) : list instr :=
  match k with KCbw => emit_cbw | KCwde => emit_cwde | KCwd => emit_cwd | KCdq => emit_cdq end.

Definition conv_regs (k : conv) (g : greg -> Z) : greg -> Z :=
  match k with
  | KCbw => gput W16 false EAX (signed W8 (gget W8 false EAX g)) g
  | KCwde => gput W32 false EAX (signed W16 (gget W16 false EAX g)) g
  | KCwd => gput W16 false EDX (if sign_bit W16 (gget W16 false EAX g) then 0xFFFF else 0) g
  | KCdq => gput W32 false EDX (if sign_bit W32 (gget W32 false EAX g) then 0xFFFFFFFF else 0) g
  end.

(** the address size picks CX or ECX, BX or EBX *)
Definition addr_w (a32 : bool) : width := if a32 then W32 else W16.

(** LOOP, LOOPE and LOOPNE branch while the decremented count is not zero, and
    the last two while ZF has the wanted value *)
Definition loop_taken (k : option bool) (left : Z) (zf : bool) : bool :=
  negb (left =? 0) && match k with None => true | Some z => Bool.eqb zf z end.
