(** * What the integer instructions are supposed to do

    Plain arithmetic on operand values, independent of the lazy flag encoding.
    Only the vocabulary of machine state (registers, flat memory, operands) is
    shared with the model. *)

From Coq Require Import ZArith Bool List.
From Verif Require Import HostModel AluModel.
Import ListNotations.
Local Open Scope Z_scope.

(** ** Status flags as seen through [read_eflags] *)

Record aflags := mkaf { f_cf : bool; f_pf : bool; f_af : bool; f_zf : bool; f_sf : bool; f_of : bool }.

Definition flags_of_eflags (e : Z) : aflags :=
  mkaf (Z.testbit e 0) (Z.testbit e 2) (Z.testbit e 4) (Z.testbit e 6) (Z.testbit e 7)
       (Z.testbit e 11).

(** CF | PF | AF | ZF | SF | OF *)
Definition STATUS : Z := 0x8D5.

(** the bits of EFLAGS that are not status flags *)
Definition control_bits (e : Z) : Z := Z.land e (Z.lnot STATUS).

(** the stored word never holds status flags; established by reset and by every
    writer of the flags (see [C05]) *)
Definition ctx_ok (c : gctx) : Prop := Z.land (eflags c) STATUS = 0.

(** ** Arithmetic *)

Definition modulus (w : width) : Z := 2 ^ wbits w.

Definition signed (w : width) (v : Z) : Z :=
  if v <? 2 ^ (wbits w - 1) then v else v - modulus w.

(** number of ones in the low byte is even *)
Definition even_parity (v : Z) : bool :=
  Nat.even (List.length (List.filter (fun i => Z.testbit v (Z.of_nat i)) (List.seq 0 8))).

Definition fits (w : width) (v : Z) : bool :=
  (- 2 ^ (wbits w - 1) <=? v) && (v <? 2 ^ (wbits w - 1)).

(** flags of a + b + c, for operands below the modulus and c a carry *)
Definition add_flags_spec (w : width) (a b c : Z) : aflags :=
  let r := (a + b + c) mod modulus w in
  mkaf (modulus w <=? a + b + c) (even_parity r) (16 <=? a mod 16 + b mod 16 + c) (r =? 0)
       (signed w r <? 0) (negb (fits w (signed w a + signed w b + c))).

(** flags of a - b - c *)
Definition sub_flags_spec (w : width) (a b c : Z) : aflags :=
  let r := (a - b - c) mod modulus w in
  mkaf (a - b - c <? 0) (even_parity r) (a mod 16 - b mod 16 - c <? 0) (r =? 0)
       (signed w r <? 0) (negb (fits w (signed w a - signed w b - c))).

(** flags of a logical result; AF is undefined by the architecture, the emulator
    clears it *)
Definition logic_flags_spec (w : width) (r : Z) : aflags :=
  mkaf false (even_parity r) false (r =? 0) (signed w r <? 0) false.

Definition cf_in (c : gctx) : Z := b2z (f_cf (flags_of_eflags (read_eflags c))).

Definition alu_value (op : aluop) (w : width) (a b c : Z) : Z :=
  match op with
  | ALU_ADD => (a + b) mod modulus w
  | ALU_ADC => (a + b + c) mod modulus w
  | ALU_SUB | ALU_CMP => (a - b) mod modulus w
  | ALU_SBB => (a - b - c) mod modulus w
  | ALU_AND | ALU_TEST => Z.land a b
  | ALU_OR => Z.lor a b
  | ALU_XOR => Z.lxor a b
  end.

Definition alu_flags (op : aluop) (w : width) (a b c : Z) : aflags :=
  match op with
  | ALU_ADD => add_flags_spec w a b 0
  | ALU_ADC => add_flags_spec w a b c
  | ALU_SUB | ALU_CMP => sub_flags_spec w a b 0
  | ALU_SBB => sub_flags_spec w a b c
  | _ => logic_flags_spec w (alu_value op w a b c)
  end.

(** ** Operands *)

(** the linear address of a memory operand: the offset wraps at the address
    size, the sum with the segment base at 4 GB *)
Definition ea (m : memop) (c : gctx) : Z :=
  match m with
  | MOffs a32 disp seg _ => (segb c seg + disp mod (if a32 then 2 ^ 32 else 2 ^ 16)) mod 2 ^ 32
  | MRm a32 base index disp mod1 seg _ =>
      let b := match base with Some r => gprs c r | None => 0 end in
      let i := match index with Some (r, sc) => gprs c r * 2 ^ sc | None => 0 end in
      let d := match disp with
               | Some d => if mod1 then signed W8 (d mod 256) else d | None => 0 end in
      (segb c seg + (b + i + d) mod (if a32 then 2 ^ 32 else 2 ^ 16)) mod 2 ^ 32
  end.

(** what decoding guarantees: scales are 0..3, and the "base is zero" flag the
    block was translated under still describes the segment *)
Definition memop_ok (m : memop) (c : gctx) : Prop :=
  match m with
  | MOffs _ _ seg z => z = true -> segb c seg = 0
  | MRm _ _ index _ _ seg z =>
      (z = true -> segb c seg = 0) /\
      match index with Some (_, sc) => 0 <= sc <= 3 | None => True end
  end.

Definition rm_ok (o : rm) (c : gctx) : Prop :=
  match o with RmReg _ => True | RmMem m => memop_ok m c end.

Definition read_gop (w : width) (o : gop) (c : gctx) : Z :=
  gget w (g_high o) (g_reg o) (gprs c).

Definition read_rm (w : width) (o : rm) (s : hst) : Z :=
  match o with
  | RmReg g => read_gop w g (ctx s)
  | RmMem m => mload (gmem s) w (ea m (ctx s))
  end.

Definition form_ok (f : form) (c : gctx) : Prop :=
  match f with
  | F_rm_r o _ | F_r_rm _ o | F_rm_imm o _ => rm_ok o c
  | F_eax_imm _ => True
  end.

Definition form_dst (f : form) : rm :=
  match f with
  | F_rm_r d _ | F_rm_imm d _ => d
  | F_r_rm d _ => RmReg d
  | F_eax_imm _ => RmReg (mkgop false EAX)
  end.

Definition form_src_val (w : width) (f : form) (s : hst) : Z :=
  match f with
  | F_rm_r _ g => read_gop w g (ctx s)
  | F_r_rm _ o => read_rm w o s
  | F_eax_imm i | F_rm_imm _ i => i mod modulus w
  end.

(** the memory operand of a form, if any *)
Definition form_mem (f : form) : option memop :=
  match f with
  | F_rm_r (RmMem m) _ | F_r_rm _ (RmMem m) | F_rm_imm (RmMem m) _ => Some m
  | _ => None
  end.

(** the target of a relative branch; with a 16-bit operand size it is cut to 16
    bits *)
Definition branch_target (op16 : bool) (next disp : Z) : Z :=
  (next + disp) mod (if op16 then 2 ^ 16 else 2 ^ 32).

(** ** Observations *)

(** everything but the general registers, memory and status flags is as before *)
Definition frame (s s' : hst) : Prop :=
  segb (ctx s') = segb (ctx s) /\ eip (ctx s') = eip (ctx s) /\ cr4 (ctx s') = cr4 (ctx s) /\
  gsel (ctx s') = gsel (ctx s) /\ masked s' = masked s /\ ctx_ok (ctx s') /\
  control_bits (read_eflags (ctx s')) = control_bits (read_eflags (ctx s)).

Definition flags_now (s : hst) : aflags := flags_of_eflags (read_eflags (ctx s)).

(** the guest sees the state of [s] with [regs], [mem] and status flags [fl] *)
Definition becomes (s s' : hst) (regs : greg -> Z) (mem : Z -> Z) (fl : aflags) : Prop :=
  h_rcx (hr s') = P PCtx /\ frame s s' /\ (forall r, gprs (ctx s') r = regs r) /\
  (forall x, gmem s' x = mem x) /\ flags_now s' = fl.

(** nothing the guest can see has changed *)
Definition untouched (s s' : hst) : Prop := ctx s' = ctx s /\ gmem s' = gmem s /\ masked s' = masked s.

(** writing a value to a register or memory operand *)
Definition regs_after (w : width) (o : rm) (v : Z) (s : hst) : greg -> Z :=
  match o with
  | RmReg g => gput w (g_high g) (g_reg g) v (gprs (ctx s))
  | RmMem _ => gprs (ctx s)
  end.
Definition mem_after (w : width) (o : rm) (v : Z) (s : hst) : Z -> Z :=
  match o with
  | RmReg _ => gmem s
  | RmMem m => mstore (gmem s) w (ea m (ctx s)) v
  end.

(** which access of an instruction that loads, and maybe stores, a memory
    operand faults first *)
Definition first_fault (E : henv) (w : width) (ld st : option memop) (s : hst)
  : option (bool * Z) :=
  match ld with
  | Some m =>
      if e_fault E false (ea m (ctx s)) (wbytes w) then Some (false, ea m (ctx s)) else
      match st with
      | Some m' => if e_fault E true (ea m' (ctx s)) (wbytes w) then Some (true, ea m' (ctx s)) else None
      | None => None
      end
  | None =>
      match st with
      | Some m' => if e_fault E true (ea m' (ctx s)) (wbytes w) then Some (true, ea m' (ctx s)) else None
      | None => None
      end
  end.

Definition rm_mem (o : rm) : option memop := match o with RmReg _ => None | RmMem m => Some m end.

(** an instruction either faults on its first bad access, leaving no trace, or
    completes with the given effect *)
Definition effect (E : henv) (l : list instr) (w : width) (s : hst) (ld st : option memop)
    (regs : greg -> Z) (mem : Z -> Z) (fl : aflags) : Prop :=
  match first_fault E w ld st s with
  | Some (wr, a) => exists s', run E l s = Fault wr a (wbytes w) s' /\ untouched s s'
  | None => exists s', run E l s = Done s' /\ becomes s s' regs mem fl
  end.

(** ** Conditions *)

Definition cond_spec (c : cond) (f : aflags) : bool :=
  match c with
  | C_O => f_of f | C_NO => negb (f_of f)
  | C_B => f_cf f | C_NB => negb (f_cf f)
  | C_Z => f_zf f | C_NZ => negb (f_zf f)
  | C_BE => f_cf f || f_zf f | C_NBE => negb (f_cf f || f_zf f)
  | C_S => f_sf f | C_NS => negb (f_sf f)
  | C_P => f_pf f | C_NP => negb (f_pf f)
  | C_L => xorb (f_sf f) (f_of f) | C_NL => negb (xorb (f_sf f) (f_of f))
  | C_LE => f_zf f || xorb (f_sf f) (f_of f)
  | C_NLE => negb (f_zf f || xorb (f_sf f) (f_of f))
  end.

(** ** One-operand and exchange instructions *)

(** flags of an instruction that leaves CF alone *)
Definition with_cf (cf : bool) (f : aflags) : aflags :=
  mkaf cf (f_pf f) (f_af f) (f_zf f) (f_sf f) (f_of f).

Definition with_zf (zf : bool) (f : aflags) : aflags :=
  mkaf (f_cf f) (f_pf f) (f_af f) zf (f_sf f) (f_of f).

Definition incdec_flags (inc : bool) (w : width) (a : Z) (cf : bool) : aflags :=
  with_cf cf (if inc then add_flags_spec w a 1 0 else sub_flags_spec w a 1 0).

Definition incdec_value (inc : bool) (w : width) (a : Z) : Z :=
  (if inc then a + 1 else a - 1) mod modulus w.

(** XADD: the source register receives the old destination, then the
    destination receives the sum *)
Definition xadd_regs (w : width) (dst : rm) (src : gop) (a b : Z) (s : hst) : greg -> Z :=
  let g := gput w (g_high src) (g_reg src) a (gprs (ctx s)) in
  match dst with
  | RmReg o => gput w (g_high o) (g_reg o) ((a + b) mod modulus w) g
  | RmMem _ => g
  end.

(** CMPXCHG *)
Definition cmpxchg_regs (w : width) (dst : rm) (src : gop) (acc a : Z) (s : hst) : greg -> Z :=
  if acc =? a
  then regs_after w dst (read_gop w src (ctx s)) s
  else gput w false EAX a (gprs (ctx s)).
Definition cmpxchg_mem (w : width) (dst : rm) (src : gop) (acc a : Z) (s : hst) : Z -> Z :=
  if acc =? a then mem_after w dst (read_gop w src (ctx s)) s else gmem s.

(** 64-bit pair of two registers *)
Definition pair64 (hi lo : greg) (c : gctx) : Z :=
  gget W32 false hi (gprs c) * 2 ^ 32 + gget W32 false lo (gprs c).
