(** * Transcription of the integer instructions of the JIT

    Every definition is the sequence of host instructions emitted by the named
    function of lib86cpu/core/emitter/x64/jit.cpp (paths below are relative to
    it), in the order of emission.  The C++ switches on the operand size, the
    operand kind and the template parameters are the parameters of the
    definitions.  Not modelled: the opcode decoding in front of each sequence
    (the caller supplies operands and size), [op_info] offsets (operands are
    named), and everything emitted around an instruction (hooks, timers). *)

From Coq Require Import ZArith Bool List.
From Verif Require Import HostModel.
Import ListNotations.
Local Open Scope Z_scope.

(** ** Notation for sized registers, as in the macros of jit.cpp:60-200 *)

Definition AL := Rg W8 RAX.   Definition AX := Rg W16 RAX.  Definition hEAX := Rg W32 RAX.
Definition BL := Rg W8 RBX.   Definition BX := Rg W16 RBX.  Definition hEBX := Rg W32 RBX.
Definition CL := Rg W8 RCX.   Definition CX := Rg W16 RCX.  Definition hECX := Rg W32 RCX.
Definition DL := Rg W8 RDX.   Definition DX := Rg W16 RDX.  Definition hEDX := Rg W32 RDX.
Definition R8B := Rg W8 R8.   Definition R8W := Rg W16 R8.  Definition R8D := Rg W32 R8.
Definition R9B := Rg W8 R9.   Definition R9D := Rg W32 R9.
Definition R10B := Rg W8 R10. Definition R10W := Rg W16 R10. Definition R10D := Rg W32 R10.
Definition R11W := Rg W16 R11. Definition R11D := Rg W32 R11.
Definition hRAX := Rg W64 RAX. Definition hRBX := Rg W64 RBX. Definition hRCX := Rg W64 RCX.
Definition hRDX := Rg W64 RDX. Definition hR8 := Rg W64 R8.

Definition MOV := IMov. Definition MOVZX := IMovzx. Definition MOVSX := IMovsx.
Definition AND := IBin BAnd. Definition OR := IBin BOr. Definition XOR := IBin BXor.
Definition ADD := IBin BAdd. Definition SUB := IBin BSub.
Definition NOT := INot. Definition NEG := INeg. Definition CMP := ICmp. Definition TEST := ITest.
Definition SHL d n := IShift SShl d (Im W8 n).
Definition SHR d n := IShift SShr d (Im W8 n).

Definition c_eflags := Mm W32 (MCtx RCX CEflags).
Definition c_res := Mm W32 (MCtx RCX (CRes 0)).
Definition c_aux := Mm W32 (MCtx RCX (CAux 0)).
Definition c_eip := Mm W32 (MCtx RCX CEip).
Definition c_reg w h r := Mm w (MCtx RCX (CReg h r)).
Definition c_segb s := Mm W32 (MCtx RCX (CSegb s)).
Definition local w i := Mm w (MLoc i).
Definition i32 z := Im W32 z.

(** jit.cpp:558 *)
Definition RELOAD_RCX_CTX := IPtr RCX PCtx.

(** jit.cpp:535-540 *)
Definition LD_CF d := [MOV d c_aux; AND d (i32 0x80000000)].
Definition LD_ZF d := [MOV d c_res].
Definition LD_AF d := [MOV d c_aux; AND d (i32 8)].

(** [ld_of], jit.cpp:1815-1821 *)
Definition LD_OF (d a : hreg) :=
  [ILea W32 d (Some a) (Some (a, 0)) 0; XOR (Rg W32 d) (Rg W32 a);
   AND (Rg W32 d) (i32 0x80000000)].

(** [ld_sf], jit.cpp:1823-1829 *)
Definition LD_SF (r a : hreg) :=
  [SHR (Rg W32 r) 0x1F; AND (Rg W32 a) (i32 1); XOR (Rg W32 r) (Rg W32 a)].

(** [ld_pf], jit.cpp:1831-1841 *)
Definition LD_PF (d r a : hreg) :=
  [MOV (Rg W32 d) (Rg W32 r); MOV R8D (Rg W32 a); SHR hR8 8;
   ILeaPar r RCX; XOR hR8 (Rg W64 d); MOVZX (Rg W32 d) R8B;
   MOVZX (Rg W32 d) (Mm W8 (MTab d r))].

(** ** Effective addresses: [get_operand<true>], jit.cpp:1058-1182

    [m_zero] is the translation-time flag "the base of this segment is zero"
    (hflags & sel_mask).  [mod1] is [raw.modrm.mod == 1]. *)

Inductive memop :=
| MOffs (a32 : bool) (disp : Z) (seg : sreg) (m_zero : bool)
| MRm (a32 : bool) (base : option greg) (index : option (greg * Z))
      (disp : option Z) (mod1 : bool) (seg : sreg) (m_zero : bool).

Definition emit_ea (m : memop) : list instr :=
  match m with
  | MOffs a32 disp seg z =>
      [MOV hEDX (i32 (if a32 then disp else Z.land disp 0xFFFF))] ++
      (if z then [] else [ADD hEDX (c_segb seg)])
  | MRm true base index disp mod1 seg z =>
      (match base with
       | Some b => [MOV R10D (c_reg W32 false b)]
       | None => [XOR R10D R10D]
       end) ++
      (match index with
       | Some (i, sc) => [MOV R11D (c_reg W32 false i);
                          ILea W32 R10 (Some R10) (Some (R11, sc)) 0]
       | None => []
       end) ++
      (match disp with
       | Some d =>
           let d := if mod1 then sext W8 d else d in
           if z then [ILea W32 RDX None (Some (R10, 0)) d]
           else [MOV hEDX (c_segb seg); ILea W32 RDX (Some RDX) (Some (R10, 0)) d]
       | None =>
           [MOV hEDX R10D] ++ (if z then [] else [ADD hEDX (c_segb seg)])
       end)
  | MRm false base index disp mod1 seg z =>
      (match base with
       | Some b => [MOVZX R10D (c_reg W16 false b)]
       | None => [XOR R10D R10D]
       end) ++
      (match index with
       | Some (i, sc) => [MOV R11W (c_reg W16 false i); SHL R11W sc; ADD R10W R11W]
       | None => []
       end) ++
      (match disp with
       | Some d =>
           let d := Im W16 (if mod1 then sext W8 d else d) in
           if z then [ADD R10W d; MOVZX hEDX R10W]
           else [MOV hEDX (c_segb seg); ADD R10W d; ADD hEDX R10D]
       | None =>
           if z then [MOVZX hEDX R10W] else [MOV hEDX (c_segb seg); ADD hEDX R10D]
       end)
  end.

(** ** Operands *)

Record gop := mkgop { g_high : bool; g_reg : greg }.
Definition g_opnd (w : width) (o : gop) : opnd := c_reg w (g_high o) (g_reg o).

Inductive rm := RmReg (o : gop) | RmMem (m : memop).

(** ** Flag generation *)

(** [gen_sum_vec16_8], jit.cpp:1577-1611, with [w] = W8 or W16 *)
Definition gen_sum_vec16_8 (w : width) (b sum : opnd) : list instr :=
  let a := Rg w RCX in let temp := Rg w RAX in
  let shift := match w with W16 => 16 | _ => 24 end in
  [AND a b; OR temp b; NOT sum; AND temp sum; OR a temp; MOVZX hEAX a;
   MOV R9D hEAX; SHL hEAX shift; OR hEAX R9D; AND hEAX (i32 0xC0000008)].

(** [gen_sum_vec32], jit.cpp:1613-1628 *)
Definition gen_sum_vec32 (b : opnd) : list instr :=
  [NOT R8D; OR hEAX b; AND hECX b; AND hEAX R8D; OR hEAX hECX;
   AND hEAX (i32 0xC0000008)].

(** [gen_sub_vec16_8], jit.cpp:1630-1665 *)
Definition gen_sub_vec16_8 (w : width) (b sub : opnd) : list instr :=
  let a := Rg w RCX in let temp := Rg w RAX in
  let shift := match w with W16 => 16 | _ => 24 end in
  [NOT a; AND a b; XOR temp b; NOT temp; AND temp sub; OR a temp; MOVZX hEAX a;
   MOV R9D hEAX; SHL hEAX shift; OR hEAX R9D; AND hEAX (i32 0xC0000008)].

(** [gen_sub_vec32], jit.cpp:1667-1683 *)
Definition gen_sub_vec32 (b : opnd) : list instr :=
  [NOT hECX; XOR hEAX b; AND hECX b; NOT hEAX; AND hEAX R8D; OR hEAX hECX;
   AND hEAX (i32 0xC0000008)].

Definition is_rax (o : opnd) : bool :=
  match o with Rg _ RAX => true | _ => false end.

(** [set_flags_sum], jit.cpp:1685-1737; the sum is in R8 *)
Definition set_flags_sum (w : width) (a b : opnd) : list instr :=
  (match w with W32 | W64 => [] | _ => [MOVSX R8D (Rg w R8)] end) ++
  [MOV c_res R8D; MOV (Rg w RCX) a] ++
  (if is_rax a then [] else [MOV (Rg w RAX) (Rg w RCX)]) ++
  (match w with W32 | W64 => gen_sum_vec32 b | _ => gen_sum_vec16_8 w b (Rg w R8) end) ++
  [RELOAD_RCX_CTX; MOV c_aux hEAX].

(** [set_flags_sub], jit.cpp:1739-1793; the difference is in R8 *)
Definition set_flags_sub (w : width) (a b : opnd) : list instr :=
  (match w with W32 | W64 => [] | _ => [MOVSX R8D (Rg w R8)] end) ++
  [MOV c_res R8D; MOV (Rg w RCX) a] ++
  (if is_rax a then [] else [MOV (Rg w RAX) (Rg w RCX)]) ++
  (match w with W32 | W64 => gen_sub_vec32 b | _ => gen_sub_vec16_8 w b (Rg w R8) end) ++
  [RELOAD_RCX_CTX; MOV c_aux hEAX].

(** [set_flags], jit.cpp:1795-1813 *)
Definition set_flags (r : opnd) (a : opnd) (w : width) : list instr :=
  (match w with
   | W32 | W64 => [MOV c_res r]
   | _ => [MOVSX hEAX r; MOV c_res hEAX]
   end) ++ [MOV c_aux a].

(** ** Operand plumbing: jit.cpp:1275-1575

    [lam res src] is the lambda of the instruction; [sum] and [wr] are the
    template parameters [is_sum] and [write_dst]. *)

Definition flags_of (sum : bool) := if sum then set_flags_sum else set_flags_sub.

(** [r_to_rm_flags], jit.cpp:1319-1375 *)
Definition r_to_rm_flags (sum wr : bool) (w : width) (lam : opnd -> opnd -> list instr)
    (dst : rm) (src : gop) : list instr :=
  let s := Rg w RBX in let d := Rg w RAX in let r := Rg w R8 in
  match dst with
  | RmReg o =>
      [MOV d (g_opnd w o); MOV s (g_opnd w src); MOV r d] ++ lam r s ++
      (if wr then [MOV (g_opnd w o) r] else []) ++ flags_of sum w d s
  | RmMem m =>
      emit_ea m ++
      (if wr then
         [MOV hEBX hEDX; ILoad w; MOV hEDX hEBX; MOV s (g_opnd w src); MOV r d] ++ lam r s ++
         [MOV (local w 0) d; MOV (local w 1) r; IStore w;
          MOV d (local w 0); MOV r (local w 1)]
       else [ILoad w; MOV s (g_opnd w src); MOV r d] ++ lam r s) ++
      flags_of sum w d s
  end.

(** [rm_to_r_flags], jit.cpp:1405-1451 *)
Definition rm_to_r_flags (sum wr : bool) (w : width) (lam : opnd -> opnd -> list instr)
    (dst : gop) (src : rm) : list instr :=
  match src with
  | RmReg o =>
      let d := Rg w RAX in let s := Rg w RBX in let r := Rg w R8 in
      [MOV d (g_opnd w dst); MOV s (g_opnd w o); MOV r d] ++ lam r s ++
      (if wr then [MOV (g_opnd w dst) r] else []) ++ flags_of sum w d s
  | RmMem m =>
      let d := Rg w RBX in let s := Rg w RDX in let r := Rg w R8 in
      emit_ea m ++
      [ILoad w; MOV s (Rg w RAX); MOV d (g_opnd w dst); MOV r d] ++ lam r s ++
      (if wr then [MOV (g_opnd w dst) r] else []) ++ flags_of sum w d s
  end.

(** [imm_to_eax_flags], jit.cpp:1466-1485 *)
Definition imm_to_eax_flags (sum wr : bool) (w : width) (lam : opnd -> opnd -> list instr)
    (imm : Z) : list instr :=
  let d := Rg w RAX in let r := Rg w R8 in let s := Im w imm in
  let o := g_opnd w (mkgop false EAX) in
  [MOV d o; MOV r d] ++ lam r s ++ (if wr then [MOV o r] else []) ++ flags_of sum w d s.

(** [imm_to_rm_flags], jit.cpp:1524-1575 *)
Definition imm_to_rm_flags (sum wr : bool) (w : width) (lam : opnd -> opnd -> list instr)
    (dst : rm) (imm : Z) : list instr :=
  let d := Rg w RAX in let s := Im w imm in
  match dst with
  | RmReg o =>
      let r := Rg w R8 in
      [MOV d (g_opnd w o); MOV r d] ++ lam r s ++
      (if wr then [MOV (g_opnd w o) r] else []) ++ flags_of sum w d s
  | RmMem m =>
      let r := Rg w RBX in let t := Rg w R8 in
      emit_ea m ++
      (if wr then
         [MOV hEBX hEDX; ILoad w; MOV hEDX hEBX; MOV (local w 0) d; MOV r d] ++ lam r s ++
         [MOV t r; IStore w; MOV d (local w 0); MOV t r]
       else [ILoad w; MOV r d] ++ lam r s ++ [MOV t r]) ++
      flags_of sum w d s
  end.

(** [r_to_rm], jit.cpp:1275-1317 *)
Definition r_to_rm (wr : bool) (w : width) (lam : opnd -> opnd -> list instr)
    (dst : rm) (src : gop) : list instr :=
  let s := Rg w RDX in let d := Rg w RAX in
  match dst with
  | RmReg o =>
      [MOV s (g_opnd w src); MOV d (g_opnd w o)] ++ lam d s ++
      (if wr then [MOV (g_opnd w o) d] else []) ++ set_flags d (i32 0) w
  | RmMem m =>
      emit_ea m ++
      (if wr then
         [MOV hEBX hEDX; ILoad w; MOV s (g_opnd w src)] ++ lam d s ++
         [MOV hEDX hEBX; MOV (Rg w R8) d; MOV (Rg w RBX) d; IStore w] ++
         set_flags (Rg w RBX) (i32 0) w
       else
         [ILoad w; MOV s (g_opnd w src)] ++ lam d s ++ set_flags d (i32 0) w)
  end.

(** [rm_to_r], jit.cpp:1377-1403 *)
Definition rm_to_r (wr : bool) (w : width) (lam : opnd -> opnd -> list instr)
    (dst : gop) (src : rm) : list instr :=
  let d := Rg w RBX in let s := Rg w RAX in
  [MOV d (g_opnd w dst)] ++
  (match src with
   | RmReg o => [MOV s (g_opnd w o)]
   | RmMem m => emit_ea m ++ [ILoad w]
   end) ++ lam d s ++ (if wr then [MOV (g_opnd w dst) d] else []) ++
  set_flags d (i32 0) w.

(** [imm_to_eax], jit.cpp:1453-1464 *)
Definition imm_to_eax (wr : bool) (w : width) (lam : opnd -> opnd -> list instr)
    (imm : Z) : list instr :=
  let d := Rg w RAX in let o := g_opnd w (mkgop false EAX) in
  [MOV d o] ++ lam d (Im w imm) ++ (if wr then [MOV o d] else []) ++ set_flags d (i32 0) w.

(** [imm_to_rm], jit.cpp:1487-1522 *)
Definition imm_to_rm (wr : bool) (w : width) (lam : opnd -> opnd -> list instr)
    (dst : rm) (imm : Z) : list instr :=
  let d := Rg w RAX in
  match dst with
  | RmReg o =>
      [MOV d (g_opnd w o)] ++ lam d (Im w imm) ++
      (if wr then [MOV (g_opnd w o) d] else []) ++ set_flags d (i32 0) w
  | RmMem m =>
      emit_ea m ++
      (if wr then
         [MOV hEBX hEDX; ILoad w] ++ lam d (Im w imm) ++
         [MOV hEDX hEBX; MOV (Rg w R8) d; MOV (Rg w RBX) d; IStore w] ++
         set_flags (Rg w RBX) (i32 0) w
       else [ILoad w] ++ lam d (Im w imm) ++ set_flags d (i32 0) w)
  end.

(** ** Two-operand arithmetic and logic *)

Inductive aluop := ALU_ADD | ALU_ADC | ALU_SUB | ALU_SBB | ALU_CMP
                 | ALU_AND | ALU_OR | ALU_XOR | ALU_TEST.

(** the lambdas: ADC 4318-4426, ADD_ 4429-4513, SBB 9924-10032, SUB_ 10561-10645,
    CMP_ 5269-5351, AND_ 4528-4612, OR_ 8896-8980, XOR_ 10932-11012, TEST_ 10660-10707 *)
Definition lam_of (op : aluop) (w : width) (r s : opnd) : list instr :=
  match op with
  | ALU_ADD => [ADD r s]
  | ALU_ADC => LD_CF R9D ++ [SHR R9D 31; ADD r s; ADD r (Rg w R9)]
  | ALU_SUB | ALU_CMP => [SUB r s]
  | ALU_SBB => LD_CF R9D ++ [SHR R9D 31; ADD (Rg w R9) s; SUB r (Rg w R9)]
  | ALU_AND | ALU_TEST => [AND r s]
  | ALU_OR => [OR r s]
  | ALU_XOR => [XOR r s]
  end.

Definition is_logic (op : aluop) : bool :=
  match op with ALU_AND | ALU_OR | ALU_XOR | ALU_TEST => true | _ => false end.
Definition is_sum (op : aluop) : bool :=
  match op with ALU_ADD | ALU_ADC => true | _ => false end.
Definition writes (op : aluop) : bool :=
  match op with ALU_CMP | ALU_TEST => false | _ => true end.

(** the operand forms of the opcodes *)
Inductive form :=
| F_rm_r (dst : rm) (src : gop)      (* op r/m, r *)
| F_r_rm (dst : gop) (src : rm)      (* op r, r/m *)
| F_eax_imm (imm : Z)                (* op (e)ax/al, imm *)
| F_rm_imm (dst : rm) (imm : Z).     (* op r/m, imm; 0x83 passes the extended imm8 *)

Definition emit_alu (op : aluop) (w : width) (f : form) : list instr :=
  let l := lam_of op w in
  match f with
  | F_rm_r d s => if is_logic op then r_to_rm (writes op) w l d s
                  else r_to_rm_flags (is_sum op) (writes op) w l d s
  | F_r_rm d s => if is_logic op then rm_to_r (writes op) w l d s
                  else rm_to_r_flags (is_sum op) (writes op) w l d s
  | F_eax_imm i => if is_logic op then imm_to_eax (writes op) w l i
                   else imm_to_eax_flags (is_sum op) (writes op) w l i
  | F_rm_imm d i => if is_logic op then imm_to_rm (writes op) w l d i
                    else imm_to_rm_flags (is_sum op) (writes op) w l d i
  end.

(** ** One-operand arithmetic *)

(** the tail of INC_ (6973-6982) and DEC_ (5796-5805) *)
Definition keep_cf (fl : list instr) : list instr :=
  LD_CF R11D ++ fl ++
  [MOV hEAX c_aux] ++ LD_OF RDX RAX ++
  [XOR hEDX R11D; SHR hEDX 1; OR hEDX R11D; AND hEAX (i32 0x3FFFFFFF); OR hEDX hEAX;
   MOV c_aux hEDX].

(** INC_ (jit.cpp:6928-6989) and DEC_ (jit.cpp:5751-5812) *)
Definition emit_incdec (inc : bool) (w : width) (o : rm) : list instr :=
  let op := if inc then BAdd else BSub in
  (match o with
   | RmReg g =>
       [MOV (Rg w RBX) (g_opnd w g); MOV (Rg w R8) (Rg w RBX);
        IBin op (Rg w R8) (Im w 1); MOV (g_opnd w g) (Rg w R8)]
   | RmMem m =>
       emit_ea m ++
       [MOV hEBX hEDX; ILoad w; MOV hEDX hEBX; MOV (Rg w R8) (Rg w RAX);
        MOV (Rg w RBX) (Rg w RAX); IBin op (Rg w R8) (Im w 1);
        MOV (local w 0) (Rg w R8); IStore w; MOV (Rg w R8) (local w 0)]
   end) ++
  keep_cf (flags_of inc w (Rg w RBX) (Im w 1)).

(** NEG_ (jit.cpp:8806-8849) *)
Definition emit_neg (w : width) (o : rm) : list instr :=
  match o with
  | RmReg g =>
      [MOV (Rg w RBX) (g_opnd w g); MOV (Rg w R8) (Rg w RBX); NEG (Rg w R8);
       MOV (g_opnd w g) (Rg w R8)]
  | RmMem m =>
      emit_ea m ++
      [MOV hEBX hEDX; ILoad w; MOV hEDX hEBX; MOV (Rg w RBX) (Rg w RAX); NEG (Rg w RAX);
       MOV (Rg w R8) (Rg w RAX); MOV (local w 0) (Rg w RAX); IStore w;
       MOV (Rg w R8) (local w 0)]
  end ++ set_flags_sub w (Im w 0) (Rg w RBX).

(** NOT_ (jit.cpp:8858-8893) *)
Definition emit_not (w : width) (o : rm) : list instr :=
  match o with
  | RmReg g => [MOV (Rg w RAX) (g_opnd w g); NOT (Rg w RAX); MOV (g_opnd w g) (Rg w RAX)]
  | RmMem m =>
      emit_ea m ++
      [MOV hEBX hEDX; ILoad w; MOV hEDX hEBX; NOT (Rg w RAX); MOV (Rg w R8) (Rg w RAX);
       IStore w]
  end.

(** ** Exchange forms *)

(** XADD (jit.cpp:10806-10853) *)
Definition emit_xadd (w : width) (dst : rm) (src : gop) : list instr :=
  let s := Rg w RBX in let d := Rg w RAX in let r := Rg w R8 in
  [MOV s (g_opnd w src)] ++
  match dst with
  | RmReg o =>
      [MOV d (g_opnd w o); MOV (g_opnd w src) d; MOV r d; ADD r s; MOV (g_opnd w o) r] ++
      set_flags_sum w d s
  | RmMem m =>
      emit_ea m ++
      [MOV (local W32 0) hEDX; ILoad w; MOV r d; ADD r s; MOV hEDX (local W32 0);
       MOV (local w 0) d; MOV (local w 1) r; IStore w; MOV d (local w 0); MOV r (local w 1);
       MOV (g_opnd w src) d] ++
      set_flags_sum w d s
  end.

(** CMPXCHG (jit.cpp:5463-5524); labels 0 = equal, 1 = done *)
Definition emit_cmpxchg (w : width) (dst : rm) (src : gop) : list instr :=
  let c := Rg w RBX in let d := Rg w RAX in let acc := g_opnd w (mkgop false EAX) in
  [MOV c acc] ++
  match dst with
  | RmReg o =>
      let s := Rg w RDX in let r := Rg w R8 in
      [MOV d (g_opnd w o); MOV r d; SUB r c; IJcc CEQ 0; MOV acc d; IJmp 1; ILab 0;
       MOV s (g_opnd w src); MOV (g_opnd w o) s; ILab 1] ++
      set_flags_sub w d c
  | RmMem m =>
      let s := Rg w R8 in let r := Rg w R10 in
      emit_ea m ++
      [MOV (local W32 0) hEDX; ILoad w; MOV hEDX (local W32 0); MOV r d; SUB r c;
       MOV (local w 0) d; MOV (local w 1) r; IJcc CEQ 0; MOV acc d; IJmp 1; ILab 0;
       MOV s (g_opnd w src); IStore w; ILab 1; MOV d (local w 0); MOV s (local w 1)] ++
      set_flags_sub w d c
  end.

(** CMPXCHG8B (jit.cpp:5527-5577) *)
Definition emit_cmpxchg8b (m : memop) : list instr :=
  emit_ea m ++
  [MOV (local W32 0) hEDX; ILoad W64; MOV hEDX (c_reg W32 false EDX);
   MOV hEBX (c_reg W32 false EAX); SHL hRDX 32; OR hRDX hRBX; CMP hRAX hRDX;
   MOV hEDX (local W32 0); IJcc CEQ 0; MOV hRBX hRAX; MOV hR8 hRAX; IStore W64;
   MOV (c_reg W32 false EAX) hEBX; SHR hRBX 32; MOV (c_reg W32 false EDX) hEBX;
   MOV hEDX c_res; OR hEDX (i32 0x100); MOV c_res hEDX; IJmp 1;
   ILab 0; MOV R8D (c_reg W32 false ECX); MOV hEBX (c_reg W32 false EBX); SHL hR8 32;
   OR hR8 hRBX; IStore W64; MOV R8D c_res; MOV R9D c_aux; MOV hEAX R8D; MOV hEDX R9D;
   SHL hEAX 8; XOR hEAX hEDX; AND hEDX (i32 0xFFFF00FE); AND hEAX (i32 0xFF00);
   OR hEAX hEDX] ++ LD_SF R8 R9 ++
  [OR hEAX R8D; MOV c_res (i32 0); MOV c_aux hEAX; ILab 1].

(** ** Conditions *)

Inductive cond := C_O | C_NO | C_B | C_NB | C_Z | C_NZ | C_BE | C_NBE
                | C_S | C_NS | C_P | C_NP | C_L | C_NL | C_LE | C_NLE.

(** The Jcc family, jit.cpp:7161-7435: target selection up to the final CMOV *)
Definition emit_jcc_sel (c : cond) (next_eip jmp_eip : Z) : list instr :=
  let sel := [MOV R9D (i32 next_eip); MOV hEBX (i32 jmp_eip)] in
  match c with
  | C_O => [MOV hEDX c_aux] ++ LD_OF RAX RDX ++ sel ++
           [CMP hEAX (i32 0x80000000); ICmov CEQ R9D hEBX]
  | C_NO => [MOV hEDX c_aux] ++ LD_OF RAX RDX ++ sel ++
           [CMP hEAX (i32 0); ICmov CEQ R9D hEBX]
  | C_B => LD_CF hEAX ++ sel ++ [CMP hEAX (i32 0x80000000); ICmov CEQ R9D hEBX]
  | C_NB => LD_CF hEAX ++ sel ++ [CMP hEAX (i32 0); ICmov CEQ R9D hEBX]
  | C_Z => LD_ZF hEAX ++ sel ++ [CMP hEAX (i32 0); ICmov CEQ R9D hEBX]
  | C_NZ => LD_ZF hEAX ++ sel ++ [CMP hEAX (i32 0); ICmov CNE R9D hEBX]
  | C_BE => LD_CF hEAX ++ [MOV hEDX (i32 0); MOV hEBX (i32 1); CMP hEAX (i32 0x80000000);
           ICmov CEQ hEDX hEBX] ++ LD_ZF hEAX ++
           [MOV R8D (i32 0); CMP hEAX (i32 0); ICmov CEQ R8D hEBX; OR hEDX R8D;
            CMP hEDX (i32 1)] ++ sel ++ [ICmov CEQ R9D hEBX]
  | C_NBE => LD_CF hEAX ++ [MOV hEDX (i32 0); MOV hEBX (i32 1); CMP hEAX (i32 0);
           ICmov CEQ hEDX hEBX; MOV hEAX c_aux] ++ LD_ZF hEAX ++
           [MOV R8D (i32 0); CMP hEAX (i32 0); ICmov CNE R8D hEBX; AND hEDX R8D;
            CMP hEDX (i32 1)] ++ sel ++ [ICmov CEQ R9D hEBX]
  | C_S => [MOV hEAX c_res; MOV hEDX c_aux] ++ LD_SF RAX RDX ++ sel ++
           [CMP hEAX (i32 1); ICmov CEQ R9D hEBX]
  | C_NS => [MOV hEAX c_res; MOV hEDX c_aux] ++ LD_SF RAX RDX ++ sel ++
           [CMP hEAX (i32 0); ICmov CEQ R9D hEBX]
  | C_P => [MOV hEDX c_res; MOV hEBX c_aux] ++ LD_PF RAX RDX RBX ++ sel ++
           [CMP hEAX (i32 0); ICmov CEQ R9D hEBX]
  | C_NP => [MOV hEDX c_res; MOV hEBX c_aux] ++ LD_PF RAX RDX RBX ++ sel ++
           [CMP hEAX (i32 1); ICmov CEQ R9D hEBX]
  | C_L => [MOV hEDX c_aux] ++ LD_OF RAX RDX ++ [MOV hEBX c_res] ++ LD_SF RBX RDX ++
           [SHR hEAX 0x1F; XOR hEAX hEBX] ++ sel ++ [CMP hEAX (i32 1); ICmov CEQ R9D hEBX]
  | C_NL => [MOV hEDX c_aux] ++ LD_OF RAX RDX ++ [MOV hEBX c_res] ++ LD_SF RBX RDX ++
           [SHR hEAX 0x1F; XOR hEAX hEBX] ++ sel ++ [CMP hEAX (i32 0); ICmov CEQ R9D hEBX]
  | C_LE => LD_ZF hEAX ++ [MOV R8D (i32 0); MOV hEBX (i32 1); CMP hEAX (i32 0);
           ICmov CEQ R8D hEBX; MOV hEDX c_aux] ++ LD_OF RBX RDX ++ LD_SF RAX RDX ++
           [SHR hEBX 0x1F; XOR hEAX hEBX; MOV R9D (i32 0); MOV hEBX (i32 1);
            CMP hEAX (i32 1); ICmov CEQ R9D hEBX; OR R8D R9D; CMP R8D (i32 1)] ++ sel ++
           [ICmov CEQ R9D hEBX]
  | C_NLE => LD_ZF hEAX ++ [MOV R8D (i32 0); MOV hEBX (i32 1); CMP hEAX (i32 0);
           ICmov CNE R8D hEBX; MOV hEDX c_aux] ++ LD_OF RBX RDX ++ LD_SF RAX RDX ++
           [SHR hEBX 0x1F; XOR hEAX hEBX; MOV R9D (i32 0); MOV hEBX (i32 1);
            CMP hEAX (i32 0); ICmov CEQ R9D hEBX; AND R8D R9D; CMP R8D (i32 1)] ++ sel ++
           [ICmov CEQ R9D hEBX]
  end.

(** JCC_start (7437-7446) and JCC_end (7448-7461).  [cs_base] is the base at
    translation time.  [gen_tc_linking_jmp] is [ILink]. *)
Definition jcc_target (size16 : bool) (next_eip disp : Z) : Z :=
  let j := w32 (next_eip + disp) in if size16 then Z.land j 0xFFFF else j.

Definition emit_jcc (c : cond) (size16 : bool) (next_eip disp cs_base : Z) : list instr :=
  emit_jcc_sel c next_eip (jcc_target size16 next_eip disp) ++
  [MOV c_eip R9D; ADD R9D (i32 cs_base); MOV hEBX R9D; ILink].

(** The condition computed into R8B by SETcc (10123-10301) and CMOVcc (5062-5240);
    the two families emit the same sequences *)
Definition emit_cond (c : cond) : list instr :=
  match c with
  | C_B => LD_CF hEAX ++ [CMP hEAX (i32 0x80000000); ISet CEQ R8B]
  | C_BE => LD_CF hEAX ++ [CMP hEAX (i32 0x80000000); ISet CEQ DL] ++ LD_ZF hEAX ++
            [CMP hEAX (i32 0); ISet CEQ R8B; OR DL R8B; CMP DL (Im W8 1); ISet CEQ R8B]
  | C_L => [MOV hEDX c_aux] ++ LD_OF RAX RDX ++ [MOV hEBX c_res] ++ LD_SF RBX RDX ++
           [SHR hEAX 0x1F; XOR hEAX hEBX; CMP hEAX (i32 1); ISet CEQ R8B]
  | C_LE => LD_ZF hEAX ++ [CMP hEAX (i32 0); ISet CEQ R8B; MOV hEDX c_aux] ++
            LD_OF RBX RDX ++ LD_SF RAX RDX ++
            [SHR hEBX 0x1F; XOR hEAX hEBX; CMP hEAX (i32 1); ISet CEQ R9B; OR R8B R9B;
             CMP R8B (Im W8 1); ISet CEQ R8B]
  | C_NB => LD_CF hEAX ++ [CMP hEAX (i32 0); ISet CEQ R8B]
  | C_NBE => LD_CF hEAX ++ [CMP hEAX (i32 0); ISet CEQ DL] ++ LD_ZF hEAX ++
             [CMP hEAX (i32 0); ISet CNE R8B; AND DL R8B; CMP DL (Im W8 1); ISet CEQ R8B]
  | C_NL => [MOV hEDX c_aux] ++ LD_OF RAX RDX ++ [MOV hEBX c_res] ++ LD_SF RBX RDX ++
            [SHR hEAX 0x1F; XOR hEAX hEBX; CMP hEAX (i32 0); ISet CEQ R8B]
  | C_NLE => LD_ZF hEAX ++ [CMP hEAX (i32 0); ISet CNE R8B; MOV hEDX c_aux] ++
             LD_OF RBX RDX ++ LD_SF RAX RDX ++
             [SHR hEBX 0x1F; XOR hEAX hEBX; CMP hEAX (i32 0); ISet CEQ R9B; AND R8B R9B;
              CMP R8B (Im W8 1); ISet CEQ R8B]
  | C_NO => [MOV hEDX c_aux] ++ LD_OF RAX RDX ++ [CMP hEAX (i32 0); ISet CEQ R8B]
  | C_NP => [MOV hEDX c_res; MOV hEBX c_aux] ++ LD_PF RAX RDX RBX ++
            [CMP hEAX (i32 1); ISet CEQ R8B]
  | C_NS => [MOV hEAX c_res; MOV hEDX c_aux] ++ LD_SF RAX RDX ++
            [CMP hEAX (i32 0); ISet CEQ R8B]
  | C_NZ => LD_ZF hEAX ++ [CMP hEAX (i32 0); ISet CNE R8B]
  | C_O => [MOV hEDX c_aux] ++ LD_OF RAX RDX ++ [CMP hEAX (i32 0x80000000); ISet CEQ R8B]
  | C_P => [MOV hEDX c_res; MOV hEBX c_aux] ++ LD_PF RAX RDX RBX ++
           [CMP hEAX (i32 0); ISet CEQ R8B]
  | C_S => [MOV hEAX c_res; MOV hEDX c_aux] ++ LD_SF RAX RDX ++
           [CMP hEAX (i32 1); ISet CEQ R8B]
  | C_Z => LD_ZF hEAX ++ [CMP hEAX (i32 0); ISet CEQ R8B]
  end.

(** SETCC (jit.cpp:10308-10320) *)
Definition emit_setcc (c : cond) (o : rm) : list instr :=
  emit_cond c ++
  match o with
  | RmReg g => [MOV (g_opnd W8 g) R8B]
  | RmMem m => emit_ea m ++ [IStore W8]
  end.

(** CMOVCC (jit.cpp:5242-5267) *)
Definition emit_cmovcc (c : cond) (w : width) (dst : greg) (src : rm) : list instr :=
  emit_cond c ++ [MOVZX hEBX R8B] ++
  (match src with
   | RmReg g => [MOV (Rg w RAX) (g_opnd w g)]
   | RmMem m => emit_ea m ++ [ILoad w]
   end) ++
  [TEST hEBX hEBX; MOV (Rg w RDX) (c_reg w false dst);
   ICmov CNE (Rg w RDX) (Rg w RAX); MOV (c_reg w false dst) (Rg w RDX)].

(** ** The flag instructions *)

(** CLC_ 4975-4985, CMC 5045-5060, STC_ 10397-10409 *)
Definition emit_clc : list instr :=
  [MOV hEAX c_aux] ++ LD_OF RDX RAX ++
  [AND hEAX (i32 0x3FFFFFFF); SHR hEDX 1; OR hEAX hEDX; MOV c_aux hEAX].
Definition emit_cmc : list instr :=
  [MOV hEAX c_aux; MOV hEDX hEAX; NOT hEDX; AND hEDX (i32 0x80000000)] ++ LD_OF RBX RAX ++
  [AND hEAX (i32 0x3FFFFFFF); XOR hEBX hEDX; SHR hEBX 1; OR hEDX hEBX; OR hEAX hEDX;
   MOV c_aux hEAX].
Definition emit_stc : list instr :=
  [MOV hEDX c_aux] ++ LD_OF RAX RDX ++
  [AND hEDX (i32 0x3FFFFFFF); SHR hEAX 1; XOR hEAX (i32 0xC0000000); OR hEAX hEDX;
   MOV c_aux hEAX].

(** CLD 4988-4995, STD 10411-10419 *)
Definition emit_cld : list instr :=
  [MOV hEDX c_eflags; AND hEDX (i32 (Z.lnot 0x400)); MOV c_eflags hEDX].
Definition emit_std : list instr :=
  [MOV hEDX c_eflags; OR hEDX (i32 0x400); MOV c_eflags hEDX].

(** LAHF (jit.cpp:7573-7606) *)
Definition emit_lahf : list instr :=
  [MOV hEDX c_res; MOVZX hEAX (Mm W8 (MCtx RCX (CAux 1))); MOVZX hEBX DL; XOR hRBX hRAX;
   IPtr RAX PParity; MOVZX R8D (Mm W8 (MTab RBX RAX)); XOR hEAX hEAX; XOR R8D (i32 1);
   MOV hEBX (i32 0x10); TEST hEDX hEDX; MOV hEDX c_aux; ICmov CEQ hEAX hEBX; MOV hEBX hEDX;
   OR R8D hEAX; SHL hEBX 7; MOVZX hEAX (Mm W8 (MCtx RCX (CRes 3))); XOR hEAX hEBX;
   SHL R8D 2; AND hEAX (i32 0x80); MOV hEBX hEDX; AND hEBX (i32 8); SHR hEDX 0x1F;
   OR R8D (i32 2); ADD hEBX hEBX; OR hEAX R8D; OR hEAX hEBX; OR hEAX hEDX;
   MOV (c_reg W8 true EAX) AL].

(** SAHF (jit.cpp:9883-9914) *)
Definition emit_sahf : list instr :=
  [MOVZX R8D (c_reg W8 true EAX); MOV hEDX R8D; MOV hEBX R8D; AND hEDX (i32 1);
   AND hEBX (i32 0x10); SHL hEDX 0x1E; ILea W32 RAX None (Some (R8, 2)) 0; NOT hEAX;
   AND hEAX (i32 0x100); MOV c_res hEAX; MOV R9D c_aux] ++ LD_OF RAX R9 ++
  [SHR hEAX 1; XOR hEDX hEAX; MOV hEAX R8D; SHR hEAX 6; OR hEBX hEAX; MOV hEAX R8D;
   SHL hEAX 6; NOT hEAX; SHR hEBX 1; OR hEDX hEBX; SHL R8D 0x1F; AND hEAX (i32 0x100);
   OR hEDX hEAX; OR hEDX R8D; MOV c_aux hEDX].

(** ** The flags API *)

(** [read_eflags], interface.cpp:1337-1349 *)
Definition read_eflags (c : gctx) : Z :=
  let r := w32 (res c) in let a := w32 (aux c) in
  let arth :=
    Z.lor (Z.lor (Z.lor (Z.lor (Z.lor
      (Z.shiftr (Z.land a 0x80000000) 31)
      (Z.shiftl (Z.lxor (b2z (odd_ones (Z.land (Z.lxor r (Z.shiftr a 8)) 0xFF))) 1) 2))
      (Z.shiftl (Z.land a 8) 1))
      (Z.shiftl (if r =? 0 then 1 else 0) 6))
      (Z.shiftl (Z.lxor (Z.shiftr r 31) (Z.land a 1)) 7))
      (Z.shiftr (Z.land (Z.lxor a (w32 (Z.shiftl a 1))) 0x80000000) 20) in
  Z.lor (w32 (eflags c)) arth.

(** [write_eflags], interface.cpp:1358-1379 *)
Definition write_eflags (v : Z) (reg32 : bool) (c : gctx) : gctx :=
  let v := w32 v in
  let new_aux :=
    Z.lor (Z.lor (Z.lor (Z.lor
      (w32 (Z.shiftl (Z.land v 1) 31))
      (w32 (Z.shiftl (Z.lxor (Z.shiftl (Z.land v 1) 11) (Z.land v 0x800)) 19)))
      (Z.shiftr (Z.land v 0x10) 1))
      (Z.shiftl (Z.lxor (Z.shiftr (Z.land v 4) 2) 1) 8))
      (Z.shiftr (Z.land v 0x80) 7) in
  let new_res := Z.lxor (Z.shiftl (Z.land v 0x40) 2) 0x100 in
  let new_ef :=
    if reg32 then Z.lor (Z.land (eflags c) 2) (Z.land v 0x3F7700)
    else Z.lor (Z.land (eflags c) 0xFFFF0002) (Z.land v 0x7700) in
  set_eflags new_ef (set_aux new_aux (set_res new_res c)).

(** [write_eflags_helper], helpers.cpp:245-255: used by IRET and task-independent
    returns with a privilege-dependent mask *)
Definition write_eflags_helper (ef mask : Z) (c : gctx) : gctx :=
  let e := Z.lor (Z.lor (Z.land (eflags c) (w32 (Z.lnot mask))) (Z.land ef mask)) 2 in
  let cf := Z.land ef 1 in
  let of_new := Z.shiftl (Z.lxor (Z.shiftr (Z.land ef 0x800) 11) cf) 30 in
  let sfd := Z.shiftr (Z.land ef 0x80) 7 in
  let pdb := Z.shiftl (Z.lxor 4 (Z.land ef 4)) 6 in
  let r := Z.shiftl (Z.lxor (Z.land ef 0x40) 0x40) 2 in
  let a := Z.lor (Z.lor (Z.lor (Z.lor (w32 (Z.shiftl cf 31)) (Z.shiftr (Z.land ef 0x10) 1))
                               of_new) sfd) pdb in
  set_eflags e (set_res r (set_aux a c)).
