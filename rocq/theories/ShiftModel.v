(** * Transcription of shifts, rotates, bit instructions, multiplications,
      conversions and decimal adjustments

    As in [AluModel], every definition is the sequence of host instructions
    emitted by the named function of lib86cpu/core/emitter/x64/jit.cpp (line
    numbers below refer to it), in the order of emission; the C++ switches are
    the parameters.  The simplifications of [AluModel] and [HostModel] apply. *)

From Coq Require Import ZArith Bool List.
From Verif Require Import HostModel AluModel.
Import ListNotations.
Local Open Scope Z_scope.

(** ** The common tail: the host's CF and OF become the two upper bits of the
    auxiliary word (for example 2884-2891) *)

Definition cfof_reg : list instr :=
  [ISet CC BL; ISet CO DL; MOVZX hEBX BL; MOVZX hEDX DL; XOR hEDX hEBX; ADD hEBX hEBX;
   OR hEBX hEDX; SHL hEBX 0x1E].
(** the same in the memory forms, through EAX (for example 2916-2923) *)
Definition cfof_mem : list instr :=
  [ISet CC BL; ISet CO AL; MOVZX hEBX BL; MOVZX hEAX AL; XOR hEAX hEBX; ADD hEBX hEBX;
   OR hEBX hEAX; SHL hEBX 0x1E].

(** the count: [None] is the CL form (0xD2, 0xD3), [Some n] an immediate or the
    implied 1 (0xC0, 0xC1, 0xD0, 0xD1), 2840-2867 *)
Definition load_count : list instr := [MOV R9B (c_reg W8 false ECX); AND R9B (Im W8 0x1F)].
Definition skip_zero : list instr := [CMP R9B (Im W8 0); IJcc CEQ 0].

(** The frame shared by [shift] (2834-3007) and [double_shift] (3010-3165):
    [pre] loads the second source, [op cnt] is the host instruction.  [m_edx]
    says that the memory form restores EDX before [pre] (double_shift), not after
    the operation (shift). *)

Definition emit_sh_reg (w : width) (g : gop) (cl : bool) (pre : list instr)
    (op : opnd -> instr) (n : Z) : list instr :=
  let d := Rg w RAX in
  [MOV d (g_opnd w g)] ++ pre ++
  (if cl then [MOV CL R9B; op CL; RELOAD_RCX_CTX] else [op (Im W8 n)]) ++
  cfof_reg ++ [MOV (g_opnd w g) d] ++ set_flags d hEBX w.

(** [shift<idx>], idx 0 SHL, 1 SHR, 2 SAR *)
Definition emit_shift (op : shop) (w : width) (o : rm) (count : option Z) : list instr :=
  let d := Rg w RAX in
  let h := IShift op d in
  match count with
  | Some c =>
      let n := Z.land c 0x1F in
      if n =? 0 then [] else
      match o with
      | RmReg g => emit_sh_reg w g false [] h n
      | RmMem m =>
          emit_ea m ++
          [MOV hEBX hEDX; ILoad w; h (Im W8 n); MOV (local w 0) d; MOV (Rg w R8) d;
           MOV hEDX hEBX] ++ cfof_mem ++ [IStore w; MOV d (local w 0)] ++ set_flags d hEBX w
      end
  | None =>
      load_count ++ skip_zero ++
      match o with
      | RmReg g => emit_sh_reg w g true [] h 0
      | RmMem m =>
          emit_ea m ++
          [MOV hEBX hEDX; MOV (local W8 0) R9B; ILoad w; MOV CL (local W8 0); h CL;
           MOV (local w 0) d; MOV (Rg w R8) d; MOV hEDX hEBX; RELOAD_RCX_CTX] ++ cfof_mem ++
          [IStore w; MOV d (local w 0)] ++ set_flags d hEBX w
      end ++ [ILab 0]
  end.

(** [double_shift<idx>] (3010-3165), idx 0 SHLD, 1 SHRD *)
Definition emit_dshift (op : shdop) (w : width) (o : rm) (src : gop) (count : option Z)
  : list instr :=
  let d := Rg w RAX in let s := Rg w RBX in
  let h := IShd op d s in
  match count with
  | Some c =>
      let n := Z.land c 0x1F in
      if n =? 0 then [] else
      match o with
      | RmReg g => emit_sh_reg w g false [MOV s (g_opnd w src)] h n
      | RmMem m =>
          emit_ea m ++
          [MOV hEBX hEDX; ILoad w; MOV hEDX hEBX; MOV s (g_opnd w src); h (Im W8 n);
           MOV (local w 0) d; MOV (Rg w R8) d] ++ cfof_mem ++
          [IStore w; MOV d (local w 0)] ++ set_flags d hEBX w
      end
  | None =>
      load_count ++ skip_zero ++
      match o with
      | RmReg g => emit_sh_reg w g true [MOV s (g_opnd w src)] h 0
      | RmMem m =>
          emit_ea m ++
          [MOV hEBX hEDX; MOV (local W8 0) R9B; ILoad w; MOV hEDX hEBX; MOV s (g_opnd w src);
           MOV CL (local W8 0); h CL; MOV (local w 0) d; MOV (Rg w R8) d;
           RELOAD_RCX_CTX] ++ cfof_mem ++ [IStore w; MOV d (local w 0)] ++ set_flags d hEBX w
      end ++ [ILab 0]
  end.

(** ** [rotate<idx>] (3168-3413), idx 0 RCL, 1 RCR, 2 ROL, 3 ROR *)

Definition is_rc (op : rotop) : bool := match op with ORcl | ORcr => true | _ => false end.

(** the guest's CF is put in the host's CF (3216-3225); labels 1 clear_cf, 2 rot *)
Definition set_host_cf : list instr :=
  LD_CF hEDX ++ [TEST hEDX hEDX; IJcc CEQ 1; IStc; IJmp 2; ILab 1; IClc; ILab 2].

(** the end: only CF and OF of the guest change (3252-3255) *)
Definition merge_cfof : list instr :=
  [MOV hEAX c_aux; AND hEAX (i32 0x3FFFFFFF); OR hEAX hEBX; MOV c_aux hEAX].

Definition emit_rotate (op : rotop) (w : width) (o : rm) (count : option Z) : list instr :=
  let d := Rg w RAX in
  let h := IRot op d in
  let pre := if is_rc op then set_host_cf else [] in
  match count with
  | Some c =>
      let n := Z.land c 0x1F in
      if n =? 0 then [] else
      match o with
      | RmReg g =>
          [MOV d (g_opnd w g)] ++ pre ++ [h (Im W8 n)] ++ cfof_reg ++
          [MOV (g_opnd w g) d] ++ merge_cfof
      | RmMem m =>
          emit_ea m ++ [MOV hEBX hEDX; ILoad w] ++ pre ++
          [h (Im W8 n); MOV (Rg w R8) d; MOV hEDX hEBX] ++ cfof_mem ++ [IStore w] ++ merge_cfof
      end
  | None =>
      load_count ++ skip_zero ++
      match o with
      | RmReg g =>
          [MOV d (g_opnd w g)] ++ pre ++ [MOV CL R9B; h CL; RELOAD_RCX_CTX] ++ cfof_reg ++
          [MOV (g_opnd w g) d] ++ merge_cfof
      | RmMem m =>
          emit_ea m ++ [MOV hEBX hEDX; MOV (local W8 0) R9B; ILoad w] ++ pre ++
          [MOV CL (local W8 0); h CL; MOV (Rg w R8) d; MOV hEDX hEBX; RELOAD_RCX_CTX] ++
          cfof_mem ++ [IStore w] ++ merge_cfof
      end ++ [ILab 0]
  end.

(** ** [bit<idx>] (3681-3756), idx 0 BT, 1 BTC, 2 BTR, 3 BTS

    The index is a register (opcodes A3, AB, B3, BB) or an immediate (BA). *)

Inductive bitsrc := BReg (g : gop) | BImm (i : Z).

Definition is_bt (op : bitop) : bool := match op with TBt => true | _ => false end.

Definition emit_bit (op : bitop) (w : width) (o : rm) (src : bitsrc) : list instr :=
  let s := Rg w RBX in
  let ld := match src with BReg g => [MOV s (g_opnd w g)] | BImm _ => [] end in
  let i := match src with BReg _ => s | BImm i => Im W8 i end in
  match o with
  | RmReg g =>
      let d := Rg w RAX in
      [MOV d (g_opnd w g)] ++ ld ++ [IBit op d i; ISet CC BL] ++
      (if is_bt op then [] else [MOV (g_opnd w g) d])
  | RmMem m =>
      let d := local w 0 in
      emit_ea m ++ [MOV hEBX hEDX; ILoad w; MOV hEDX hEBX; MOV d (Rg w RAX)] ++ ld ++
      [IBit op d i; ISet CC BL] ++
      (if is_bt op then [] else [MOV (Rg w R8) d; IStore w])
  end ++ [MOVZX hEBX BL; SHL hEBX 0x1F; MOV c_aux hEBX].

(** ** BSF_ (4726-4751) and BSR_ (4754-4779) *)

Definition emit_bscan (fwd : bool) (w : width) (dst : greg) (src : rm) : list instr :=
  (match src with RmReg g => [MOV (Rg w RAX) (g_opnd w g)] | RmMem m => emit_ea m ++ [ILoad w] end) ++
  [(if fwd then IBsf else IBsr) (Rg w R8) (Rg w RAX); ISet CNE BL; MOV (c_reg w false dst) (Rg w R8);
   MOVZX hEBX BL; MOV c_res hEBX].

(** BSWAP_ (4782-4788) *)
Definition emit_bswap (r : greg) : list instr :=
  [MOV hEAX (c_reg W32 false r); IBswap RAX; MOV (c_reg W32 false r) hEAX].

(** ** Multiplication *)

(** the end of MUL_ (8779-8790) and IMUL (6877-6885) *)
Definition mul_flags : list instr := cfof_reg ++ [MOV c_aux hEBX].

(** where the one-operand forms leave the product (for example 8731, 8748-8749) *)
Definition mul_store (w : width) : list instr :=
  match w with
  | W8 => [MOV (c_reg W16 false EAX) AX]
  | _ => [MOV (c_reg w false EAX) (Rg w RAX); MOV (c_reg w false EDX) (Rg w RDX)]
  end.

(** MUL_ (8709-8791) *)
Definition emit_mul (w : width) (o : rm) : list instr :=
  (match o with
   | RmReg g => [MOV (Rg w RBX) (g_opnd w g); MOV (Rg w RAX) (c_reg w false EAX)]
   | RmMem m => emit_ea m ++ [ILoad w; MOV (Rg w RBX) (c_reg w false EAX)]
   end) ++ [IMul (Rg w RBX)] ++ mul_store w ++ mul_flags.

(** IMUL, opcodes F6 and F7 (6753-6822) *)
Definition emit_imul1 (w : width) (o : rm) : list instr :=
  (match o with
   | RmReg g => [MOV (Rg w RBX) (g_opnd w g); MOV (Rg w RAX) (c_reg w false EAX)]
   | RmMem m => emit_ea m ++ [ILoad w; MOV (Rg w RBX) (c_reg w false EAX);
                              IXchg (Rg w RAX) (Rg w RBX)]
   end) ++ [IImul1 (Rg w RBX)] ++ mul_store w ++ mul_flags.

(** IMUL, opcode AF (6824-6843) *)
Definition emit_imul2 (w : width) (dst : greg) (src : rm) : list instr :=
  (match src with RmReg g => [MOV (Rg w RAX) (g_opnd w g)] | RmMem m => emit_ea m ++ [ILoad w] end) ++
  [MOV (Rg w RBX) (c_reg w false dst); IImul2 (Rg w RBX) (Rg w RAX);
   MOV (c_reg w false dst) (Rg w RBX)] ++ mul_flags.

(** IMUL, opcodes 69 and 6B (6845-6872); [short] is opcode 6B *)
Definition emit_imul3 (short : bool) (w : width) (dst : greg) (src : rm) (imm : Z) : list instr :=
  (match src with RmReg g => [MOV (Rg w RAX) (g_opnd w g)] | RmMem m => emit_ea m ++ [ILoad w] end) ++
  [IImul3 (Rg w RBX) (Rg w RAX) (if short then sext W8 imm else imm);
   MOV (c_reg w false dst) (Rg w RBX)] ++ mul_flags.

(** ** Conversions *)

(** CBW 4960-4964, CWDE 5625-5629, CWD 5617-5622, CDQ 4967-4972 *)
Definition emit_cbw : list instr := [MOVSX hEDX (c_reg W8 false EAX); MOV (c_reg W16 false EAX) DX].
Definition emit_cwde : list instr := [MOVSX hEDX (c_reg W16 false EAX); MOV (c_reg W32 false EAX) hEDX].
Definition emit_cwd : list instr :=
  [MOVSX hEDX (c_reg W16 false EAX); SHR hEDX 16; MOV (c_reg W16 false EDX) DX].
Definition emit_cdq : list instr :=
  [MOVSX hRDX (c_reg W32 false EAX); SHR hRDX 32; MOV (c_reg W32 false EDX) hEDX].

(** MOVSX_ (8637-8667) and MOVZX_ (8676-8706); [sw] is the source width *)
Definition emit_movx (sx : bool) (w sw : width) (dst : greg) (src : rm) : list instr :=
  (match src with
   | RmReg g => [MOV (Rg sw RAX) (g_opnd sw g)]
   | RmMem m => emit_ea m ++ [ILoad sw]
   end) ++ [(if sx then MOVSX else MOVZX) (Rg w RBX) (Rg sw RAX); MOV (c_reg w false dst) (Rg w RBX)].

(** ** Decimal adjustments *)

Definition al := c_reg W8 false EAX.
Definition ah := c_reg W8 true EAX.

(** AAA (4221-4245); labels 1 add, 2 no_add, 0 al *)
Definition emit_aaa : list instr :=
  [MOV AX (c_reg W16 false EAX); MOV DX AX; AND DX (Im W16 0xF); CMP DL (Im W8 9); IJcc CUGT 1] ++
  LD_AF hEBX ++
  [CMP hEBX (i32 0); IJcc CEQ 2; ILab 1; ADD AX (Im W16 0x106); MOV DX AX; AND DL (Im W8 0xF);
   MOV (c_reg W16 false EAX) AX; MOV c_aux (i32 0x80000008); IJmp 0; ILab 2; MOV c_aux (i32 0);
   ILab 0; MOV al DL].

(** AAS (4283-4315); labels 1 sub, 2 no_sub, 0 al *)
Definition emit_aas : list instr :=
  [MOV BX (c_reg W16 false EAX); MOV AX BX; AND AX (Im W16 0xF); CMP AL (Im W8 9); IJcc CUGT 1] ++
  LD_AF hEDX ++
  [CMP hEDX (i32 0); IJcc CEQ 2; ILab 1; MOV hEAX (i32 0xFFFA); MOV hEDX (i32 0xFF); ADD BX AX;
   MOVZX hEAX BX; AND BX DX; SHR AX 8; IDec AL; MOVZX hEAX AL; SHL AX 8; OR AX BX;
   MOV (c_reg W16 false EAX) AX; AND AL (Im W8 0xF); MOV c_aux (i32 0x80000008); IJmp 0; ILab 2;
   MOV c_aux (i32 0); ILab 0; MOV al AL].

(** AAD (4248-4261) *)
Definition emit_aad (imm : Z) : list instr :=
  [MOV BL al; MOV DL ah; MOV hEAX (i32 imm); MOVZX hEDX DL; IImul2 hEDX hEAX; ADD DL BL; MOV al DL;
   MOV ah (Im W8 0); MOVSX hEDX DL; MOV c_res hEDX; MOV c_aux (i32 0)].

(** AAM (4264-4280) *)
Definition emit_aam (imm : Z) : list instr :=
  if imm =? 0 then [IRaise 0 0] else
  [MOVZX hEAX al; XOR hEDX hEDX; MOV hEBX (i32 imm); IDiv hEBX; MOV al DL; MOV ah AL;
   MOVSX hEDX DL; MOV c_res hEDX; MOV c_aux (i32 0)].

(** DAA (5632-5692) *)
Definition emit_daa : list instr :=
  [MOV R10B al] ++ LD_CF R11D ++
  [MOV R8B R10B; AND R8B (Im W8 0xF); CMP R8B (Im W8 9); IJcc CUGT 1] ++ LD_AF hEDX ++
  [CMP hEDX (i32 0); IJcc CEQ 2; ILab 1; MOV hRDX hRCX; MOV CL R10B; MOV R8B R10B;
   ADD R8B (Im W8 6); MOV (Mm W8 (MCtx RDX (CReg false EAX))) R8B; MOV AL CL] ++
  gen_sum_vec16_8 W8 (Im W8 6) R8B ++
  [RELOAD_RCX_CTX; AND hEAX (i32 0x80000000); OR hEAX R11D; OR hEAX (i32 8); MOV c_aux hEAX;
   IJmp 3; ILab 2; MOV c_aux (i32 0); ILab 3; CMP R10B (Im W8 0x99); IJcc CUGT 4;
   CMP R11D (i32 0); IJcc CEQ 5; ILab 4; MOV R10B al; ADD R10B (Im W8 0x60); MOV al R10B;
   MOV hEDX c_aux; OR hEDX (i32 0x80000000); MOV c_aux hEDX; IJmp 6; ILab 5; MOV hEDX c_aux;
   AND hEDX (i32 0x7FFFFFFF); MOV c_aux hEDX; ILab 6; MOVSX R10D al; MOV c_res R10D].

(** DAS (5695-5748) *)
Definition emit_das : list instr :=
  [MOV R10B al] ++ LD_CF R11D ++
  [MOV R8B R10B; AND R8B (Im W8 0xF); CMP R8B (Im W8 9); IJcc CUGT 1] ++ LD_AF hEDX ++
  [CMP hEDX (i32 0); IJcc CEQ 2; ILab 1; MOV hRDX hRCX; MOV CL R10B; MOV R8B R10B;
   SUB R8B (Im W8 6); MOV (Mm W8 (MCtx RDX (CReg false EAX))) R8B; MOV AL CL] ++
  gen_sub_vec16_8 W8 (Im W8 6) R8B ++
  [RELOAD_RCX_CTX; AND hEAX (i32 0x80000000); OR hEAX R11D; OR hEAX (i32 8); MOV c_aux hEAX;
   IJmp 3; ILab 2; MOV c_aux (i32 0); ILab 3; CMP R10B (Im W8 0x99); IJcc CUGT 4;
   CMP R11D (i32 0); IJcc CEQ 5; ILab 4; MOV R10B al; SUB R10B (Im W8 0x60); MOV al R10B;
   MOV hEDX c_aux; OR hEDX (i32 0x80000000); MOV c_aux hEDX; ILab 5; MOVSX R10D al;
   MOV c_res R10D].

(** ** BOUND (4697-4723); [dst] holds the index *)
Definition emit_bound (w : width) (dst : greg) (m : memop) : list instr :=
  [MOV (Rg w RBX) (c_reg w false dst)] ++ emit_ea m ++
  [MOV (local W32 0) hEDX; ILoad w; MOV hEDX (local W32 0); MOV (local w 0) (Rg w RAX);
   ADD hEDX (i32 (wbytes w)); ILoad w; MOV (Rg w RDX) (local w 0); CMP (Rg w RBX) (Rg w RDX);
   ISet CSLT R8B; MOV DL R8B; CMP (Rg w RBX) (Rg w RAX); ISet CSGT R8B; OR DL R8B;
   CMP DL (Im W8 0); IJcc CEQ 0; IRaise 5 0; ILab 0].

(** ** XLAT (10914-10928); [z]: the segment base was zero at translation time *)
Definition emit_xlat (a32 : bool) (seg : sreg) (z : bool) : list instr :=
  [(if a32 then MOV hEDX (c_reg W32 false EBX) else MOVZX hEDX (c_reg W16 false EBX));
   MOVZX hEBX (c_reg W8 false EAX); ADD hEDX hEBX] ++
  (if z then [] else [ADD hEDX (c_segb seg)]) ++ [ILoad W8; MOV al AL].

(** ** Counted branches *)

(** JCXZ and JECXZ (7138-7159) *)
Definition emit_jcxz (a32 size16 : bool) (next_eip disp cs_base : Z) : list instr :=
  [(if a32 then MOV hEAX (c_reg W32 false ECX) else MOVZX hEAX (c_reg W16 false ECX));
   CMP hEAX (i32 0); MOV R9D (i32 next_eip); MOV hEBX (i32 (jcc_target size16 next_eip disp));
   ICmov CEQ R9D hEBX; MOV c_eip R9D; ADD R9D (i32 cs_base); MOV hEBX R9D; ILink].

(** LOOP, LOOPE, LOOPNE (7781-7845); [k]: [None] LOOP, [Some z] loop while ZF = z *)
Definition emit_loop (k : option bool) (a32 size16 : bool) (next_eip disp cs_base : Z) : list instr :=
  (if a32 then [MOV hEBX (c_reg W32 false ECX); SUB hEBX (i32 1); MOV (c_reg W32 false ECX) hEBX]
   else [MOVZX hEBX (c_reg W16 false ECX); SUB hEBX (i32 1); MOV (c_reg W16 false ECX) BX]) ++
  [TEST hEBX hEBX; IJcc CEQ 1] ++
  (match k with
   | Some false => LD_ZF hEDX ++ [TEST hEDX hEDX; IJcc CEQ 1]
   | Some true => LD_ZF hEDX ++ [TEST hEDX hEDX; IJcc CNE 1]
   | None => []
   end) ++
  [MOV c_eip (i32 (jcc_target size16 next_eip disp));
   MOV hEBX (i32 (w32 (jcc_target size16 next_eip disp + cs_base))); IJmp 0; ILab 1;
   MOV c_eip (i32 next_eip); MOV hEBX (i32 (w32 (next_eip + cs_base))); ILab 0; ILink].
