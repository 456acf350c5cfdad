(** * Data moves, near and real-mode far transfers, ENTER and ARPL of the JIT

    All line numbers refer to lib86cpu/core/emitter/x64/jit.cpp.  As in
    AluModel.v, opcode decoding is the caller's, and translation-time inputs
    (operand size, stack width, CS selector, addresses) are arguments. *)

From Coq Require Import ZArith Bool List.
From Verif Require Import HostModel AluModel StackModel.
Import ListNotations.
Local Open Scope Z_scope.

(** ** MOV_ (7884-8228), the general register, memory and immediate forms *)

Inductive movform :=
| MvStore (dst : rm) (src : gop)         (* 88, 89 *)
| MvLoad (dst : gop) (src : rm)          (* 8A, 8B *)
| MvLoadOffs (m : memop)                 (* A0, A1: AL/AX/EAX := [moffs] *)
| MvStoreOffs (m : memop)                (* A2, A3 *)
| MvImm (dst : rm) (v : Z).              (* B0-BF, C6, C7 *)

Definition acc : gop := mkgop false EAX.

(** [LD_MEM_off]/[ST_MEM_off] are [LD_MEM]/[ST_MEM] (without XBOX_CPU) *)
Definition emit_mov (f : movform) (w : width) : list instr :=
  match f with
  | MvStore (RmReg d) s => [MOV (Rg w R8) (g_opnd w s); MOV (g_opnd w d) (Rg w R8)]
  | MvStore (RmMem m) s => [MOV (Rg w R8) (g_opnd w s)] ++ emit_ea m ++ [IStore w]
  | MvLoad d (RmReg s) => [MOV (Rg w RAX) (g_opnd w s); MOV (g_opnd w d) (Rg w RAX)]
  | MvLoad d (RmMem m) => emit_ea m ++ [ILoad w; MOV (g_opnd w d) (Rg w RAX)]
  | MvLoadOffs m => emit_ea m ++ [ILoad w; MOV (g_opnd w acc) (Rg w RAX)]
  | MvStoreOffs m => emit_ea m ++ [MOV (Rg w R8) (g_opnd w acc); IStore w]
  | MvImm (RmReg d) v => [MOV (g_opnd w d) (Im w v)]
  | MvImm (RmMem m) v => emit_ea m ++ [MOV (Rg w R8) (Im w v); IStore w]
  end.

(** [get_operand<false>] (1058-1182) skips the segment base in every branch, as
    [get_operand<true>] does when the base is known to be zero *)
Definition no_base (m : memop) : memop :=
  match m with
  | MOffs a d sg _ => MOffs a d sg true
  | MRm a b i d m1 sg _ => MRm a b i d m1 sg true
  end.

(** LEA_ (7608-7621) *)
Definition emit_lea (w : width) (dst : gop) (m : memop) : list instr :=
  emit_ea (no_base m) ++ [MOV (g_opnd w dst) (Rg w RDX)].

(** ** Segment registers *)

Definition c_sel s := Mm W16 (MCtx RCX (CSel s)).

(** MOV r/m, Sreg (0x8C, 8084-8097); the register form stores 32 bits whatever
    the operand size *)
Definition emit_mov_from_sreg (dst : rm) (s : sreg) : list instr :=
  [MOVZX R8D (c_sel s)] ++
  match dst with
  | RmReg d => [MOV (c_reg W32 false (g_reg d)) R8D]
  | RmMem m => emit_ea m ++ [IStore W16]
  end.

(** the tail of the segment loads outside protected mode: [mov_sel_real_helper],
    the interrupt shadow after SS, the next instruction pointer *)
Definition emit_sel_tail (s : sreg) (before : list instr) (next_eip : Z) : list instr :=
  [ISelReal s] ++ before ++ (match s with SS => [IMask] | _ => [] end) ++
  [MOV c_eip (i32 next_eip); ILink].

(** MOV Sreg, r/m (0x8E, 8099-8153) outside protected mode; [LD_MEM] uses the
    operand size *)
Definition emit_mov_to_sreg (s : sreg) (src : rm) (w : width) (next_eip : Z) : list instr :=
  (match src with
   | RmReg g => [MOV (Rg w RAX) (g_opnd w g)]
   | RmMem m => emit_ea m ++ [ILoad w]
   end) ++ [MOV DX AX] ++ emit_sel_tail s [] next_eip.

(** PUSH Sreg (9545-9562) *)
Definition emit_push_sreg (s : sreg) (k : stk) : list instr :=
  [match k_w k with W32 => MOVZX R8D (c_sel s) | _ => MOV R8W (c_sel s) end] ++ emit_push true None k.

(** POP Sreg (9156-9217) outside protected mode *)
Definition emit_pop_sreg (s : sreg) (k : stk) (next_eip : Z) : list instr :=
  emit_pop false k ++ [MOV DX R8W] ++ emit_sel_tail s [MOV (k_esp k) (k_bx k)] next_eip.

(** LDS, LES, LSS, LFS, LGS: [lxs] (3619-3679) outside protected mode; no
    interrupt shadow for LSS *)
Definition emit_lxs (s : sreg) (dst : gop) (m : memop) (w : width) (next_eip : Z) : list instr :=
  emit_ea m ++
  [MOV hEBX hEDX; ILoad w; ADD hEBX (i32 (wbytes w)); MOV hEDX hEBX; MOV (Rg w RBX) (Rg w RAX);
   ILoad W16; MOV DX AX; ISelReal s; MOV (g_opnd w dst) (Rg w RBX); MOV c_eip (i32 next_eip); ILink].

(** ** Near transfers *)

(** CALL_ 0xE8 (4853-4865); [tgt] and [ret] are computed during translation *)
Definition rel_target (w : width) (next disp : Z) : Z :=
  let t := w32 (next + disp) in match w with W16 => Z.land t 0xFFFF | _ => t end.
Definition emit_call_rel (k : stk) (ret disp : Z) : list instr :=
  emit_push true (Some ret) k ++ [MOV c_eip (i32 (rel_target (k_w k) ret disp)); ILink].

(** CALL_ 0xFF /2 (4868-4889).  The reload of the saved target is written
    MOV(EAX, MEMD16(...)); asmjit takes the size of a MOV from its register
    operand, so that 32 bits are loaded. *)
Definition emit_call_rm (o : rm) (k : stk) (ret : Z) : list instr :=
  (match o with
   | RmReg g => [MOV (Rg (k_w k) RAX) (g_opnd (k_w k) g)]
   | RmMem m => emit_ea m ++ [ILoad (k_w k)]
   end) ++ [MOV (local W32 0) hEAX] ++ emit_push true (Some ret) k ++ [MOV hEAX (local W32 0)] ++
  (match k_w k with W16 => [MOVZX hEAX AX] | _ => [] end) ++ [MOV c_eip hEAX; ILink].

(** JMP 0xE9, 0xEB (7468-7477) *)
Definition emit_jmp_rel (w : width) (next disp : Z) : list instr :=
  [MOV c_eip (i32 (rel_target w next disp)); ILink].

(** JMP 0xFF /4 (7508-7525) *)
Definition emit_jmp_rm (o : rm) (w : width) : list instr :=
  (match o with
   | RmReg g => [MOV (Rg w RAX) (g_opnd w g)]
   | RmMem m => emit_ea m ++ [ILoad w]
   end) ++ (match w with W16 => [MOVZX hEAX AX] | _ => [] end) ++ [MOV c_eip hEAX; ILink].

(** releasing parameters (9788-9799, 9832-9843) *)
Definition emit_release (k : stk) (imm : option Z) : list instr :=
  match imm with
  | Some n => [MOV (Rg (k_sp k) RAX) (k_esp k); ADD (Rg (k_sp k) RAX) (Im (k_sp k) n); MOV (k_esp k) (Rg (k_sp k) RAX)]
  | None => []
  end.

(** RET_ 0xC2, 0xC3 (9780-9802); [gen_tc_linking_ret] leaves the block *)
Definition emit_ret (k : stk) (imm : option Z) : list instr :=
  emit_pop true k ++ (match k_w k with W16 => [MOVZX R8D R8W] | _ => [] end) ++ [MOV c_eip R8D] ++
  emit_release k imm ++ [ILink].

(** ** Far transfers outside protected mode *)

(** CALL_ 0x9A (4819-4850): CS is the selector at translation time *)
Definition emit_callf (k : stk) (cs ret sel off : Z) : list instr :=
  emit_push true (Some cs) k ++ emit_push true (Some ret) k ++
  [MOV (c_sel CS) (Im W16 sel); MOV c_eip (i32 (match k_w k with W16 => Z.land off 0xFFFF | _ => off end));
   MOV (c_segb CS) (i32 (Z.shiftl (getw W16 sel) 4)); ILink].

(** the loads of a far pointer (4895-4907, 7531-7542): offset in EBX, selector in AX *)
Definition emit_farptr (m : memop) (w : width) : list instr :=
  emit_ea m ++ [MOV hEBX hEDX; ILoad w] ++
  (match w with W16 => [MOVZX hEAX AX; ADD hEBX (i32 2)] | _ => [ADD hEBX (i32 4)] end) ++
  [MOV hEDX hEBX; MOV hEBX hEAX; ILoad W16].

(** CALL_ 0xFF /3 (4891-4938) *)
Definition emit_callf_m (m : memop) (k : stk) (cs ret : Z) : list instr :=
  emit_farptr m (k_w k) ++ [MOV (local W16 0) AX; MOV (local W32 1) hEBX] ++
  emit_push true (Some cs) k ++ emit_push true (Some ret) k ++
  [MOV AX (local W16 0); MOV hEDX (local W32 1); MOV (c_sel CS) AX; MOV c_eip hEDX; MOVZX hEAX AX; SHL hEAX 4;
   MOV (c_segb CS) hEAX; ILink].

(** JMP 0xEA (7496-7502) and 0xFF /5 (7527-7561) *)
Definition emit_jmpf (w : width) (sel off : Z) : list instr :=
  [MOV (c_sel CS) (Im W16 sel); MOV c_eip (i32 (match w with W16 => Z.land off 0xFFFF | _ => off end));
   MOV (c_segb CS) (i32 (Z.shiftl (getw W16 sel) 4)); ILink].
Definition emit_jmpf_m (m : memop) (w : width) : list instr :=
  emit_farptr m w ++
  [MOV (c_sel CS) AX; MOV c_eip hEBX; MOVZX hEAX AX; SHL hEAX 4; MOV (c_segb CS) hEAX; ILink].

(** [gen_stack_pop<2>] (2394-2494) *)
Definition emit_pop2 (k : stk) : list instr :=
  [MOV (k_bx k) (k_esp k)] ++
  emit_slot k ++ [ILoad (k_w k); MOV (local (k_w k) 0) (Rg (k_w k) RAX); ADD (k_bx k) (Im (k_sp k) (k_n k))] ++
  emit_slot k ++ [ILoad (k_w k); MOV (local (k_w k) 1) (Rg (k_w k) RAX); ADD (k_bx k) (Im (k_sp k) (k_n k))] ++
  [MOV (k_esp k) (k_bx k)].

(** RET_ 0xCA, 0xCB (9804-9846) *)
Definition emit_retf (k : stk) (imm : option Z) : list instr :=
  emit_pop2 k ++
  [match k_w k with W16 => MOVZX R11D (local W16 0) | _ => MOV R11D (local W32 0) end;
   MOV R10W (local W16 1); MOV c_eip R11D; MOV (c_sel CS) R10W; MOVZX hEAX R10W; SHL hEAX 4; MOV (c_segb CS) hEAX] ++
  emit_release k imm ++ [ILink].

(** ** ENTER (5910-5994) *)

(** one copied frame pointer (5959-5974) *)
Definition emit_display (k : stk) (i : Z) : list instr :=
  [if k_ss32 k then MOV hEDX (c_reg W32 false EBP) else MOVZX hEDX (c_reg W16 false EBP);
   SUB hEDX (i32 (k_n k * i))] ++ (if k_zero k then [] else [ADD hEDX (c_segb SS)]) ++
  [ILoad (k_w k); MOV (Rg (k_w k) R8) (Rg (k_w k) RAX)] ++ emit_push false None k.

(** [n] copies, from index [i] *)
Fixpoint emit_displays (k : stk) (n : nat) (i : Z) : list instr :=
  match n with O => [] | S n => emit_display k i ++ emit_displays k n (i + 1) end.

(** the first push, and the frame pointer in a local (5916-5954) *)
Definition emit_enter_first (k : stk) : list instr :=
  [MOV (Rg (k_w k) R8) (c_reg (k_w k) false EBP);
   if k_ss32 k then MOV hEBX (c_reg W32 false ESP) else MOVZX hEBX (c_reg W16 false ESP)] ++
  emit_push false None k ++
  match k_w k, k_ss32 k with
  | W32, false => [MOV hEAX (c_reg W32 false ESP); AND hEAX (i32 0xFFFF0000); OR hEBX hEAX; MOV (local W32 0) hEBX]
  | W32, true => [MOV (local W32 0) hEBX]
  | _, _ => [MOV (local W16 0) BX]
  end.

(** the allocation, the check of the final stack pointer ([gen_virtual_stack_push],
    2342-2392) and the new frame pointer (5980-5993) *)
Definition emit_enter_last (k : stk) (size : Z) : list instr :=
  [SUB (k_bx k) (Im (k_sp k) size); MOV hR8 (Im W64 0)] ++ emit_slot k ++
  [IProbe (k_w k); MOV (k_esp k) (k_bx k);
   MOV (Rg (k_w k) RAX) (local (k_w k) 0); MOV (c_reg (k_w k) false EBP) (Rg (k_w k) RAX)].

Definition emit_enter (k : stk) (size level : Z) : list instr :=
  let lv := Z.land level 0x1F in
  emit_enter_first k ++
  (if 0 <? lv then
     emit_displays k (Z.to_nat (lv - 1)) 1 ++
     [MOV (Rg (k_w k) R8) (local (k_w k) 0)] ++ emit_push false None k
   else []) ++
  emit_enter_last k size.

(** ** ARPL (4614-4693); [vm86] is decided during translation *)
Definition arpl_flags : list instr :=
  [MOV R8D c_res; MOV R9D c_aux; MOV hEAX R8D; MOV hEDX R9D; SHL hEAX 8; XOR hEAX hEDX;
   AND hEDX (i32 0xFFFF00FE); AND hEAX (i32 0xFF00); OR hEAX hEDX] ++ LD_SF R8 R9 ++
  [OR hEAX R8D; MOV c_res (i32 0); MOV c_aux hEAX].

Definition emit_arpl (vm86 : bool) (dst : rm) (src : gop) : list instr :=
  if vm86 then [IRaise 6 0] else
  [MOV BX (g_opnd W16 src)] ++
  (match dst with
   | RmReg d => [MOV AX (g_opnd W16 d)]
   | RmMem m => emit_ea m ++ [MOV (local W32 0) hEDX; ILoad W16; MOV hEDX (local W32 0)]
   end) ++
  [MOV R8W AX; AND BX (Im W16 3); AND AX (Im W16 3); CMP AX BX; IJcc CULT 1;
   MOV hEAX c_res; OR hEAX (i32 0x100); MOV c_res hEAX; IJmp 2; ILab 1;
   AND R8W (Im W16 (Z.lnot 3)); OR R8W BX] ++
  (match dst with
   | RmReg d => [MOV (g_opnd W16 d) R8W]
   | RmMem m => [IStore W16]
   end) ++ arpl_flags ++ [ILab 2].
