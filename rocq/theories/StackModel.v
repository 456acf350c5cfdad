(** * Stack instructions and the privileged flag instructions of the JIT

    All line numbers refer to lib86cpu/core/emitter/x64/jit.cpp.  Translation
    time inputs (operand size, HFLG_SS32, HFLG_SS_IS_ZERO, CPL, IOPL, VM86,
    CR4.VME/PVI) are arguments of the emitters: the code generator branches on
    them while emitting. *)

From Coq Require Import ZArith Bool List.
From Verif Require Import HostModel AluModel.
Import ListNotations.
Local Open Scope Z_scope.

(** operand size (W16 or W32), stack width, "SS base is zero" *)
Record stk := mkstk { k_w : width; k_ss32 : bool; k_zero : bool }.

Definition k_n (k : stk) : Z := wbytes (k_w k).
(** the host register and guest register part that hold the stack pointer *)
Definition k_sp (k : stk) : width := if k_ss32 k then W32 else W16.
Definition k_bx (k : stk) : opnd := Rg (k_sp k) RBX.
Definition k_esp (k : stk) : opnd := c_reg (k_sp k) false ESP.

(** EDX := linear address of the slot in (E)BX *)
Definition emit_slot (k : stk) : list instr :=
  [if k_ss32 k then MOV hEDX hEBX else MOVZX hEDX BX] ++
  (if k_zero k then [] else [ADD hEDX (c_segb SS)]).

(** [gen_stack_push] (2251-2341); [imm] is the [std::is_integral] case, where
    the value is loaded into R8 after the address has been computed *)
Definition emit_push (use_esp : bool) (imm : option Z) (k : stk) : list instr :=
  (if use_esp then [MOV (k_bx k) (k_esp k)] else []) ++
  [SUB (k_bx k) (Im (k_sp k) (k_n k))] ++ emit_slot k ++
  (match imm with Some v => [MOV hR8 (Im W64 v)] | None => [] end) ++
  [IStore (k_w k)] ++
  (if use_esp then [MOV (k_esp k) (k_bx k)] else []).

(** [gen_stack_pop] (2394-2494) with num = 1 *)
Definition emit_pop (write_esp : bool) (k : stk) : list instr :=
  [MOV (k_bx k) (k_esp k)] ++ emit_slot k ++
  [ILoad (k_w k); MOV (Rg (k_w k) R8) (Rg (k_w k) RAX);
   ADD (k_bx k) (Im (k_sp k) (k_n k))] ++
  (if write_esp then [MOV (k_esp k) (k_bx k)] else []).

(** PUSH_ (9480-9565), the general register, immediate and r/m forms.  The
    segment register forms are not modelled here. *)
Inductive pushsrc := PsReg (r : greg) | PsImm (v : Z) | PsImm8 (v : Z) | PsRm (o : rm).

Definition emit_PUSH (src : pushsrc) (k : stk) : list instr :=
  match src with
  | PsReg r => [MOV (Rg (k_w k) R8) (c_reg (k_w k) false r)] ++ emit_push true None k
  | PsImm v => emit_push true (Some v) k
  | PsImm8 v => emit_push true (Some (sext W8 v)) k
  | PsRm (RmReg g) => [MOV (Rg (k_w k) R8) (g_opnd (k_w k) g)] ++ emit_push true None k
  | PsRm (RmMem m) =>
      emit_ea m ++ [ILoad (k_w k); MOV (Rg (k_w k) R8) (Rg (k_w k) RAX)] ++ emit_push true None k
  end.

(** POP_ (9107-9152): register form 58+r, and 8F /0 *)
Definition emit_POP (o : rm) (k : stk) : list instr :=
  match o with
  | RmReg g => emit_pop true k ++ [MOV (g_opnd (k_w k) g) (Rg (k_w k) R8)]
  | RmMem m =>
      emit_ea m ++ [MOV (local W32 0) hEDX] ++ emit_pop false k ++
      [MOV hEDX (local W32 0); IStore (k_w k); MOV (k_esp k) (k_bx k)]
  end.

(** LEAVE (7623-7645) *)
Definition emit_leave (k : stk) : list instr :=
  [MOV (Rg (k_sp k) RAX) (c_reg (k_sp k) false EBP); MOV (k_esp k) (Rg (k_sp k) RAX)] ++
  emit_pop true k ++ [MOV (c_reg (k_w k) false EBP) (Rg (k_w k) R8)].

(** PUSHA (9564-9632): the operand order of the decoder is EAX, ECX, EDX, EBX,
    ESP, EBP, ESI, EDI *)
Definition pusha_regs : list greg := [EAX; ECX; EDX; EBX; ESP; EBP; ESI; EDI].
Definition emit_pusha (k : stk) : list instr :=
  [MOV (k_bx k) (k_esp k)] ++
  flat_map (fun r => [SUB (k_bx k) (Im (k_sp k) (k_n k))] ++ emit_slot k ++
                     [MOV (Rg (k_w k) R8) (c_reg (k_w k) false r); IStore (k_w k)]) pusha_regs ++
  [MOV (k_esp k) (k_bx k)].

(** POPA (9223-9327): the operand order of the decoder is EAX, ECX, EDX, EBX,
    EBP, ESI, EDI; the loops run over indices 6,5,4 and 3,2,1,0 *)
Definition emit_popa (k : stk) : list instr :=
  let one r := emit_slot k ++ [ILoad (k_w k); MOV (c_reg (k_w k) false r) (Rg (k_w k) RAX);
                               ADD (k_bx k) (Im (k_sp k) (k_n k))] in
  [MOV (k_bx k) (k_esp k)] ++ flat_map one [EDI; ESI; EBP] ++
  [ADD (k_bx k) (Im (k_sp k) (k_n k))] ++ flat_map one [EBX; EDX; ECX; EAX] ++
  [MOV (k_esp k) (k_bx k)].

(** ** PUSHF and POPF *)

Record fmode := mkfm { fm_vm86 : bool; fm_iopl : Z; fm_cpl : Z; fm_vme : bool; fm_pvi : bool; fm_pe : bool }.

(** the status flags in EAX (9657-9688) *)
Definition emit_status : list instr :=
  [MOV R8D c_aux; MOV hEDX c_res; MOVZX hEAX (Mm W8 (MCtx RCX (CAux 1))); MOVZX hEBX DL;
   XOR hRBX hRAX; IPtr RAX PParity; MOVZX R9D (Mm W8 (MTab RBX RAX)); XOR hEAX hEAX;
   XOR R9D (i32 1); MOV hEBX (i32 0x10); TEST hEDX hEDX; MOV hEDX R8D; ICmov CEQ hEAX hEBX;
   MOV hEBX R8D; OR R9D hEAX; SHR hEBX 1; XOR hEBX R8D; SHL hEDX 7; MOV hEAX R8D; SHL R9D 2;
   SHR hEAX 0xC; AND hEBX (i32 0x40000000); OR hEAX hEBX; AND R8D (i32 8);
   MOVZX hEBX (Mm W8 (MCtx RCX (CRes 3))); ADD R8D R8D; SHR hEAX 0x13; XOR hEDX hEBX;
   OR hEAX R9D; AND hEDX (i32 0x80); OR hEAX hEDX; OR hEAX R8D].

Definition IF_MASK : Z := 0x200.     Definition IOPL_MASK : Z := 0x3000.
Definition TF_MASK : Z := 0x100.     Definition DF_MASK : Z := 0x400.
Definition NT_MASK : Z := 0x4000.    Definition AC_MASK : Z := 0x40000.
Definition VIF_MASK : Z := 0x80000.  Definition VIP_MASK : Z := 0x100000.
Definition ID_MASK : Z := 0x200000.

(** PUSHF (9640-9711).  [IRaise 13 0] is RAISEin0_t(EXP_GP). *)
Definition emit_pushf (f : fmode) (k : stk) : list instr :=
  let restricted := fm_vm86 f && (fm_iopl f <? 3) in
  match k_w k, restricted, fm_vme f with
  | W16, true, true =>
      emit_status ++
      [MOV R8D c_eflags; MOV hEDX R8D; AND R8D (i32 VIF_MASK);
       AND hEDX (i32 (Z.lnot (Z.lor IF_MASK IOPL_MASK))); SHR R8D 10; OR R8D (i32 IOPL_MASK);
       OR R8D hEDX; OR R8W AX] ++ emit_push true None k
  | _, true, _ => [IRaise 13 0]
  | W16, false, _ =>
      emit_status ++ [MOV R8W (Mm W16 (MCtx RCX CEflags)); OR R8W AX] ++ emit_push true None k
  | _, false, _ =>
      emit_status ++ [MOV R8D c_eflags; OR R8D hEAX; AND R8D (i32 0xFCFFFF)] ++ emit_push true None k
  end.

(** the common tail of POPF (9399-9433): EBX holds the popped value *)
Definition emit_popf_tail (mask next_eip : Z) : list instr :=
  [MOV hEDX hEBX; MOV hEAX c_eflags; AND hEAX (i32 (Z.lnot mask)); AND hEDX (i32 mask);
   OR hEAX hEDX; OR hEAX (i32 2); MOV c_eflags hEAX;
   MOV R9D hEBX; ILea W32 RAX None (Some (RBX, 2)) 0; NOT hEAX; AND hEAX (i32 0x100); MOV c_res hEAX;
   MOV hEDX hEBX; SHL hEDX 0xB; MOV hEAX hEBX; XOR hEDX hEBX; SHL hEAX 0xC; AND hEDX (i32 0x800);
   SHR hEBX 6; OR hEDX hEAX; AND hEBX (i32 2); MOV hEAX R9D; SHL hEDX 0x13; SHL R9D 6;
   AND hEAX (i32 0x10); OR hEBX hEAX; NOT R9D; SHR hEBX 1; AND R9D (i32 0x100); OR hEDX hEBX;
   OR hEDX R9D; MOV c_aux hEDX; MOV c_eip (i32 next_eip); ILink].

Definition popf_base : Z := Z.lor TF_MASK (Z.lor DF_MASK NT_MASK).

Definition ebx_of_r8 (k : stk) : instr :=
  match k_w k with W32 => MOV hEBX R8D | _ => MOVZX hEBX R8W end.

(** POPF (9335-9437) *)
Definition emit_popf (f : fmode) (k : stk) (next_eip : Z) : list instr :=
  if fm_vm86 f then
    if fm_iopl f =? 3 then
      let mask := match k_w k with
                  | W32 => Z.lor popf_base (Z.lor IF_MASK (Z.lor AC_MASK ID_MASK))
                  | _ => Z.lor popf_base IF_MASK end in
      emit_pop true k ++ [ebx_of_r8 k] ++ emit_popf_tail mask next_eip
    else match k_w k, fm_vme f with
    | W16, true =>
        emit_pop false k ++
        [MOV hEAX c_eflags; MOVZX hEDX R8W; MOV R9D hEAX; OR hEAX hEDX;
         AND hEAX (i32 (Z.lor IF_MASK VIP_MASK)); CMP hEAX (i32 (Z.lor IF_MASK VIP_MASK));
         IJcc CEQ 1; TEST hEDX (i32 TF_MASK); IJcc CNE 1; IJmp 2; ILab 1; IRaise 13 0; ILab 2;
         MOV (k_esp k) (k_bx k); MOV hEBX hEDX; AND R9D (i32 (Z.lnot VIF_MASK));
         AND hEDX (i32 IF_MASK); SHL hEDX 10; OR hEDX R9D; MOV c_eflags hEDX] ++
        emit_popf_tail popf_base next_eip
    | _, _ => [IRaise 13 0]
    end
  else
    let m1 := if fm_cpl f =? 0 then Z.lor popf_base (Z.lor IOPL_MASK IF_MASK)
              else if fm_cpl f <=? fm_iopl f then Z.lor popf_base IF_MASK else popf_base in
    let mask := match k_w k with W32 => Z.lor m1 (Z.lor ID_MASK AC_MASK) | _ => m1 end in
    emit_pop true k ++ [ebx_of_r8 k] ++ emit_popf_tail mask next_eip.

(** ** CLI (4997-5024) and STI (10421-10457) *)

Definition emit_cli (f : fmode) : list instr :=
  let go mask := [MOV hEDX c_eflags; AND hEDX (i32 (Z.lnot mask)); MOV c_eflags hEDX] in
  if fm_pe f then
    if fm_cpl f <=? fm_iopl f then go IF_MASK
    else if fm_vme f || fm_pvi f then go VIF_MASK else [IRaise 13 0]
  else go IF_MASK.

Definition emit_sti (f : fmode) : list instr :=
  let tail := [TEST hEDX (i32 IF_MASK); IJcc CNE 3; IMask; ILab 3] in
  [MOV hEAX c_eflags; MOV hEDX hEAX] ++
  (if fm_pe f then
     if fm_cpl f <=? fm_iopl f then [OR hEAX (i32 IF_MASK); MOV c_eflags hEAX] ++ tail
     else if fm_vme f || fm_pvi f then
       [TEST hEAX (i32 VIP_MASK); IJcc CEQ 1; IRaise 13 0; ILab 1; OR hEAX (i32 VIF_MASK);
        MOV c_eflags hEAX] ++ tail
     else [IRaise 13 0]
   else [OR hEAX (i32 IF_MASK); MOV c_eflags hEAX] ++ tail).
