(** * Transcription of the system instructions

    Sequences emitted by lib86cpu/core/emitter/x64/jit.cpp (line numbers refer to
    it) for the instructions that load and store the system registers, and for
    the privileged instructions, on [HostModel] with the system registers of the
    context and the calls to the helpers added.  What a helper does to the guest
    is an arbitrary function of its arguments and of the guest's state: the
    helpers themselves are in [SegModel], [ModeModel], [MsrModel], [MmuModel] and
    [ClockModel].  Simplification: a helper has no other effect on the host than
    that of a call. *)

From Coq Require Import ZArith Bool List.
From Verif Require Import HostModel AluModel.
Import ListNotations.
Local Open Scope Z_scope.

(** ** State *)

(** fields of regs_t (include/lib86cpu.hpp): base and limit of GDTR and IDTR, the
    selectors of LDTR and TR, control registers 0, 2 and 3 (CR4 is in [gctx]) *)
Inductive scell := GdtBase | GdtLimit | IdtBase | IdtLimit | LdtSel | TrSel | Cr0 | Cr2 | Cr3.
Definition scell_eqb (a b : scell) : bool :=
  match a, b with
  | GdtBase, GdtBase | GdtLimit, GdtLimit | IdtBase, IdtBase | IdtLimit, IdtLimit
  | LdtSel, LdtSel | TrSel, TrSel | Cr0, Cr0 | Cr2, Cr2 | Cr3, Cr3 => true
  | _, _ => false
  end.

(** the system registers, and vector and error code in exp_info *)
Record sysst := mksys { cell : scell -> Z; exc : Z * Z }.
Definition set_cell (c : scell) (v : Z) (y : sysst) : sysst :=
  mksys (fun k => if scell_eqb k c then v else cell y k) (exc y).

(** what a helper can see and change *)
Record view := mkview { v_ctx : gctx; v_mem : Z -> Z; v_sys : sysst }.

Inductive helper :=
| HLldt | HLtr | HVerr | HVerw          (* selector in DX *)
| HInvlpg                               (* address in EDX *)
| HCr (how : Z)                         (* update_crN_helper<how>: value in EDX, register in R8D *)
| HRdmsr | HWrmsr | HRdtsc | HCpuid | HHlt.

Record yenv := mkyenv {
  y_host : henv;
  y_help : helper -> Z -> Z -> view -> view * Z }.   (* arguments; the guest afterwards and EAX *)

(** ** Host actions *)

Inductive yinstr :=
| YHost (i : instr)
| YGet (w : width) (r : hreg) (c : scell)     (* MOV(r, [RCX + c]) *)
| YGetZ (r : hreg) (c : scell)                (* MOVZX(r32, word [RCX + c]) *)
| YPut (c : scell) (r : hreg)                 (* MOV([RCX + c], r32) *)
| YCall (h : helper)                          (* CALL_F(&helper), jit.cpp:561 *)
| YRaise.                                     (* RAISEin_no_param: the exception in exp_info *)

Section Exec.
Variable E : yenv.
Notation H := (y_host E).

Definition args (h : helper) (s : hst) : Z * Z :=
  match h with
  | HLldt | HLtr | HVerr | HVerw => (hval H W16 RDX s, 0)
  | HInvlpg => (hval H W32 RDX s, 0)
  | HCr _ => (hval H W32 RDX s, hval H W32 R8 s)
  | _ => (0, 0)
  end.

Definition ystep (i : yinstr) (s : hst) (y : sysst) : outcome * sysst :=
  match h_rcx (hr s) with
  | P PCtx =>
    match i with
    | YHost i => (step H i s, y)
    | YGet w r c => (next (op_write H (Rg w r) (getw w (cell y c)) s), y)
    | YGetZ r c => (next (op_write H (Rg W32 r) (getw W16 (cell y c)) s), y)
    | YPut c r => (Done s, set_cell c (hval H W32 r s) y)
    | YCall h =>
        let a := args h s in
        let r := y_help E h (fst a) (snd a) (mkview (ctx s) (gmem s) y) in
        let g := fst r in
        let s' := clobber H (set_gmem (v_mem g) (set_ctx (v_ctx g) s)) in
        (next (op_write H (Rg W32 RAX) (snd r) s'), v_sys g)
    | YRaise => (Raise (fst (exc y)) (snd (exc y)) s, y)
    end
  | _ => (Stuck, y)
  end.

Fixpoint yexec (l : list yinstr) (o : outcome) (y : sysst) : outcome * sysst :=
  match l with
  | [] => (o, y)
  | YHost i :: tl => yexec tl (exec H [i] o) y
  | i :: tl =>
      match o with
      | Done s => let r := ystep i s y in yexec tl (fst r) (snd r)
      | _ => yexec tl o y
      end
  end.
Definition yrun (l : list yinstr) (s : hst) (y : sysst) : outcome * sysst := yexec l (Done s) y.
End Exec.

Definition yhost (l : list instr) : list yinstr := map YHost l.
Definition c_cr4 := Mm W32 (MCtx RCX CCr4).
Definition raise_gp : list yinstr := yhost [IRaise 13 0].   (* RAISEin0(EXP_GP) *)
Definition raise_ud : list yinstr := yhost [IRaise 6 0].    (* RAISEin0(EXP_UD) *)

(** ** The sequences

    [u]: hflags & HFLG_CPL is not zero; [vm]: EFLAGS.VM; [pe]: HFLG_PE_MODE.  All
    are read when the block is translated. *)

(** load_sys_seg_reg of GDTR and IDTR (3443-3480); [op16]: 16-bit operand size *)
Definition emit_ldt (idt u op16 : bool) (m : memop) : list yinstr :=
  if u then raise_gp else
  yhost (emit_ea m ++ [MOV hEBX hEDX; ILoad W16; ADD hEBX (i32 2); MOV hEDX hEBX; MOVZX hEBX AX; ILoad W32]) ++
  yhost (if op16 then [AND hEAX (i32 0x00FFFFFF)] else []) ++
  [YPut (if idt then IdtBase else GdtBase) RAX; YPut (if idt then IdtLimit else GdtLimit) RBX].

(** the operand of LLDT, LTR, VERR, VERW and LMSW (3488-3496) *)
Definition ld16 (o : rm) : list instr :=
  match o with
  | RmReg g => [MOV AX (g_opnd W16 g)]
  | RmMem m => emit_ea m ++ [ILoad W16]
  end.

(** load_sys_seg_reg of LDTR and TR (3481-3511) *)
Definition emit_lsel (tr u vm : bool) (o : rm) : list yinstr :=
  if vm then raise_ud else if u then raise_gp else
  yhost (ld16 o) ++ yhost [MOV DX AX] ++ [YCall (if tr then HLtr else HLldt)] ++
  yhost [TEST hEAX hEAX; IJcc CEQ 0] ++ [YRaise] ++ yhost [ILab 0].

(** gp_exp_check (3537-3547); CR4_UMIP_MASK is internal.hpp:344 *)
Definition umip (u : bool) : list instr :=
  if u then [MOV hEAX c_cr4; AND hEAX (i32 0x800); TEST hEAX hEAX; IJcc CEQ 0; IRaise 13 0; ILab 0] else [].

(** store_sys_seg_reg of GDTR and IDTR (3549-3567) *)
Definition emit_sdt (idt u : bool) (m : memop) : list yinstr :=
  yhost (umip u) ++ yhost (emit_ea m ++ [MOV hEBX hEDX]) ++
  [YGet W16 R8 (if idt then IdtLimit else GdtLimit)] ++
  yhost [IStore W16; ADD hEBX (i32 2); MOV hEDX hEBX] ++
  [YGet W32 R8 (if idt then IdtBase else GdtBase)] ++ yhost [IStore W32].

(** store_sys_seg_reg of LDTR and TR (3568-3588) *)
Definition emit_ssel (tr u vm : bool) (o : rm) : list yinstr :=
  if vm then raise_ud else
  yhost (umip u) ++
  match o with
  | RmReg g => [YGetZ RAX (if tr then TrSel else LdtSel)] ++ yhost [MOV (g_opnd W32 g) hEAX]
  | RmMem m => yhost (emit_ea m) ++ [YGet W16 R8 (if tr then TrSel else LdtSel)] ++ yhost [IStore W16]
  end.

(** verx (3594-3622) *)
Definition emit_ver (wr vm : bool) (o : rm) : list yinstr :=
  if vm then raise_ud else
  yhost (ld16 o) ++ yhost [MOV DX AX] ++ [YCall (if wr then HVerw else HVerr)].

(** LMSW (7664-7692) and CLTS (5027-5042): the block ends *)
Definition emit_lmsw (u pe : bool) (nxt : Z) (o : rm) : list yinstr :=
  if u then raise_gp else
  yhost (ld16 o) ++ yhost ((if pe then [OR AX (Im W16 1)] else []) ++ [MOVZX hEDX AX; MOV R8D (i32 0)]) ++
  [YCall (HCr 1)] ++ yhost [MOV c_eip (i32 nxt); ILink].
Definition emit_clts (u : bool) (nxt : Z) : list yinstr :=
  if u then raise_gp else
  yhost [MOV hEDX (i32 0); MOV R8D (i32 0)] ++ [YCall (HCr 2)] ++ yhost [MOV c_eip (i32 nxt); ILink].

(** MOV from and to a control register (7888-7898, 7932-7968) *)
Inductive creg := CR0 | CR2 | CR3 | CR4.
Definition cr_num (c : creg) : Z := match c with CR0 => 0 | CR2 => 2 | CR3 => 3 | CR4 => 4 end.
Definition emit_mov_from_cr (u : bool) (c : creg) (r : greg) : list yinstr :=
  if u then raise_gp else
  match c with
  | CR0 => [YGet W32 RAX Cr0] | CR2 => [YGet W32 RAX Cr2] | CR3 => [YGet W32 RAX Cr3]
  | CR4 => yhost [MOV hEAX c_cr4]
  end ++ yhost [MOV (c_reg W32 false r) hEAX].
Definition emit_mov_to_cr (u : bool) (nxt : Z) (c : creg) (r : greg) : list yinstr :=
  if u then raise_gp else
  yhost [MOV hEDX (c_reg W32 false r)] ++
  match c with
  | CR2 => [YPut Cr2 RDX]
  | _ =>
      yhost [MOV R8D (i32 (cr_num c))] ++ [YCall (HCr 0)] ++
      yhost [TEST hEAX hEAX; IJcc CEQ 0; IRaise 13 0; ILab 0] ++
      match c with CR3 => [] | _ => yhost [MOV c_eip (i32 nxt); ILink] end
  end.

(** RDMSR, WRMSR (9744-9757, 10790-10803) *)
Definition emit_msr (wr u : bool) : list yinstr :=
  if u then raise_gp else
  [YCall (if wr then HWrmsr else HRdmsr)] ++ yhost [TEST hEAX hEAX; IJcc CEQ 0; IRaise 13 0; ILab 0].
(** RDTSC (9760-9773); CR4_TSD_MASK is internal.hpp:337 *)
Definition emit_rdtsc (u : bool) : list yinstr :=
  yhost (if u then [MOV hEAX c_cr4; AND hEAX (i32 4); CMP hEAX (i32 0); IJcc CEQ 0; IRaise 13 0; ILab 0] else []) ++
  [YCall HRdtsc].
(** INVLPG (7090-7106), WBINVD (10780-10787), CPUID (5580-5583), HLT (6642-6672, without
    CPU_ABORT_ON_HLT; hlt_helper is in [RunModel]) *)
Definition emit_invlpg (u : bool) (m : memop) : list yinstr :=
  if u then raise_gp else yhost (emit_ea m) ++ [YCall HInvlpg].
Definition emit_wbinvd (u : bool) : list yinstr := if u then raise_gp else [].
Definition emit_cpuid : list yinstr := [YCall HCpuid].
Definition emit_hlt (u : bool) (nxt : Z) : list yinstr :=
  if u then raise_gp else yhost [MOV c_eip (i32 nxt)] ++ [YCall HHlt] ++ yhost [ILink].

Inductive sysop :=
| LGDT (op16 : bool) (m : memop) | LIDT (op16 : bool) (m : memop)
| SGDT (m : memop) | SIDT (m : memop)
| LLDT (o : rm) | LTR (o : rm) | SLDT (op16 : bool) (o : rm) | STR (op16 : bool) (o : rm) | VERR (o : rm) | VERW (o : rm)
| LMSW (o : rm) | CLTS | MOV_from_CR (c : creg) (r : greg) | MOV_to_CR (c : creg) (r : greg)
| RDMSR | WRMSR | RDTSC | CPUID | INVLPG (m : memop) | WBINVD | HLT.

(** the operand size of SLDT and STR is not looked at *)
Definition emit_sys (k : sysop) (u vm pe : bool) (nxt : Z) : list yinstr :=
  match k with
  | LGDT w m => emit_ldt false u w m | LIDT w m => emit_ldt true u w m
  | SGDT m => emit_sdt false u m | SIDT m => emit_sdt true u m
  | LLDT o => emit_lsel false u vm o | LTR o => emit_lsel true u vm o
  | SLDT _ o => emit_ssel false u vm o | STR _ o => emit_ssel true u vm o
  | VERR o => emit_ver false vm o | VERW o => emit_ver true vm o
  | LMSW o => emit_lmsw u pe nxt o | CLTS => emit_clts u nxt
  | MOV_from_CR c r => emit_mov_from_cr u c r | MOV_to_CR c r => emit_mov_to_cr u nxt c r
  | RDMSR => emit_msr false u | WRMSR => emit_msr true u | RDTSC => emit_rdtsc u | CPUID => emit_cpuid
  | INVLPG m => emit_invlpg u m | WBINVD => emit_wbinvd u | HLT => emit_hlt u nxt
  end.
