(** * The context a block is translated in and the code emitted from it

    J is core/emitter/x64/jit.cpp, T core/translate.cpp, N core/internal.hpp, H
    core/helpers.cpp.  The emitters read hflags, eflags and the base of CS while the block
    is translated and put the answer in the code; a block is entered again only when
    its guest flags and CS base are those of the cpu (T 1104-1126, J 976-995, H 307-309).

    Instructions modelled: those that can write what the emitters read, and one of each
    kind of use of the context (operand size, stack size, segment bases known to be
    zero, privilege, instruction pointer).  General registers other than ESP are left
    out: the operands of the instructions are values.  The registers, memory and
    helpers are those of SegModel.v. *)

From Coq Require Import ZArith Bool List.
From Verif Require Import SegModel.
Import ListNotations.
Local Open Scope Z_scope.

(** N 64-106, 242 *)
Definition HFLG_TRAMP := 64.
Definition ZERO_SEL_MASK := 0x7E00000.
Definition HFLG_CONST := HFLG_CPL .| HFLG_CS32 .| HFLG_SS32 .| HFLG_PE_MODE .| HFLG_CR0_EM .| HFLG_TRAMP .| HFLG_CR0_MP .| HFLG_CR0_TS
  .| HFLG_CR4_OSXMMEXCPT .| HFLG_CR0_NE .| HFLG_CR4_OSFXSR .| HFLG_CR4_VME .| HFLG_CR4_PVI .| ZERO_SEL_MASK.
Definition EFLAGS_CONST := TF_MASK .| IOPL_MASK .| RF_MASK .| VM_MASK .| AC_MASK.
Definition EXP_UD := 6.

(** what the emitters read: hflags, eflags, the base of CS *)
Record ctx := mkctx { ch : Z; ce : Z; cb : Z }.

(** the guest flags and CS base stored in a block (T 1595-1603) and compared when it is
    looked up (T 1104-1126) *)
Definition key (c : ctx) : Z * Z := ((ch c .& HFLG_CONST) .| (ce c .& EFLAGS_CONST), cb c).

Inductive ins :=
| MovSel (r : sr) (sl : Z)        (* MOV, POP, LxS of a data segment register *)
| Ltr (sl : Z) | Lldt (sl : Z)
| MovCr (n v : Z) | Lmsw (v : Z) | Clts
| Cli | Sti | Cld | Std
| Popf (o66 : bool)
| Push (o66 : bool) (v : Z)
| MovEsp (r : sr) (off : Z)       (* MOV ESP, r:[off], 32-bit address *)
| Jmp (o66 : bool) (rel : Z)      (* E9, EB *)
| Call (o66 : bool) (rel : Z)     (* E8 *)
| Hlt.

Section Model.
Context (X : memsys).
Notation st := (st X).
Notation out := (out X).
Notation "x <- f ;; g" := (bind X f (fun x => g)) (at level 100, f at next level, right associativity).

Definition ctx_of (s : st) : ctx := mkctx (hfl X s) (ef X s) (base (seg X s CS)).

(** IS_PE, IS_VM86, IS_PE_NOT_VM86 (J 554-556); the operand size (T 1319-1324, the flag
    from T 1625-1632: 16-bit code outside protected mode has CS32 clear) *)
Definition epe (c : ctx) : bool := nz (ch c .& HFLG_PE_MODE).
Definition evm (c : ctx) : bool := nz (ce c .& VM_MASK).
Definition eprot (c : ctx) : bool := (ch c .& HFLG_PE_MODE) .| (ce c .& VM_MASK) =? HFLG_PE_MODE.
Definition ecpl (c : ctx) : Z := ch c .& HFLG_CPL.
Definition eiopl (c : ctx) : Z := (ce c .& IOPL_MASK) >> 12.
Definition osize (c : ctx) (o66 : bool) : Z := if xorb (nz (ch c .& HFLG_CS32)) o66 then 4 else 2.

(** the base added to an offset: left out if the flag of the register says it is zero
    (J 1070-1078, 2267) *)
Definition ebase (c : ctx) (r : sr) (s : st) : Z := if nz (ch c .& zero_bit r) then 0 else base (seg X s r).

(** ST_R16, ST_R32 of ESP *)
Definition put_esp (wide : bool) (v : Z) (s : st) : st :=
  set_esp X (if wide then w32 v else (esp X s .& 0xFFFF0000) .| w16 v) s.

(** gen_stack_push (J 2248-2338), gen_stack_pop (J 2340-2400) *)
Definition gen_push (c : ctx) (n v : Z) : st -> out unit := fun s =>
  let w := nz (ch c .& HFLG_SS32) in
  let e := if w then w32 (esp X s - n) else w16 (w16 (esp X s) - n) in
  bind X (mwrite X n 0 (e + ebase c SS s) v) (fun _ => upd X (put_esp w e)) s.
Definition gen_pop (c : ctx) (n : Z) : st -> out Z := fun s =>
  let w := nz (ch c .& HFLG_SS32) in
  let e := if w then esp X s else w16 (esp X s) in
  bind X (mread X n 0 (e + ebase c SS s)) (fun v => bind X (upd X (put_esp w (e + n))) (fun _ => ret X v)) s.

(** the eip the emitted code knows for the instruction at the linear address [p] (T 1243)
    and for the one after it *)
Definition next_eip (c : ctx) (p n : Z) : Z := w32 (p - cb c + n).
Definition to_next (c : ctx) (p n : Z) : st -> st := set_eip X (next_eip c p n).
Definition target (c : ctx) (p n rel : Z) (o66 : bool) : Z :=
  let e := w32 (p - cb c + n + rel) in if osize c o66 =? 2 then e .& 0xFFFF else e.

(** POPF (J 9338-9446): the arithmetic flags, kept in lazy form, are AluModel.v's; in
    virtual 8086 mode with IOPL below 3 and VME (a 16-bit pop) IF goes to VIF and the
    store of the other flags follows *)
Definition popf_mask (c : ctx) (o66 : bool) : Z :=
  let m := TF_MASK .| DF_MASK .| NT_MASK in
  if evm c then
    if eiopl c =? 3 then (if osize c o66 =? 4 then m .| IF_MASK .| AC_MASK .| ID_MASK else m .| IF_MASK) else m
  else
    (if ecpl c =? 0 then m .| IOPL_MASK .| IF_MASK else if ecpl c <=? eiopl c then m .| IF_MASK else m)
    .| (if osize c o66 =? 4 then ID_MASK .| AC_MASK else 0).
Definition popf_vme (c : ctx) (o66 : bool) : bool :=
  evm c && negb (eiopl c =? 3) && (osize c o66 =? 2) && nz (ch c .& HFLG_CR4_VME).
Definition popf_gp (c : ctx) (o66 : bool) : bool := evm c && negb (eiopl c =? 3) && negb (popf_vme c o66).
Definition popf (c : ctx) (p n : Z) (o66 : bool) : st -> out unit := fun s =>
  if popf_gp c o66 then raise_exp X 0 EXP_GP s
  else
    let k := popf_mask c o66 in
    bind X (gen_pop c (osize c o66)) (fun v s1 =>
      if popf_vme c o66 && (((ef X s .| v) .& (IF_MASK .| VIP_MASK) =? IF_MASK .| VIP_MASK) || nz (v .& TF_MASK))
      then raise_exp X 0 EXP_GP (set_esp X (esp X s) s1)
      else
        let e := if popf_vme c o66 then (ef X s1 .& not32 VIF_MASK) .| ((v .& IF_MASK) << 10) else ef X s1 in
        Ok X _ tt (to_next c p n (set_ef X ((e .& not32 k) .| (v .& k) .| 2) s1))) s.

(** CLI, STI (J 4998-5023, 10422-10460): the interrupt inhibition of STI is IrqModel.v's *)
Definition if_flag (c : ctx) : option Z :=
  if epe c then
    if ecpl c <=? eiopl c then Some IF_MASK
    else if nz (ch c .& (HFLG_CR4_VME .| HFLG_CR4_PVI)) then Some VIF_MASK else None
  else Some IF_MASK.

(** a helper's result 1 raises #GP(0) (J 7952-7955) *)
Definition or_gp (o : option st) (s : st) : out unit :=
  match o with Some s' => Ok X _ tt s' | None => raise_exp X 0 EXP_GP s end.

(** the code emitted in the context [c] for the instruction of [n] bytes at the linear
    address [p].  MOV Sreg J 8098-8152, LTR and LLDT J 3475-3504, MOV CRn J 7931-7968, LMSW
    J 7664-7692, CLTS J 5026-5042, CLD J 4987-4995, STD J 10412-10419, JMP J 7464-7480,
    CALL J 4850-4867, HLT J 6648-6672 *)
Definition emit (c : ctx) (p n : Z) (i : ins) : st -> out unit := fun s =>
  match i with
  | MovSel r sl =>
      match r with
      | CS | LDTR | TR => Abort X _
      | _ => bind X (if eprot c then mov_sel_pe X r sl else upd X (mov_sel_real X r sl)) (fun _ => upd X (to_next c p n)) s
      end
  | Ltr sl => if evm c || nz (ecpl c) then raise_exp X 0 (if evm c then EXP_UD else EXP_GP) s else ltr X sl s
  | Lldt sl => if evm c || nz (ecpl c) then raise_exp X 0 (if evm c then EXP_UD else EXP_GP) s else lldt X sl s
  | MovCr k v =>
      if nz (ecpl c) then raise_exp X 0 EXP_GP s
      else if k =? 0 then bind X (or_gp (update_cr0 X 0 v s)) (fun _ => upd X (to_next c p n)) s
      else if k =? 2 then Ok X _ tt (set_cr2 X v s)
      else if k =? 3 then Ok X _ tt (update_cr3 X v s)
      else if k =? 4 then
        match update_cr4 X v s with
        | None => Abort X _ | Some o => bind X (or_gp o) (fun _ => upd X (to_next c p n)) s
        end
      else Abort X _
  | Lmsw v =>
      if nz (ecpl c) then raise_exp X 0 EXP_GP s
      else match update_cr0 X 1 (if epe c then w16 v .| CR0_PE else w16 v) s with
           | Some s' => Ok X _ tt (to_next c p n s') | None => Abort X _ end
  | Clts =>
      if nz (ecpl c) then raise_exp X 0 EXP_GP s
      else match update_cr0 X 2 0 s with Some s' => Ok X _ tt (to_next c p n s') | None => Abort X _ end
  | Cli => match if_flag c with Some k => Ok X _ tt (set_ef X (ef X s .& not32 k) s) | None => raise_exp X 0 EXP_GP s end
  | Sti =>
      match if_flag c with
      | Some k => if (k =? VIF_MASK) && nz (ef X s .& VIP_MASK) then raise_exp X 0 EXP_GP s
                  else Ok X _ tt (set_ef X (ef X s .| k) s)
      | None => raise_exp X 0 EXP_GP s end
  | Cld => Ok X _ tt (set_ef X (ef X s .& not32 DF_MASK) s)
  | Std => Ok X _ tt (set_ef X (ef X s .| DF_MASK) s)
  | Popf o66 => popf c p n o66 s
  | Push o66 v => gen_push c (osize c o66) v s
  | MovEsp r off => bind X (mread X 4 0 (off + ebase c r s)) (fun v => upd X (set_esp X v)) s
  | Jmp o66 rel => Ok X _ tt (set_eip X (target c p n rel o66) s)
  | Call o66 rel =>
      bind X (gen_push c (osize c o66) (next_eip c p n)) (fun _ => upd X (set_eip X (target c p n rel o66))) s
  | Hlt => if nz (ecpl c) then raise_exp X 0 EXP_GP s else Ok X _ tt (to_next c p n s)
  end.

(** translate_next is zero after the instruction was emitted: cited lines, and every
    exception raised whatever the state (J 868-872) *)
Definition ends (c : ctx) (i : ins) : bool :=
  match i with
  | MovSel _ _ | Popf _ | Jmp _ _ | Lmsw _ | Clts | Hlt => true
  | Ltr _ | Lldt _ => evm c || nz (ecpl c)
  | MovCr k _ => nz (ecpl c) || (k =? 0) || (k =? 4)
  | Cli | Sti => match if_flag c with None => true | _ => false end
  | Cld | Std | Push _ _ | MovEsp _ _ | Call _ _ => false
  end.
(** the emitted code ends with a jump out of the block (gen_tc_linking_jmp, or the
    epilogue for HLT); after a CALL the block goes on, but only a return that the return
    stack buffer predicts enters it there (J 4947-4955) *)
Definition leaves (i : ins) : bool :=
  match i with
  | MovSel _ _ | Popf _ | Jmp _ _ | Call _ _ | Lmsw _ | Clts | Hlt => true
  | MovCr k _ => (k =? 0) || (k =? 4)
  | Ltr _ | Lldt _ | Cli | Sti | Cld | Std | Push _ _ | MovEsp _ _ => false
  end.

(** the instruction with the store of eip the others get (update_eip, T 1345-1346) *)
Definition emit_all (c : ctx) (p n : Z) (i : ins) (s : st) : out unit :=
  match emit c p n i s with
  | Ok _ _ _ s1 => Ok X _ tt (if leaves i then s1 else to_next c p n s1)
  | o => o
  end.

(** cpu_translate (T 1229-1352): the instructions of the block, decoded at [p] and on;
    [fetch] is the decoder on the code the page tables select, [room] the number of
    instructions before the page ends or an interrupt, a fault or a breakpoint stops *)
Fixpoint translate (fetch : Z -> ins * Z) (room : nat) (c : ctx) (p : Z) : list (ins * Z) :=
  match room with
  | O => []
  | S k => let x := fetch p in
           if ends c (fst x) then [x] else x :: translate fetch k c (w32 (p + snd x))
  end.

(** the emitted code of the instructions [l] from the linear address [p] *)
Fixpoint run (c : ctx) (p : Z) (l : list (ins * Z)) (s : st) : out unit :=
  match l with
  | [] => Ok X _ tt s
  | (i, n) :: l =>
      match emit_all c p n i s with
      | Ok _ _ _ s1 => if leaves i then Ok X _ tt s1 else run c (w32 (p + n)) l s1
      | o => o
      end
  end.

End Model.
