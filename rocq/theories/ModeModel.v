(** * The instructions and events that change the mode, as one step function

    J is core/emitter/x64/jit.cpp, F interface.cpp, T core/translate.cpp; all the work
    is in SegModel.v, this file only chooses the helper as the translator does. *)

From Coq Require Import ZArith Bool List.
From Verif Require Import SegModel.
Import ListNotations.
Local Open Scope Z_scope.

Section Model.
Context (X : memsys).
Notation st := (st X).
Notation out := (out X).
Notation "x <- f ;; g" := (bind X f (fun x => g)) (at level 100, f at next level, right associativity).

Inductive op :=
| MovSel (r : sr) (sl : Z)                    (* MOV/POP/LxS of ES, SS, DS, FS, GS *)
| JmpFar (sl n ip : Z)
| CallFar (sl ip n ret : Z)
| RetFar (n imm : Z)
| Iret (n : Z)
| Ltr (sl : Z) | Lldt (sl : Z)
| MovCr (n v : Z) | Lmsw (v : Z) | Clts
| Deliver (intn : Z) (hw : bool).             (* one delivery attempt of the noted exception *)

(** IS_PE_NOT_VM86 (J 554-556) *)
Definition protected (s : st) : bool := nz (hfl X s .& HFLG_PE_MODE) && negb (nz (ef X s .& VM_MASK)).

(** MOV Sreg (J 8040-8130: mov_sel_pe_helper or mov_sel_real_helper by mode), JMP far
    (J 7483-7564), CALL far (J 4829-4930), RETF (J 9808-9845), IRET (J 7108-7130), LTR
    and LLDT (here in protected mode only: they change no mode, see SysModel.v for the rest), MOV CRn, LMSW, CLTS.
    In the real mode forms of CALL and RETF the stack pointer update is the full
    register; what it does to ESP is in StackModel.v. *)
Definition exec (o : op) : st -> out unit := fun s =>
  match o with
  | MovSel r sl =>
      match r with
      | CS | LDTR | TR => Abort X _
      | _ => if protected s then mov_sel_pe X r sl s else Ok X _ tt (mov_sel_real X r sl s)
      end
  | JmpFar sl n ip => if protected s then ljmp_pe X sl n ip s else Ok X _ tt (far_real X sl ip s)
  | CallFar sl ip n r =>
      if protected s then lcall_pe X sl ip n r s
      else (e1 <- stack_push X (sel (seg X s CS)) n (esp X s) ;;
            e2 <- stack_push X r n e1 ;;
            upd X (fun s => far_real X sl ip (set_esp X e2 s))) s
  | RetFar n imm =>
      if protected s then retf_pe X n imm s
      else (p1 <- stack_pop X n (esp X s) ;;
            p2 <- stack_pop X n (snd p1) ;;
            upd X (fun s => far_real X (w16 (fst p2)) (fst p1) (set_esp X (snd p2 + imm) s))) s
  | Iret n => if nz (hfl X s .& HFLG_PE_MODE) then iret_pe X n s else iret_real X n s
  | Ltr sl => if protected s then ltr X sl s else Abort X _
  | Lldt sl => if protected s then lldt X sl s else Abort X _
  | MovCr n v => mov_cr X n v s
  | Lmsw v => lmsw X v s
  | Clts => clts X s
  | Deliver intn hw => deliver X intn hw s
  end.

(** the registers after cpu_reset (T 392-434); the zero hflags come from cpu_new *)
Definition reset (m : M X) : st :=
  mkst X 0 0xFFF0 2 0x100 0 0
    (fun r => match r with
              | CS => mkseg 0xF000 0xFFFF0000 0xFFFF 0x9B00
              | LDTR => mkseg 0 0 0xFFFF 0x8200 | TR => mkseg 0 0 0xFFFF 0x8B00
              | _ => mkseg 0 0 0xFFFF 0x9300 end)
    0 0xFFFF 0 0xFFFF 0x60000010 0 0 0 0x400 0 0 0 EXP_INVALID [] m.
(** cpu_run calls cpu_sync_state first (F 211-285); its flushes when PE changed are in
    MmuModel.v *)
Definition sync (s : st) : st := set_hfl X (sync_hflags X s) s.

End Model.
