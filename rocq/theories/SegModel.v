(** * Segmentation, far transfers, exception delivery, control registers

    Files: H = lib86cpu/core/helpers.cpp, I = core/instructions.cpp,
    T = core/translate.cpp, J = core/emitter/x64/jit.cpp, F = lib86cpu/interface.cpp,
    N = core/internal.hpp.

    Simplifications, for the whole file:
    - memory is any system satisfying [memsys]: reads and writes of 1, 2, 4 or 8
      bytes at a linear address either succeed or report a page fault, and may
      change the memory system in both cases (TLB, accessed bits).  The paged
      memory of MmuModel.v is one; theorems hold for all of them;
    - a page fault leaves the function (a C++ exception that cpu_main_loop, T
      1477-1588, turns into cpu_raise_exception): outcome [PFault];
    - LIB86CPU_ABORT (task gates, unsupported cases): outcome [Abort];
    - the return stack buffer, the debugger and its breakpoint list are left out;
    - 32-bit registers are values below 2^32; sums are wrapped where the C++ does. *)

From Coq Require Import ZArith Bool List.
From Verif Require HostModel AluModel.
Import ListNotations.
Local Open Scope Z_scope.

Definition w32 (v : Z) : Z := v mod 2 ^ 32.
Definition w16 (v : Z) : Z := v mod 2 ^ 16.
Definition not32 (v : Z) : Z := Z.ldiff 0xFFFFFFFF v.
Definition nz (v : Z) : bool := negb (v =? 0).
Infix ".&" := Z.land (at level 40, left associativity).
Infix ".|" := Z.lor (at level 50, left associativity).
Infix ".^" := Z.lxor (at level 45, left associativity).
Infix "<<" := Z.shiftl (at level 34, left associativity).
Infix ">>" := Z.shiftr (at level 34, left associativity).

(** N 72-110 *)
Definition HFLG_CPL := 3.            Definition HFLG_CS32 := 4.
Definition HFLG_SS32 := 8.           Definition HFLG_PE_MODE := 16.
Definition HFLG_CR0_EM := 32.        Definition HFLG_CR0_NE := 128.
Definition HFLG_CR4_OSFXSR := 512.   Definition HFLG_CR0_TS := 1024.
Definition HFLG_CR4_OSXMMEXCPT := 2048. Definition HFLG_CR0_MP := 0x8000.
Definition HFLG_CR4_VME := 0x80000.  Definition HFLG_CR4_PVI := 0x100000.
Definition HFLG_CS_IS_ZERO := 0x400000. Definition HFLG_SS_IS_ZERO := 0x800000.

(** N 152-172 *)
Definition SEG_DESC_TY := 15 << 40.  Definition SEG_DESC_A := 1 << 40.
Definition SEG_DESC_W := 1 << 41.    Definition SEG_DESC_C := 1 << 42.
Definition SEG_DESC_DC := 1 << 43.   Definition SEG_DESC_S := 1 << 44.
Definition SEG_DESC_DPL := 3 << 45.  Definition SEG_DESC_P := 1 << 47.
Definition SEG_DESC_DB := 1 << 54.   Definition SEG_DESC_G := 1 << 55.
Definition SEG_DESC_BY := SEG_DESC_W.
Definition SEG_DESC_TYC := 3 << 42.  Definition SEG_DESC_DCRW := 5 << 41.
Definition SEG_HIDDEN_DB := 1 << 22. Definition SEG_HIDDEN_TSS_TY := 1 << 11.

(** N 231-242 *)
Definition TF_MASK := 0x100.   Definition IF_MASK := 0x200.   Definition DF_MASK := 0x400.
Definition IOPL_MASK := 0x3000. Definition NT_MASK := 0x4000. Definition RF_MASK := 0x10000.
Definition VM_MASK := 0x20000. Definition AC_MASK := 0x40000. Definition VIF_MASK := 0x80000.
Definition VIP_MASK := 0x100000. Definition ID_MASK := 0x200000.

(** N 245-263 *)
Definition EXP_DB := 1.  Definition EXP_DF := 8.  Definition EXP_TS := 10. Definition EXP_NP := 11.
Definition EXP_SS := 12. Definition EXP_GP := 13. Definition EXP_PF := 14. Definition EXP_AC := 17.
Definition EXP_INVALID := 0xFFFF.

(** N 317-345 *)
Definition CR0_PG := 1 << 31. Definition CR0_CD := 1 << 30. Definition CR0_NW := 1 << 29.
Definition CR0_WP := 1 << 16. Definition CR0_NE := 1 << 5. Definition CR0_ET := 1 << 4.
Definition CR0_TS := 1 << 3.  Definition CR0_EM := 1 << 2. Definition CR0_MP := 1 << 1.
Definition CR0_PE := 1.
Definition CR0_FLG_MASK := 0xE005003F.
Definition CR0_LMSW_MASK := 15.
Definition CR3_FLG_MASK := 0xFFFFF018.
Definition CR4_VME := 1. Definition CR4_PVI := 2. Definition CR4_PSE := 16. Definition CR4_PAE := 32.
Definition CR4_PGE := 128. Definition CR4_OSFXSR := 512. Definition CR4_OSXMMEXCPT := 1024.
Definition CR4_RES_MASK := 0xFFFFF800.     (* 0x1FFFFF << 11 as an unsigned 32-bit value *)
Definition DR7_GD_MASK := 1 << 13.

Inductive sr := ES | CS | SS | DS | FS | GS | LDTR | TR.
Definition sr_eqb (a b : sr) : bool :=
  match a, b with
  | ES, ES | CS, CS | SS, SS | DS, DS | FS, FS | GS, GS | LDTR, LDTR | TR, TR => true
  | _, _ => false
  end.
Record segr := mkseg { sel : Z; base : Z; limit : Z; sflags : Z }.

Inductive mres := MVal (v : Z) | MFault (code addr : Z).

(** arguments: CPL, is_priv, size, linear address *)
Record memsys := mkmem {
  M : Type;
  rd : Z -> Z -> Z -> Z -> M -> M * mres;
  wr : Z -> Z -> Z -> Z -> Z -> M -> M * option (Z * Z);   (* .. value; [None] is success *)
  rd_range : forall c p n a m m' v, rd c p n a m = (m', MVal v) -> 0 <= v < 2 ^ (8 * n)
}.

Section Model.
Context (X : memsys).

Record st := mkst {
  esp : Z;   (* regs.esp *)
  eip : Z;   (* regs.eip *)
  ef : Z;   (* regs.eflags: the non-arithmetic flags *)
  lres : Z;   (* lazy_eflags.result *)
  laux : Z;   (* lazy_eflags.auxbits *)
  hfl : Z;   (* hflags *)
  seg : sr -> segr;   (* segment registers with their hidden parts *)
  gdtb : Z;   (* gdtr_hidden *)
  gdtl : Z;
  idtb : Z;   (* idtr_hidden *)
  idtl : Z;
  cr0 : Z;
  cr2 : Z;
  cr3 : Z;
  cr4 : Z;
  dr7 : Z;
  xcode : Z;   (* exp_info.exp_data *)
  xidx : Z;
  xaddr : Z;
  oldexp : Z;   (* exp_info.old_exp *)
  flushes : list bool;   (* tlb flushes requested: true for all lines, false for non-global ones *)
  mem : M X
}.

Definition set_esp v s := mkst v (eip s) (ef s) (lres s) (laux s) (hfl s) (seg s) (gdtb s) (gdtl s) (idtb s) (idtl s) (cr0 s) (cr2 s) (cr3 s) (cr4 s) (dr7 s) (xcode s) (xidx s) (xaddr s) (oldexp s) (flushes s) (mem s).
Definition set_eip v s := mkst (esp s) v (ef s) (lres s) (laux s) (hfl s) (seg s) (gdtb s) (gdtl s) (idtb s) (idtl s) (cr0 s) (cr2 s) (cr3 s) (cr4 s) (dr7 s) (xcode s) (xidx s) (xaddr s) (oldexp s) (flushes s) (mem s).
Definition set_ef v s := mkst (esp s) (eip s) v (lres s) (laux s) (hfl s) (seg s) (gdtb s) (gdtl s) (idtb s) (idtl s) (cr0 s) (cr2 s) (cr3 s) (cr4 s) (dr7 s) (xcode s) (xidx s) (xaddr s) (oldexp s) (flushes s) (mem s).
Definition set_lres v s := mkst (esp s) (eip s) (ef s) v (laux s) (hfl s) (seg s) (gdtb s) (gdtl s) (idtb s) (idtl s) (cr0 s) (cr2 s) (cr3 s) (cr4 s) (dr7 s) (xcode s) (xidx s) (xaddr s) (oldexp s) (flushes s) (mem s).
Definition set_laux v s := mkst (esp s) (eip s) (ef s) (lres s) v (hfl s) (seg s) (gdtb s) (gdtl s) (idtb s) (idtl s) (cr0 s) (cr2 s) (cr3 s) (cr4 s) (dr7 s) (xcode s) (xidx s) (xaddr s) (oldexp s) (flushes s) (mem s).
Definition set_hfl v s := mkst (esp s) (eip s) (ef s) (lres s) (laux s) v (seg s) (gdtb s) (gdtl s) (idtb s) (idtl s) (cr0 s) (cr2 s) (cr3 s) (cr4 s) (dr7 s) (xcode s) (xidx s) (xaddr s) (oldexp s) (flushes s) (mem s).
Definition set_seg v s := mkst (esp s) (eip s) (ef s) (lres s) (laux s) (hfl s) v (gdtb s) (gdtl s) (idtb s) (idtl s) (cr0 s) (cr2 s) (cr3 s) (cr4 s) (dr7 s) (xcode s) (xidx s) (xaddr s) (oldexp s) (flushes s) (mem s).
Definition set_gdtb v s := mkst (esp s) (eip s) (ef s) (lres s) (laux s) (hfl s) (seg s) v (gdtl s) (idtb s) (idtl s) (cr0 s) (cr2 s) (cr3 s) (cr4 s) (dr7 s) (xcode s) (xidx s) (xaddr s) (oldexp s) (flushes s) (mem s).
Definition set_gdtl v s := mkst (esp s) (eip s) (ef s) (lres s) (laux s) (hfl s) (seg s) (gdtb s) v (idtb s) (idtl s) (cr0 s) (cr2 s) (cr3 s) (cr4 s) (dr7 s) (xcode s) (xidx s) (xaddr s) (oldexp s) (flushes s) (mem s).
Definition set_idtb v s := mkst (esp s) (eip s) (ef s) (lres s) (laux s) (hfl s) (seg s) (gdtb s) (gdtl s) v (idtl s) (cr0 s) (cr2 s) (cr3 s) (cr4 s) (dr7 s) (xcode s) (xidx s) (xaddr s) (oldexp s) (flushes s) (mem s).
Definition set_idtl v s := mkst (esp s) (eip s) (ef s) (lres s) (laux s) (hfl s) (seg s) (gdtb s) (gdtl s) (idtb s) v (cr0 s) (cr2 s) (cr3 s) (cr4 s) (dr7 s) (xcode s) (xidx s) (xaddr s) (oldexp s) (flushes s) (mem s).
Definition set_cr0 v s := mkst (esp s) (eip s) (ef s) (lres s) (laux s) (hfl s) (seg s) (gdtb s) (gdtl s) (idtb s) (idtl s) v (cr2 s) (cr3 s) (cr4 s) (dr7 s) (xcode s) (xidx s) (xaddr s) (oldexp s) (flushes s) (mem s).
Definition set_cr2 v s := mkst (esp s) (eip s) (ef s) (lres s) (laux s) (hfl s) (seg s) (gdtb s) (gdtl s) (idtb s) (idtl s) (cr0 s) v (cr3 s) (cr4 s) (dr7 s) (xcode s) (xidx s) (xaddr s) (oldexp s) (flushes s) (mem s).
Definition set_cr3 v s := mkst (esp s) (eip s) (ef s) (lres s) (laux s) (hfl s) (seg s) (gdtb s) (gdtl s) (idtb s) (idtl s) (cr0 s) (cr2 s) v (cr4 s) (dr7 s) (xcode s) (xidx s) (xaddr s) (oldexp s) (flushes s) (mem s).
Definition set_cr4 v s := mkst (esp s) (eip s) (ef s) (lres s) (laux s) (hfl s) (seg s) (gdtb s) (gdtl s) (idtb s) (idtl s) (cr0 s) (cr2 s) (cr3 s) v (dr7 s) (xcode s) (xidx s) (xaddr s) (oldexp s) (flushes s) (mem s).
Definition set_dr7 v s := mkst (esp s) (eip s) (ef s) (lres s) (laux s) (hfl s) (seg s) (gdtb s) (gdtl s) (idtb s) (idtl s) (cr0 s) (cr2 s) (cr3 s) (cr4 s) v (xcode s) (xidx s) (xaddr s) (oldexp s) (flushes s) (mem s).
Definition set_xcode v s := mkst (esp s) (eip s) (ef s) (lres s) (laux s) (hfl s) (seg s) (gdtb s) (gdtl s) (idtb s) (idtl s) (cr0 s) (cr2 s) (cr3 s) (cr4 s) (dr7 s) v (xidx s) (xaddr s) (oldexp s) (flushes s) (mem s).
Definition set_xidx v s := mkst (esp s) (eip s) (ef s) (lres s) (laux s) (hfl s) (seg s) (gdtb s) (gdtl s) (idtb s) (idtl s) (cr0 s) (cr2 s) (cr3 s) (cr4 s) (dr7 s) (xcode s) v (xaddr s) (oldexp s) (flushes s) (mem s).
Definition set_xaddr v s := mkst (esp s) (eip s) (ef s) (lres s) (laux s) (hfl s) (seg s) (gdtb s) (gdtl s) (idtb s) (idtl s) (cr0 s) (cr2 s) (cr3 s) (cr4 s) (dr7 s) (xcode s) (xidx s) v (oldexp s) (flushes s) (mem s).
Definition set_oldexp v s := mkst (esp s) (eip s) (ef s) (lres s) (laux s) (hfl s) (seg s) (gdtb s) (gdtl s) (idtb s) (idtl s) (cr0 s) (cr2 s) (cr3 s) (cr4 s) (dr7 s) (xcode s) (xidx s) (xaddr s) v (flushes s) (mem s).
Definition set_flushes v s := mkst (esp s) (eip s) (ef s) (lres s) (laux s) (hfl s) (seg s) (gdtb s) (gdtl s) (idtb s) (idtl s) (cr0 s) (cr2 s) (cr3 s) (cr4 s) (dr7 s) (xcode s) (xidx s) (xaddr s) (oldexp s) v (mem s).
Definition set_mem v s := mkst (esp s) (eip s) (ef s) (lres s) (laux s) (hfl s) (seg s) (gdtb s) (gdtl s) (idtb s) (idtl s) (cr0 s) (cr2 s) (cr3 s) (cr4 s) (dr7 s) (xcode s) (xidx s) (xaddr s) (oldexp s) (flushes s) v.

Inductive out (A : Type) :=
| Ok (a : A) (s : st)
| Exc (s : st)            (* an exception is recorded in exp_info, the caller raises it *)
| PFault (s : st)
| Abort.
Arguments Ok {A}. Arguments Exc {A}. Arguments PFault {A}. Arguments Abort {A}.

Definition ret {A} (a : A) : st -> out A := fun s => Ok a s.
Definition bind {A B} (f : st -> out A) (k : A -> st -> out B) : st -> out B :=
  fun s => match f s with Ok a s1 => k a s1 | Exc s1 => Exc s1 | PFault s1 => PFault s1 | Abort => Abort end.
Notation "x <- f ;; k" := (bind f (fun x => k)) (at level 61, f at next level, right associativity).
Notation "f ;; k" := (bind f (fun _ => k)) (at level 61, right associativity).
Definition get : st -> out st := fun s => Ok s s.
Definition upd (f : st -> st) : st -> out unit := fun s => Ok tt (f s).
Definition abort {A} : st -> out A := fun _ => Abort.
Definition when (b : bool) (f : st -> out unit) : st -> out unit := if b then f else ret tt.

Definition cpl (s : st) : Z := hfl s .& HFLG_CPL.

(** mmu_raise_page_fault (core/memory_management.cpp 280-301) *)
Definition page_fault {A} (code addr : Z) (s : st) : out A :=
  PFault (set_xaddr addr (set_xcode code (set_xidx EXP_PF s))).

(** mem_read_helper, mem_write_helper (core/memory_management.cpp 695-855) *)
Definition mread (n priv addr : Z) : st -> out Z := fun s =>
  match rd X (cpl s) priv n (w32 addr) (mem s) with
  | (m, MVal v) => Ok v (set_mem m s)
  | (m, MFault c a) => page_fault c a (set_mem m s)
  end.
Definition mwrite (n priv addr v : Z) : st -> out unit := fun s =>
  match wr X (cpl s) priv n (w32 addr) (v mod 2 ^ (8 * n)) (mem s) with
  | (m, None) => Ok tt (set_mem m s)
  | (m, Some (c, a)) => page_fault c a (set_mem m s)
  end.

(** raise_exp_helper (H 98-104) *)
Definition raise_exp {A} (code idx : Z) : st -> out A := fun s => Exc (set_xcode code (set_xidx idx s)).

(** stack_push_helper (H 10-52); the result is the new value of [addr].  With a
    32-bit stack and a 16-bit operand the offset is kept in a uint16_t. *)
Definition stack_push (val size addr : Z) : st -> out Z := fun s =>
  if size =? 4 then
    if nz (hfl s .& HFLG_SS32)
    then let e := w32 (addr - 4) in (mwrite 4 0 (e + base (seg s SS)) val ;; ret e) s
    else let e := w16 (addr - 4) in (mwrite 4 0 (e + base (seg s SS)) val ;; ret e) s
  else let e := w16 (addr - 2) in (mwrite 2 0 (e + base (seg s SS)) val ;; ret e) s.

(** stack_pop_helper (H 54-96); the result is the popped value and the new [addr] *)
Definition stack_pop (size addr : Z) : st -> out (Z * Z) := fun s =>
  if size =? 4 then
    let e := if nz (hfl s .& HFLG_SS32) then addr else w16 addr in
    (v <- mread 4 0 (e + base (seg s SS)) ;; ret (v, w32 (e + 4))) s
  else
    let e := w16 addr in (v <- mread 2 0 (e + base (seg s SS)) ;; ret (v, e + 2)) s.

(** read_seg_desc_helper (H 106-140); the result is the descriptor address and the
    descriptor *)
Definition read_seg_desc (is_tss : bool) (sl : Z) : st -> out (Z * Z) := fun s =>
  let idx := sl >> 3 in
  let ti := nz (sl .& 4) in
  if is_tss && ti then raise_exp (sl .& 0xFFFC) EXP_GP s
  else
    let b := if ti then base (seg s LDTR) else gdtb s in
    let l := if ti then limit (seg s LDTR) else gdtl s in
    let desc_addr := w32 (b + idx * 8) in
    if w32 (b + l) <? w32 (desc_addr + 7) then raise_exp (sl .& 0xFFFC) EXP_GP s
    else (d <- mread 8 2 desc_addr ;; ret (desc_addr, d)) s.

(** set_access_flg_seg_desc_helper (H 142-148) *)
Definition set_access_flg (desc desc_addr : Z) : st -> out unit :=
  if ((desc .& SEG_DESC_S) >> 44) .| ((desc .& SEG_DESC_A) >> 39) =? 1
  then mwrite 8 2 desc_addr (desc .| SEG_DESC_A) else ret tt.

(** read_seg_desc_base_helper .. read_seg_desc_limit_helper (H 150-170) *)
Definition desc_base (desc : Z) : Z :=
  w32 (((desc .& 0xFFFF0000) >> 16) .| ((desc .& 0xFF00000000) >> 16) .| ((desc .& 0xFF00000000000000) >> 32)).
Definition desc_flags (desc : Z) : Z := (desc .& 0xFFFFFFFF00000000) >> 32.
Definition desc_limit (desc : Z) : Z :=
  let l := (desc .& 0xFFFF) .| ((desc .& 0xF000000000000) >> 32) in
  if nz (desc .& SEG_DESC_G) then w32 (l << 12) .| 0xFFF else l.
Definition desc_dpl (desc : Z) : Z := (desc .& SEG_DESC_DPL) >> 45.

(** check_ss_desc_priv_helper (H 172-208); [cs] is the popped CS selector, if any *)
Definition check_ss_desc_priv (sl : Z) (cs : option Z) : st -> out (Z * Z) := fun s =>
  if sl >> 2 =? 0 then raise_exp 0 EXP_GP s
  else (dd <- read_seg_desc false sl ;;
    let d := snd dd in
    let sdw := ((d .& SEG_DESC_S) >> 44) .| ((d .& SEG_DESC_DC) >> 42) .| ((d .& SEG_DESC_W) >> 39) in
    let val0 := sdw .| ((d .& SEG_DESC_DPL) >> 42) .| ((sl .& 3) << 5) in
    let ring := match cs with None => cpl s | Some c => c .& 3 end in
    let val := val0 .^ (5 .| (ring << 3) .| (ring << 5)) in
    if nz val then raise_exp (sl .& 0xFFFC) EXP_GP
    else if d .& SEG_DESC_P =? 0 then raise_exp (sl .& 0xFFFC) EXP_SS
    else ret dd) s.

(** check_seg_desc_priv_helper (H 210-242) *)
Definition check_seg_desc_priv (sl : Z) : st -> out (Z * Z) :=
  dd <- read_seg_desc false sl ;;
  s <- get ;;
  let d := snd dd in
  if d .& SEG_DESC_S =? 0 then raise_exp (sl .& 0xFFFC) EXP_GP
  else
    let code := (d .& SEG_DESC_DC) >> 43 in
    let r := (d .& SEG_DESC_W) >> 40 in
    if code .| r =? 1 then raise_exp (sl .& 0xFFFC) EXP_GP
    else
      let dpl := desc_dpl d in
      if ((code =? 0) || (d .& SEG_DESC_C =? 0)) && ((dpl <? sl .& 3) && (dpl <? cpl s))
      then raise_exp (sl .& 0xFFFC) EXP_GP
      else if d .& SEG_DESC_P =? 0 then raise_exp (sl .& 0xFFFC) EXP_NP
      else ret dd.

(** write_seg_reg_helper (I 25-100).  The zero-base bit of a register is bit
    reg + ZERO_SEL2HFLG, i.e. 21 for ES .. 26 for GS (N 79-112). *)
Definition zero_bit (r : sr) : Z :=
  match r with ES => 1 << 21 | CS => 1 << 22 | SS => 1 << 23 | DS => 1 << 24 | FS => 1 << 25 | GS => 1 << 26 | _ => 0 end.
Definition put_seg (r : sr) (v : segr) (s : st) : st :=
  set_seg (fun q => if sr_eqb q r then v else seg s q) s.
Definition write_seg_reg (r : sr) (sl b l f : Z) (s : st) : st :=
  let s1 := put_seg r (mkseg sl b l f) s in
  let z := if b =? 0 then zero_bit r else 0 in
  match r with
  | LDTR | TR => s1
  | CS => set_hfl (((f .& SEG_HIDDEN_DB) >> 20) .| (sl .& HFLG_CPL) .| z
                     .| (hfl s .& not32 (HFLG_CS32 .| HFLG_CPL .| zero_bit CS))) s1
  | SS => set_hfl (((f .& SEG_HIDDEN_DB) >> 19) .| z .| (hfl s .& not32 (HFLG_SS32 .| zero_bit SS))) s1
  | _ => set_hfl (z .| (hfl s .& not32 (zero_bit r))) s1
  end.
Definition load_desc (r : sr) (sl d : Z) : st -> st := write_seg_reg r sl (desc_base d) (desc_limit d) (desc_flags d).

(** write_seg_reg_vm86_helper (I 102-108) *)
Definition write_seg_reg_vm86 (r : sr) (sl : Z) : st -> st :=
  let code := match r with CS => SEG_DESC_DC | _ => 0 end in
  write_seg_reg r sl (sl << 4) 0xFFFF
    ((SEG_DESC_A .| SEG_DESC_W .| code .| SEG_DESC_S .| SEG_DESC_DPL .| SEG_DESC_P) >> 32).

(** validate_seg_helper (I 110-153): [(flags & (3 << 13) >> 13)] parses as
    [flags & ((3 << 13) >> 13)] *)
Definition validate_seg (r : sr) (s : st) : st :=
  let f := sflags (seg s r) in
  let c := f .& (1 << 10) in let d := f .& (1 << 11) in let sy := f .& (1 << 12) in
  let dpl := f .& ((3 << 13) >> 13) in
  if (dpl <? cpl s) && (nz sy && ((d =? 0) || (c =? 0))) then write_seg_reg r 0 0 0 0 s else s.

(** read_eflags and write_eflags_helper, on the flag words of this state *)
Definition flagctx (s : st) : HostModel.gctx :=
  HostModel.mkg (fun _ => 0) (fun _ => 0) (ef s) 0 (lres s) (laux s) 0 (fun _ => 0).
Definition read_eflags (s : st) : Z := AluModel.read_eflags (flagctx s).
Definition write_eflags_helper (v mask : Z) (s : st) : st :=
  let c := AluModel.write_eflags_helper v mask (flagctx s) in
  set_laux (HostModel.aux c) (set_lres (HostModel.res c) (set_ef (HostModel.eflags c) s)).

(** iret_real_helper (I 318-347) *)
Definition iret_real (size : Z) : st -> out unit :=
  s0 <- get ;;
  p1 <- stack_pop size (esp s0) ;;
  p2 <- stack_pop size (snd p1) ;;
  p3 <- stack_pop size (snd p2) ;;
  upd (fun s =>
    let m := TF_MASK .| IF_MASK .| DF_MASK .| NT_MASK .| RF_MASK .| AC_MASK .| ID_MASK in
    let m := if nz (ef s .& VM_MASK) then m else m .| IOPL_MASK in
    let m := if size =? 2 then m .& 0xFFFF else m in
    let cs := w16 (fst p2) in
    let s := set_esp ((esp s .& 0xFFFF0000) .| (snd p3 .& 0xFFFF)) s in
    let s := set_eip (fst p1) s in
    let s := put_seg CS (mkseg cs (cs << 4) (limit (seg s CS)) (sflags (seg s CS))) s in
    write_eflags_helper (fst p3) m s).

(** lret_pe_helper (I 155-316): the part common to RETF and IRET, from the test for
    a null selector on (226-308) *)
Definition lret_tail (size ret_eip cs esp1 : Z) : st -> out unit :=
  s0 <- get ;;
  if cs >> 2 =? 0 then raise_exp 0 EXP_GP
  else
    dd <- read_seg_desc false cs ;;
    let d := snd dd in
    let rpl := cs .& 3 in
    let dpl := desc_dpl d in
    if negb (((d .& SEG_DESC_S) >> 44) .| ((d .& SEG_DESC_DC) >> 42) =? 3) then raise_exp (cs .& 0xFFFC) EXP_GP
    else if rpl <? cpl s0 then raise_exp (cs .& 0xFFFC) EXP_GP
    else if nz (d .& SEG_DESC_C) && (rpl <? dpl) then raise_exp (cs .& 0xFFFC) EXP_GP
    else if d .& SEG_DESC_P =? 0 then raise_exp (cs .& 0xFFFC) EXP_NP
    else if cpl s0 <? rpl then
      p1 <- stack_pop size esp1 ;;
      p2 <- stack_pop size (snd p1) ;;
      let ss := w16 (fst p2) in
      sd <- check_ss_desc_priv ss (Some cs) ;;
      set_access_flg (snd sd) (fst sd) ;;
      set_access_flg d (fst dd) ;;
      upd (fun s =>
        let s := load_desc SS ss (snd sd) s in
        let s := load_desc CS cs d s in
        let mask := if nz (sflags (seg s SS) .& SEG_HIDDEN_DB) then 0xFFFFFFFF else 0xFFFF in
        let s := set_esp ((esp s .& not32 mask) .| (fst p1 .& mask)) s in
        let s := set_eip ret_eip s in
        validate_seg GS (validate_seg FS (validate_seg ES (validate_seg DS s))))
    else
      set_access_flg d (fst dd) ;;
      upd (fun s =>
        let mask := if nz (hfl s .& HFLG_SS32) then 0xFFFFFFFF else 0xFFFF in
        let s := set_esp ((esp s .& not32 mask) .| (esp1 .& mask)) s in
        let s := set_eip ret_eip s in
        load_desc CS cs d s).

(** lret_pe_helper<false> *)
Definition lret_pe (size : Z) : st -> out unit :=
  s0 <- get ;;
  p1 <- stack_pop size (esp s0) ;;
  p2 <- stack_pop size (snd p1) ;;
  lret_tail size (fst p1) (w16 (fst p2)) (snd p2).

(** RETF with an immediate in protected mode (J 9808-9855): the stack pointer is
    advanced after the helper, with the stack size the block was translated for *)
Definition retf_pe (size : Z) (imm : Z) : st -> out unit :=
  s0 <- get ;;
  lret_pe size ;;
  upd (fun s => if nz (hfl s0 .& HFLG_SS32) then set_esp (w32 (esp s + imm)) s
                else set_esp ((esp s .& 0xFFFF0000) .| w16 (esp s + imm)) s).

(** lret_pe_helper<true> (I 163-224, 310-315) *)
Definition iret_pe (size : Z) : st -> out unit :=
  s0 <- get ;;
  if nz (ef s0 .& VM_MASK) then
    if (ef s0 .& IOPL_MASK) >> 12 =? 3 then iret_real size else raise_exp 0 EXP_GP
  else if nz (ef s0 .& NT_MASK) then abort
  else
    p1 <- stack_pop size (esp s0) ;;
    p2 <- stack_pop size (snd p1) ;;
    p3 <- stack_pop size (snd p2) ;;
    let ret_eip := fst p1 in let cs := w16 (fst p2) in let temp := fst p3 in
    if nz (temp .& VM_MASK) then
      q1 <- stack_pop 4 (snd p3) ;;
      q2 <- stack_pop 4 (snd q1) ;;
      q3 <- stack_pop 4 (snd q2) ;;
      q4 <- stack_pop 4 (snd q3) ;;
      q5 <- stack_pop 4 (snd q4) ;;
      q6 <- stack_pop 4 (snd q5) ;;
      upd (fun s =>
        let s := write_eflags_helper temp (TF_MASK .| AC_MASK .| ID_MASK .| IF_MASK .| IOPL_MASK .| VM_MASK
                                             .| NT_MASK .| VIF_MASK .| VIP_MASK) s in
        let s := write_seg_reg_vm86 CS cs s in
        let s := write_seg_reg_vm86 SS (w16 (fst q2)) s in
        let s := write_seg_reg_vm86 ES (w16 (fst q3)) s in
        let s := write_seg_reg_vm86 DS (w16 (fst q4)) s in
        let s := write_seg_reg_vm86 FS (w16 (fst q5)) s in
        let s := write_seg_reg_vm86 GS (w16 (fst q6)) s in
        let s := set_eip ret_eip (set_esp (fst q1) s) in
        set_hfl ((hfl s .& not32 HFLG_CPL) .| 3) s)
    else
      let c0 := cpl s0 in
      let m := if size =? 2 then NT_MASK .| DF_MASK .| TF_MASK
               else let m := ID_MASK .| AC_MASK .| RF_MASK .| NT_MASK .| DF_MASK .| TF_MASK in
                    if c0 =? 0 then m .| (VIP_MASK .| VIF_MASK .| VM_MASK .| IOPL_MASK) else m in
      let m := if c0 <=? (ef s0 .& IOPL_MASK) >> 12 then m .| IF_MASK else m in
      lret_tail size ret_eip cs (snd p3) ;;
      upd (write_eflags_helper temp m).

(** Far transfers in real and VM86 mode write CS and its base directly and leave
    hflags alone: JMP (J 7483-7504, 7533-7564), CALL (J 4829-4853, 4881-4930; the
    pushes are in StackModel.v), RETF (J 9820-9836, after the pops) *)
Definition far_real (sl ip : Z) (s : st) : st :=
  set_eip ip (put_seg CS (mkseg sl (sl << 4) (limit (seg s CS)) (sflags (seg s CS))) s).

(** ljmp_pe_helper (I 349-461) *)
Definition ljmp_pe (sl size jmp_eip : Z) : st -> out unit :=
  s0 <- get ;;
  let c0 := cpl s0 in
  if sl >> 2 =? 0 then raise_exp 0 EXP_GP
  else
    dd <- read_seg_desc false sl ;;
    let d := snd dd in
    let dpl := desc_dpl d in let rpl := sl .& 3 in
    if nz (d .& SEG_DESC_S) then
      if d .& SEG_DESC_DC =? 0 then raise_exp (sl .& 0xFFFC) EXP_GP
      else if (if nz (d .& SEG_DESC_C) then c0 <? dpl else (c0 <? rpl) || negb (dpl =? c0))
      then raise_exp (sl .& 0xFFFC) EXP_GP
      else if d .& SEG_DESC_P =? 0 then raise_exp (sl .& 0xFFFC) EXP_NP
      else
        set_access_flg d (fst dd) ;;
        upd (fun s => set_eip (if size =? 2 then jmp_eip .& 0xFFFF else jmp_eip)
                        (load_desc CS ((sl .& 0xFFFC) .| c0) d s))
    else
      let ty := (d .& SEG_DESC_TY) >> 40 in
      if (ty =? 1) || (ty =? 5) || (ty =? 9) then abort
      else if negb ((ty =? 4) || (ty =? 12)) then raise_exp (sl .& 0xFFFC) EXP_GP
      else if (dpl <? c0) || (dpl <? rpl) then raise_exp (sl .& 0xFFFC) EXP_GP
      else if d .& SEG_DESC_P =? 0 then raise_exp (sl .& 0xFFFC) EXP_NP
      else
        let code_sel := (d .& 0xFFFF0000) >> 16 in
        if code_sel >> 2 =? 0 then raise_exp 0 EXP_GP
        else
          cc <- read_seg_desc false code_sel ;;
          let c := snd cc in
          let dpl := desc_dpl c in
          if negb (((c .& SEG_DESC_S) >> 43) .| ((c .& SEG_DESC_DC) >> 43) =? 3)
             || (nz (c .& SEG_DESC_C) && (c0 <? dpl)) || ((c .& SEG_DESC_C =? 0) && negb (dpl =? c0))
          then raise_exp (code_sel .& 0xFFFC) EXP_GP
          else if c .& SEG_DESC_P =? 0 then raise_exp (code_sel .& 0xFFFC) EXP_NP
          else
            set_access_flg c (fst cc) ;;
            upd (fun s => set_eip (if ty >> 3 =? 0 then jmp_eip .& 0xFFFF else jmp_eip)
                            (load_desc CS ((sl .& 0xFFFC) .| c0) c s)).

(** read_stack_ptr_from_tss_helper (H 257-276) *)
Definition read_stack_ptr_from_tss (dpl priv : Z) : st -> out (Z * Z) := fun s =>
  let tr := seg s TR in
  let ty := (sflags tr .& SEG_HIDDEN_TSS_TY) >> 11 in
  let idx := (2 << ty) + dpl * (4 << ty) in
  if limit tr <? idx + (4 << ty) - 1 then raise_exp (sel tr .& 0xFFFC) EXP_TS s
  else if nz ty then
    (e <- mread 4 priv (base tr + idx) ;; ss <- mread 2 priv (base tr + idx + 4) ;; ret (e, ss)) s
  else (e <- mread 2 priv (base tr + idx) ;; ss <- mread 2 priv (base tr + idx + 2) ;; ret (e, ss)) s.

(** one push of the inline sequences: [esp -= n; mem_write_helper(stack_base + (esp & mask), v)] *)
Definition ipush (n priv mask b v e : Z) : st -> out Z :=
  let e := w32 (e - n) in mwrite n priv (b + (e .& mask)) v ;; ret e.

(** the parameter loop of lcall_pe_helper (I 591-596, 610-615) *)
Fixpoint copy_params (k : nat) (n mask b e : Z) : st -> out Z :=
  match k with
  | O => ret e
  | S k' =>
      s <- get ;;
      v <- mread n 2 (base (seg s SS) + (w32 (esp s + Z.of_nat k' * n) .& mask)) ;;
      e <- ipush n 2 mask b v e ;;
      copy_params k' n mask b e
  end.

(** lcall_pe_helper (I 463-674); [read_stack_ptr_from_tss_helper] is called with its
    default is_priv = 0 (core/helpers.hpp 21) *)
Definition lcall_pe (sl call_eip size ret_eip : Z) : st -> out unit :=
  s0 <- get ;;
  let c0 := cpl s0 in
  if sl >> 2 =? 0 then raise_exp 0 EXP_GP
  else
    dd <- read_seg_desc false sl ;;
    let d := snd dd in
    let dpl := desc_dpl d in let rpl := sl .& 3 in
    if nz (d .& SEG_DESC_S) then
      if d .& SEG_DESC_DC =? 0 then raise_exp (sl .& 0xFFFC) EXP_GP
      else if (if nz (d .& SEG_DESC_C) then c0 <? dpl else (c0 <? rpl) || negb (dpl =? c0))
      then raise_exp (sl .& 0xFFFC) EXP_GP
      else if d .& SEG_DESC_P =? 0 then raise_exp (sl .& 0xFFFC) EXP_NP
      else
        e <- stack_push (sel (seg s0 CS)) size (esp s0) ;;
        e <- stack_push ret_eip size e ;;
        set_access_flg d (fst dd) ;;
        upd (fun s => set_eip call_eip (set_esp e (load_desc CS ((sl .& 0xFFFC) .| c0) d s)))
    else
      let ty := (d .& SEG_DESC_TY) >> 40 in
      if (ty =? 1) || (ty =? 5) || (ty =? 9) then abort
      else if negb ((ty =? 4) || (ty =? 12)) then raise_exp (sl .& 0xFFFC) EXP_GP
      else if (dpl <? c0) || (dpl <? rpl) then raise_exp (sl .& 0xFFFC) EXP_GP
      else if d .& SEG_DESC_P =? 0 then raise_exp (sl .& 0xFFFC) EXP_NP
      else
        let num_param := (d >> 32) .& 0x1F in
        let new_eip := ((d .& 0xFFFF000000000000) >> 32) .| (d .& 0xFFFF) in
        let code_sel := (d .& 0xFFFF0000) >> 16 in
        if code_sel >> 2 =? 0 then raise_exp 0 EXP_GP
        else
          cc <- read_seg_desc false code_sel ;;
          let c := snd cc in
          let dpl := desc_dpl c in
          if negb (((c .& SEG_DESC_S) >> 43) .| ((c .& SEG_DESC_DC) >> 43) =? 3) || (c0 <? dpl)
          then raise_exp (code_sel .& 0xFFFC) EXP_GP
          else if c .& SEG_DESC_P =? 0 then raise_exp (code_sel .& 0xFFFC) EXP_NP
          else
            let n := if nz (ty >> 3) then 4 else 2 in
            e <- (if (c .& SEG_DESC_C =? 0) && (dpl <? c0) then
                es <- read_stack_ptr_from_tss dpl 0 ;;
                let ss := snd es in
                if ss >> 2 =? 0 then raise_exp (ss .& 0xFFFC) EXP_TS
                else
                  ssd <- read_seg_desc false ss ;;
                  let sd := snd ssd in
                  let v := ((sd .& SEG_DESC_S) >> 44) .| ((sd .& SEG_DESC_DC) >> 42) .| ((sd .& SEG_DESC_W) >> 39)
                             .| ((sd .& SEG_DESC_DPL) >> 42) .| ((ss .& 3) << 5) in
                  if nz (v .^ (5 .| (dpl << 3) .| (dpl << 5))) then raise_exp (ss .& 0xFFFC) EXP_TS
                  else if sd .& SEG_DESC_P =? 0 then raise_exp (ss .& 0xFFFC) EXP_SS
                  else
                    let mask := if nz (sd .& SEG_DESC_DB) then 0xFFFFFFFF else 0xFFFF in
                    let b := desc_base sd in
                    e <- ipush n 2 mask b (sel (seg s0 SS)) (fst es) ;;
                    e <- ipush n 2 mask b (esp s0) e ;;
                    e <- copy_params (Z.to_nat num_param) n mask b e ;;
                    e <- ipush n 2 mask b (sel (seg s0 CS)) e ;;
                    e <- ipush n 2 mask b ret_eip e ;;
                    set_access_flg sd (fst ssd) ;;
                    upd (load_desc SS ((ss .& 0xFFFC) .| dpl) sd) ;;
                    ret e
              else
                let mask := if nz (hfl s0 .& HFLG_SS32) then 0xFFFFFFFF else 0xFFFF in
                let b := base (seg s0 SS) in
                e <- ipush n 0 mask b (sel (seg s0 CS)) (esp s0) ;;
                ipush n 0 mask b ret_eip e) ;;
            set_access_flg c (fst cc) ;;
            upd (fun s =>
              let eip_mask := if n =? 4 then 0xFFFFFFFF else 0xFFFF in
              set_eip ((new_eip .& not32 eip_mask) .| (new_eip .& eip_mask))
                (set_esp e (load_desc CS ((code_sel .& 0xFFFC) .| dpl) c s))).

(** mov_sel_real_helper (I 676-722) *)
Definition mov_sel_real (r : sr) (sl : Z) (s : st) : st :=
  let b := sl << 4 in
  let z := if b =? 0 then zero_bit r else 0 in
  put_seg r (mkseg sl b (limit (seg s r)) (sflags (seg s r)))
    (set_hfl (z .| (hfl s .& not32 (zero_bit r))) s).

(** mov_sel_pe_helper (I 724-755) *)
Definition mov_sel_pe (r : sr) (sl : Z) : st -> out unit :=
  match r with
  | SS =>
      dd <- check_ss_desc_priv sl None ;;
      set_access_flg (snd dd) (fst dd) ;;
      upd (load_desc SS sl (snd dd))
  | _ =>
      if sl >> 2 =? 0 then upd (write_seg_reg r 0 0 0 0)
      else
        dd <- check_seg_desc_priv sl ;;
        set_access_flg (snd dd) (fst dd) ;;
        upd (load_desc r sl (snd dd))
  end.

(** verrw_helper (I 757-801); the result is the new ZF.  Only ZF changes: the lazy
    flag words are not updated here, see LazyFlagsProofs.v for the encoding *)
Definition verrw (is_verr : bool) (sl : Z) : st -> out bool := fun s =>
  if sl >> 2 =? 0 then Ok false s
  else match read_seg_desc false sl s with
  | Ok (_, d) s1 =>
      let dpl := desc_dpl d in
      if (d .& SEG_DESC_S =? 0)
         || (negb (d .& SEG_DESC_TYC =? 0xC0000000000) && ((dpl <? cpl s) || (dpl <? sl .& 3)))
      then Ok false s1
      else if is_verr then Ok (negb (d .& SEG_DESC_DCRW =? 0x80000000000)) s1
      else Ok (d .& SEG_DESC_DCRW =? 0x20000000000) s1
  | Exc s1 => Ok false s1
  | PFault s1 => PFault s1
  | Abort => Abort
  end.

(** ltr_helper, lldt_helper (I 803-863) *)
Definition ltr (sl : Z) : st -> out unit :=
  if sl >> 2 =? 0 then raise_exp 0 EXP_GP
  else
    dd <- read_seg_desc true sl ;;
    let d := snd dd in
    let ty := ((d .& SEG_DESC_S) >> 40) .| ((d .& SEG_DESC_TY) >> 40) in
    if negb ((ty =? 1) || (ty =? 9)) then raise_exp (sl .& 0xFFFC) EXP_GP
    else if d .& SEG_DESC_P =? 0 then raise_exp (sl .& 0xFFFC) EXP_NP
    else mwrite 8 2 (fst dd) (d .| SEG_DESC_BY) ;; upd (load_desc TR sl d).
Definition lldt (sl : Z) : st -> out unit :=
  if sl >> 2 =? 0 then upd (write_seg_reg LDTR 0 0 0 0)
  else
    dd <- read_seg_desc false sl ;;
    let d := snd dd in
    let ty := ((d .& SEG_DESC_S) >> 40) .| ((d .& SEG_DESC_TY) >> 40) in
    if negb (ty =? 2) then raise_exp (sl .& 0xFFFC) EXP_GP
    else if d .& SEG_DESC_P =? 0 then raise_exp (sl .& 0xFFFC) EXP_NP
    else upd (load_desc LDTR sl d).

(** ** Control registers *)

(** update_crN_helper, case 0 (I 870-930); the instruction is MOV (0), LMSW (1) or
    CLTS (2); [None] is the return value 1 *)
Definition put_bits (mask v old : Z) : Z := v .| (old .& not32 mask).
Definition update_cr0 (ins new : Z) (s : st) : option st :=
  if (ins =? 0) && (((new .& CR0_PE =? 0) && ((new .& CR0_PG) >> 31 =? 1))
                    || ((new .& CR0_CD =? 0) && ((new .& CR0_NW) >> 29 =? 1)))
  then None
  else
    let s := if (ins =? 0) && (negb (cr0 s .& CR0_PG =? new .& CR0_PG)
                  || (negb (cr0 s .& CR0_WP =? new .& CR0_WP) && nz (new .& CR0_PG)))
             then set_flushes (true :: flushes s) s else s in
    let h := hfl s in
    let h := if negb (ins =? 2) then put_bits HFLG_CR0_EM ((new .& CR0_EM) << 3) h else h in
    let h := if negb (ins =? 2) then put_bits HFLG_CR0_MP ((new .& CR0_MP) << 14) h else h in
    let h := if ins =? 0 then put_bits HFLG_CR0_NE ((new .& CR0_NE) << 2) h else h in
    let h := put_bits HFLG_CR0_TS ((new .& CR0_TS) << 7) h in
    let h :=
      if negb (ins =? 2) && negb (cr0 s .& CR0_PE =? new .& CR0_PE) then
        if nz (new .& CR0_PE) then
          let h := if nz (sflags (seg s CS) .& SEG_HIDDEN_DB) then h .| HFLG_CS32 else h in
          let h := if nz (sflags (seg s SS) .& SEG_HIDDEN_DB) then h .| HFLG_SS32 else h in
          h .| (HFLG_PE_MODE .| (sel (seg s CS) .& HFLG_CPL))
        else h .& not32 (HFLG_CPL .| HFLG_CS32 .| HFLG_SS32 .| HFLG_PE_MODE)
      else h in
    let c := if ins =? 0 then (new .& CR0_FLG_MASK) .| CR0_ET
             else if ins =? 1 then ((cr0 s .& not32 CR0_LMSW_MASK) .| (new .& CR0_LMSW_MASK)) .| CR0_ET
             else cr0 s .& not32 CR0_TS in
    Some (set_cr0 c (set_hfl h s)).

(** case 3 (I 932-943) *)
Definition update_cr3 (new : Z) (s : st) : st :=
  let s := if nz (cr0 s .& CR0_PG) then set_flushes (negb (nz (cr4 s .& CR4_PGE)) :: flushes s) s else s in
  set_cr3 (new .& CR3_FLG_MASK) s.

(** case 4 (I 945-962); [Abort] for PAE *)
Definition update_cr4 (new : Z) (s : st) : option (option st) :=
  if nz (new .& CR4_RES_MASK) then Some None
  else if nz (new .& CR4_PAE) then None
  else
    let s := if negb (cr4 s .& (CR4_PSE .| CR4_PGE) =? new .& (CR4_PSE .| CR4_PGE))
             then set_flushes (true :: flushes s) s else s in
    let h := (new .& CR4_OSFXSR) .| ((new .& (CR4_VME .| CR4_PVI)) << 19) .| ((new .& CR4_OSXMMEXCPT) << 1)
               .| (hfl s .& not32 (HFLG_CR4_OSFXSR .| HFLG_CR4_OSXMMEXCPT .| HFLG_CR4_VME .| HFLG_CR4_PVI)) in
    Some (Some (set_cr4 new (set_hfl h s))).

(** MOV CRn, r32 (J 7931-7977), LMSW (J 7664-7691), CLTS (J 5027-5042): #GP(0) at
    CPL > 0 or if the helper rejects the value *)
Definition mov_cr (n v : Z) : st -> out unit := fun s =>
  if nz (cpl s) then raise_exp 0 EXP_GP s
  else if n =? 0 then match update_cr0 0 v s with Some s' => Ok tt s' | None => raise_exp 0 EXP_GP s end
  else if n =? 2 then Ok tt (set_cr2 v s)
  else if n =? 3 then Ok tt (update_cr3 v s)
  else if n =? 4 then
    match update_cr4 v s with
    | None => Abort | Some None => raise_exp 0 EXP_GP s | Some (Some s') => Ok tt s'
    end
  else Abort.
Definition lmsw (v : Z) : st -> out unit := fun s =>
  if nz (cpl s) then raise_exp 0 EXP_GP s
  else match update_cr0 1 (if nz (hfl s .& HFLG_PE_MODE) then w16 v .| CR0_PE else w16 v) s with
       | Some s' => Ok tt s' | None => Abort end.
Definition clts : st -> out unit := fun s =>
  if nz (cpl s) then raise_exp 0 EXP_GP s
  else match update_cr0 2 0 s with Some s' => Ok tt s' | None => Abort end.

(** hflags as computed by cpu_sync_state (F 231-282) from the registers *)
Definition bit_if (b : bool) (v : Z) : Z := if b then v else 0.
Definition sync_hflags (s : st) : Z :=
  (sel (seg s CS) .& HFLG_CPL)
  .| bit_if (nz (sflags (seg s CS) .& SEG_HIDDEN_DB)) HFLG_CS32
  .| bit_if (nz (sflags (seg s SS) .& SEG_HIDDEN_DB)) HFLG_SS32
  .| bit_if (base (seg s CS) =? 0) (zero_bit CS)
  .| bit_if (base (seg s DS) =? 0) (zero_bit DS)
  .| bit_if (base (seg s SS) =? 0) (zero_bit SS)
  .| bit_if (base (seg s ES) =? 0) (zero_bit ES)
  .| bit_if (base (seg s FS) =? 0) (zero_bit FS)
  .| bit_if (base (seg s GS) =? 0) (zero_bit GS)
  .| bit_if (nz (cr0 s .& CR0_PE)) HFLG_PE_MODE
  .| bit_if (nz (cr0 s .& CR0_EM)) HFLG_CR0_EM
  .| bit_if (nz (cr0 s .& CR0_TS)) HFLG_CR0_TS
  .| bit_if (nz (cr0 s .& CR0_NE)) HFLG_CR0_NE
  .| bit_if (nz (cr0 s .& CR0_MP)) HFLG_CR0_MP
  .| bit_if (nz (cr4 s .& CR4_OSFXSR)) HFLG_CR4_OSFXSR
  .| bit_if (nz (cr4 s .& CR4_VME)) HFLG_CR4_VME
  .| bit_if (nz (cr4 s .& CR4_PVI)) HFLG_CR4_PVI
  .| bit_if (nz (cr4 s .& CR4_OSXMMEXCPT)) HFLG_CR4_OSXMMEXCPT.

(** ** Exceptions *)

(** check_dbl_exp (T 498-521); [None] is the triple fault *)
Definition contributory (i : Z) : bool := (i =? 0) || ((10 <=? i) && (i <=? 13)).
Definition check_dbl_exp (s : st) : option st :=
  let idx := xidx s in
  if oldexp s =? EXP_DF then None
  else
    let dbl := (contributory (oldexp s) && contributory idx)
               || ((oldexp s =? EXP_PF) && (contributory idx || (idx =? EXP_PF))) in
    let s := if dbl then set_xcode 0 s else s in
    let idx' := if dbl then EXP_DF else idx in
    let s := if contributory idx || (idx' =? EXP_PF) || (idx' =? EXP_DF) then set_oldexp idx' s else s in
    Some (set_xidx idx' s).

Definition has_code (plain : bool) (idx : Z) : bool :=
  plain && ((idx =? EXP_DF) || (idx =? EXP_TS) || (idx =? EXP_NP) || (idx =? EXP_SS) || (idx =? EXP_GP)
            || (idx =? EXP_PF) || (idx =? EXP_AC)).

Fixpoint ipushes (n priv mask b : Z) (vs : list Z) (e : Z) : st -> out Z :=
  match vs with
  | [] => ret e
  | v :: vs => e <- ipush n priv mask b v e ;; ipushes n priv mask b vs e
  end.

Definition finish (idx fault_addr : Z) (s : st) : st :=
  let s := set_oldexp EXP_INVALID s in
  let s := if idx =? EXP_PF then set_cr2 fault_addr s else s in
  if idx =? EXP_DB then set_dr7 (dr7 s .& not32 DR7_GD_MASK) s else s.

(** check_ss_desc (T 701-741) *)
Definition check_ss_desc (vm86 : bool) (ext dpl : Z) : st -> out (Z * Z * Z) := fun s =>
  match read_stack_ptr_from_tss dpl (if vm86 then 2 else 0) s with
  | Exc s1 => Exc (set_xcode (xcode s1 + ext) s1)
  | PFault s1 => PFault s1
  | Abort => Abort
  | Ok (new_esp, new_ss) s1 =>
      if new_ss >> 2 =? 0 then raise_exp ext EXP_TS s1
      else match read_seg_desc false new_ss s1 with
      | Exc s2 => Exc (set_xidx EXP_TS (set_xcode (xcode s2 + ext) s2))
      | PFault s2 => PFault s2
      | Abort => Abort
      | Ok (ss_addr, d) s2 =>
          let v := ((d .& SEG_DESC_S) >> 44) .| ((d .& SEG_DESC_DC) >> 42) .| ((d .& SEG_DESC_W) >> 39)
                     .| ((d .& SEG_DESC_DPL) >> 42) .| ((new_ss .& 3) << 5) .| ((d .& SEG_DESC_P) >> 40) in
          let want := if vm86 then 0 else dpl in
          if nz (v .^ (0x85 .| (want << 3) .| (want << 5)))
          then raise_exp ((new_ss .& 0xFFFC) + ext) EXP_TS s2
          else (set_access_flg d ss_addr ;; ret (new_esp, new_ss, d)) s2
      end
  end.

(** the protected mode part of cpu_raise_exception from the IDT read on (T 605-930) *)
Definition deliver_pe (intn : Z) (hw : bool) (code idx fault_addr old_eflags : Z) : st -> out unit :=
  s0 <- get ;;
  let ext := if intn =? 0 then 1 else 0 in
  let eip0 := eip s0 in
  if idtl s0 <? idx * 8 + 7 then raise_exp (idx * 8 + 2 + ext) EXP_GP
  else
    desc <- mread 8 2 (idtb s0 + idx * 8) ;;
    let ty := (desc >> 40) .& 0x1F in
    if ty =? 5 then abort
    else if negb ((ty =? 6) || (ty =? 14) || (ty =? 7) || (ty =? 15)) then raise_exp (idx * 8 + 2 + ext) EXP_GP
    else
      let eflags := if (ty =? 6) || (ty =? 14) then ef s0 .& not32 IF_MASK else ef s0 in
      let new_eip := ((desc .& 0xFFFF000000000000) >> 32) .| (desc .& 0xFFFF) in
      let c0 := cpl s0 in
      if negb (intn =? 0) && (desc_dpl desc <? c0) then raise_exp (idx * 8 + 2) EXP_GP
      else if desc .& SEG_DESC_P =? 0 then raise_exp (idx * 8 + 2 + ext) EXP_NP
      else
        let sl := (desc .& 0xFFFF0000) >> 16 in
        if sl >> 2 =? 0 then raise_exp ext EXP_GP
        else
          cc <- (fun s => match read_seg_desc false sl s with
                          | Exc s1 => Exc (set_xcode (xcode s1 + ext) s1) | o => o end) ;;
          let c := snd cc in
          if c0 <? desc_dpl c then raise_exp ((sl .& 0xFFFC) + ext) EXP_GP
          else if c .& SEG_DESC_P =? 0 then raise_exp ((sl .& 0xFFFC) + ext) EXP_NP
          else
            let dpl := if nz (c .& SEG_DESC_C) then c0 else desc_dpl c in
            set_access_flg c (fst cc) ;;
            let codes := if has_code ((intn =? 0) && negb hw) idx then [code] else [] in
            let clear := not32 (VM_MASK .| RF_MASK .| NT_MASK .| TF_MASK) in
            if dpl <? c0 then
              if nz (ef s0 .& VM_MASK) then
                if nz dpl then raise_exp ((sl .& 0xFFFC) + ext) EXP_GP
                else
                  ssd <- check_ss_desc true ext dpl ;;
                  let '(new_esp, new_ss, sd) := ssd in
                  let mask := if nz (sd .& SEG_DESC_DB) then 0xFFFFFFFF else 0xFFFF in
                  let b := desc_base sd in
                  let n := if (ty =? 14) || (ty =? 15) then 4 else 2 in
                  e <- ipushes n 2 mask b
                         ([sel (seg s0 GS); sel (seg s0 FS); sel (seg s0 DS); sel (seg s0 ES); sel (seg s0 SS);
                           esp s0; old_eflags; sel (seg s0 CS); eip0] ++ codes) new_esp ;;
                  upd (fun s =>
                    let s := set_seg (fun r => match r with
                               | GS | FS | DS | ES => mkseg 0 0 0 0
                               | CS => mkseg (sl .& 0xFFC) (desc_base c) (desc_limit c) (desc_flags c)
                               | SS => mkseg new_ss b (desc_limit sd) (desc_flags sd)
                               | _ => seg s r end) s in
                    let h := ((desc_flags c .& SEG_HIDDEN_DB) >> 20) .| (hfl s .& not32 (HFLG_CS32 .| HFLG_CPL)) in
                    let h := ((desc_flags sd .& SEG_HIDDEN_DB) >> 19) .| (h .& not32 HFLG_SS32) in
                    let s := set_ef (eflags .& clear) (set_hfl h s) in
                    let s := set_esp ((esp s .& not32 mask) .| (e .& mask)) s in
                    let s := set_eip (if n =? 4 then new_eip else new_eip .& 0xFFFF) s in
                    finish idx fault_addr s)
              else
                ssd <- check_ss_desc false ext dpl ;;
                let '(new_esp, new_ss, sd) := ssd in
                let mask := if nz (sd .& SEG_DESC_DB) then 0xFFFFFFFF else 0xFFFF in
                let b := desc_base sd in
                let n := if nz (ty >> 3) then 4 else 2 in
                e <- ipushes n 2 mask b ([sel (seg s0 SS); esp s0; old_eflags; sel (seg s0 CS); eip0] ++ codes) new_esp ;;
                upd (fun s =>
                  let s := put_seg SS (mkseg (Z.ldiff new_ss 3 .| dpl) b (desc_limit sd) (desc_flags sd)) s in
                  let z := if b =? 0 then HFLG_SS_IS_ZERO else 0 in
                  let s := set_hfl (((desc_flags sd .& SEG_HIDDEN_DB) >> 19) .| z
                                      .| (hfl s .& not32 (HFLG_SS32 .| HFLG_SS_IS_ZERO))) s in
                  let s := set_ef (eflags .& clear) s in
                  let s := set_esp ((esp s .& not32 mask) .| (e .& mask)) s in
                  let s := put_seg CS (mkseg (Z.ldiff sl 3 .| dpl) (desc_base c) (desc_limit c) (desc_flags c)) s in
                  let z := if desc_base c =? 0 then HFLG_CS_IS_ZERO else 0 in
                  let s := set_hfl (((desc_flags c .& SEG_HIDDEN_DB) >> 20) .| dpl .| z
                                      .| (hfl s .& not32 (HFLG_CS32 .| HFLG_CPL .| HFLG_CS_IS_ZERO))) s in
                  finish idx fault_addr (set_eip new_eip s))
            else if nz (ef s0 .& VM_MASK) then raise_exp ((sl .& 0xFFFC) + ext) EXP_GP
            else if negb (dpl =? c0) then raise_exp ((sl .& 0xFFFC) + ext) EXP_GP
            else
              let mask := if nz (hfl s0 .& HFLG_SS32) then 0xFFFFFFFF else 0xFFFF in
              let b := base (seg s0 SS) in
              let n := if nz (ty >> 3) then 4 else 2 in
              e <- ipushes n 0 mask b ([old_eflags; sel (seg s0 CS); eip0] ++ codes) (esp s0) ;;
              upd (fun s =>
                let s := set_ef (eflags .& clear) s in
                let s := set_esp ((esp s .& not32 mask) .| (e .& mask)) s in
                let s := put_seg CS (mkseg (Z.ldiff sl 3 .| dpl) (desc_base c) (desc_limit c) (desc_flags c)) s in
                let z := if desc_base c =? 0 then HFLG_CS_IS_ZERO else 0 in
                let s := set_hfl (((desc_flags c .& SEG_HIDDEN_DB) >> 20) .| dpl .| z
                                    .| (hfl s .& not32 (HFLG_CS32 .| HFLG_CPL .| HFLG_CS_IS_ZERO))) s in
                finish idx fault_addr (set_eip new_eip s)).

(** the redirection of INT n to the VM86 interrupt table (T 560-602) *)
Definition deliver_vme (idx fault_addr old_eflags iopl : Z) : st -> out unit :=
  s0 <- get ;;
  let ofl := if iopl <? 3
             then ((old_eflags .& VIF_MASK) >> 10) .| (old_eflags .& not32 (IF_MASK .| IOPL_MASK)) .| IOPL_MASK
             else old_eflags in
  let mask := if nz (hfl s0 .& HFLG_SS32) then 0xFFFFFFFF else 0xFFFF in
  e <- ipushes 2 0 mask (base (seg s0 SS)) [ofl; sel (seg s0 CS); eip s0] (esp s0) ;;
  vec <- mread 4 0 (idx * 4) ;;
  upd (fun s =>
    let s := set_esp ((esp s .& not32 mask) .| (e .& mask)) s in
    let cs := vec >> 16 in
    let s := put_seg CS (mkseg cs (cs << 4) (limit (seg s CS)) (sflags (seg s CS))) s in
    let s := set_eip (vec .& 0xFFFF) s in
    let m := if iopl =? 3 then TF_MASK .| (IF_MASK .| VIF_MASK) else TF_MASK in
    finish idx fault_addr (set_ef (ef s .& not32 m) s)).

(** cpu_raise_exception (T 523-972) without the recursive calls: [Exc] and [PFault]
    mean that another exception is raised from exp_info.  The real mode part does not
    write CR2. *)
Definition deliver (intn : Z) (hw : bool) : st -> out unit := fun s =>
  let code := xcode s in let idx := xidx s in let fault_addr := xaddr s in
  let old_eflags := read_eflags s in
  if nz (hfl s .& HFLG_PE_MODE) then
    let iopl := (ef s .& IOPL_MASK) >> 12 in
    let vm := (ef s .& VM_MASK) .| (hfl s .& HFLG_CR4_VME) in
    if (intn =? 2) && (vm =? VM_MASK) && (iopl <? 3) then raise_exp 0 EXP_GP s
    else if (intn =? 2) && (vm =? VM_MASK .| HFLG_CR4_VME) then
      (offset <- mread 2 0 (base (seg s TR) + 102) ;;
       byte <- mread 1 0 (base (seg s TR) + offset - 32 + idx / 8) ;;
       if byte .& (1 << (idx mod 8)) =? 0 then deliver_vme idx fault_addr old_eflags iopl
       else if negb (iopl =? 3) then raise_exp 0 EXP_GP
       else deliver_pe intn hw code idx fault_addr old_eflags) s
    else deliver_pe intn hw code idx fault_addr old_eflags s
  else if idtl s <? idx * 4 + 3 then raise_exp (idx * 8 + 2) EXP_GP s
  else
    (vec <- mread 4 0 (idtb s + idx * 4) ;;
     e <- ipushes 2 0 0xFFFF (base (seg s SS)) [old_eflags; sel (seg s CS); eip s] (esp s) ;;
     upd (fun s =>
       let s := set_ef (ef s .& not32 (AC_MASK .| RF_MASK .| IF_MASK .| TF_MASK)) s in
       let s := set_esp ((esp s .& not32 0xFFFF) .| (e .& 0xFFFF)) s in
       let cs := vec >> 16 in
       let s := put_seg CS (mkseg cs (cs << 4) (limit (seg s CS)) (sflags (seg s CS))) s in
       let s := set_eip (vec .& 0xFFFF) s in
       let z := if cs << 4 =? 0 then HFLG_CS_IS_ZERO else 0 in
       let s := set_hfl (z .| (hfl s .& not32 HFLG_CS_IS_ZERO)) s in
       let s := set_oldexp EXP_INVALID s in
       if idx =? EXP_DB then set_dr7 (dr7 s .& not32 DR7_GD_MASK) s else s)) s.

(** the whole delivery: nested exceptions go through check_dbl_exp and are plain *)
Inductive delivered := Delivered (s : st) | TripleFault | Aborted | OutOfFuel.
Definition start (intn : Z) (hw : bool) (s : st) : option st :=
  if (intn =? 0) && negb hw then check_dbl_exp s else Some s.
Fixpoint raise (fuel : nat) (intn : Z) (hw : bool) (s : st) : delivered :=
  match fuel with
  | O => OutOfFuel
  | S k =>
      match start intn hw s with
      | None => TripleFault
      | Some s =>
          match deliver intn hw s with
          | Ok _ s' => Delivered s'
          | Exc s' | PFault s' => raise k 0 false s'
          | Abort => Aborted
          end
      end
  end.

End Model.
