(** * The interrupt word and the hardware interrupt line

    Files: JIT = lib86cpu/core/emitter/x64/jit.cpp, TR = lib86cpu/core/translate.cpp,
    IN = lib86cpu/core/instructions.cpp, IF = lib86cpu/interface.cpp,
    IH = lib86cpu/core/internal.hpp.

    The cpu thread and any number of other threads share one 32-bit word of
    requests.  Every access is one machine access (a mov, a lock or, a lock and,
    JIT 656-675), so a schedule is a list of such accesses in the order in which
    they take effect.

    Simplifications:
    - an instruction is only what it does to IF and to the interrupt shadow;
    - what a request asks for is not repeated here (A20: [A20Model], regions:
      [AddrSpaceModel], suspension: [SuspModel]);
    - no single-stepping (TF, CPU_SINGLE_STEP, debugger) and no timeout;
    - delivery is complete once the vector has been fetched; how it goes on is
      in [SegModel].  The value of IF after it (gate type) is chosen by the
      schedule. *)

From Coq Require Import ZArith Bool List.
Import ListNotations.
Local Open Scope Z_scope.

(** IH 112-122 *)
Definition HALT_TC := 0x1.
Definition ABORT   := 0x2.
Definition A20     := 0x4.
Definition REGION  := 0x8.
Definition SUSPEND := 0x20.
Definition HANDLER := 0x40.
Definition MASKED  := 0x80.
Definition DBG     := 0x100.
Definition HW      := 0x200.
Definition NON_HW  := 0x1ED.

(** What an instruction does to IF and the shadow.
    [Sti]: JIT 10426-10457, [Cli]: JIT 5021-5023, [PopIf]: POPF and IRET
    (JIT 9411-9415, 7109-7129), [LoadSS]: mov ss and pop ss (JIT 8145-8150,
    9208-9213), [Hlt]: JIT 6659-6670, [Fault]: an exception or INT n, which leaves
    the block without looking at the word (JIT 866-893, 3769-3800). *)
Inductive instr := Plain | Sti | Cli | PopIf (b : bool) | LoadSS | Fault (b : bool) | Hlt.

(** Where the cpu thread is. [h]: inside [hlt_helper]. *)
Inductive phase :=
| Exec                         (* about to execute an instruction *)
| Read (h : bool)              (* about to read the word *)
| Handle (h : bool) (flg : Z)  (* inside [cpu_do_int] with the value read *)
| Clear (h : bool) (flg : Z)   (* about to clear what it handled *)
| Gone.                        (* left [cpu_run] *)

Record st := mkst { word : Z; iff : bool; ph : phase }.

(** [int_clear_flg] (TR 1366, 1368, 1382, 1401, 1406, 1419, 1434) *)
Definition clear_flg (flg : Z) : Z :=
  Z.lor (Z.lor MASKED HALT_TC)
        (Z.land flg (Z.lor DBG (Z.lor HANDLER (Z.lor A20 (Z.lor REGION SUSPEND))))).

(** What an observer sees of one step of the cpu thread *)
Inductive obs := OInstr (i : instr) | ODeliver | OHandled (flg : Z) | OAbort.

Definition back (h : bool) : phase := if h then Read true else Exec.

(** One instruction, up to the point where the word is looked at: after every
    instruction that does not end the block (TR 1343-1349) and by the ending ones
    (JIT 832-845, 854-857, 951, 1049) *)
Definition exec_instr (i : instr) (s : st) : st :=
  match i with
  | Plain => mkst (word s) (iff s) (Read false)
  | Sti => mkst (if iff s then word s else Z.lor (word s) MASKED) true (Read false)
  | Cli => mkst (word s) false (Read false)
  | PopIf b => mkst (word s) b (Read false)
  | LoadSS => mkst (Z.lor (word s) MASKED) (iff s) (Read false)
  | Fault b => mkst (word s) b Exec
  | Hlt => mkst (word s) (iff s) (Read true)
  end.

(** [gen_interrupt_check] (JIT 799-809): the word, without the line when IF is
    clear; and the loop of [hlt_helper] (IN 1498-1499), which reads it plainly *)
Definition read_word (h : bool) (s : st) : st :=
  if h then mkst (word s) (iff s) (Handle true (word s))
  else let edx := if iff s then word s else Z.ldiff (word s) HW in
       mkst (word s) (iff s) (if edx =? 0 then Exec else Handle false edx).

(** [cpu_do_int] (TR 1356-1462), up to the clearing of the bits.  [g] is the
    value of IF after an event delivered here. *)
Definition handle (h : bool) (flg : Z) (g : bool) (s : st) : st * option obs :=
  if negb (Z.land flg ABORT =? 0) then
    (mkst (Z.ldiff (word s) ABORT) (iff s) Gone, Some OAbort)
  else if negb (Z.land flg NON_HW =? 0) then
    (mkst (word s) (if Z.land flg DBG =? 0 then iff s else g) (Clear h flg), Some (OHandled flg))
  else if negb (Z.land flg HW =? 0) && iff s then
    (mkst (word s) g Exec, Some ODeliver)        (* TR 1453-1459, IN 1508-1512 *)
  else (mkst (word s) (iff s) (back h), None).

(** TR 1449 *)
Definition clear (h : bool) (flg : Z) (s : st) : st :=
  mkst (Z.ldiff (word s) (clear_flg flg)) (iff s) (back h).

(** One step of the cpu thread; [i] is the instruction it finds at eip. *)
Definition cpu_step (i : instr) (g : bool) (s : st) : st * option obs :=
  match ph s with
  | Exec => (exec_instr i s, Some (OInstr i))
  | Read h => (read_word h s, None)
  | Handle h flg => handle h flg g s
  | Clear h flg => (clear h flg s, None)
  | Gone => (s, None)
  end.

(** The requests of the other threads (IF 334, 401, 414, 674-899) and those
    the cpu thread raises itself (TR 1110, breakpoint.cpp 70) *)
Inductive request := RAbort | RA20 | RRegion | RSuspend | RHandler | RHaltTc | RDbg.
Definition req_bit (r : request) : Z :=
  match r with
  | RAbort => ABORT | RA20 => A20 | RRegion => REGION | RSuspend => SUSPEND
  | RHandler => HANDLER | RHaltTc => HALT_TC | RDbg => DBG
  end.

Inductive ev :=
| Cpu (i : instr) (g : bool)
| RaiseLine                     (* [cpu_raise_hw_int_line], IF 461-464 *)
| LowerLine                     (* [cpu_lower_hw_int_line], IF 472-475 *)
| Request (r : request).

Definition step (e : ev) (s : st) : st * option obs :=
  match e with
  | Cpu i g => cpu_step i g s
  | RaiseLine => (mkst (Z.lor (word s) HW) (iff s) (ph s), None)
  | LowerLine => (mkst (Z.ldiff (word s) HW) (iff s) (ph s), None)
  | Request r => (mkst (Z.lor (word s) (req_bit r)) (iff s) (ph s), None)
  end.

Fixpoint run (evs : list ev) (s : st) : st :=
  match evs with [] => s | e :: t => run t (fst (step e s)) end.

(** what the cpu thread did, in order *)
Fixpoint trace (evs : list ev) (s : st) : list obs :=
  match evs with
  | [] => []
  | e :: t => match snd (step e s) with
              | Some o => o :: trace t (fst (step e s))
              | None => trace t (fst (step e s))
              end
  end.
