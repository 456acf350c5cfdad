(** * Running the cpu: cpu_run, cpu_run_until, cpu_exit, pauses, timeouts and HLT

    Files: IF = lib86cpu/interface.cpp, TR = lib86cpu/core/translate.cpp,
    IN = lib86cpu/core/instructions.cpp, CL = lib86cpu/core/linux/clock.cpp,
    JIT = lib86cpu/core/emitter/x64/jit.cpp.

    One thread calls cpu_run and cpu_run_until; other threads make requests and time
    passes between any two steps of it.  A step of the cpu thread is one block of
    translated code, one turn of the loop of HLT, or one of the tests in between.

    Simplifications:
    - the guest is an arbitrary choice at every step: which block comes next, how it
      ends, what it does to IF;
    - of the interrupt word only the abort, the suspend and the hardware bit are kept
      ([IrqModel] has all of them, [SuspModel] the single accesses to the flags);
      interrupts are looked at when a block ends, not inside it;
    - the clock is a number that does not wrap ([ClockModel] has the 64-bit clocks);
    - no debugger and no trampolines. *)

From Coq Require Import ZArith Bool List.
Import ListNotations.
Local Open Scope Z_scope.

(** [lc86_status] (include/lib86cpu.hpp 18-28), the values used here.  [Failed]: any error that
    ends the emulation. *)
Inductive status := Success | InternalError | InvalidParameter | Paused | Timeout | Failed.

(** How a block of translated code ends.
    [Linked n]: it ends in a checked jump, call or return (JIT 832-845) and, if the checks
    find nothing, goes on at block [n] without the main loop when that block is known
    (JIT 943-1010, 1049-1056) or, when it is not, through it;
    [Raised]: an exception or INT n, which leaves without any check (JIT 866-893,
    3769-3800);
    [Halts]: HLT (JIT 6642-6671);
    [Dies]: an error that ends the emulation (lc86_exp_abort). *)
Inductive ending := Linked (n : nat) | Raised | Halts | Dies.

(** Where the cpu thread is *)
Inductive place :=
| Out                     (* outside of cpu_run and cpu_run_until *)
| Loop                    (* top of the main loop (TR 1485) *)
| Block (n : nat) (checked : bool)  (* executing block [n], translated with or without
                             the check of the clock *)
| Idle (first checked : bool)  (* in hlt_helper; [first]: called by cpu_start (TR 1679),
                             else by the code of HLT; [checked]: the variant that looks at
                             the clock *)
| Stopped (back : option (bool * bool)) (* suspend_flg.wait (TR 1441), from the end of a
                             block or from hlt_helper *)
| Crashed.                (* a C++ exception that nothing catches: std::terminate *)

Record st := mkst {
  now : Z;                (* the host clock *)
  owner : option nat;     (* cpu_thr_id *)
  tflag : bool;           (* CPU_TIMEOUT in cpu_flags *)
  timed : bool;           (* the run in progress is cpu_start<false> *)
  halted : bool;          (* is_halted *)
  exitreq : bool;         (* exit_requested *)
  started : Z;            (* timer.last_time *)
  limit : Z;              (* timer.timeout_time *)
  abort : bool;           (* CPU_ABORT_INT pending *)
  sbit : bool;            (* CPU_SUSPEND_INT pending *)
  line : bool;            (* CPU_HW_INT pending *)
  sflag : bool;           (* suspend_flg *)
  throw : bool;           (* suspend_should_throw *)
  susp : bool;            (* is_suspended *)
  iff : bool;             (* IF of the guest *)
  code : nat -> option bool; (* the blocks in the code cache; [true]: translated with the
                                check of the clock *)
  at_ : place
}.

Definition set_now x s := mkst x (owner s) (tflag s) (timed s) (halted s) (exitreq s) (started s) (limit s) (abort s) (sbit s) (line s) (sflag s) (throw s) (susp s) (iff s) (code s) (at_ s).
Definition set_owner x s := mkst (now s) x (tflag s) (timed s) (halted s) (exitreq s) (started s) (limit s) (abort s) (sbit s) (line s) (sflag s) (throw s) (susp s) (iff s) (code s) (at_ s).
Definition set_tflag x s := mkst (now s) (owner s) x (timed s) (halted s) (exitreq s) (started s) (limit s) (abort s) (sbit s) (line s) (sflag s) (throw s) (susp s) (iff s) (code s) (at_ s).
Definition set_timed x s := mkst (now s) (owner s) (tflag s) x (halted s) (exitreq s) (started s) (limit s) (abort s) (sbit s) (line s) (sflag s) (throw s) (susp s) (iff s) (code s) (at_ s).
Definition set_halted x s := mkst (now s) (owner s) (tflag s) (timed s) x (exitreq s) (started s) (limit s) (abort s) (sbit s) (line s) (sflag s) (throw s) (susp s) (iff s) (code s) (at_ s).
Definition set_exitreq x s := mkst (now s) (owner s) (tflag s) (timed s) (halted s) x (started s) (limit s) (abort s) (sbit s) (line s) (sflag s) (throw s) (susp s) (iff s) (code s) (at_ s).
Definition set_started x s := mkst (now s) (owner s) (tflag s) (timed s) (halted s) (exitreq s) x (limit s) (abort s) (sbit s) (line s) (sflag s) (throw s) (susp s) (iff s) (code s) (at_ s).
Definition set_limit x s := mkst (now s) (owner s) (tflag s) (timed s) (halted s) (exitreq s) (started s) x (abort s) (sbit s) (line s) (sflag s) (throw s) (susp s) (iff s) (code s) (at_ s).
Definition set_abort x s := mkst (now s) (owner s) (tflag s) (timed s) (halted s) (exitreq s) (started s) (limit s) x (sbit s) (line s) (sflag s) (throw s) (susp s) (iff s) (code s) (at_ s).
Definition set_sbit x s := mkst (now s) (owner s) (tflag s) (timed s) (halted s) (exitreq s) (started s) (limit s) (abort s) x (line s) (sflag s) (throw s) (susp s) (iff s) (code s) (at_ s).
Definition set_line x s := mkst (now s) (owner s) (tflag s) (timed s) (halted s) (exitreq s) (started s) (limit s) (abort s) (sbit s) x (sflag s) (throw s) (susp s) (iff s) (code s) (at_ s).
Definition set_sflag x s := mkst (now s) (owner s) (tflag s) (timed s) (halted s) (exitreq s) (started s) (limit s) (abort s) (sbit s) (line s) x (throw s) (susp s) (iff s) (code s) (at_ s).
Definition set_throw x s := mkst (now s) (owner s) (tflag s) (timed s) (halted s) (exitreq s) (started s) (limit s) (abort s) (sbit s) (line s) (sflag s) x (susp s) (iff s) (code s) (at_ s).
Definition set_susp x s := mkst (now s) (owner s) (tflag s) (timed s) (halted s) (exitreq s) (started s) (limit s) (abort s) (sbit s) (line s) (sflag s) (throw s) x (iff s) (code s) (at_ s).
Definition set_iff x s := mkst (now s) (owner s) (tflag s) (timed s) (halted s) (exitreq s) (started s) (limit s) (abort s) (sbit s) (line s) (sflag s) (throw s) (susp s) x (code s) (at_ s).
Definition set_code x s := mkst (now s) (owner s) (tflag s) (timed s) (halted s) (exitreq s) (started s) (limit s) (abort s) (sbit s) (line s) (sflag s) (throw s) (susp s) (iff s) x (at_ s).
Definition goto x s := mkst (now s) (owner s) (tflag s) (timed s) (halted s) (exitreq s) (started s) (limit s) (abort s) (sbit s) (line s) (sflag s) (throw s) (susp s) (iff s) (code s) x.

(** What can be seen from outside: the guest executes block [n], which ends as said; it
    takes a hardware interrupt; a call returns. *)
Inductive obs := OBlock (n : nat) (e : ending) | OIrq | ORet (r : status).

(** Leaving with an error or a request: the catch of [cpu_start] (TR 1690-1698) *)
Definition thrown (r : status) (s : st) : st * list obs := (goto Out (set_owner None s), [ORet r]).

(** [cpu_timer_helper] (CL 42-52) *)
Definition expired (s : st) : bool := limit s <=? now s - started s.

(** [cpu_start] (TR 1634-1698), up to the main loop or the loop of HLT; called by thread [t].
    [t] is stored in cpu_thr_id after the tests for a pause. *)
Definition start (run_until : bool) (t : nat) (s : st) : st * list obs :=
  let s := if run_until then set_tflag true s else s in          (* TR 1654-1656 *)
  if susp s && sflag s then (s, [ORet Paused])                   (* TR 1658-1661 *)
  else
    let s := set_owner (Some t) (set_susp false s) in            (* TR 1664, 1668 *)
    let s := set_timed run_until s in
    if run_until then
      let s := set_exitreq false (set_started (now s) s) in      (* TR 1675-1676 *)
      if halted s then (goto (Idle true true) s, [])             (* TR 1677-1679 *)
      else (goto Loop s, [])
    else (goto Loop s, []).

(** [cpu_run] (IF 291-299) and [cpu_run_until] (IF 307-312) *)
Definition cpu_run (t : nat) (s : st) : st * list obs :=
  if tflag s then (s, [ORet InvalidParameter]) else start false t s.
Definition cpu_run_until (t : nat) (x : Z) (s : st) : st * list obs := start true t (set_limit x s).

(** The suspend part of [cpu_do_int] (TR 1433-1449) *)
Definition do_suspend (back : option (bool * bool)) (s : st) : st * list obs :=
  let s := set_susp true s in
  if throw s && sflag s then thrown Paused (set_sbit false s)
  else (goto (Stopped back) s, []).

(** The end of one turn of [hlt_helper] (IN 1500-1517), [hw]: an interrupt was taken *)
Definition halt_turn (first checked hw : bool) (s : st) : st * list obs :=
  let late := checked && expired s in
  let s := if late then set_exitreq true s else s in
  if hw then (goto Loop (set_halted false s), [OIrq])
  else if late then
    if first then (goto Out (set_halted true s), [ORet Timeout])  (* TR 1680-1683 *)
    else (goto Loop (set_halted true s), [])                      (* JIT 6667 *)
  else (goto (Idle first checked) s, []).

(** The end of a block: the check of the interrupts (JIT 799-809, [cpu_do_int] TR 1356-1462),
    then of the clock (JIT 812-828), then the jump (JIT 943-1010). [c]: the block has the check of
    the clock; [g]: IF after an interrupt taken here. *)
Definition block_end (c : bool) (next : nat) (g : bool) (s : st) : st * list obs :=
  if abort s then thrown Success (set_abort false s)
  else if sbit s then do_suspend None s
  else if line s && iff s then (goto Loop (set_iff g s), [OIrq])
  else if c && expired s then (goto Loop (set_exitreq true s), [])
  else match code s next with
       | Some k => (goto (Block next k) s, [])
       | None => (goto Loop s, [])
       end.

(** What the guest does at a step of the cpu thread: the block it comes to, how this ends, IF
    afterwards, and whether the delivery of an interrupt meets a page fault first *)
Record choice := mkchoice { c_block : nat; c_end : ending; c_if : bool; c_pf : bool }.

Definition cpu_step (g : choice) (s : st) : st * list obs :=
  match at_ s with
  | Out | Crashed => (s, [])
  | Loop =>
      if timed s && exitreq s then (goto Out (set_owner None s), [ORet Timeout])   (* TR 1685-1687 *)
      else
        let n := c_block g in                              (* search or translate (TR 1515-1577) *)
        match code s n with
        | Some k => (goto (Block n k) s, [])
        | None =>
            let k := tflag s in
            (goto (Block n k) (set_code (fun m => if Nat.eqb m n then Some k else code s m) s), [])
        end
  | Block n c =>
      let o := OBlock n (c_end g) in
      let s := set_iff (c_if g) s in
      let (s', l) := match c_end g with
                     | Linked m => block_end c m (c_if g) s
                     | Raised => (goto Loop s, [])
                     | Halts => (goto (Idle false c) s, [])
                     | Dies => thrown Failed s
                     end in (s', o :: l)
  | Idle first checked =>
      if abort s then thrown Success (set_abort false s)
      else if sbit s then do_suspend (Some (first, checked)) s
      else if line s && iff s then
        if c_pf g then
          if first then (goto Crashed s, [])               (* TR 1679 is not in a handler for it *)
          else (goto Loop (set_iff (c_if g) s), [OIrq])    (* TR 1602-1616 *)
        else halt_turn first checked true (set_iff (c_if g) s)
      else halt_turn first checked false s
  | Stopped back =>
      if sflag s then (s, [])
      else
        let s := set_sbit false (set_susp false s) in      (* TR 1443, 1449 *)
        match back with
        | None => (goto Loop s, [])
        | Some (first, checked) => halt_turn first checked false s
        end
  end.

(** The other threads: [cpu_exit] (IF 331-335), [cpu_suspend] (IF 424-429), [cpu_resume] (IF 436-442),
    [cpu_raise_hw_int_line] and [cpu_lower_hw_int_line] (IF 461-475), [cpu_set_timeout] (IF 320-324) *)
Inductive request := Exit | Suspend (should_ret : bool) | Resume | RaiseLine | LowerLine | SetTimeout (x : Z).

Definition do_request (r : request) (s : st) : st :=
  match r with
  | Exit => set_abort true s
  | Suspend b => set_sbit true (set_sflag true (set_throw b s))
  | Resume => set_sflag false s
  | RaiseLine => set_line true s
  | LowerLine => set_line false s
  | SetTimeout x => set_limit x s
  end.

(** [Forget n]: block [n] leaves the code cache, for any of the reasons in [CodeModel] *)
Inductive ev :=
| Run (t : nat) | RunUntil (t : nat) (x : Z)
| Cpu (g : choice)
| Req (r : request)
| Tick (d : positive)
| Forget (n : nat).

Definition step (e : ev) (s : st) : st * list obs :=
  match e with
  | Run t => match at_ s with Out => cpu_run t s | _ => (s, []) end
  | RunUntil t x => match at_ s with Out => cpu_run_until t x s | _ => (s, []) end
  | Cpu g => cpu_step g s
  | Req r => (do_request r s, [])
  | Tick d => (set_now (now s + Zpos d) s, [])
  | Forget n => (set_code (fun m => if Nat.eqb m n then None else code s m) s, [])
  end.

Fixpoint run (evs : list ev) (s : st) : st :=
  match evs with [] => s | e :: t => run t (fst (step e s)) end.
Fixpoint trace (evs : list ev) (s : st) : list obs :=
  match evs with [] => [] | e :: t => snd (step e s) ++ trace t (fst (step e s)) end.

(** After cpu_new (IF 188; the rest of [cpu_t] is zero): [t0] is the time, [b] any value *)
Definition init (t0 : Z) (b : bool) : st :=
  mkst t0 None false false false false 0 0 false false false false b false false (fun _ => None) Out.

(** [cpu_snapshot_handler] (IF 489-536) called by thread [t] while nothing else happens: the
    status it returns, [None] if it waits for a cpu thread that is not there (IF 517-519) *)
Definition snapshot (t : nat) (s : st) : option status :=
  match owner s with
  | Some o => if Nat.eqb o t then Some InternalError       (* IF 497-500 *)
              else if susp s then Some Success else None
  | None => Some Success                                   (* IF 501-509 *)
  end.
