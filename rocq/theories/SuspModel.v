(** * Suspending, resuming and taking snapshots from other threads

    Files: IF = lib86cpu/interface.cpp, TR = lib86cpu/core/translate.cpp.

    One cpu thread and any number of other threads.  Every access to a shared flag
    is one step, so a schedule (a list of steps) is an interleaving at the level of
    the atomic operations of the code.  A step of a blocked thread does nothing.

    Simplifications:
    - sequential consistency (the code uses the default memory order);
    - of the interrupt word only the suspend bit is kept ([IrqModel] has the rest);
    - the cpu thread runs for ever, is suspended or has been paused: cpu_exit,
      timeouts and errors are left out;
    - calls made by the cpu thread itself (from a handler or a hook) are left out:
      a snapshot is refused there (IF 496-499);
    - what a snapshot copies is in [SnapModel]; here it is the time between the
      steps [PSaving] and the next, during which the guest state must not move. *)

From Coq Require Import Bool List Arith.
Import ListNotations.

(** ** The cpu thread *)
Inductive cpc :=
| CIdle          (* outside cpu_run: the next step calls it *)
| CStart1        (* cpu_start: is_suspended was set (TR 1658) *)
| CStart2        (* suspend_flg was clear (TR 1659): about to clear is_suspended *)
| CStart3        (* about to store cpu_thr_id (TR 1668) *)
| CExec          (* about to execute an instruction *)
| CRead          (* about to read the interrupt word *)
| CMark          (* cpu_do_int, suspend bit seen: about to set is_suspended (TR 1435) *)
| CTest1         (* about to load suspend_should_throw (TR 1436) *)
| CTest2         (* it was set: about to test suspend_flg (TR 1436) *)
| CThrow1        (* about to clear the bit and throw (TR 1437) *)
| CThrow2        (* about to clear cpu_thr_id and return "paused" (TR 1695) *)
| CWait          (* suspend_flg.wait(true) (TR 1441) *)
| CUnmark        (* about to clear is_suspended (TR 1443) *)
| CClear.        (* about to clear the suspend bit (TR 1449) *)

(** ** The other threads *)
Inductive call := Suspend (should_ret : bool) | Resume | Snapshot.

Inductive tpc :=
| TIdle
(* cpu_suspend (IF 424-429) and cpu_force_suspend (IF 410-415) *)
| PSusp0 (b : bool)            (* is_saving_state.wait(true) *)
| PSusp1 (b : bool)            (* suspend_should_throw = should_ret *)
| PSusp2                       (* suspend_flg.test_and_set() *)
| PSusp3                       (* raise the suspend bit *)
(* cpu_resume (IF 436-442) *)
| PRes0                        (* is_saving_state.wait(true) *)
| PRes1                        (* suspend_flg.clear() *)
(* cpu_snapshot_handler (IF 489-536) *)
| PSnap0                       (* is_saving_state.test_and_set() (IF 491) *)
| PSnapW                       (* it was set: is_saving_state.wait(true) (IF 492) *)
| PSnapIn                      (* about to look at cpu_thr_id (IF 496, 500) *)
| PDirect                      (* cpu not running: copying (IF 501-507) *)
| PS1                          (* about to read suspend_flg (IF 511) *)
| PS2 (f : bool)               (* about to read suspend_should_throw (IF 512) *)
| PS3 (t : bool)               (* not suspended: suspend_should_throw = false (IF 514) *)
| PS4 (t : bool)               (* suspend_flg.test_and_set() (IF 515, 413) *)
| PS5 (t : bool)               (* raise the suspend bit (IF 515, 414) *)
| PSpin (f t : bool)           (* while (!cpu_is_suspended) (IF 517-519) *)
| PSaving (f t : bool)         (* copying (IF 520-526) *)
| PBack (t : bool)             (* suspend_should_throw = saved value (IF 528) *)
| PBRes0                       (* cpu_resume, called from here: wait (IF 529, 439) *)
| PBRes1                       (* suspend_flg.clear() (IF 440) *)
| PEnd.                        (* is_saving_state.clear() (IF 533) *)

Record gs := mkgs {
  sflag  : bool;           (* suspend_flg *)
  susp   : bool;           (* is_suspended *)
  throw  : bool;           (* suspend_should_throw *)
  saving : bool;           (* is_saving_state *)
  bit    : bool;           (* CPU_SUSPEND_INT in the interrupt word *)
  runs   : bool;           (* cpu_thr_id is the cpu thread's *)
  cpu    : cpc;
  thr    : nat -> tpc
}.

Definition set_sflag b s := mkgs b (susp s) (throw s) (saving s) (bit s) (runs s) (cpu s) (thr s).
Definition set_susp b s := mkgs (sflag s) b (throw s) (saving s) (bit s) (runs s) (cpu s) (thr s).
Definition set_throw b s := mkgs (sflag s) (susp s) b (saving s) (bit s) (runs s) (cpu s) (thr s).
Definition set_saving b s := mkgs (sflag s) (susp s) (throw s) b (bit s) (runs s) (cpu s) (thr s).
Definition set_bit b s := mkgs (sflag s) (susp s) (throw s) (saving s) b (runs s) (cpu s) (thr s).
Definition set_runs b s := mkgs (sflag s) (susp s) (throw s) (saving s) (bit s) b (cpu s) (thr s).
Definition set_cpu c s := mkgs (sflag s) (susp s) (throw s) (saving s) (bit s) (runs s) c (thr s).
Definition upd (f : nat -> tpc) (n : nat) (p : tpc) : nat -> tpc :=
  fun m => if Nat.eqb m n then p else f m.
Definition set_thr n p s :=
  mkgs (sflag s) (susp s) (throw s) (saving s) (bit s) (runs s) (cpu s) (upd (thr s) n p).

(** What can be seen from outside: the guest executes an instruction, cpu_run
    returns "paused", a call of thread [n] returns. *)
Inductive obs := OGuest | OPaused | OReturn (n : nat).

(** [cpu_start] (TR 1658-1668), the check after an instruction, and the suspend part
    of [cpu_do_int] (TR 1433-1449) *)
Definition cpu_step (s : gs) : gs * option obs :=
  match cpu s with
  | CIdle => (set_cpu (if susp s then CStart1 else CStart3) s, None)
  | CStart1 => if sflag s then (set_cpu CIdle s, Some OPaused) else (set_cpu CStart2 s, None)
  | CStart2 => (set_cpu CStart3 (set_susp false s), None)
  | CStart3 => (set_cpu CExec (set_runs true s), None)
  | CExec => (set_cpu CRead s, Some OGuest)
  | CRead => (set_cpu (if bit s then CMark else CExec) s, None)
  | CMark => (set_cpu CTest1 (set_susp true s), None)
  | CTest1 => (set_cpu (if throw s then CTest2 else CWait) s, None)
  | CTest2 => (set_cpu (if sflag s then CThrow1 else CWait) s, None)
  | CThrow1 => (set_cpu CThrow2 (set_bit false s), None)
  | CThrow2 => (set_cpu CIdle (set_runs false s), Some OPaused)
  | CWait => if sflag s then (s, None) else (set_cpu CUnmark s, None)
  | CUnmark => (set_cpu CClear (set_susp false s), None)
  | CClear => (set_cpu CExec (set_bit false s), None)
  end.

(** One step of thread [n]; [c] is the call it makes if it is idle. *)
Definition thr_step (n : nat) (c : call) (s : gs) : gs * option obs :=
  let go p s' := (set_thr n p s', None) in
  let ret s' := (set_thr n TIdle s', Some (OReturn n)) in
  match thr s n with
  | TIdle => go (match c with Suspend b => PSusp0 b | Resume => PRes0 | Snapshot => PSnap0 end) s
  | PSusp0 b => if saving s then (s, None) else go (PSusp1 b) s
  | PSusp1 b => go PSusp2 (set_throw b s)
  | PSusp2 => go PSusp3 (set_sflag true s)
  | PSusp3 => ret (set_bit true s)
  | PRes0 => if saving s then (s, None) else go PRes1 s
  | PRes1 => ret (set_sflag false s)
  | PSnap0 => if saving s then go PSnapW s else go PSnapIn (set_saving true s)
  | PSnapW => if saving s then (s, None) else go PSnapIn s
  | PSnapIn => go (if runs s then PS1 else PDirect) s
  | PDirect => go PEnd s
  | PS1 => go (PS2 (sflag s)) s
  | PS2 f => go (if f then PSpin true (throw s) else PS3 (throw s)) s
  | PS3 t => go (PS4 t) (set_throw false s)
  | PS4 t => go (PS5 t) (set_sflag true s)
  | PS5 t => go (PSpin false t) (set_bit true s)
  | PSpin f t => if susp s then go (PSaving f t) s else (s, None)
  | PSaving f t => go (if f then PEnd else PBack t) s
  | PBack t => go PBRes0 (set_throw t s)
  | PBRes0 => if saving s then (s, None) else go PBRes1 s
  | PBRes1 => go PEnd (set_sflag false s)
  | PEnd => ret (set_saving false s)
  end.

Inductive ev := Cpu | Api (n : nat) (c : call).

Definition step (e : ev) (s : gs) : gs * option obs :=
  match e with Cpu => cpu_step s | Api n c => thr_step n c s end.

Fixpoint run (evs : list ev) (s : gs) : gs :=
  match evs with [] => s | e :: t => run t (fst (step e s)) end.

Fixpoint trace (evs : list ev) (s : gs) : list obs :=
  match evs with
  | [] => []
  | e :: t => match snd (step e s) with
              | Some o => o :: trace t (fst (step e s))
              | None => trace t (fst (step e s))
              end
  end.

(** After cpu_new: not running, nothing requested ([suspend_should_throw]: any value) *)
Definition init (t : bool) : gs := mkgs false false t false false false CIdle (fun _ => TIdle).
