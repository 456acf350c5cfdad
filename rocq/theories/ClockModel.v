(** * Time stamp counter and timeouts

    Models lib86cpu/core/linux/clock.cpp (CL), lib86cpu/core/windows/clock.cpp (CW), [muldiv128] and the
    clock part of [cpu_save_state] and [cpu_load_state] of lib86cpu/support.cpp (SU), RDTSC of
    lib86cpu/core/emitter/x64/jit.cpp (JT) and the part of [cpu_start] of lib86cpu/core/translate.cpp
    (TR) that handles timeouts. *)

From Coq Require Import ZArith Bool List.
Import ListNotations.
Local Open Scope Z_scope.

Definition u64 (x : Z) : Z := x mod 2 ^ 64.
(** [tsc_clock] and [timer] (lib86cpu_priv.hpp 240-249) *)
Record clk := mkclk { offset : Z; last_ticks : Z; last_time : Z; timeout : Z; exit_requested : bool }.
Definition cpu_freq : Z := 733333333.

(** how a host counts: [get_current_time] turns the host clock into ticks and [freq] is the number
    of ticks per second *)
(** Linux: CLOCK_MONOTONIC_RAW in nanoseconds, [tv_sec * 1000000 + tv_nsec / 1000] (CL 12-18, 31) *)
Definition linux_ticks (sec nsec : Z) : Z := u64 (sec * 1000000 + nsec / 1000).
Definition linux_freq : Z := 1000000.

(** [muldiv128] (SU 155-168), the __int128 version: the product does not overflow, the quotient is
    cut to 64 bits.  The MSVC version faults instead if the quotient does not fit. *)
Definition muldiv128 (a b c : Z) : Z := u64 (a * b / c).

(** [tsc_init] (CL 20-25); the rest of [cpu_t] is zero *)
Definition tsc_init (now : Z) : clk := mkclk 0 now 0 0 false.
(** [cpu_rdtsc_helper] (CL 27-34, CW 30-37): EDX and EAX *)
Definition rdtsc (freq now : Z) (c : clk) : Z * Z :=
  let e := u64 (muldiv128 (u64 (now - last_ticks c)) cpu_freq freq + offset c) in
  (Z.shiftr e 32, e mod 2 ^ 32).
(** RDTSC (JT 9758-9773): #GP is [None] *)
Definition rdtsc_instr (cpl : Z) (tsd : bool) (freq now : Z) (c : clk) : option (Z * Z) :=
  if negb (cpl =? 0) && tsd then None else Some (rdtsc freq now c).

(** the value stored by [cpu_save_state] (SU 108-113) and its use by [cpu_load_state] (SU 139-140) *)
Definition save (freq now : Z) (c : clk) : Z :=
  let (d, a) := rdtsc freq now c in Z.lor (Z.shiftl d 32) a.
Definition load (off now : Z) (c : clk) : clk := mkclk off now (last_time c) (timeout c) (exit_requested c).

(** [cpu_run_until] and [cpu_set_timeout] (interface.cpp 307-324), [cpu_timer_set_now] (CL 36-40) and the start of
    [cpu_start<false>] (TR 1675-1676) *)
Definition set_timeout (t : Z) (c : clk) : clk := mkclk (offset c) (last_ticks c) (last_time c) t (exit_requested c).
Definition start_until (t now : Z) (c : clk) : clk := mkclk (offset c) (last_ticks c) now t false.
(** [cpu_timer_helper]: Linux (CL 42-52) and Windows (CW 44-56); [true] is CPU_TIMEOUT_INT *)
Definition timer_linux (now : Z) (c : clk) : clk * bool :=
  if timeout c <=? u64 (now - last_time c)
  then (mkclk (offset c) (last_ticks c) (last_time c) (timeout c) true, true) else (c, false).
Definition timer_windows (freq now : Z) (c : clk) : clk * bool :=
  if timeout c <=? u64 (u64 (now - last_time c) * 1000000) / freq
  then (mkclk (offset c) (last_ticks c) (last_time c) (timeout c) true, true) else (c, false).

(** the events of a [cpu_run_until] call: the checks that translated code and HLT make, and calls of
    [cpu_set_timeout] by hooks and handlers *)
Inductive event := Check (now : Z) | SetTimeout (t : Z).
(** [cpu_main_loop] with the condition of TR 1685: it runs until a check requested the exit; the
    result is the time of that check, [None] if the events run out first *)
Fixpoint run_until (timer : Z -> clk -> clk * bool) (l : list event) (c : clk) : option Z :=
  match l with
  | [] => None
  | Check now :: t => let (c', b) := timer now c in if b then Some now else run_until timer t c'
  | SetTimeout x :: t => run_until timer t (set_timeout x c)
  end.
