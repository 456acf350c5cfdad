(** * Model: the settings of a cpu and the code translated under them

    cpu_set_flags (lib86cpu/interface.cpp 355-384) and the other writers of
    cpu->cpu_flags, the code of HLT (core/emitter/x64/jit.cpp 6640-6672) and the code
    cache as far as they are concerned.  32 bit words are in [Z].  A block of code is
    named by a key that stands for its address and mode; what a block does besides a HLT
    at privilege level 0 is left out. *)

From Coq Require Import ZArith Bool List.
Import ListNotations.
Local Open Scope Z_scope.

(** include/lib86cpu.hpp 43-48, lib86cpu/support.hpp 15-18 *)
Definition SYNTAX_MASK : Z := 7.
Definition TIMEOUT : Z := 0x8.
Definition DISAS_ONE : Z := 0x80.
Definition SINGLE_STEP : Z := 0x400.
Definition DBG_PRESENT : Z := 0x800.
Definition ABORT_ON_HLT : Z := 0x1000.
Definition SETTABLE : Z := Z.lor SYNTAX_MASK (Z.lor DBG_PRESENT ABORT_ON_HLT).
Definition PRESERVED : Z := Z.lor SYNTAX_MASK (Z.lor TIMEOUT (Z.lor SINGLE_STEP (Z.lor DBG_PRESENT ABORT_ON_HLT))).

(** [x & ~m] *)
Definition clear_bits (x m : Z) : Z := Z.ldiff x m.

(** cpu->cpu_flags, the style that the formatter was given for this cpu (core/decode.cpp
    39-48), and the cached blocks with what was emitted for their HLT: the abort or the wait *)
Record cpu := Cpu { flags : Z; style : Z; cache : list (nat * bool) }.

(** interface.cpp 127, 184: cpu_new value-initializes the cpu and sets the format *)
Definition fresh : cpu := Cpu 0 0 [].

Definition set_flags_ok (f : Z) : bool :=
  (clear_bits f SETTABLE =? 0) &&
  ((Z.land f SYNTAX_MASK =? 0) || (Z.land f SYNTAX_MASK =? 1) || (Z.land f SYNTAX_MASK =? 2)).

(** interface.cpp 355-384; true is success *)
Definition set_flags (f : Z) (c : cpu) : bool * cpu :=
  if negb (set_flags_ok f) then (false, c)
  else let k := if negb (Z.land (flags c) ABORT_ON_HLT =? Z.land f ABORT_ON_HLT) then [] else cache c in
    let fl := Z.lor (clear_bits (flags c) SETTABLE) f in
    (true, Cpu fl (Z.land fl SYNTAX_MASK) k).

(** jit.cpp 6651: what is emitted *)
Definition emit_hlt (c : cpu) : bool := negb (Z.land (flags c) ABORT_ON_HLT =? 0).

Fixpoint find (b : nat) (l : list (nat * bool)) : option bool :=
  match l with [] => None | (k, v) :: t => if Nat.eqb k b then Some v else find b t end.

(** core/translate.cpp 1512-1587: the block is looked up, and translated if it is not
    there; a block of one instruction (DISAS_FLG_ONE_INSTR) is not cached, and clears the
    request for it.  [cross] stands for the other reasons: a page crossed, RF or TF set.
    true: HLT aborts *)
Definition execute (b : nat) (cross : bool) (c : cpu) : bool * cpu :=
  match find b (cache c) with
  | Some v => (v, c)
  | None => let v := emit_hlt c in
      if cross || negb (Z.land (flags c) (Z.lor DISAS_ONE SINGLE_STEP) =? 0)
      then (v, Cpu (clear_bits (flags c) DISAS_ONE) (style c) (cache c))
      else (v, Cpu (flags c) (style c) ((b, v) :: cache c))
  end.

(** What else changes the flags or the cache: cpu_run_until (translate.cpp 1655), single
    steps of the debugger (dbg/imgui_wnd.cpp 89, 127), a request for one instruction
    (translate.cpp 1716), a restored snapshot (support.cpp 137, 148), a flush of the
    cache, the removal of one block. *)
Inductive ev := SetFlags (f : Z) | Hlt (b : nat) (cross : bool) | Timed | StepOn | StepOff | One | Restore | Flush | Remove (b : nat).

(** One event, and what is seen of it: whether cpu_set_flags succeeded, whether HLT
    aborted *)
Definition step (e : ev) (c : cpu) : option bool * cpu :=
  match e with
  | SetFlags f => let (ok, c1) := set_flags f c in (Some ok, c1)
  | Hlt b x => let (v, c1) := execute b x c in (Some v, c1)
  | Timed => (None, Cpu (Z.lor (flags c) TIMEOUT) (style c) (cache c))
  | StepOn => (None, Cpu (Z.lor (flags c) SINGLE_STEP) (style c) (cache c))
  | StepOff => (None, Cpu (clear_bits (flags c) SINGLE_STEP) (style c) (cache c))
  | One => (None, Cpu (Z.lor (flags c) DISAS_ONE) (style c) (cache c))
  | Restore => (None, Cpu (Z.land (flags c) PRESERVED) (style c) [])
  | Flush => (None, Cpu (flags c) (style c) [])
  | Remove b => (None, Cpu (flags c) (style c) (filter (fun p => negb (Nat.eqb (fst p) b)) (cache c)))
  end.

Fixpoint run (l : list ev) (c : cpu) : cpu :=
  match l with [] => c | e :: t => run t (snd (step e c)) end.

(** core/decode.cpp 13: the formatter is one static object of the process.  [W] has the
    cpus in the order they were made and the style of that object; cpu_free is left out. *)
Record world := W { w_cpus : list cpu; w_style : Z }.
Inductive wev := New | On (i : nat) (e : ev).

Fixpoint put (l : list cpu) (i : nat) (c : cpu) : list cpu :=
  match l, i with [], _ => [] | _ :: t, O => c :: t | d :: t, S j => d :: put t j c end.

(** cpu_new and cpu_set_flags write the formatter (interface.cpp 184, 380) *)
Definition wstep (e : wev) (w : world) : world :=
  match e with
  | New => W (w_cpus w ++ [fresh]) (style fresh)
  | On i e => match nth_error (w_cpus w) i with
      | None => w
      | Some c => let (o, c1) := step e c in
          W (put (w_cpus w) i c1) (match e, o with SetFlags _, Some true => style c1 | _, _ => w_style w end)
      end
  end.

Fixpoint wrun (l : list wev) (w : world) : world :=
  match l with [] => w | e :: t => wrun t (wstep e w) end.
