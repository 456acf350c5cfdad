(** * Model: the ram buffer of a cpu, from cpu_new to cpu_free

    lib86cpu/interface.cpp, lib86cpu/core/emitter/x64/linux/ipt.cpp, lib86cpu/support.cpp.
    Pointers and sizes are 64 bit words in [Z].  The answers of the operating system and of
    the allocator are parameters; what the library does with the resources of the process
    is a list of events.  The cpu_t object itself, the translator's memory and the name of
    the temporary file are left out. *)

From Coq Require Import ZArith Bool List.
Import ListNotations.
Local Open Scope Z_scope.

(** uint64_t and uintptr_t arithmetic *)
Definition w64 (x : Z) : Z := x mod 2 ^ 64.

(** What a process holds: a block of operator new, a mapping of mmap, an open file, the
    SIGSEGV handler of the library. *)
Inductive res := Heap (p n : Z) | View (p n : Z) | File (f : Z) | Handler.

(** Acquiring; releasing what is named in full (munmap, close, sigaction with the old
    handler); delete[], which names the address only. *)
Inductive ev := Get (r : res) | Put (r : res) | Delete (p : Z).

(** lib86cpu/lib86cpu_priv.hpp 207-213, 264: the fields of cpu_t for ram *)
Record cpu := Cpu { c_guard : Z; c_ram : Z; c_alias : Z; c_cont : Z; c_tiled : Z; c_size : Z; c_bias : Z }.

(** interface.cpp 127: new cpu_t() sets all of them to zero *)
Definition blank : cpu := Cpu 0 0 0 0 0 0 0.

(** interface.cpp 137: cpu->ram_size *)
Definition ram_size (ramsize align : Z) : Z := w64 (ramsize + 16 + align - 1).

(** interface.cpp 138-143: the test of ram_alignment *)
Definition align_ok (align : Z) : bool := (align =? 1) || (Z.land align (w64 (align - 1)) =? 0).

(** interface.cpp 152, ipt.cpp 95: aligned_ptr *)
Definition align_up (p align : Z) : Z := Z.land (w64 (p + align - 1)) (w64 (Z.lnot (align - 1))).

(** ** The ordinary build *)

(** interface.cpp 150-154: [a] is the block new uint8_t[] returns, None that it throws *)
Definition init (align : Z) (a : option Z) (c : cpu) : bool * cpu * list ev :=
  match a with
  | None => (false, c, [])
  | Some p => let q := align_up p align in
      (true, Cpu (c_guard c) q (c_alias c) (c_cont c) (c_tiled c) (c_size c) (w64 (q - p)), [Get (Heap p (c_size c))])
  end.

(** interface.cpp 199-206: cpu_free *)
Definition free (c : cpu) : list ev := [Delete (w64 (c_ram c - c_bias c))].

(** interface.cpp 118-192: cpu_new; [jit] tells whether the translator can be made.  None
    is an error status. *)
Definition cpu_new (ramsize align : Z) (a : option Z) (jit : bool) : option cpu * list ev :=
  if ramsize =? 0 then (None, free blank)
  else let c := Cpu 0 0 0 0 0 (ram_size ramsize align) 0 in
    if negb (align_ok align) then (None, free c)
    else match init align a c with
      | (ok, c1, tr) => if ok && jit then (Some c1, tr) else (None, tr ++ free c1)
      end.

(** support.cpp 115, 141: cpu_save_state reads the bytes from cpu->ram to
    cpu->ram + cpu->ram_size, and cpu_load_state writes them when the state holds that
    many; first and one past the last *)
Definition snapshot (c : cpu) : Z * Z := (c_ram c, c_ram c + c_size c).

(** ** The xbox build on Linux *)

(** MAP_FAILED *)
Definition failed : Z := 2 ^ 64 - 1.

(** ipt.cpp 25, 30: ram_fd and signal_updated, zero when the process starts *)
Record statics := Statics { ram_fd : Z; updated : bool }.
Definition boot : statics := Statics 0 false.

(** The answers of mmap for the guard page, mkstemp, ftruncate, mmap for the four views of
    ram and sigaction *)
Record answers := Answers { a_guard : Z; a_fd : Z; a_trunc : bool; a_ram : Z; a_alias : Z; a_cont : Z; a_tiled : Z; a_sig : bool }.

(** mmap and mkstemp: the event of a call that succeeded *)
Definition mapped (p n : Z) : list ev := if p =? failed then [] else [Get (View p n)].
Definition opened (f : Z) : list ev := if f =? -1 then [] else [Get (File f)].

(** ipt.cpp 57-120: ipt_ram_init, 41-54: ipt_signal_init *)
Definition init_x (ramsize align : Z) (a : answers) (c : cpu) (s : statics) : bool * cpu * statics * list ev :=
  let n := c_size c in
  let s0 := Statics (ram_fd s) false in
  let c0 := Cpu failed failed failed failed failed n (c_bias c) in
  if negb ((ramsize =? 64 * 1024 * 1024) || (ramsize =? 128 * 1024 * 1024)) then (false, c0, s0, [])
  else let c1 := Cpu (a_guard a) failed failed failed failed n (c_bias c) in
    let t1 := mapped (a_guard a) 4096 in
    if a_guard a =? 0 then (false, c1, s0, t1)
    else let t2 := t1 ++ opened (a_fd a) in
      let s2 := Statics (a_fd a) false in
      if a_fd a =? -1 then (false, c1, s2, t2)
      else if negb (a_trunc a) then (false, c1, s2, t2)
      else let t3 := t2 ++ mapped (a_ram a) n in
        if a_ram a =? failed then (false, c1, s2, t3)
        else let q := align_up (a_ram a) align in let b := w64 (q - a_ram a) in
          let t4 := t3 ++ mapped (a_alias a) n in
          if a_alias a =? failed then (false, Cpu (a_guard a) q failed failed failed n b, s2, t4)
          else let t5 := t4 ++ mapped (a_cont a) n in
            if a_cont a =? failed then (false, Cpu (a_guard a) q (a_alias a) failed failed n b, s2, t5)
            else let t6 := t5 ++ mapped (a_tiled a) n in
              if a_tiled a =? failed then (false, Cpu (a_guard a) q (a_alias a) (a_cont a) failed n b, s2, t6)
              else let c7 := Cpu (a_guard a) q (w64 (a_alias a + b)) (w64 (a_cont a + b)) (w64 (a_tiled a + b)) n b in
                let t7 := t6 ++ [Put (File (a_fd a))] in
                if a_sig a then (true, c7, Statics (-1) true, t7 ++ [Get Handler])
                else (false, c7, Statics (-1) false, t7).

(** ipt.cpp 169-194: ipt_ram_deinit, called by cpu_free *)
Definition unmapped (p n : Z) : list ev := if p =? failed then [] else [Put (View p n)].
Definition free_x (c : cpu) (s : statics) : list ev :=
  unmapped (c_guard c) 4096 ++ unmapped (c_ram c) (c_size c) ++ unmapped (c_alias c) (c_size c)
  ++ unmapped (c_cont c) (c_size c) ++ unmapped (c_tiled c) (c_size c)
  ++ (if ram_fd s =? -1 then [] else [Put (File (ram_fd s))]) ++ (if updated s then [Put Handler] else []).

(** interface.cpp 118-192: cpu_new of that build *)
Definition cpu_new_x (ramsize align : Z) (a : answers) (jit : bool) (s : statics) : option cpu * statics * list ev :=
  if ramsize =? 0 then (None, s, free_x blank s)
  else let c := Cpu 0 0 0 0 0 (ram_size ramsize align) 0 in
    if negb (align_ok align) then (None, s, free_x c s)
    else match init_x ramsize align a c s with
      | (ok, c1, s1, tr) => if ok && jit then (Some c1, s1, tr) else (None, s1, tr ++ free_x c1 s1)
      end.
