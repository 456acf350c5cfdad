(** * Snapshots

    Models [cpu_save_state] and [cpu_load_state] (lib86cpu/support.cpp 91-152,
    called SU below): what is stored, what is checked, what is restored.  The
    thread protocol around them is in the suspend model.

    The registers are a map from names (the fields of [regs_t]), the model
    specific registers a map from numbers.  Taken from other models: the time
    stamp counter ([ClockModel]) and the debug register helpers ([DrModel]).
    Left out, and not touched by either function: the memory map, hooks, timers
    and the pending region changes. *)

From Coq Require Import ZArith Bool List.
From Verif Require ClockModel DrModel.
Import ListNotations.
Local Open Scope Z_scope.

(** fields of [regs_t]; the ones the two functions look at have a name *)
Inductive reg := EAX | EDX | CR4 | EFLAGS | DR (n : Z) | OtherReg (n : Z).
Definition reg_eqb (a b : reg) : bool :=
  match a, b with
  | EAX, EAX | EDX, EDX | CR4, CR4 | EFLAGS, EFLAGS => true
  | DR n, DR m | OtherReg n, OtherReg m => n =? m
  | _, _ => false
  end.
Definition rset (f : reg -> Z) (r : reg) (v : Z) : reg -> Z := fun x => if reg_eqb x r then v else f x.

Record cpu := mkcpu {
  regs : reg -> Z;                  (* cpu_ctx.regs *)
  msr : Z -> Z;                     (* msr *)
  res : Z; aux : Z;                 (* cpu_ctx.lazy_eflags *)
  ftop : Z; frp : Z;                (* cpu_ctx.fpu_data *)
  shadow_mxcsr : Z;
  halted : bool; microcode : bool;
  hflags : Z;
  a20_mask : Z;
  clk : ClockModel.clk;             (* tsc_clock and timer *)
  ram : list Z;                     (* the ram buffer, one element per byte *)
  cpu_flags : Z;
  int_pending : Z;
  int_data : Z;                     (* the interrupt function; 0 is the default one *)
  wp_io : list DrModel.wp; wp_data : list DrModel.wp;
  cached : bool                     (* translated code or TLB lines may exist *)
}.

(** [cpu_save_state_t] and [ram_save_state_t] (include/lib86cpu.hpp 74-94) *)
Record snap := mksnap {
  s_id : Z; s_size : Z;
  s_regs : reg -> Z; s_msr : Z -> Z; s_res : Z; s_aux : Z; s_ftop : Z; s_frp : Z;
  s_mxcsr : Z; s_halted : bool; s_microcode : bool; s_hflags : Z; s_a20 : Z; s_tsc : Z
}.
Record ramsnap := mkrs { rs_id : Z; rs_ram : list Z }.

Definition SAVE_STATE_ID := 12.                                    (* SU 17 *)
(** HFLG_SAVED_MASK (internal.hpp 84-108) *)
Definition HFLG_SAVED_MASK : Z :=
  fold_left Z.lor (map (Z.shiftl 1) [0; 1; 2; 3; 4; 5; 15; 10; 11; 7; 9; 19; 20; 21; 22; 23; 24; 25; 26]) 0.
(** CPU_PRESERVED_FLG_MASK (support.hpp 15-18, include/lib86cpu.hpp 46-48) *)
Definition CPU_PRESERVED_FLG_MASK : Z :=
  fold_left Z.lor [7; Z.shiftl 1 3; Z.shiftl 1 10; Z.shiftl 1 11; Z.shiftl 1 12] 0.

(** [std::copy(src, src + length src, dst)]: bytes written past the end of the
    destination buffer are undefined behaviour ([None]) *)
Definition copy (src dst : list Z) : option (list Z) :=
  if (length src <=? length dst)%nat then Some (src ++ skipn (length src) dst) else None.

(** [sizeof(cpu_save_state_t)] *)
Section Sizeof.
Variable sizeof : Z.

(** [cpu_save_state] (SU 91-118); [buf] is the vector passed by the client,
    [now] the host time, [freq] its frequency.  The time stamp counter is read
    with the RDTSC helper, which leaves it in EDX:EAX; they are put back. *)
Definition save (freq now : Z) (buf : list Z) (c : cpu) : option (snap * ramsnap * cpu) :=
  let '(d, a) := ClockModel.rdtsc freq now (clk c) in
  let during := rset (rset (regs c) EDX d) EAX a in
  let after := rset (rset during EDX (regs c EDX)) EAX (regs c EAX) in
  match copy (ram c) buf with
  | None => None
  | Some v =>
      Some (mksnap SAVE_STATE_ID sizeof (regs c) (msr c) (res c) (aux c) (ftop c) (frp c) (shadow_mxcsr c)
              (halted c) (microcode c) (Z.land (hflags c) HFLG_SAVED_MASK) (a20_mask c)
              (Z.lor (Z.shiftl (during EDX) 32) (during EAX)),
            mkrs SAVE_STATE_ID v,
            mkcpu after (msr c) (res c) (aux c) (ftop c) (frp c) (shadow_mxcsr c) (halted c) (microcode c) (hflags c)
              (a20_mask c) (clk c) (ram c) (cpu_flags c) (int_pending c) (int_data c) (wp_io c) (wp_data c) (cached c))
  end.

(** the debug part of a state, as [DrModel] sees it *)
Definition dbg_of (r : reg -> Z) (io data : list DrModel.wp) : DrModel.dbg :=
  DrModel.mkdbg (fun i => r (DR i)) (r (DR 6)) (r (DR 7)) (Z.testbit (r CR4) 3) (Z.testbit (r EFLAGS) 16) io data false.

(** the five calls of [update_drN_helper] (SU 143-147) *)
Definition reload_dr (r : reg -> Z) (io data : list DrModel.wp) : DrModel.dbg :=
  let d0 := DrModel.write_dri 0 (r (DR 0)) (dbg_of r io data) in
  let d1 := DrModel.write_dri 1 (r (DR 1)) d0 in
  let d2 := DrModel.write_dri 2 (r (DR 2)) d1 in
  let d3 := DrModel.write_dri 3 (r (DR 3)) d2 in
  DrModel.write_dr7 (r (DR 7)) d3.

Inductive status := success | invalid_parameter.

(** [cpu_load_state] (SU 120-152).  [None]: undefined behaviour. *)
Definition load (now : Z) (k : snap) (m : ramsnap) (fn : Z) (c : cpu) : option (status * cpu) :=
  if negb (s_id k =? SAVE_STATE_ID) || negb (rs_id m =? SAVE_STATE_ID) || negb (s_size k =? sizeof)
  then Some (invalid_parameter, c)
  else
    match copy (rs_ram m) (ram c) with
    | None => None
    | Some v =>
        let d := reload_dr (s_regs k) (wp_io c) (wp_data c) in
        Some (success,
          mkcpu (s_regs k) (s_msr k) (s_res k) (s_aux k) (s_ftop k) (s_frp k) (s_mxcsr k)
            (halted c)                                   (* is_halted = is_halted *)
            (s_microcode k) (s_hflags k) (s_a20 k)
            (ClockModel.load (s_tsc k) now (clk c)) v
            (Z.land (cpu_flags c) CPU_PRESERVED_FLG_MASK) 0 fn
            (DrModel.io d) (DrModel.data d) false)
    end.
End Sizeof.
