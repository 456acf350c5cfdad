(** * Transcription of the debugger's breakpoints

    lib86cpu/dbg/debugger.cpp (D), dbg/imgui_wnd.cpp (W), core/translate.cpp (T),
    core/breakpoint.cpp (B), core/instructions.cpp (I).  Memory is the guest's RAM, one byte per physical address,
    reached through a translation of linear addresses; an address without RAM behind it
    is one where the accesses of the debugger throw (D, host_exp_t).
    Simplifications: breakpoints in ROM or devices cannot be inserted (D 287-299) and are
    like unmapped ones; code cache invalidation is in [CodeModel]; the swapping of CPL,
    CR0.WP and watchpoints around the accesses (D 234-255) makes them succeed wherever
    RAM is mapped and is not shown; the window thread acts only while the guest waits. *)

From Coq Require Import ZArith Bool List.
Import ListNotations.
Local Open Scope Z_scope.

(** brk_t and brk_info (debugger.hpp 11-19) *)
Inductive btype := Breakpoint | StepOver.
Definition info : Type := Z * btype.

(** RAM, translation, g_break_list (a std::map: keys are unique), CS base, EIP, DR6, DR7 *)
Record dst := mkd { mem : Z -> Z; tr : Z -> option Z; brk : list (Z * info); csb : Z; eip : Z; dr6 : Z; dr7 : Z }.
Definition set_mem m d := mkd m (tr d) (brk d) (csb d) (eip d) (dr6 d) (dr7 d).
Definition set_tr t d := mkd (mem d) t (brk d) (csb d) (eip d) (dr6 d) (dr7 d).
Definition set_brk b d := mkd (mem d) (tr d) b (csb d) (eip d) (dr6 d) (dr7 d).
Definition set_eip e d := mkd (mem d) (tr d) (brk d) (csb d) e (dr6 d) (dr7 d).
Definition set_dr6 v d := mkd (mem d) (tr d) (brk d) (csb d) (eip d) v (dr7 d).

Definition put (p v : Z) (m : Z -> Z) : Z -> Z := fun q => if q =? p then v else m q.
Definition INT3 : Z := 0xCC.

(** mem_read_helper<uint8_t>, mem_write_helper<uint8_t>; None: an exception is thrown *)
Definition rd (d : dst) (a : Z) : option Z := match tr d a with Some p => Some (mem d p) | None => None end.
Definition wr (d : dst) (a v : Z) : option dst := match tr d a with Some p => Some (set_mem (put p v (mem d)) d) | None => None end.

(** std::map: find, insert_or_assign of a present key, emplace, erase *)
Definition find (a : Z) (l : list (Z * info)) : option info :=
  match List.find (fun e => fst e =? a) l with Some e => Some (snd e) | None => None end.
Definition assign (a : Z) (i : info) (l : list (Z * info)) : list (Z * info) := map (fun e => if fst e =? a then (a, i) else e) l.
Definition emplace (a : Z) (i : info) (l : list (Z * info)) : list (Z * info) := match find a l with Some _ => l | None => (a, i) :: l end.
Definition erase (a : Z) (l : list (Z * info)) : list (Z * info) := filter (fun e => negb (fst e =? a)) l.

(** dbg_setup_sw_breakpoints (D 257-267) *)
Fixpoint setup_loop (l : list (Z * info)) (d : dst) : option dst :=
  match l with
  | [] => Some d
  | (a, _) :: tl => match rd d a with Some b => setup_loop tl (set_brk (assign a (b, Breakpoint) (brk d)) d) | None => None end
  end.
Definition setup (d : dst) : option dst := setup_loop (brk d) d.

(** dbg_insert_sw_breakpoint (D 269-303): the byte at the address, if it is RAM *)
Definition insert (d : dst) (a : Z) : option Z := rd d a.

(** dbg_apply_sw_breakpoints (D 305-326) *)
Definition apply1 (a : Z) (t : btype) (d : dst) : option dst :=
  match rd d a with
  | None => None
  | Some b =>
      if b =? INT3 then Some d
      else match wr d a INT3 with Some d => Some (set_brk (assign a (b, t) (brk d)) d) | None => None end
  end.
Fixpoint apply_loop (l : list (Z * info)) (d : dst) : option dst :=
  match l with
  | [] => Some d
  | (a, (_, t)) :: tl => match apply1 a t d with Some d => apply_loop tl d | None => None end
  end.
Definition apply (d : dst) : option dst := apply_loop (brk d) d.

(** dbg_remove_sw_breakpoints (D 328-353) *)
Fixpoint remove_loop (l : list (Z * info)) (d : dst) : option dst :=
  match l with
  | [] => Some d
  | (a, (o, _)) :: tl => match wr d a o with Some d => remove_loop tl d | None => None end
  end.
Definition remove (d : dst) : option dst := remove_loop (brk d) d.
Definition remove_at (a : Z) (d : dst) : option dst :=
  match find a (brk d) with Some (o, _) => wr d a o | None => Some d end.

(** dbg_update_sw_breakpoints (D 355-368) *)
Fixpoint update_loop (l : list (Z * info)) (d : dst) : option dst :=
  match l with
  | [] => Some d
  | (a, (_, t)) :: tl =>
      match rd d a with
      | None => None
      | Some b => update_loop tl (if b =? INT3 then d else set_brk (assign a (b, t) (brk d)) d)
      end
  end.
Definition update (d : dst) : option dst := update_loop (brk d) d.

(** ** What the user does while the guest waits *)
Inductive ucmd :=
| UToggle (a : Z)           (* W 99-118 *)
| UStepOver (a : Z)         (* W 137-157: the address after a call *)
| UDelete (a : Z)           (* W 404-409 *)
| UMove (old a : Z)         (* W 387-398 *)
| UEdit (a v : Z).          (* the memory editor: dbg_ram_write, D 184-232 *)

Definition ustep (c : ucmd) (d : dst) : option dst :=
  match c with
  | UToggle a =>
      match find a (brk d) with
      | Some _ => match remove_at a d with Some d => Some (set_brk (erase a (brk d)) d) | None => None end
      | None => match insert d a with Some b => Some (set_brk (emplace a (b, Breakpoint) (brk d)) d) | None => Some d end
      end
  | UStepOver a => match insert d a with Some b => Some (set_brk (emplace a (b, StepOver) (brk d)) d) | None => Some d end
  | UDelete a => Some (set_brk (erase a (brk d)) d)
  | UMove old a =>
      match insert d a with Some b => Some (set_brk (emplace a (b, Breakpoint) (erase old (brk d))) d) | None => Some d end
  | UEdit a v => match wr d a v with Some d => Some d | None => Some d end
  end.
Fixpoint usteps (cs : list ucmd) (d : dst) : option dst :=
  match cs with [] => Some d | c :: tl => match ustep c d with Some d => usteps tl d | None => None end end.

(** ** What the guest does while it runs: bytes of RAM written, page tables changed *)
Inductive gact := GWrite (p v : Z) | GMap (t : Z -> option Z).
Definition gstep (g : gact) (d : dst) : dst := match g with GWrite p v => set_mem (put p v (mem d)) d | GMap t => set_tr t d end.
Definition gsteps (gs : list gact) (d : dst) : dst := fold_left (fun d g => gstep g d) gs d.

(** The guest switches between real and protected mode (I 911-917): the breakpoints are
    removed, without looking whether the guest has overwritten them, and forgotten *)
Definition mode_switch (d : dst) : option dst := match remove d with Some d => Some (set_brk [] d) | None => None end.

(** ** The handlers (D 393-469) *)

(** dbg_wait, up to the point where the guest waits; then the rest *)
Definition pause (d : dst) : option dst := match update d with Some d => remove d | None => None end.
Definition wait_handler (cs : list ucmd) (d : dst) : option dst :=
  match pause d with
  | Some d => match usteps cs d with Some d => apply d | None => None end
  | None => None
  end.

(** dbg_sw_breakpoint_handler (D 430-469): [None] inside: no breakpoint of ours.  [exec] is
    dbg_exec_original_instr (T 1713-1720). *)
Definition hit_pc (d : dst) : Z := (csb d + eip d - 1) mod 2 ^ 32.
Definition drop_steps (t : btype) (pc : Z) (l : list (Z * info)) : list (Z * info) :=
  match t with
  | StepOver => erase pc l
  | Breakpoint => filter (fun e => match snd (snd e) with StepOver => false | _ => true end) l
  end.
Definition hit_stop (d : dst) : option dst :=
  match find (hit_pc d) (brk d) with
  | None => Some d
  | Some (_, t) => match pause d with Some d' => Some (set_brk (drop_steps t (hit_pc d) (brk d')) d') | None => None end
  end.
Definition hit_resume (pc : Z) (d : dst) : option dst := remove_at pc (set_eip ((eip d - 1) mod 2 ^ 32) d).
Definition bp_handler (cs : list ucmd) (exec : dst -> option dst) (d : dst) : option dst :=
  match find (hit_pc d) (brk d) with
  | None => Some d
  | Some _ =>
      match hit_stop d with
      | None => None
      | Some d1 =>
          match usteps cs d1 with
          | None => None
          | Some d2 => match hit_resume (hit_pc d) d2 with
                       | Some d3 => match exec d3 with Some d4 => apply d4 | None => None end
                       | None => None
                       end
          end
      end
  end.

(** dbg_exp_handler (D 471-504); types of the debug registers as in B: 0 is an instruction
    breakpoint (DR7_TYPE_INSTR) *)
Definition bp_type (v i : Z) : Z := Z.land (Z.shiftr v (16 + i * 4)) 3.
Definition instr_mask (v : Z) : Z :=
  fold_left (fun m i => if bp_type v i =? 0 then Z.lor m (Z.shiftl 1 i) else m) [0; 1; 2; 3] 0x2000.
Definition exp_handler (cs : list ucmd) (exec : dst -> option dst) (d : dst) : option dst :=
  let d := if Z.land (dr6 d) 0x200F =? 0 then d else set_dr6 (Z.land (dr6 d) (Z.lnot (instr_mask (dr7 d)))) d in
  if negb (Z.land (dr6 d) 0x4000 =? 0) then wait_handler cs (set_dr6 (Z.land (dr6 d) (Z.lnot 0x4000)) d)
  else if negb (Z.land (dr6 d) 0xF =? 0) then wait_handler cs (set_dr6 (Z.land (dr6 d) (Z.lnot 0xF)) d)
  else bp_handler cs exec d.

(** cpu_raise_exception with the debugger attached (T 526-533): vectors 1 and 3 go to the
    debugger and nowhere else; the others to the guest *)
Inductive raised := ToGuest | ToDebugger (o : option dst).
Definition raise (vector : Z) (cs : list ucmd) (exec : dst -> option dst) (d : dst) : raised :=
  if (vector =? 1) || (vector =? 3) then ToDebugger (exp_handler cs exec d) else ToGuest.

(** ** A debugging session

    Each event starts with what the guest does while it runs and ends with the guest
    running again.  [EHit]: one of the debugger's INT3s was executed; [ws1] is what the
    original instruction does, and if the user single-steps it a second stop follows
    (D 310-311).  [EStop]: a single step or a watchpoint.  [EMode]: a mode switch. *)
Inductive event :=
| EHit (gs : list gact) (cs : list ucmd) (ws1 : list gact) (step : option (list ucmd))
| EStop (gs : list gact) (cs : list ucmd)
| EMode (gs : list gact).

Definition original (ws1 : list gact) (step : option (list ucmd)) (d : dst) : option dst :=
  match step with Some cs => wait_handler cs (gsteps ws1 d) | None => Some (gsteps ws1 d) end.
Definition estep (e : event) (d : dst) : option dst :=
  match e with
  | EHit gs cs ws1 st => bp_handler cs (original ws1 st) (gsteps gs d)
  | EStop gs cs => wait_handler cs (gsteps gs d)
  | EMode gs => mode_switch (gsteps gs d)
  end.
Fixpoint esteps (es : list event) (d : dst) : option dst :=
  match es with [] => Some d | e :: tl => match estep e d with Some d => esteps tl d | None => None end end.
(** cpu_start (T 1643-1651): set the list up from the settings (main_wnd.cpp 74-75), let
    the user act, apply *)
Definition start (cs : list ucmd) (d : dst) : option dst :=
  match setup d with
  | Some d => match usteps cs d with Some d => apply d | None => None end
  | None => None
  end.

(** ** Debug registers and the settings *)

(** B: cpu_check_watchpoint_enabled, cpu_get_watchpoint_length *)
Definition enabled (v i : Z) : bool := negb (Z.land (Z.shiftr v (i * 2)) 3 =? 0).
Definition wlen (v i : Z) : Z := let l := Z.land (Z.shiftr v (18 + i * 4)) 3 in if l =? 2 then 8 else l + 1.

(** dbg_update_watchpoint (D 370-385): DR7 and the address registers *)
Record drs := mkdr { r7 : Z; ra : Z -> Z }.
Definition clear_fields (v i : Z) : Z :=
  Z.land v (Z.lnot (Z.lor (Z.lor (Z.shiftl 3 (i * 2)) (Z.shiftl 3 (16 + i * 4))) (Z.shiftl 3 (18 + i * 4)))) mod 2 ^ 32.
Definition update_wp (i addr rw size : Z) (en : bool) (r : drs) : drs :=
  let v := clear_fields (r7 r) i in
  let v := Z.lor v (Z.shiftl (if en then 3 else 0) (i * 2)) in
  let v := Z.lor v (Z.shiftl rw (16 + i * 4) mod 2 ^ 32) in
  let v := Z.lor v (Z.shiftl size (18 + i * 4) mod 2 ^ 32) in
  mkdr v (put i addr (ra r)).

(** dbg_opt: brk_vec and wp_arr; write_dbg_opt (D 86-106) and read_dbg_opt (D 41-61) *)
Record wp := mkwp { w_addr : Z; w_size : Z; w_type : Z }.
Record opts := mkopts { o_brk : list Z; o_wp : list wp }.
Definition save_wp (r : drs) (i : Z) : wp :=
  if enabled (r7 r) i
  then mkwp (ra r i) (let s := wlen (r7 r) i in if s =? 8 then 2 else s - 1) (bp_type (r7 r) i)
  else mkwp 0 0 0.
Definition save (l : list (Z * info)) (r : drs) : opts :=
  mkopts (map fst (filter (fun e => match snd (snd e) with Breakpoint => true | StepOver => false end) l))
         (map (save_wp r) [0; 1; 2; 3]).
Definition load_wp (i : Z) (w : wp) (r : drs) : drs :=
  if w_type w =? 0 then mkdr (Z.land (r7 r) (Z.lnot (Z.shiftl 3 (i * 2))) mod 2 ^ 32) (ra r)
  else update_wp i (w_addr w) (w_type w) (w_size w) true r.
Fixpoint load_wps (i : Z) (l : list wp) (r : drs) : drs :=
  match l with [] => r | w :: tl => load_wps (i + 1) tl (load_wp i w r) end.
Definition load (o : opts) (r : drs) : list (Z * info) * drs :=
  (fold_left (fun l a => emplace a (0, Breakpoint) l) (o_brk o) [], load_wps 0 (o_wp o) r).
