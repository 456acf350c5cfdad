(** * Transcription of the port instructions

    Sequences emitted by lib86cpu/core/emitter/x64/jit.cpp (line numbers refer to
    it) for IN, OUT, INS and OUTS, on [HostModel] with two more host actions: the
    calls that access a port, and the privilege check of [IoPrivModel].  The
    handlers the embedder has registered are an arbitrary function of all port
    accesses made so far.  Simplifications: handlers have no effect on the cpu or
    its memory; I/O watchpoints are in [DrModel]; the loads of the privilege check
    do not fault (as in [IoPrivModel]). *)

From Coq Require Import ZArith Bool List.
From Verif Require Import HostModel AluModel StringModel.
From Verif Require IoPrivModel.
Import ListNotations.
Local Open Scope Z_scope.

(** an access to a port: its width, the port and the value *)
Inductive ioev := ERead (w : width) (port v : Z) | EWrite (w : width) (port v : Z).

Record penv := mkpenv {
  p_host : henv;
  p_dev : list ioev -> width -> Z -> Z;  (* what a read returns, given the accesses so far *)
  p_cpl : Z; p_iopl : Z; p_vm : bool;    (* CPL, IOPL and VM *)
  p_tr : Z * Z }.                        (* base and limit of the TSS *)

Inductive pinstr :=
| PHost (i : instr)
| PCheck (imm : option Z) (w : width)    (* gen_check_io_priv, the port is an immediate or in local 0 *)
| PIn (w : width)                        (* LD_IO: port in DX, value in RAX *)
| POut (w : width).                      (* ST_IO: port in DX, value in R8 *)

Section Exec.
Variable E : penv.

(** what [gen_check_io_priv] looks at *)
Definition priv_env (mem : Z -> Z) : IoPrivModel.env :=
  IoPrivModel.mkenv (p_cpl E) (p_iopl E) (p_vm E) (fst (p_tr E)) (snd (p_tr E)) (fun a => Z.land (mem a) 0xFF).
(** the test made when the block is translated (2153) *)
Definition checked : bool := IoPrivModel.restricted (priv_env (fun _ => 0)).

(** [load_io] (2101-2122) with [io_read_helper], [store_io] (2124-2145) with
    [io_write_helper] (memory_management.cpp:872-884); [gen_check_io_priv] (2149-2202):
    its two loads are calls, and R10 and R11 are used after the first *)
Definition pstep (i : pinstr) (s : hst) (t : list ioev) : outcome * list ioev :=
  match i with
  | PHost i => (step (p_host E) i s, t)
  | PCheck imm w =>
      let port := match imm with Some p => p | None => getw W32 (loc s 0%nat) end in
      let k := e_clob (p_host E) (ncall s) in
      let s' := clobber (p_host E) (clobber (p_host E) s) in
      if IoPrivModel.check (priv_env (gmem s)) (match imm with Some _ => true | None => false end) port (wbytes w)
           (getw W32 (k R10)) (getw W32 (k R11))
      then (Done s', t) else (Raise 13 0 s', t)
  | PIn w =>
      let port := hval (p_host E) W16 RDX s in
      let v := getw w (p_dev E t w port) in
      (next (op_write (p_host E) (Rg w RAX) v (clobber (p_host E) s)), t ++ [ERead w port v])
  | POut w =>
      (Done (clobber (p_host E) s), t ++ [EWrite w (hval (p_host E) W16 RDX s) (hval (p_host E) w R8 s)])
  end.

Fixpoint pexec (l : list pinstr) (o : outcome) (t : list ioev) : outcome * list ioev :=
  match l with
  | [] => (o, t)
  | PHost i :: tl => pexec tl (exec (p_host E) [i] o) t
  | i :: tl =>
      match o with
      | Done s => let r := pstep i s t in pexec tl (fst r) (snd r)
      | _ => pexec tl o t
      end
  end.
Definition prun (l : list pinstr) (s : hst) (t : list ioev) : outcome * list ioev := pexec l (Done s) t.
End Exec.

(** ** The sequences; [c] is [checked] when the block was translated *)

Definition host (l : list instr) : list pinstr := map PHost l.
Definition ld_port : list pinstr := host [MOVZX hEDX (c_reg W16 false EDX)].
(** 2165 and the reload of EDX after the check (6915, 7005, 9008, 9060) *)
Definition check_dx (c : bool) (w : width) : list pinstr :=
  if c then host [MOV (local W32 0) hEDX] ++ [PCheck None w] ++ host [MOV hEDX (local W32 0)] else [].
Definition check_imm (c : bool) (port : Z) (w : width) : list pinstr :=
  if c then [PCheck (Some port) w] else [].

(** IN (6888-6926): E4, E5 with an immediate port, EC, ED with DX *)
Definition in_imm (c : bool) (port : Z) (w : width) : list pinstr :=
  check_imm c port w ++ host [MOV hEDX (i32 port)] ++ [PIn w] ++ host [MOV (c_reg w false EAX) (Rg w RAX)].
Definition in_dx (c : bool) (w : width) : list pinstr :=
  ld_port ++ check_dx c w ++ [PIn w] ++ host [MOV (c_reg w false EAX) (Rg w RAX)].
(** OUT (8982-9018): E6, E7 and EE, EF *)
Definition out_imm (c : bool) (port : Z) (w : width) : list pinstr :=
  check_imm c port w ++ host [MOV hEDX (i32 port); MOV (Rg w R8) (c_reg w false EAX)] ++ [POut w].
Definition out_dx (c : bool) (w : width) : list pinstr :=
  ld_port ++ check_dx c w ++ host [MOV (Rg w R8) (c_reg w false EAX)] ++ [POut w].

(** INS and OUTS move EDI, ESI as STOS and LODS do *)
Inductive portop := PIns | POuts.
Definition like (k : portop) : strop := match k with PIns => SStos | POuts => SLods end.

(** the accesses of one element: INSD 7000-7020, OUTSD 9043-9063 *)
Definition port_access (k : portop) (c : bool) (w : width) (a32 : bool) (seg : sreg) (z ze : bool) : list pinstr :=
  match k with
  | PIns =>
      ld_port ++ check_dx c w ++ [PIn w] ++ host [MOV (Rg w R8) (Rg w RAX)] ++
      host (([ld_index a32 EDI; MOV hEBX hEDX] ++ add_base ES ze) ++ [IStore w])
  | POuts =>
      host (([ld_index a32 ESI; MOV hEBX hEDX] ++ add_base seg z) ++ [ILoad w; MOV (local w 1) (Rg w RAX)]) ++
      ld_port ++ check_dx c w ++ host [MOV (Rg w R8) (local w 1)] ++ [POut w]
  end.

(** one pass (INSD 7022-7057, OUTSD 9065-9100); only the REP form of [rep] is used *)
Definition port_tail (k : strop) (rep : bool) (w : width) (a32 : bool) : list instr :=
  df_test k ++
  str_move BAdd k w a32 ++ (if rep then rep_tail KRep a32 else [IJmp 0]) ++ [ILab 1] ++
  str_move BSub k w a32 ++ (if rep then rep_tail KRep a32 else []) ++ [ILab 0].
Definition port_body (k : portop) (rep c : bool) (w : width) (a32 : bool) (seg : sreg) (z ze : bool) : list pinstr :=
  port_access k c w a32 seg z ze ++ host (port_tail (like k) rep w a32).

(** with a repeat prefix, as [StringModel.rep_runs] *)
Inductive port_runs (E : penv) (body : list pinstr) : hst -> list ioev -> outcome -> list ioev -> Prop :=
| pr_last s t o t' : prun E body s t = (o, t') -> (forall s', o <> Skip 2 s') -> port_runs E body s t o t'
| pr_again s t s1 t1 o t' : prun E body s t = (Skip 2 s1, t1) -> port_runs E body s1 t1 o t' -> port_runs E body s t o t'.

Definition port_rep (E : penv) (k : portop) (w : width) (a32 : bool) (seg : sreg) (z ze : bool)
    (s : hst) (t : list ioev) (o : outcome) (t' : list ioev) : Prop :=
  match run (p_host E) (rep_start a32) s with
  | Skip 0 s' => o = Done s' /\ t' = t
  | Done s' => port_runs E (port_body k true (checked E) w a32 seg z ze) s' t o t'
  | _ => False
  end.
