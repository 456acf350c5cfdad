(** * Transcription of the SSE instructions

    Sequences emitted by lib86cpu/core/emitter/x64/jit.cpp (line numbers refer to
    it), on [HostModel] with the host's XMM registers and MXCSR added.

    Simplifications: the 128-bit accesses are two 64-bit halves of one access
    that faults as a whole; the host's single precision arithmetic is an
    arbitrary function of the operation, its operands and the rounding and flush
    bits of the host's MXCSR (all exceptions masked); the XBOX_CPU page table
    shortcut and VZEROUPPER ([gen_vzeroupper], 2740-2749, no effect on the state
    below) are left out. *)

From Coq Require Import ZArith Bool List.
From Verif Require Import HostModel AluModel.
Import ListNotations.
Local Open Scope Z_scope.

(** ** State *)

(** what a host register points at: a guest XMM register, or the 16 bytes of
    locals 0 and 1 *)
Inductive xptr := PX (g : Z) | PBuf.

Record xst := mkx {
  xg : Z -> Z;               (* guest XMM registers, 128-bit cells (registers.hpp 95-103) *)
  xmx : Z;                   (* guest MXCSR (registers.hpp 104) *)
  xsh : Z;                   (* cpu_ctx.shadow_mxcsr *)
  xh : nat -> Z;             (* host XMM registers *)
  xhost : Z;                 (* host MXCSR *)
  xp : hreg -> option xptr }.

Definition set_xg v x := mkx v (xmx x) (xsh x) (xh x) (xhost x) (xp x).
Definition set_xmx v x := mkx (xg x) v (xsh x) (xh x) (xhost x) (xp x).
Definition set_xh v x := mkx (xg x) (xmx x) (xsh x) v (xhost x) (xp x).
Definition set_xhost v x := mkx (xg x) (xmx x) (xsh x) (xh x) v (xp x).
Definition set_xp v x := mkx (xg x) (xmx x) (xsh x) (xh x) (xhost x) v.

Inductive fop := FMul | FAdd | FRcp | FRsqrt | FSub.

Record senv := mksenv {
  s_host : henv;
  s_fp : fop -> Z -> Z -> Z -> Z * Z;   (* control bits, operands; result and exception flags *)
  s_cvt : Z -> Z -> Z * Z;              (* CVTTSS2SI *)
  s_clob : nat -> nat -> Z }.           (* XMM0-XMM5 after the n-th call: they are volatile in Win64 *)

Definition M128 : Z := 2 ^ 128 - 1.
Definition hreg_eqb (a b : hreg) : bool :=
  match a, b with
  | RAX, RAX | RBX, RBX | RCX, RCX | RDX, RDX | R8, R8 | R9, R9 | R10, R10 | R11, R11 => true
  | _, _ => false
  end.
Definition no_ptr : hreg -> option xptr := fun _ => None.

(** ** Host actions *)

Inductive xop := XH (n : nat) | XG (g : Z) | XBuf.    (* XMMn, [RCX + xmm g], [RAX] *)
Inductive xalu := AShuf (imm : Z) | AUnpckH | AUnpckL | AXor | AMovss.
Inductive mxsrc := MxShadow | MxLocal (i : nat).

Inductive sinstr :=
| SHost (i : instr)
| SLd128                               (* LD_MEMs(SIZE128): address in EDX *)
| SSt128                               (* ST_MEMs(SIZE128): address in EDX, R8 points at the value *)
| SLea (r : hreg) (g : Z)              (* LEA r, [RCX + xmm g] *)
| SGet (w : width) (d base : hreg) (off : Z)   (* MOV d, [base + off] *)
| SPut (w : width) (base : hreg) (off : Z) (s : hreg)
| SGetC (w : width) (d : hreg) (g : Z) (* MOV d, [RCX + xmm g] *)
| SPutC (w : width) (g : Z) (s : hreg)
| SMov (d s : xop)                     (* MOVAPS *)
| SAlu (op : xalu) (d : nat) (s : xop)
| SMovssLoc (d : nat)                  (* MOVSS XMMd, [local 0] *)
| SMovd (d : nat)                      (* MOVD XMMd, EAX *)
| SArith (op : fop) (packed : bool) (d s : nat)
| SCvt (s : nat)                       (* CVTTSS2SI EBX, XMMs *)
| SStmx (i : nat)                      (* STMXCSR [local i] *)
| SLdmx (m : mxsrc)                    (* LDMXCSR *)
| SMxGet (r : hreg)                    (* MOV r, [RCX + mxcsr] *)
| SMxAnd (v : Z)                       (* AND [RCX + mxcsr], v *)
| SMxOr (r : hreg).                    (* OR [RCX + mxcsr], r *)

(** 32-bit lane [i] and four lanes put together *)
Definition lane32 (i v : Z) : Z := Z.land (Z.shiftr v (32 * i)) 0xFFFFFFFF.
Definition lanes (a b c d : Z) : Z :=
  Z.lor (Z.lor a (Z.shiftl b 32)) (Z.lor (Z.shiftl c 64) (Z.shiftl d 96)).

(** the host's shuffles *)
Definition alu128 (op : xalu) (a b : Z) : Z :=
  match op with
  | AShuf imm =>
      let sel i := Z.land (Z.shiftr imm (2 * i)) 3 in
      lanes (lane32 (sel 0) a) (lane32 (sel 1) a) (lane32 (sel 2) b) (lane32 (sel 3) b)
  | AUnpckH => lanes (lane32 2 a) (lane32 2 b) (lane32 3 a) (lane32 3 b)
  | AUnpckL => lanes (lane32 0 a) (lane32 0 b) (lane32 1 a) (lane32 1 b)
  | AXor => Z.lxor a b
  | AMovss => Z.lor (Z.land a (Z.lxor M128 0xFFFFFFFF)) (Z.land b 0xFFFFFFFF)
  end.

(** rounding control and flush to zero *)
Definition MX_CTL : Z := 0xE000.
(** MXCSR_EXP_ALL (internal.hpp:501) *)
Definition MX_EXP : Z := 0x3F.

Section Exec.
Variable E : senv.
Notation H := (s_host E).

(** packed and scalar arithmetic of the host: results and accumulated flags *)
Definition arith128 (op : fop) (packed : bool) (ctl a b : Z) : Z * Z :=
  let f i := s_fp E op ctl (lane32 i a) (lane32 i b) in
  let r i := Z.land (fst (f i)) 0xFFFFFFFF in
  let x i := Z.land (snd (f i)) MX_EXP in
  if packed then (lanes (r 0) (r 1) (r 2) (r 3), Z.lor (Z.lor (x 0) (x 1)) (Z.lor (x 2) (x 3)))
  else (lanes (r 0) (lane32 1 a) (lane32 2 a) (lane32 3 a), x 0).

Definition has_ctx (s : hst) : bool := match h_rcx (hr s) with P PCtx => true | _ => false end.

Definition xread (o : xop) (s : hst) (x : xst) : option Z :=
  match o with
  | XH n => Some (xh x n)
  | XG g => if has_ctx s then Some (xg x g) else None
  | XBuf => match xp x RAX with
            | Some PBuf => Some (Z.lor (getw W64 (loc s 0%nat)) (Z.shiftl (getw W64 (loc s 1%nat)) 64))
            | _ => None end
  end.
Definition upd (f : Z -> Z) (g v : Z) : Z -> Z := fun k => if k =? g then v else f k.
Definition xwrite (o : xop) (v : Z) (s : hst) (x : xst) : option xst :=
  match o with
  | XH n => Some (set_xh (fun k => if Nat.eqb k n then v else xh x k) x)
  | XG g => if has_ctx s then Some (set_xg (upd (xg x) g v) x) else None
  | XBuf => None
  end.

(** a part of a guest XMM register *)
Definition xpart (w : width) (off v : Z) : Z := getw w (Z.shiftr v (8 * off)).
Definition xinsert (w : width) (off old v : Z) : Z :=
  Z.lor (Z.land old (Z.lxor M128 (Z.shiftl (wmask w) (8 * off)))) (Z.shiftl (getw w v) (8 * off)).

Definition stuck (x : xst) : outcome * xst := (Stuck, x).
Definition forget (r : hreg) (x : xst) : xst := set_xp (fun q => if hreg_eqb q r then None else xp x q) x.

Definition calls (i : instr) : bool :=
  match i with ILoad _ | IStore _ | IProbe _ | ISelReal _ => true | _ => false end.
(** a host instruction forgets all pointers, a call all XMM registers *)
Definition after (i : instr) (o : outcome) (x : xst) : xst :=
  set_xp no_ptr (match o with Done s => if calls i then set_xh (s_clob E (ncall s)) x else x | _ => x end).

Definition sstep (i : sinstr) (s : hst) (x : xst) : outcome * xst :=
  match i with
  | SHost i => (step H i s, after i (Done s) x)
  | SLd128 =>
      (* load_mem (1843-1859) *)
      let a := hval H W32 RDX s in
      if e_fault H false a 16 then (Fault false a 16 s, x) else
      let lo := mload (gmem s) W64 a in let hi := mload (gmem s) W64 (w32 (a + 8)) in
      let s' := set_loc (fun k => if Nat.eqb k 0 then lo else if Nat.eqb k 1 then hi else loc s k) s in
      (Done (clobber H s'), set_xp (fun q => if hreg_eqb q RAX then Some PBuf else None) (set_xh (s_clob E (ncall s)) x))
  | SSt128 =>
      (* store_mem (1979-1989) *)
      let a := hval H W32 RDX s in
      match xp x R8 with
      | Some (PX g) =>
          if e_fault H true a 16 then (Fault true a 16 s, x) else
          let m := mstore (mstore (gmem s) W64 a (xpart W64 0 (xg x g))) W64 (w32 (a + 8)) (xpart W64 8 (xg x g)) in
          (Done (clobber H (set_gmem m s)), set_xp no_ptr (set_xh (s_clob E (ncall s)) x))
      | _ => stuck x
      end
  | SLea r g => if has_ctx s then (Done s, set_xp (fun q => if hreg_eqb q r then Some (PX g) else xp x q) x) else stuck x
  | SGet w d b off =>
      match xp x b with
      | Some (PX g) => (next (op_write H (Rg w d) (xpart w off (xg x g)) s), forget d x)
      | _ => stuck x
      end
  | SPut w b off r =>
      match xp x b with
      | Some (PX g) => (Done s, set_xg (upd (xg x) g (xinsert w off (xg x g) (hval H w r s))) x)
      | _ => stuck x
      end
  | SGetC w d g => if has_ctx s then (next (op_write H (Rg w d) (xpart w 0 (xg x g)) s), forget d x) else stuck x
  | SPutC w g r => if has_ctx s then (Done s, set_xg (upd (xg x) g (xinsert w 0 (xg x g) (hval H w r s))) x) else stuck x
  | SMov d o =>
      match xread o s x with
      | Some v => match xwrite d v s x with Some x' => (Done s, x') | None => stuck x end
      | None => stuck x
      end
  | SAlu op d o =>
      match xread o s x with
      | Some v => match xwrite (XH d) (alu128 op (xh x d) v) s x with Some x' => (Done s, x') | None => stuck x end
      | None => stuck x
      end
  | SMovssLoc d => (Done s, set_xh (fun k => if Nat.eqb k d then getw W32 (loc s 0%nat) else xh x k) x)
  | SMovd d => (Done s, set_xh (fun k => if Nat.eqb k d then hval H W32 RAX s else xh x k) x)
  | SArith op p d o =>
      let r := arith128 op p (Z.land (xhost x) MX_CTL) (xh x d) (xh x o) in
      (Done s, set_xhost (Z.lor (xhost x) (snd r)) (set_xh (fun k => if Nat.eqb k d then fst r else xh x k) x))
  | SCvt o =>
      let r := s_cvt E (Z.land (xhost x) MX_CTL) (lane32 0 (xh x o)) in
      (next (op_write H (Rg W32 RBX) (fst r) s), forget RBX (set_xhost (Z.lor (xhost x) (Z.land (snd r) MX_EXP)) x))
  | SStmx i => (next (op_write H (Mm W32 (MLoc i)) (xhost x) s), x)
  | SLdmx MxShadow => if has_ctx s then (Done s, set_xhost (Z.land (xsh x) 0xFFFFFFFF) x) else stuck x
  | SLdmx (MxLocal i) => (Done s, set_xhost (getw W32 (loc s i)) x)
  | SMxGet r => if has_ctx s then (next (op_write H (Rg W32 r) (xmx x) s), forget r x) else stuck x
  | SMxAnd v =>
      if has_ctx s then let r := Z.land (xmx x) (getw W32 v) in (Done (set_hf (logic_flags W32 r) s), set_xmx r x) else stuck x
  | SMxOr r =>
      if has_ctx s then let r := Z.lor (xmx x) (hval H W32 r s) in (Done (set_hf (logic_flags W32 r) s), set_xmx r x) else stuck x
  end.

Fixpoint sexec (l : list sinstr) (o : outcome) (x : xst) : outcome * xst :=
  match l with
  | [] => (o, x)
  | SHost i :: tl => sexec tl (exec H [i] o) (after i o x)
  | i :: tl =>
      match o with
      | Done s => let r := sstep i s x in sexec tl (fst r) (snd r)
      | _ => sexec tl o x
      end
  end.
Definition srun (l : list sinstr) (s : hst) (x : xst) : outcome * xst := sexec l (Done s) x.
End Exec.

Definition shost (l : list instr) : list sinstr := map SHost l.

(** ** Sequences *)

(** an XMM register or a memory operand *)
Inductive xrm := XReg (g : Z) | XMem (m : memop).

(** the test at the start of every emitter, e.g. 8232-8234; the arguments are the
    bits HFLG_CR0_TS, HFLG_CR0_EM and HFLG_CR4_OSFXSR of the block *)
Definition sse_gate (ts em fx : bool) (l : list sinstr) : list sinstr :=
  if negb (fx && negb ts && negb em) then shost [IRaise (if ts then 7 else 6) 0] else l.

(** [gen_simd_mem_align_check] (2495-2503) *)
Definition align_check : list instr := [ITest hEDX (i32 15); IJcc CEQ 0; IRaise 13 0; ILab 0].
Definition checked_addr (c : bool) (m : memop) : list sinstr := shost (emit_ea m ++ (if c then align_check else [])).

(** MOVAPS_ (8229-8286): 0x28, 0x29 are aligned, 0x10, 0x11 (MOVUPS, 8669-8673) are not *)
Definition emit_movaps_load (aligned : bool) (dst : Z) (src : xrm) : list sinstr :=
  match src with
  | XReg g => [SMov (XH 0) (XG g); SMov (XG dst) (XH 0)]
  | XMem m => checked_addr aligned m ++ [SLd128; SMov (XH 0) XBuf; SMov (XG dst) (XH 0)]
  end.
Definition emit_movaps_store (aligned : bool) (dst : xrm) (src : Z) : list sinstr :=
  match dst with
  | XReg g => [SMov (XH 0) (XG src); SMov (XG g) (XH 0)]
  | XMem m => checked_addr aligned m ++ [SLea R8 src; SSt128]
  end.
(** MOVNTPS (8378-8403) *)
Definition emit_movntps (m : memop) (src : Z) : list sinstr := checked_addr true m ++ [SLea R8 src; SSt128].

(** MOVLPS, MOVHPS (8288-8376); [off] is 0 or 8 *)
Definition emit_movlps_load (off : Z) (dst : Z) (m : memop) : list sinstr :=
  shost (emit_ea m ++ [ILoad W64]) ++ [SLea RDX dst; SPut W64 RDX off RAX].
Definition emit_movlps_store (off : Z) (m : memop) (src : Z) : list sinstr :=
  shost (emit_ea m) ++ [SLea RBX src; SGet W64 R8 RBX off] ++ shost [IStore W64].

(** MOVSS_ (8578-8634) *)
Definition emit_movss_load (dst : Z) (src : xrm) : list sinstr :=
  [SMov (XH 0) (XG dst)] ++
  match src with
  | XReg g => [SMov (XH 1) (XG g); SAlu AMovss 0 (XH 1)]
  | XMem m => shost (emit_ea m ++ [ILoad W32; MOV (local W32 0) hEAX]) ++ [SMovssLoc 0]
  end ++ [SMov (XG dst) (XH 0)].
Definition emit_movss_store (dst : xrm) (src : Z) : list sinstr :=
  match dst with
  | XReg g => [SGetC W32 RAX src; SPutC W32 g RAX]
  | XMem m => shost (emit_ea m) ++ [SGetC W32 R8 src] ++ shost [IStore W32]
  end.

(** SHUFPS_ (10354-10383) *)
Definition emit_shufps (dst : Z) (src : xrm) (imm : Z) : list sinstr :=
  match src with
  | XReg g => [SMov (XH 1) (XG g)]
  | XMem m => checked_addr true m ++ [SLd128; SMov (XH 1) XBuf]
  end ++ [SMov (XH 0) (XG dst); SAlu (AShuf imm) 0 (XH 1); SMov (XG dst) (XH 0)].
(** UNPCKHPS_, UNPCKLPS_ (10709-10765) *)
Definition emit_unpck (op : xalu) (dst : Z) (src : xrm) : list sinstr :=
  match src with
  | XReg g => [SMov (XH 1) (XG dst); SMov (XH 2) (XG g); SAlu op 1 (XH 2)]
  | XMem m => checked_addr true m ++ [SLd128; SMov (XH 1) (XG dst); SAlu op 1 XBuf]
  end ++ [SMov (XG dst) (XH 1)].
(** XORPS_ (11014-11042) *)
Definition emit_xorps (dst : Z) (src : xrm) : list sinstr :=
  match src with
  | XReg g => [SMov (XH 0) (XG dst); SAlu AXor 0 (XG g); SMov (XG dst) (XH 0)]
  | XMem m => checked_addr true m ++ [SLd128; SMov (XH 0) (XG dst); SAlu AXor 0 XBuf; SMov (XG dst) (XH 0)]
  end.

(** [gen_set_host_simd_ctx] (2505-2510), [RESTORE_SIMD_CTX] (560) *)
Definition set_host_simd : list sinstr := [SStmx 5; SLdmx MxShadow].
Definition restore_simd : list sinstr := [SLdmx (MxLocal 5)].
(** [gen_simd_exp_post_check] (2512-2533); [xmmexc] is HFLG_CR4_OSXMMEXCPT *)
Definition simd_post_check (xmmexc : bool) : list sinstr :=
  [SStmx 4; SMxGet RDX] ++ shost [MOV hEAX (local W32 4)] ++ [SMxAnd (Z.lnot MX_EXP)] ++
  shost [SHR hEDX 7; AND hEAX (i32 MX_EXP); NOT hEDX] ++ [SMxOr RAX] ++
  shost [AND hEDX (i32 MX_EXP); ITest hEDX hEAX; IJcc CEQ 1] ++
  restore_simd ++ shost [IRaise (if xmmexc then 19 else 6) 0; ILab 1].

Definition checks (op : fop) : bool := match op with FMul | FAdd => true | _ => false end.
(** [simd_arithmetic] (2760-2832) *)
Definition emit_arith (op : fop) (packed xmmexc : bool) (dst : Z) (src : xrm) : list sinstr :=
  match src with
  | XReg g => [SMov (XH 1) (XG g)]
  | XMem m =>
      if packed then shost (emit_ea m) ++ [SLd128; SMov (XH 1) XBuf]
      else shost (emit_ea m ++ [ILoad W32]) ++ [SMovd 1]
  end ++
  [SMov (XH 0) (XG dst)] ++ (if checks op then set_host_simd else []) ++
  [SArith op packed 0 1] ++
  (if checks op then simd_post_check xmmexc else []) ++ [SMov (XG dst) (XH 0)] ++
  (if checks op then restore_simd else []).

(** CVTTSS2SI_ (5585-5614) *)
Definition emit_cvttss2si (xmmexc : bool) (dst : greg) (src : xrm) : list sinstr :=
  match src with
  | XReg g => [SMov (XH 0) (XG g)]
  | XMem m => shost (emit_ea m ++ [ILoad W32]) ++ [SMovd 0]
  end ++ set_host_simd ++ [SCvt 0] ++ simd_post_check xmmexc ++
  shost [MOV (c_reg W32 false dst) hEBX] ++ restore_simd.
