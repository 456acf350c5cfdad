(** * What the SSE instructions should do *)

From Coq Require Import ZArith Bool List.
From Verif Require Import HostModel AluModel AluSpec SseModel.
Import ListNotations.
Local Open Scope Z_scope.

(** ** Registers and memory *)

(** the four 32-bit lanes of a register, and a register made of four lanes *)
Definition lane (i v : Z) : Z := (v / 2 ^ (32 * i)) mod 2 ^ 32.
Definition pack (a b c d : Z) : Z := a + b * 2 ^ 32 + c * 2 ^ 64 + d * 2 ^ 96.

(** [n] bytes of guest memory, little endian; linear addresses wrap at 4 GB *)
Fixpoint value_at (n : nat) (m : Z -> Z) (a : Z) : Z :=
  match n with O => 0 | S n => m (a mod 2 ^ 32) mod 256 + 256 * value_at n m (a + 1) end.
Definition put_at (n : Z) (m : Z -> Z) (a v : Z) : Z -> Z :=
  fun x => if (0 <=? x) && (x <? 2 ^ 32) && ((x - a) mod 2 ^ 32 <? n)
           then (v / 256 ^ ((x - a) mod 2 ^ 32)) mod 256 else m x.

(** the quadword at byte offset 0 or 8 of a register *)
Definition half (off : Z) (v : Z) : Z := (v / 2 ^ (8 * off)) mod 2 ^ 64.
Definition with_half (off old v : Z) : Z :=
  if off =? 0 then v + old / 2 ^ 64 * 2 ^ 64 else old mod 2 ^ 64 + v * 2 ^ 64.

Definition regs128 (f : Z -> Z) : Prop := forall g, 0 <= f g < 2 ^ 128.
Definition with_x (x : xst) (g v : Z) : Z -> Z := fun k => if k =? g then v else xg x k.

(** the operand of an instruction that reads 128 bits *)
Definition src128 (o : xrm) (s : hst) (x : xst) : Z :=
  match o with XReg g => xg x g | XMem m => value_at 16 (gmem s) (ea m (ctx s)) end.
(** ... and one that reads the low 32 bits *)
Definition src32 (o : xrm) (s : hst) (x : xst) : Z :=
  match o with XReg g => lane 0 (xg x g) | XMem m => value_at 4 (gmem s) (ea m (ctx s)) end.
Definition xrm_ok (o : xrm) (c : gctx) : Prop := match o with XReg _ => True | XMem m => memop_ok m c end.

(** ** Outcomes *)

(** the guest's SSE registers and the host's MXCSR are as before *)
Definition xkept (x x' : xst) : Prop :=
  (forall g, xg x' g = xg x g) /\ xmx x' = xmx x /\ xsh x' = xsh x /\ xhost x' = xhost x.

(** the SSE registers become [g'], memory becomes [m'], all else is as before *)
Definition gives (E : senv) (l : list sinstr) (s : hst) (x : xst) (g' m' : Z -> Z) : Prop :=
  exists s' x', srun E l s x = (Done s', x') /\
    h_rcx (hr s') = P PCtx /\ ctx s' = ctx s /\ masked s' = masked s /\ (forall a, gmem s' a = m' a) /\
    (forall g, xg x' g = g' g) /\ xmx x' = xmx x /\ xsh x' = xsh x /\ xhost x' = xhost x.
Definition faults (E : senv) (l : list sinstr) (s : hst) (x : xst) (wr : bool) (a n : Z) : Prop :=
  exists s' x', srun E l s x = (Fault wr a n s', x') /\ untouched s s' /\ xkept x x'.
Definition raises (E : senv) (l : list sinstr) (s : hst) (x : xst) (vec code : Z) : Prop :=
  exists s' x', srun E l s x = (Raise vec code s', x') /\ untouched s s' /\ xkept x x'.

(** an instruction with at most one memory access of [n] bytes: #GP(0) if it must
    be aligned and is not, a fault if the access faults, the effect otherwise *)
Definition accesses (E : senv) (l : list sinstr) (s : hst) (x : xst) (wr aligned : bool) (n : Z) (o : xrm)
    (g' m' : Z -> Z) : Prop :=
  match o with
  | XReg _ => gives E l s x g' m'
  | XMem m =>
      let a := ea m (ctx s) in
      if aligned && negb (a mod 16 =? 0) then raises E l s x 13 0
      else if e_fault (s_host E) wr a n then faults E l s x wr a n
      else gives E l s x g' m'
  end.

(** ** Shuffles *)

(** the two bits of the immediate that select lane [i] *)
Definition field (imm i : Z) : Z := (imm / 4 ^ i) mod 4.
Definition shufps (imm a b : Z) : Z :=
  pack (lane (field imm 0) a) (lane (field imm 1) a) (lane (field imm 2) b) (lane (field imm 3) b).
Definition unpckhps (a b : Z) : Z := pack (lane 2 a) (lane 2 b) (lane 3 a) (lane 3 b).
Definition unpcklps (a b : Z) : Z := pack (lane 0 a) (lane 0 b) (lane 1 a) (lane 1 b).

(** ** Availability and floating point exceptions *)

(** Intel SDM 3A 2.5: #UD if CR0.EM is set or CR4.OSFXSR is clear, else #NM if CR0.TS
    is set; with EM set, TS has no effect *)
Definition unavailable (ts em fx : bool) : option Z :=
  if em || negb fx then Some 6 else if ts then Some 7 else None.

(** rounding control and flush to zero of an MXCSR *)
Definition control (mx : Z) : Z := mx / 2 ^ 13 mod 8 * 2 ^ 13.
(** an exception whose mask bit (seven bits up) is clear *)
Definition unmasked (mx flags : Z) : Prop := exists i, 0 <= i < 6 /\ Z.testbit flags i = true /\ Z.testbit mx (i + 7) = false.
(** exception flags are sticky: the new ones are added *)
Definition sticky (mx flags mx' : Z) : Prop := forall i, 0 <= i -> Z.testbit mx' i = Z.testbit mx i || Z.testbit flags i.

(** what the code computes instead: the flags of the last operation only *)
Definition latest (mx flags mx' : Z) : Prop :=
  forall i, 0 <= i -> Z.testbit mx' i = if i <? 6 then Z.testbit flags i else Z.testbit mx i.

(** the shadow register, with which the host computes, is in step with MXCSR: same
    control bits, everything masked, no flags *)
Definition in_step (x : xst) : Prop :=
  0 <= xmx x < 2 ^ 32 /\ xsh x = control (xmx x) + 0x1F80.

(** result and flags of an operation on the four lanes or the lowest *)
Definition lanewise (f : fop -> Z -> Z -> Z -> Z * Z) (op : fop) (packed : bool) (ctl a b : Z) : Z :=
  let r i := fst (f op ctl (lane i a) (lane i b)) in
  if packed then pack (r 0) (r 1) (r 2) (r 3) else pack (r 0) (lane 1 a) (lane 2 a) (lane 3 a).
Definition flags_of (f : fop -> Z -> Z -> Z -> Z * Z) (op : fop) (packed : bool) (ctl a b : Z) : Z :=
  let e i := snd (f op ctl (lane i a) (lane i b)) in
  if packed then Z.lor (Z.lor (e 0) (e 1)) (Z.lor (e 2) (e 3)) else e 0.
(** single precision results are 32 bits, there are six flags *)
Definition single (E : senv) : Prop :=
  (forall op c a b, 0 <= fst (s_fp E op c a b) < 2 ^ 32 /\ 0 <= snd (s_fp E op c a b) < 64) /\
  (forall c a, 0 <= fst (s_cvt E c a) < 2 ^ 32 /\ 0 <= snd (s_cvt E c a) < 64).

(** a computation that raised [flags]: with an unmasked one an exception and no
    result, otherwise the result; [mxcsr] says how MXCSR changes; the host's MXCSR
    is restored either way *)
Definition computes (E : senv) (l : list sinstr) (s : hst) (x : xst) (mxcsr : Z -> Z -> Z -> Prop) (xmmexc : bool) (flags : Z)
    (regs : greg -> Z) (g' : Z -> Z) : Prop :=
  exists o x', srun E l s x = (o, x') /\ xhost x' = xhost x /\ xsh x' = xsh x /\ mxcsr (xmx x) flags (xmx x') /\
    ((unmasked (xmx x) flags /\
      exists s', o = Raise (if xmmexc then 19 else 6) 0 s' /\ untouched s s' /\ (forall g, xg x' g = xg x g)) \/
     (~ unmasked (xmx x) flags /\
      exists s', o = Done s' /\ h_rcx (hr s') = P PCtx /\ (exists f, ctx s' = set_gprs f (ctx s) /\ forall r, f r = regs r) /\
        gmem s' = gmem s /\ masked s' = masked s /\ (forall g, xg x' g = g' g))).

(** ... after reading its operand *)
Definition calculates (E : senv) (l : list sinstr) (s : hst) (x : xst) (mxcsr : Z -> Z -> Z -> Prop) (xmmexc : bool) (n : Z) (o : xrm)
    (flags : Z) (regs : greg -> Z) (g' : Z -> Z) : Prop :=
  match o with
  | XReg _ => computes E l s x mxcsr xmmexc flags regs g'
  | XMem m =>
      if e_fault (s_host E) false (ea m (ctx s)) n then faults E l s x false (ea m (ctx s)) n
      else computes E l s x mxcsr xmmexc flags regs g'
  end.

(** the operand of a packed or scalar operation *)
Definition operand (packed : bool) (o : xrm) (s : hst) (x : xst) : Z := if packed then src128 o s x else src32 o s x.
