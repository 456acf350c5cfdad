(** * A small model of the host processor

    The JIT (lib86cpu/core/emitter/x64/jit.cpp) turns every guest instruction into a short
    sequence of x64 instructions.  This file gives the x64 instructions that
    those sequences use an executable meaning, so that the sequences themselves
    can be transcribed and run symbolically.  It is the only place where the
    behaviour of the host is defined.

    Trusted: the architectural meaning of the x64 instructions below, that
    asmjit encodes the instruction that is asked for (immediates are truncated
    to the operand width), and the Win64 calling convention used by all helpers
    (lib86cpu_priv.hpp:26 [JIT_API]): RAX, RCX, RDX, R8-R11 do not survive
    a call, RBX does.

    Simplifications, stated once:
    - guest memory is a flat array of bytes, indexed by linear address; whether
      an access faults is decided by an arbitrary predicate of the environment
      (paging, regions and watchpoints are modelled elsewhere);
    - [LD_MEM]/[ST_MEM] are calls to the memory helpers (jit.cpp:1843-1889,
      1979-2014); the XBOX_CPU page table shortcut [load_ipt]/[store_ipt] is
      not modelled;
    - the context pointer and the parity table are named objects: a memory
      operand whose base register does not hold the expected pointer is
      [Stuck]. *)

From Coq Require Import ZArith Bool List.
Import ListNotations.
Local Open Scope Z_scope.

(** ** Widths *)

Inductive width := W8 | W16 | W32 | W64.

Definition wbits (w : width) : Z :=
  match w with W8 => 8 | W16 => 16 | W32 => 32 | W64 => 64 end.

Definition wmask (w : width) : Z :=
  match w with
  | W8 => 0xFF | W16 => 0xFFFF | W32 => 0xFFFFFFFF | W64 => 0xFFFFFFFFFFFFFFFF
  end.

(** number of bytes of an operand *)
Definition wbytes (w : width) : Z :=
  match w with W8 => 1 | W16 => 2 | W32 => 4 | W64 => 8 end.

Definition getw (w : width) (v : Z) : Z := Z.land v (wmask w).

(** writing the low [w] bits of a cell, the rest of the cell is kept *)
Definition putw (w : width) (old v : Z) : Z :=
  Z.lor (Z.land old (Z.lnot (wmask w))) (Z.land v (wmask w)).

(** writing a register: 32-bit writes clear the upper half *)
Definition setw (w : width) (old v : Z) : Z :=
  match w with
  | W8 => putw W8 old v
  | W16 => putw W16 old v
  | W32 => Z.land v 0xFFFFFFFF
  | W64 => Z.land v 0xFFFFFFFFFFFFFFFF
  end.

(** sign extension of the low [w] bits *)
Definition sext (w : width) (v : Z) : Z :=
  if Z.testbit v (wbits w - 1)
  then Z.land v (wmask w) - (wmask w + 1) else Z.land v (wmask w).

(** ** Host registers *)

Inductive hreg := RAX | RBX | RCX | RDX | R8 | R9 | R10 | R11.

(** objects of the emulator whose address is put in a register *)
Inductive ptr := PCtx | PParity.

Inductive hv := N (z : Z) | P (p : ptr).

Record hregs := mkregs {
  h_rax : hv; h_rbx : hv; h_rcx : hv; h_rdx : hv;
  h_r8 : hv; h_r9 : hv; h_r10 : hv; h_r11 : hv }.

Definition rget (r : hreg) (h : hregs) : hv :=
  match r with
  | RAX => h_rax h | RBX => h_rbx h | RCX => h_rcx h | RDX => h_rdx h
  | R8 => h_r8 h | R9 => h_r9 h | R10 => h_r10 h | R11 => h_r11 h
  end.

Definition rset (r : hreg) (v : hv) (h : hregs) : hregs :=
  match h with
  | mkregs a b c d e f g i =>
    match r with
    | RAX => mkregs v b c d e f g i | RBX => mkregs a v c d e f g i
    | RCX => mkregs a b v d e f g i | RDX => mkregs a b c v e f g i
    | R8 => mkregs a b c d v f g i | R9 => mkregs a b c d e v g i
    | R10 => mkregs a b c d e f v i | R11 => mkregs a b c d e f g v
    end
  end.

(** ** The guest context, as far as the sequences touch it
    (include/lib86cpu.hpp, cpu_ctx_t and regs_t) *)

Inductive greg := EAX | ECX | EDX | EBX | ESP | EBP | ESI | EDI.
Inductive sreg := ES | CS | SS | DS | FS | GS.

Definition greg_eqb (a b : greg) : bool :=
  match a, b with
  | EAX, EAX | ECX, ECX | EDX, EDX | EBX, EBX
  | ESP, ESP | EBP, EBP | ESI, ESI | EDI, EDI => true
  | _, _ => false
  end.

Record gctx := mkg {
  gprs : greg -> Z;      (* general registers, 32-bit cells *)
  segb : sreg -> Z;      (* hidden segment bases *)
  eflags : Z;            (* regs.eflags: the non-arithmetic flags *)
  eip : Z;
  res : Z;               (* lazy_eflags.result *)
  aux : Z;               (* lazy_eflags.auxbits *)
  cr4 : Z;
  gsel : sreg -> Z }.    (* segment selectors *)

Definition set_gprs v c := mkg v (segb c) (eflags c) (eip c) (res c) (aux c) (cr4 c) (gsel c).
Definition set_eflags v c := mkg (gprs c) (segb c) v (eip c) (res c) (aux c) (cr4 c) (gsel c).
Definition set_eip v c := mkg (gprs c) (segb c) (eflags c) v (res c) (aux c) (cr4 c) (gsel c).
Definition set_res v c := mkg (gprs c) (segb c) (eflags c) (eip c) v (aux c) (cr4 c) (gsel c).
Definition set_aux v c := mkg (gprs c) (segb c) (eflags c) (eip c) (res c) v (cr4 c) (gsel c).
Definition set_segb v c := mkg (gprs c) v (eflags c) (eip c) (res c) (aux c) (cr4 c) (gsel c).
Definition set_gsel v c := mkg (gprs c) (segb c) (eflags c) (eip c) (res c) (aux c) (cr4 c) v.

Definition sreg_eqb (a b : sreg) : bool :=
  match a, b with
  | ES, ES | CS, CS | SS, SS | DS, DS | FS, FS | GS, GS => true
  | _, _ => false
  end.

(** A part of a general register as addressed by its offset in the context:
    [high] is the second byte (AH, CH, DH, BH). *)
Definition gget (w : width) (high : bool) (r : greg) (g : greg -> Z) : Z :=
  getw w (if high then Z.shiftr (g r) 8 else g r).

Definition gput (w : width) (high : bool) (r : greg) (v : Z) (g : greg -> Z)
  : greg -> Z :=
  fun x =>
    if greg_eqb x r then
      if high then
        Z.lor (Z.land (g r) (Z.lnot (Z.shiftl (wmask w) 8)))
              (Z.shiftl (Z.land v (wmask w)) 8)
      else putw w (g r) v
    else g x.

(** fields of the context a memory operand can name; [byte] is an additional
    byte offset inside a 32-bit field *)
Inductive cfield :=
| CReg (high : bool) (r : greg)
| CSegb (s : sreg)
| CSel (s : sreg)
| CEflags
| CEip
| CRes (byte : Z)
| CAux (byte : Z)
| CCr4.

Inductive mop :=
| MCtx (base : hreg) (f : cfield)   (* [base + offset of f] *)
| MLoc (i : nat)                    (* [rsp + LOCAL_VARS_off(i)] *)
| MTab (a b : hreg).                (* [a + b], the parity table *)

Inductive opnd :=
| Rg (w : width) (r : hreg)
| Im (w : width) (z : Z)
| Mm (w : width) (m : mop).

Definition opw (o : opnd) : width :=
  match o with Rg w _ => w | Im w _ => w | Mm w _ => w end.

Inductive cc := CEQ | CNE | CUGT | CUGE | CULT | CULE | CSGT | CSGE | CSLT | CSLE | CC | CO.

Inductive binop := BAnd | BOr | BXor | BAdd | BSub.
Inductive shop := SShl | SShr | SSar.
Inductive rotop := ORol | ORor | ORcl | ORcr.
Inductive shdop := DShld | DShrd.
Inductive bitop := TBt | TBtc | TBtr | TBts.

Inductive instr :=
| IMov (d s : opnd)
| IMovzx (d s : opnd)
| IMovsx (d s : opnd)
| ILea (w : width) (d : hreg) (base : option hreg) (idx : option (hreg * Z)) (disp : Z)
| IPtr (d : hreg) (p : ptr)             (* MOV(reg, &object) *)
| ILeaPar (d base : hreg)               (* LEA(reg, [rcx + CPU_CTX_EFLAGS_PAR]) *)
| IBin (op : binop) (d s : opnd)
| INot (d : opnd)
| INeg (d : opnd)
| IDec (d : opnd)
| ICmp (a b : opnd)
| ITest (a b : opnd)
| IShift (op : shop) (d n : opnd)
| IRot (op : rotop) (d n : opnd)
| IShd (op : shdop) (d s n : opnd)
| IBit (op : bitop) (d n : opnd)
| IBsf (d s : opnd)
| IBsr (d s : opnd)
| IBswap (r : hreg)
| IMul (s : opnd)
| IImul1 (s : opnd)
| IImul2 (d s : opnd)
| IImul3 (d s : opnd) (imm : Z)
| IDiv (s : opnd)
| IXchg (a b : opnd)
| ISet (c : cc) (d : opnd)
| ICmov (c : cc) (d s : opnd)
| IStc
| IClc
| IJmp (l : nat)
| IJcc (c : cc) (l : nat)
| ILab (l : nat)
| ILoad (w : width)                     (* LD_MEM: address in EDX, value in RAX *)
| IStore (w : width)                    (* ST_MEM: address in EDX, value in R8 *)
| IProbe (w : width)                    (* ST_MEMv: fault check of a store only *)
| ISelReal (r : sreg)                   (* CALL_F(&mov_sel_real_helper<r>): selector in DX *)
| IMask                                 (* lock or [rcx + CPU_CTX_INT], CPU_MASKED_INT *)
| IRaise (vec : Z) (code : Z)           (* RAISEin *)
| ILink.                                (* gen_tc_linking_jmp: leave the block *)

(** ** Environment: everything the sequences may not depend on *)

Record henv := mkenv {
  e_ptr : ptr -> Z;                     (* host addresses of the objects *)
  e_clob : nat -> hreg -> Z;            (* registers after the n-th call *)
  e_tab : Z -> Z;                       (* bytes around the parity table *)
  e_fault : bool -> Z -> Z -> bool }.   (* write?, linear address, size *)

Record hflg := mkf { hzf : bool; hcf : bool; hsf : bool; hof : bool }.

Record hst := mkst {
  hr : hregs;
  hf : hflg;
  ctx : gctx;
  gmem : Z -> Z;                        (* guest memory, by linear address *)
  loc : nat -> Z;                       (* local variables, 64-bit cells *)
  ncall : nat;                          (* calls made so far *)
  masked : bool }.                      (* CPU_MASKED_INT was raised *)

Definition set_hr v s := mkst v (hf s) (ctx s) (gmem s) (loc s) (ncall s) (masked s).
Definition set_hf v s := mkst (hr s) v (ctx s) (gmem s) (loc s) (ncall s) (masked s).
Definition set_ctx v s := mkst (hr s) (hf s) v (gmem s) (loc s) (ncall s) (masked s).
Definition set_gmem v s := mkst (hr s) (hf s) (ctx s) v (loc s) (ncall s) (masked s).
Definition set_loc v s := mkst (hr s) (hf s) (ctx s) (gmem s) v (ncall s) (masked s).
Definition set_ncall v s := mkst (hr s) (hf s) (ctx s) (gmem s) (loc s) v (masked s).
Definition set_masked v s := mkst (hr s) (hf s) (ctx s) (gmem s) (loc s) (ncall s) v.

Inductive outcome :=
| Done (s : hst)                        (* fell off the end of the sequence *)
| Skip (l : nat) (s : hst)              (* looking for a label further on *)
| Left (s : hst)                        (* left the block through ILink *)
| Fault (wr : bool) (addr size : Z) (s : hst)   (* a guest memory access faulted *)
| Raise (vec code : Z) (s : hst)        (* a guest exception was raised *)
| Stuck.                                (* host access outside any object *)

(** ** Guest memory: little endian, linear addresses wrap at 4 GB *)

Definition w32 (z : Z) : Z := Z.land z 0xFFFFFFFF.

Definition mload (m : Z -> Z) (w : width) (a : Z) : Z :=
  let b i := Z.shiftl (Z.land (m (w32 (a + i))) 0xFF) (8 * i) in
  match w with
  | W8 => b 0
  | W16 => Z.lor (b 0) (b 1)
  | W32 => Z.lor (Z.lor (b 0) (b 1)) (Z.lor (b 2) (b 3))
  | W64 => Z.lor (Z.lor (Z.lor (b 0) (b 1)) (Z.lor (b 2) (b 3)))
                 (Z.lor (Z.lor (b 4) (b 5)) (Z.lor (b 6) (b 7)))
  end.

Definition mstore (m : Z -> Z) (w : width) (a v : Z) : Z -> Z :=
  fun x =>
    let i := w32 (x - a) in
    if (0 <=? x) && (x <=? 0xFFFFFFFF) && (i <? wbytes w)
    then Z.land (Z.shiftr v (8 * i)) 0xFF else m x.

(** ** Parity table: cpu_t's lazy_eflags.parity, 1 for an odd number of ones
    (include/lib86cpu.hpp [lazy_eflags_t::parity]) *)

Definition odd_ones (b : Z) : bool :=
  let x := Z.testbit b in
  xorb (xorb (xorb (x 0) (x 1)) (xorb (x 2) (x 3)))
       (xorb (xorb (x 4) (x 5)) (xorb (x 6) (x 7))).

Definition parity_at (E : henv) (i : Z) : Z :=
  if (0 <=? i) && (i <=? 255) then (if odd_ones i then 1 else 0) else e_tab E i.

Section Exec.
Variable E : henv.

Definition num (v : hv) : Z := match v with N z => z | P p => e_ptr E p end.

Definition ctx_read (w : width) (f : cfield) (c : gctx) : Z :=
  match f with
  | CReg high r => gget w high r (gprs c)
  | CSegb s => getw w (segb c s)
  | CSel s => getw w (gsel c s)
  | CEflags => getw w (eflags c)
  | CEip => getw w (eip c)
  | CRes b => getw w (if b =? 0 then res c else Z.shiftr (res c) (8 * b))
  | CAux b => getw w (if b =? 0 then aux c else Z.shiftr (aux c) (8 * b))
  | CCr4 => getw w (cr4 c)
  end.

(** stores used by the sequences go to whole 32-bit fields or to registers *)
Definition ctx_write (w : width) (f : cfield) (v : Z) (c : gctx) : option gctx :=
  match f with
  | CReg high r => Some (set_gprs (gput w high r v (gprs c)) c)
  | CSegb s => Some (set_segb (fun x => if sreg_eqb x s then putw w (segb c s) v else segb c x) c)
  | CSel s => Some (set_gsel (fun x => if sreg_eqb x s then putw w (gsel c s) v else gsel c x) c)
  | CEflags => Some (set_eflags (putw w (eflags c) v) c)
  | CEip => Some (set_eip (putw w (eip c) v) c)
  | CRes 0 => Some (set_res (putw w (res c) v) c)
  | CAux 0 => Some (set_aux (putw w (aux c) v) c)
  | _ => None
  end.

Definition op_read (o : opnd) (s : hst) : option Z :=
  match o with
  | Rg w r => Some (getw w (num (rget r (hr s))))
  | Im w z => Some (getw w z)
  | Mm w (MCtx b f) =>
      match rget b (hr s) with P PCtx => Some (ctx_read w f (ctx s)) | _ => None end
  | Mm w (MLoc i) => Some (getw w (loc s i))
  | Mm w (MTab a b) =>
      match rget a (hr s), rget b (hr s) with
      | N i, P PParity => Some (getw w (parity_at E i))
      | P PParity, N i => Some (getw w (parity_at E i))
      | _, _ => None
      end
  end.

Definition op_write (o : opnd) (v : Z) (s : hst) : option hst :=
  match o with
  | Rg w r => Some (set_hr (rset r (N (setw w (num (rget r (hr s))) v)) (hr s)) s)
  | Im _ _ => None
  | Mm w (MCtx b f) =>
      match rget b (hr s) with
      | P PCtx =>
          match ctx_write w f v (ctx s) with
          | Some c => Some (set_ctx c s)
          | None => None
          end
      | _ => None
      end
  | Mm w (MLoc i) =>
      Some (set_loc (fun k => if Nat.eqb k i then putw w (loc s i) v else loc s k) s)
  | Mm _ (MTab _ _) => None
  end.

Definition holds (c : cc) (f : hflg) : bool :=
  match c with
  | CEQ => hzf f | CNE => negb (hzf f)
  | CUGT => negb (hcf f) && negb (hzf f) | CUGE => negb (hcf f)
  | CULT => hcf f | CULE => hcf f || hzf f
  | CSGT => negb (hzf f) && Bool.eqb (hsf f) (hof f)
  | CSGE => Bool.eqb (hsf f) (hof f)
  | CSLT => xorb (hsf f) (hof f)
  | CSLE => hzf f || xorb (hsf f) (hof f)
  | CC => hcf f | CO => hof f
  end.

Definition top (w : width) (v : Z) : bool := Z.testbit v (wbits w - 1).
Definition b2z (b : bool) : Z := if b then 1 else 0.

Definition logic_flags (w : width) (r : Z) : hflg :=
  mkf (getw w r =? 0) false (top w r) false.

Definition sub_flags (w : width) (a b : Z) : hflg :=
  let r := getw w (a - b) in
  mkf (r =? 0) (a <? b) (top w r)
      (xorb (top w a) (top w b) && xorb (top w a) (top w r)).

Definition add_flags (w : width) (a b : Z) : hflg :=
  let r := getw w (a + b) in
  mkf (r =? 0) (wmask w <? a + b) (top w r)
      (Bool.eqb (top w a) (top w b) && xorb (top w a) (top w r)).

Definition bin (op : binop) (w : width) (a b : Z) : Z :=
  match op with
  | BAnd => Z.land a b | BOr => Z.lor a b | BXor => Z.lxor a b
  | BAdd => a + b | BSub => a - b
  end.

Definition bin_flags (op : binop) (w : width) (a b : Z) : hflg :=
  match op with
  | BAdd => add_flags w a b
  | BSub => sub_flags w a b
  | _ => logic_flags w (bin op w a b)
  end.

(** the count of a shift or rotate: five bits, six for 64-bit operands *)
Definition cmask (w : width) : Z := match w with W64 => 0x3F | _ => 0x1F end.

(** shifts; the count has already been masked and is not zero *)
Definition shift_val (op : shop) (w : width) (a n : Z) : Z :=
  match op with
  | SShl => getw w (Z.shiftl a n)
  | SShr => Z.shiftr a n
  | SSar => getw w (Z.shiftr (sext w a) n)
  end.

Definition shift_cf (op : shop) (w : width) (a n : Z) : bool :=
  match op with
  | SShl => Z.testbit (Z.shiftl a n) (wbits w)
  | SShr => Z.testbit a (n - 1)
  | SSar => Z.testbit (sext w a) (n - 1)
  end.

Definition shift_of (op : shop) (w : width) (a n : Z) : bool :=
  match op with
  | SShl => xorb (top w (shift_val SShl w a n)) (shift_cf SShl w a n)
  | SShr => xorb (top w (shift_val SShr w a n)) (Z.testbit (shift_val SShr w a n) (wbits w - 2))
  | SSar => false
  end.

(** rotates as iterated one-bit steps on (value, carry) *)
Definition rot1 (op : rotop) (w : width) (vc : Z * bool) : Z * bool :=
  let '(v, c) := vc in
  match op with
  | ORol => let t := top w v in
            (getw w (Z.lor (Z.shiftl v 1) (b2z t)), t)
  | ORor => let t := Z.testbit v 0 in
            (Z.lor (Z.shiftr v 1) (Z.shiftl (b2z t) (wbits w - 1)), t)
  | ORcl => let t := top w v in
            (getw w (Z.lor (Z.shiftl v 1) (b2z c)), t)
  | ORcr => let t := Z.testbit v 0 in
            (Z.lor (Z.shiftr v 1) (Z.shiftl (b2z c) (wbits w - 1)), t)
  end.

Definition rot (op : rotop) (w : width) (v : Z) (c : bool) (n : Z) : Z * bool :=
  Nat.iter (Z.to_nat n) (rot1 op w) (v, c).

(** OF of a rotate (defined by the architecture for one-bit rotates only; the
    same formula is used for all counts) *)
Definition rot_of (op : rotop) (w : width) (v : Z) (c : bool) : bool :=
  match op with
  | ORol | ORcl => xorb (top w v) c
  | ORor | ORcr => xorb (top w v) (Z.testbit v (wbits w - 2))
  end.

(** double shifts, for counts from 1 to the width *)
Definition shd_val (op : shdop) (w : width) (a b n : Z) : Z :=
  match op with
  | DShld => getw w (Z.lor (Z.shiftl a n) (Z.shiftr b (wbits w - n)))
  | DShrd => getw w (Z.lor (Z.shiftr a n) (Z.shiftl b (wbits w - n)))
  end.

Definition shd_cf (op : shdop) (w : width) (a n : Z) : bool :=
  match op with
  | DShld => Z.testbit a (wbits w - n)
  | DShrd => Z.testbit a (n - 1)
  end.

Definition bit_val (op : bitop) (a i : Z) : Z :=
  match op with
  | TBt => a
  | TBtc => Z.lxor a (Z.shiftl 1 i)
  | TBtr => Z.land a (Z.lnot (Z.shiftl 1 i))
  | TBts => Z.lor a (Z.shiftl 1 i)
  end.

(** index of the lowest / highest set bit of a non-zero word *)
Fixpoint low_bit (fuel : nat) (i a : Z) : Z :=
  match fuel with
  | O => i
  | S k => if Z.testbit a i then i else low_bit k (i + 1) a
  end.
Definition bsf_val (w : width) (a : Z) : Z := low_bit (Z.to_nat (wbits w)) 0 a.
Definition bsr_val (a : Z) : Z := Z.log2 a.

Definition bswap_val (a : Z) : Z :=
  Z.lor (Z.lor (Z.shiftl (Z.land a 0xFF) 24) (Z.shiftl (Z.land (Z.shiftr a 8) 0xFF) 16))
        (Z.lor (Z.shiftl (Z.land (Z.shiftr a 16) 0xFF) 8) (Z.land (Z.shiftr a 24) 0xFF)).

Definition next (o : option hst) : outcome :=
  match o with Some s => Done s | None => Stuck end.

Definition bind {A} (o : option A) (k : A -> outcome) : outcome :=
  match o with Some a => k a | None => Stuck end.

(** a call to a helper: the volatile registers take arbitrary values, and the
    sequences reload RCX right after every call ([CALL_F], jit.cpp:561) *)
Definition clobber (s : hst) : hst :=
  let n := ncall s in
  let k := e_clob E n in
  set_ncall (S n)
    (set_hr (mkregs (N (k RAX)) (h_rbx (hr s)) (P PCtx) (N (k RDX))
                    (N (k R8)) (N (k R9)) (N (k R10)) (N (k R11))) s).

Definition hval (w : width) (r : hreg) (s : hst) : Z := getw w (num (rget r (hr s))).

Definition step (i : instr) (s : hst) : outcome :=
  match i with
  | IMov (Rg W64 d) (Rg W64 r) => Done (set_hr (rset d (rget r (hr s)) (hr s)) s)
  | IMov d o => bind (op_read o s) (fun v => next (op_write d v s))
  | IMovzx d o => bind (op_read o s) (fun v => next (op_write d v s))
  | IMovsx d o => bind (op_read o s) (fun v => next (op_write d (sext (opw o) v) s))
  | ILea w d base idx disp =>
      let b := match base with Some r => num (rget r (hr s)) | None => 0 end in
      let x := match idx with
               | Some (r, sc) => Z.shiftl (num (rget r (hr s))) sc | None => 0 end in
      next (op_write (Rg w d) (b + x + disp) s)
  | IPtr d p => Done (set_hr (rset d (P p) (hr s)) s)
  | ILeaPar d b =>
      match rget b (hr s) with
      | P PCtx => Done (set_hr (rset d (P PParity) (hr s)) s)
      | _ => Stuck
      end
  | IBin op d o =>
      bind (op_read d s) (fun a => bind (op_read o s) (fun b =>
        next (op_write d (bin op (opw d) a b) (set_hf (bin_flags op (opw d) a b) s))))
  | INot d => bind (op_read d s) (fun a => next (op_write d (Z.lnot a) s))
  | INeg d => bind (op_read d s) (fun a =>
        next (op_write d (0 - a) (set_hf (sub_flags (opw d) 0 a) s)))
  | IDec d => bind (op_read d s) (fun a =>
        let f := sub_flags (opw d) a 1 in
        next (op_write d (a - 1) (set_hf (mkf (hzf f) (hcf (hf s)) (hsf f) (hof f)) s)))
  | ICmp d o =>
      bind (op_read d s) (fun a => bind (op_read o s) (fun b =>
        Done (set_hf (sub_flags (opw d) a b) s)))
  | ITest d o =>
      bind (op_read d s) (fun a => bind (op_read o s) (fun b =>
        Done (set_hf (logic_flags (opw d) (Z.land a b)) s)))
  | IShift op d o =>
      bind (op_read d s) (fun a => bind (op_read o s) (fun c =>
        let n := Z.land c (cmask (opw d)) in
        if n =? 0 then next (op_write d a s) else
        let r := shift_val op (opw d) a n in
        next (op_write d r
          (set_hf (mkf (r =? 0) (shift_cf op (opw d) a n) (top (opw d) r)
                       (shift_of op (opw d) a n)) s))))
  | IRot op d o =>
      bind (op_read d s) (fun a => bind (op_read o s) (fun c =>
        let n := Z.land c (cmask (opw d)) in
        if n =? 0 then next (op_write d a s) else
        let '(r, cy) := rot op (opw d) a (hcf (hf s)) n in
        next (op_write d r
          (set_hf (mkf (hzf (hf s)) cy (hsf (hf s)) (rot_of op (opw d) r cy)) s))))
  | IShd op d o c =>
      bind (op_read d s) (fun a => bind (op_read o s) (fun b => bind (op_read c s) (fun c =>
        let n := Z.land c (cmask (opw d)) in
        if n =? 0 then next (op_write d a s) else
        let r := shd_val op (opw d) a b n in
        next (op_write d r
          (set_hf (mkf (r =? 0) (shd_cf op (opw d) a n) (top (opw d) r)
                       (xorb (top (opw d) a) (top (opw d) r))) s)))))
  | IBit op d o =>
      (* with a register destination or an immediate index the index is taken
         modulo the width; with a memory destination and a register index the
         host addresses memory relative to the operand *)
      bind (op_read d s) (fun a => bind (op_read o s) (fun c =>
        let inside :=
          match d, o with
          | Mm _ _, Rg _ _ => (c <? wbits (opw d))
          | _, _ => true
          end in
        if inside then
          let i := Z.land c (wbits (opw d) - 1) in
          let f := hf s in
          let s' := set_hf (mkf (hzf f) (Z.testbit a i) (hsf f) (hof f)) s in
          match op with
          | TBt => Done s'
          | _ => next (op_write d (bit_val op a i) s')
          end
        else Stuck))
  | IBsf d o =>
      bind (op_read o s) (fun a =>
        let s' := set_hf (mkf (a =? 0) false false false) s in
        if a =? 0 then Done s' else next (op_write d (bsf_val (opw d) a) s'))
  | IBsr d o =>
      bind (op_read o s) (fun a =>
        let s' := set_hf (mkf (a =? 0) false false false) s in
        if a =? 0 then Done s' else next (op_write d (bsr_val a) s'))
  | IBswap r => next (op_write (Rg W32 r) (bswap_val (hval W32 r s)) s)
  | IMul o =>
      bind (op_read o s) (fun b =>
        let w := opw o in
        let p := hval w RAX s * b in
        let hi := Z.shiftr p (wbits w) in
        let s' := set_hf (mkf false (negb (hi =? 0)) false (negb (hi =? 0))) s in
        match w with
        | W8 => next (op_write (Rg W16 RAX) p s')
        | _ => bind (op_write (Rg w RAX) p s') (fun s'' => next (op_write (Rg w RDX) hi s''))
        end)
  | IImul1 o =>
      bind (op_read o s) (fun b =>
        let w := opw o in
        let p := sext w (hval w RAX s) * sext w b in
        let ov := negb (p =? sext w p) in
        let s' := set_hf (mkf false ov false ov) s in
        match w with
        | W8 => next (op_write (Rg W16 RAX) p s')
        | _ => bind (op_write (Rg w RAX) p s')
                    (fun s'' => next (op_write (Rg w RDX) (Z.shiftr p (wbits w)) s''))
        end)
  | IImul2 d o =>
      bind (op_read d s) (fun a => bind (op_read o s) (fun b =>
        let w := opw d in
        let p := sext w a * sext w b in
        let ov := negb (p =? sext w p) in
        next (op_write d p (set_hf (mkf false ov false ov) s))))
  | IImul3 d o imm =>
      bind (op_read o s) (fun a =>
        let w := opw d in
        let p := sext w a * sext w imm in
        let ov := negb (p =? sext w p) in
        next (op_write d p (set_hf (mkf false ov false ov) s)))
  | IDiv o =>
      (* 32-bit form only; a zero divisor or a quotient that does not fit would
         be a host fault *)
      bind (op_read o s) (fun d =>
        let D := Z.lor (Z.shiftl (hval W32 RDX s) 32) (hval W32 RAX s) in
        if d =? 0 then Stuck
        else if 0xFFFFFFFF <? D / d then Stuck
        else bind (op_write (Rg W32 RAX) (D / d) s)
                  (fun s' => next (op_write (Rg W32 RDX) (D mod d) s')))
  | IXchg a b =>
      bind (op_read a s) (fun x => bind (op_read b s) (fun y =>
        bind (op_write a y s) (fun s' => next (op_write b x s'))))
  | ISet c d => next (op_write d (b2z (holds c (hf s))) s)
  | ICmov c d o =>
      bind (op_read d s) (fun a => bind (op_read o s) (fun b =>
        next (op_write d (if holds c (hf s) then b else a) s)))
  | IStc => let f := hf s in Done (set_hf (mkf (hzf f) true (hsf f) (hof f)) s)
  | IClc => let f := hf s in Done (set_hf (mkf (hzf f) false (hsf f) (hof f)) s)
  | IJmp l => Skip l s
  | IJcc c l => if holds c (hf s) then Skip l s else Done s
  | ILab _ => Done s
  | ILoad w =>
      let a := hval W32 RDX s in
      if e_fault E false a (wbytes w) then Fault false a (wbytes w) s else
      let v := mload (gmem s) w a in
      let s' := clobber s in
      next (op_write (Rg w RAX) v s')
  | IStore w =>
      let a := hval W32 RDX s in
      if e_fault E true a (wbytes w) then Fault true a (wbytes w) s else
      Done (clobber (set_gmem (mstore (gmem s) w a (hval w R8 s)) s))
  | IProbe w =>
      let a := hval W32 RDX s in
      if e_fault E true a (wbytes w) then Fault true a (wbytes w) s else
      Done (clobber s)
  | ISelReal r =>
      (* instructions.cpp:677-725; the zero-base bit of hflags is modelled in ModeModel.v *)
      let v := hval W16 RDX s in
      Done (clobber (set_ctx (set_segb (fun x => if sreg_eqb x r then Z.shiftl v 4 else segb (ctx s) x)
                       (set_gsel (fun x => if sreg_eqb x r then v else gsel (ctx s) x) (ctx s))) s))
  | IMask => Done (set_masked true s)
  | IRaise v c => Raise v c s
  | ILink => Left s
  end.

(** Straight-line execution with forward jumps: all labels used by the modelled
    sequences are bound after the jumps that name them. *)
Fixpoint exec (l : list instr) (o : outcome) : outcome :=
  match l with
  | [] => o
  | i :: tl =>
      match o with
      | Done s => exec tl (step i s)
      | Skip k s =>
          match i with
          | ILab k' => if Nat.eqb k k' then exec tl (Done s) else exec tl (Skip k s)
          | _ => exec tl (Skip k s)
          end
      | _ => o
      end
  end.

Definition run (l : list instr) (s : hst) : outcome := exec l (Done s).

End Exec.
