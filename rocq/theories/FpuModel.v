(** * The x87 instructions: register stack, tags, status word

    Abbreviations for cited files under lib86cpu/:
    FP = core/fpu.cpp, FI = core/fpu_instructions.cpp, IF = interface.cpp,
    JT = core/emitter/x64/jit.cpp, IN = core/internal.hpp, TR = core/translate.cpp.

    Arithmetic is done by the host FPU; here it is an arbitrary function from the
    operands and the control word given to the host (the "frp" field) to a result and
    the status word the host leaves.  80-bit values are integers below 2^80 (uint80_t:
    low is the significand, high is sign and exponent). *)

From Coq Require Import ZArith Bool List.
Import ListNotations.
Local Open Scope Z_scope.

Definition upd (f : Z -> Z) (i v : Z) : Z -> Z := fun j => if j =? i then v else f j.
Definition nz (x : Z) : bool := negb (x =? 0).
Definition w16 (x : Z) : Z := x mod 2 ^ 16.

(** regs_t: fr, fctrl, fstatus, ftags, fcs/fip/fds/fdp/fop (as [ptrs]), xmm, mxcsr
    (core/registers.hpp 92-104); fpu_data_t: ftop, frp; shadow_mxcsr
    (lib86cpu_priv.hpp 177-180, 191) *)
Record ptrs := mkptrs { fcs : Z; fip : Z; fop : Z; fds : Z; fdp : Z }.
Record fpu := mkfpu {
  fr : Z -> Z; ftag : Z -> Z; ftop : Z; fctrl : Z; fstatus : Z; frp : Z;
  ptr : ptrs; xmm : Z -> Z; mxcsr : Z; shadow : Z }.

Definition set_fr v s := mkfpu v (ftag s) (ftop s) (fctrl s) (fstatus s) (frp s) (ptr s) (xmm s) (mxcsr s) (shadow s).
Definition set_ftag v s := mkfpu (fr s) v (ftop s) (fctrl s) (fstatus s) (frp s) (ptr s) (xmm s) (mxcsr s) (shadow s).
Definition set_ftop v s := mkfpu (fr s) (ftag s) v (fctrl s) (fstatus s) (frp s) (ptr s) (xmm s) (mxcsr s) (shadow s).
Definition set_fctrl v s := mkfpu (fr s) (ftag s) (ftop s) v (fstatus s) (frp s) (ptr s) (xmm s) (mxcsr s) (shadow s).
Definition set_fstatus v s := mkfpu (fr s) (ftag s) (ftop s) (fctrl s) v (frp s) (ptr s) (xmm s) (mxcsr s) (shadow s).
Definition set_frp v s := mkfpu (fr s) (ftag s) (ftop s) (fctrl s) (fstatus s) v (ptr s) (xmm s) (mxcsr s) (shadow s).
Definition set_ptr v s := mkfpu (fr s) (ftag s) (ftop s) (fctrl s) (fstatus s) (frp s) v (xmm s) (mxcsr s) (shadow s).
Definition set_xmm v s := mkfpu (fr s) (ftag s) (ftop s) (fctrl s) (fstatus s) (frp s) (ptr s) v (mxcsr s) (shadow s).
Definition set_mxcsr v w s := mkfpu (fr s) (ftag s) (ftop s) (fctrl s) (fstatus s) (frp s) (ptr s) (xmm s) v w.

(** constants (IN 434-500) *)
Definition TAG_VALID := 0.
Definition TAG_ZERO := 1.
Definition TAG_SPECIAL := 2.
Definition TAG_EMPTY := 3.
Definition EXP_INVALID := 1.
Definition EXP_ALL := 0x3F.
Definition SW_SF := 0x40.
Definition SW_ES := 0x80.
Definition SW_C0 := 0x100.
Definition SW_C1 := 0x200.
Definition SW_C2 := 0x400.
Definition SW_TOP := 0x3800.
Definition SW_C3 := 0x4000.
Definition SW_BSY := 0x8000.
Definition SW_CC := 0x4700.
Definition STACK_OVERFLOW := 0x241.
Definition STACK_UNDERFLOW := 0x41.
Definition QNAN80 := Z.lor (Z.shiftl 0xFFFF 64) 0xC000000000000000.
Definition MXCSR_MASK := 0xFFBF.
Definition not16 (m : Z) : Z := Z.lxor 0xFFFF m.

(** [fpu_init] (FP 11-22), on registers zeroed by cpu_reset; mxcsr (TR 413-414) *)
Definition fpu_init : fpu :=
  mkfpu (fun _ => 0) (fun _ => TAG_ZERO) 0 0x40 0 0x7F (mkptrs 0 0 0 0 0) (fun _ => 0) 0x1F80 0x1F80.

(** [read_ftags], [write_ftags] (IF 1386-1409) *)
Definition read_ftags (s : fpu) : Z :=
  fold_left (fun acc i => w16 (Z.lor acc (Z.shiftl (ftag s i) (i * 2)))) [0; 1; 2; 3; 4; 5; 6; 7] 0.
Definition write_ftags (v : Z) (s : fpu) : fpu :=
  set_ftag (fold_left (fun t i => upd t i (Z.shiftr (Z.land v (Z.shiftl 3 (i * 2))) (i * 2) mod 2 ^ 8))
             [0; 1; 2; 3; 4; 5; 6; 7] (ftag s)) s.
(** [read_fstatus], [write_fstatus] (IF 1416-1435) *)
Definition read_fstatus (s : fpu) : Z :=
  w16 (Z.lor (Z.land (fstatus s) (not16 SW_TOP)) (Z.shiftl (ftop s) 11)).
Definition write_fstatus (v : Z) (s : fpu) : fpu :=
  set_fstatus v (set_ftop (Z.shiftr (Z.land v SW_TOP) 11) s).

(** [fpu_push] (FP 24-28) and FPU_PUSH (JT 564) *)
Definition fpu_push (s : fpu) : fpu := set_ftop (Z.land (ftop s - 1) 7) s.
(** FPU_POP (JT 565) *)
Definition FPU_POP (s : fpu) : fpu := set_ftop (Z.land (ftop s + 1) 7) s.
(** [fpu_pop] (FP 30-35) *)
Definition fpu_pop (s : fpu) : fpu := FPU_POP (set_ftag (upd (ftag s) (ftop s) TAG_EMPTY) s).

(** the register that is ST(i) (the index computation used throughout) *)
Definition idx (s : fpu) (i : Z) : Z := Z.land (i + ftop s) 7.

(** the tag [fpu_update_tag] gives to a value (FP 41-54) *)
Definition tag_for (v : Z) : Z :=
  let exp := Z.land (Z.shiftr v 64) 0x7FFF in
  let mant := Z.land v (Z.ones 64) in
  if (exp =? 0) && (mant =? 0) then TAG_ZERO
  else if (exp =? 0) || (exp =? 0x7FFF) || negb (nz (Z.land mant (Z.shiftl 1 63))) then TAG_SPECIAL
  else TAG_VALID.
(** [fpu_update_tag] (FP 37-59) *)
Definition update_tag (is_push : bool) (i : Z) (s : fpu) : fpu :=
  let k := idx s i in
  set_ftag (upd (ftag s) k (if is_push then tag_for (fr s k) else TAG_EMPTY)) s.
(** [fpu_is_tag_empty] (FP 61-65) *)
Definition is_tag_empty (s : fpu) (i : Z) : bool := ftag s (idx s i) =? TAG_EMPTY.

(** [fpu_stack_fault] (FP 79-96); the argument is one of the two stack fault codes *)
Definition stack_fault (e : Z) (s : fpu) : fpu :=
  let e := Z.land e 0x27F in
  let unmasked := Z.land (Z.land e (not16 (fctrl s))) EXP_ALL in
  let sw := if nz unmasked then Z.lor (fstatus s) SW_ES else fstatus s in
  let sw := Z.lor sw e in
  let sw := if nz (Z.land e SW_SF) && negb (nz (Z.land e SW_C1)) then Z.land sw (not16 SW_C1) else sw in
  set_fstatus sw s.

(** write the indefinite value to a register (repeated in FP 104-250) *)
Definition put_qnan (k : Z) (s : fpu) : fpu :=
  set_ftag (upd (ftag s) k TAG_SPECIAL) (set_fr (upd (fr s) k QNAN80) s).
Definition masked (s : fpu) : bool := nz (Z.land (fctrl s) EXP_INVALID).

(** [fpu_stack_overflow] (FP 98-117); ST(-1) is computed in uint32_t, which is the same
    modulo 8 *)
Definition stack_overflow (s : fpu) : bool * fpu :=
  if negb (is_tag_empty s (-1)) then
    let s1 := if masked s then let s1 := fpu_push s in put_qnan (ftop s1) s1 else s in
    (true, stack_fault STACK_OVERFLOW s1)
  else (false, s).
(** [fpu_stack_fault_fpatan] (FP 119-138) *)
Definition stack_fault_fpatan (s : fpu) : bool * fpu :=
  if is_tag_empty s 0 || is_tag_empty s 1 then
    let s1 := if masked s then fpu_pop (put_qnan (idx s 1) s) else s in
    (true, stack_fault STACK_UNDERFLOW s1)
  else (false, s).
(** [fpu_stack_fault_fsincos] (FP 140-170) *)
Definition stack_fault_fsincos (s : fpu) : bool * fpu :=
  let under := is_tag_empty s 0 in
  if under || negb (is_tag_empty s (-1)) then
    let s1 := if masked s then
                let s1 := fpu_push (put_qnan (ftop s) s) in put_qnan (ftop s1) s1 else s in
    (true, stack_fault (if under then STACK_UNDERFLOW else STACK_OVERFLOW) s1)
  else (false, s).
(** [fpu_stack_fault_fxch] (FP 172-200) *)
Definition stack_fault_fxch (i : Z) (s : fpu) : bool * fpu :=
  let d := is_tag_empty s 0 in
  let r := is_tag_empty s i in
  if d || r then
    let s1 := if masked s then
                let s1 := if d then put_qnan (ftop s) s else s in
                if r then put_qnan (idx s1 i) s1 else s1 else s in
    (true, stack_fault STACK_UNDERFLOW s1)
  else (false, s).
(** [fpu_stack_fault_fcom], [_fcom1], [_fcom2] (FP 202-232) *)
Definition stack_fault_fcom (e1 e2 : bool) (pops : nat) (s : fpu) : bool * fpu :=
  if e1 || e2 then
    let s1 := set_fstatus (Z.lor (fstatus s) 0x4500) s in
    let s1 := if masked s1 then Nat.iter pops fpu_pop s1 else s1 in
    (true, stack_fault STACK_UNDERFLOW s1)
  else (false, s).
(** [fpu_stack_underflow_reg] (FP 234-256) *)
Definition stack_underflow_reg (src dst : Z) (pop : bool) (s : fpu) : bool * fpu :=
  if is_tag_empty s src then
    let s1 := if masked s then
                let s1 := put_qnan (idx s dst) s in if pop then fpu_pop s1 else s1 else s in
    (true, stack_fault STACK_UNDERFLOW s1)
  else (false, s).

(** ** Emitted instructions *)

(** what an instruction ends in: done, with the memory write made and whether the host
    control word was restored (RESTORE_FPU_CTX, JT 559); a page fault; an exception
    vector; an abort of the emulation *)
Inductive fout :=
| FDone (s : fpu) (w : option (Z * Z)) (host_restored : bool)
| FPage (s : fpu)
| FExc (n : Z) (s : fpu)
| FAbort.

(** translation-time inputs: HFLG_CR0_EM, HFLG_CR0_TS, CR0.NE; and the operands of
    gen_update_fpu_ptr: CS, EIP, opcode bits, and DS selector and offset of a memory
    operand *)
Record fenv := mkfenv { e_em : bool; e_ts : bool; e_ne : bool; e_cs : Z; e_ip : Z; e_op : Z; e_mem : option (Z * Z) }.

(** [gen_check_fpu_unmasked_exp] (JT 2693-2705): the abort is in the code generator, not
    in the generated code, so without CR0.NE it happens whether or not ES is set *)
Definition check_unmasked (E : fenv) (s : fpu) (k : fout) : fout :=
  if e_ne E then (if nz (Z.land (fstatus s) SW_ES) then FExc 16 s else k) else FAbort.
(** the EM/TS test (repeated at the start of each emitter except FCHS) *)
Definition check_nm (E : fenv) (s : fpu) (k : fout) : fout := if e_em E || e_ts E then FExc 7 s else k.
(** the same for EMMS (JT 5893-5895) and MOVQ (JT 8434-8436) *)
Definition check_emms (E : fenv) (s : fpu) (k : fout) : fout :=
  if e_em E || e_ts E then FExc (if e_ts E then 7 else 6) s else k.
Definition check_mmx (E : fenv) (s : fpu) (k : fout) : fout :=
  if e_em E || e_ts E then FExc (if e_em E then 6 else 7) s else k.
(** [gen_update_fpu_ptr] (JT 2581-2606), [fpu_update_ptr] (FP 67-77) *)
Definition update_ptr (E : fenv) (s : fpu) : fpu :=
  set_ptr (match e_mem E with
           | Some (ds, dp) => mkptrs (e_cs E) (e_ip E) (Z.land (e_op E) 0x7FF) ds dp
           | None => mkptrs (e_cs E) (e_ip E) (Z.land (e_op E) 0x7FF) (fds (ptr s)) (fdp (ptr s)) end) s.
(** FPU_CLEAR_C1, FPU_CLEAR_C2 (JT 562-563) *)
Definition clear_c1 (s : fpu) : fpu := set_fstatus (Z.land (fstatus s) (not16 SW_C1)) s.
Definition clear_c2 (s : fpu) : fpu := set_fstatus (Z.land (fstatus s) (not16 SW_C2)) s.
(** [gen_fpu_load_stx], [gen_fpu_store_stx] (JT 2708-2740): ST0 is not masked with 7 *)
Definition stx (s : fpu) (i : Z) : Z := if i =? 0 then ftop s else Z.land (ftop s + i) 7.
Definition load_stx (s : fpu) (i : Z) : Z := fr s (stx s i).
Definition store_stx (i v : Z) (s : fpu) : fpu := set_fr (upd (fr s) (stx s i) v) s.
(** [gen_fpu_exp_post_check] (JT 2535-2569): the new status word, and whether an
    exception among [e] is unmasked *)
Definition post_sw (sw : Z) (s : fpu) : Z :=
  Z.lor (Z.land (fstatus s) (not16 0x473F)) (Z.land sw 0x473F).
Definition post_unmasked (e sw : Z) (s : fpu) : bool := nz (Z.land (Z.land (not16 (fctrl s)) sw) e).
(** with write_fstatus: continue with [k] unless an exception is unmasked *)
Definition post_check (e sw : Z) (s : fpu) (k : fpu -> fout) : fout :=
  let s1 := set_fstatus (post_sw sw s) s in
  if post_unmasked e sw s then FDone (set_fstatus (Z.lor (fstatus s1) SW_ES) s1) None true else k s1.

(** the forms of a two-operand arithmetic instruction: D8 (to ST0), DC (to STi), DE (to
    STi, then pop) *)
Inductive aform := ToSt0 | ToSti | ToStiPop.

(** Instructions with their run-time inputs.  [src = None] is a page fault on the memory
    operand.  Functions give the host's answer for the operands and the control word. *)
Inductive finstr :=
| FldConst (h : Z -> Z)                                             (* FLD1 .. FLDZ *)
| FldMem (int : bool) (src : option Z) (h : Z -> Z -> Z * Z)        (* FLD m, FILD m *)
| FldSt (i : Z)                                                     (* FLD ST(i) *)
| FstSt (i : Z) (pop : bool)                                        (* FST(P) ST(i) *)
| FstMem (addr edx qnan : Z) (wok : bool) (pop : bool) (h : Z -> Z -> Z * Z) (* F(I)ST(P) m *)
| FcomSt (i : Z) (pops : nat) (h : Z -> Z -> Z -> Z)                (* FCOM(P)(P) ST(i) *)
| FcomMem (src : option Z) (pops : nat) (h : Z -> Z -> Z -> Z)      (* FCOM(P) m *)
| FarithSt (f : aform) (i : Z) (h : Z -> Z -> Z -> Z * Z)           (* FADD .. FDIVRP *)
| FarithMem (src : option Z) (h : Z -> Z -> Z -> Z * Z)             (* FADD m .. FIDIVR m *)
| Fchs
| Fsqrt (h : Z -> Z -> Z * Z)
| Ftrig (h : Z -> Z -> Z * Z)                                       (* FSIN, FCOS *)
| Fsincos (h : Z -> Z -> Z * Z * Z)
| Fpatan (h : Z -> Z -> Z -> Z * Z)
| Fxch (i : Z)
| Fldcw (src : option Z)
| Fnclex
| Fninit
| Emms
| MovqToMm (r v : Z).                                               (* MOVQ mm, mm/m64 *)

(** what the instructions that compute in ST0 share at the end: store, tag (true) *)
Definition store_tag (i v : Z) (s : fpu) : fpu := update_tag true i (store_stx i v s).
(** tag ST0 empty and pop (JT 3954-3957, 4125-4129, 6085-6089, 6403-6405) *)
Definition tag_pop (s : fpu) : fpu := FPU_POP (update_tag false 0 s).

Definition fexec (E : fenv) (i : finstr) (s : fpu) : fout :=
  let start k := check_nm E s (check_unmasked E s (k (clear_c1 (update_ptr E s)))) in
  let on_fault (r : bool * fpu) (k : fpu -> fout) := if fst r then FDone (snd r) None true else k (snd r) in
  match i with
  (* [fpu_load_constant] (JT 3804-3853) *)
  | FldConst h => start (fun s => on_fault (stack_overflow s) (fun s =>
      FDone (store_tag 0 (h (frp s)) (fpu_push s)) None true))
  (* [fpu_load] (JT 3963-4055), memory operand *)
  | FldMem int src h => check_nm E s (check_unmasked E s
      (match src with None => FPage s | Some m =>
        let s := clear_c1 (update_ptr E s) in
        on_fault (stack_overflow s) (fun s =>
          let '(v, sw) := h m (frp s) in
          let fin s := FDone (store_tag 0 v (fpu_push s)) None true in
          if int then fin s else post_check EXP_INVALID sw s fin) end))
  (* [fpu_load], register operand: the underflow response is asked for ST0 *)
  | FldSt i => start (fun s => on_fault (stack_overflow s) (fun s => on_fault (stack_underflow_reg i 0 false s) (fun s =>
      let v := load_stx s i in FDone (store_tag 0 v (fpu_push s)) None true)))
  (* [fpu_store] (JT 3855-3961), register operand *)
  | FstSt i pop => start (fun s => on_fault (stack_underflow_reg 0 i pop s) (fun s =>
      let s := if nz i then store_tag i (load_stx s 0) s else s in
      FDone (if pop then tag_pop s else s) None true))
  (* [fpu_store], memory operand, and [fpu_stack_underflow_mem] (FP 258-279).  EDX held
     the operand address but is not reloaded after the call of fpu_update_ptr (JT
     3894-3908), so the response to an underflow is written to whatever the callee left
     there, [edx] *)
  | FstMem addr edx qnan wok pop h => start (fun s =>
      if is_tag_empty s 0 then
        if masked s then
          if wok then FDone (stack_fault STACK_UNDERFLOW (if pop then fpu_pop s else s)) (Some (edx, qnan)) true
          else FPage s
        else FDone (stack_fault STACK_UNDERFLOW s) None true
      else
        let '(v, sw) := h (load_stx s 0) (frp s) in
        if post_unmasked EXP_ALL sw s then
          FDone (set_fstatus (Z.lor (post_sw sw s) SW_ES) s) None true
        else if wok then
          let s := set_fstatus (post_sw sw s) s in
          FDone (if pop then tag_pop s else s) (Some (addr, v)) true
        else FPage s)
  (* [FCOM] (JT 6033-6090) *)
  | FcomSt i pops h => start (fun s => on_fault (stack_fault_fcom (is_tag_empty s 0) (is_tag_empty s i) pops s) (fun s =>
      post_check EXP_ALL (h (load_stx s 0) (load_stx s i) (frp s)) s (fun s => FDone (Nat.iter pops tag_pop s) None true)))
  | FcomMem src pops h => check_nm E s (check_unmasked E s
      (match src with None => FPage s | Some m =>
        let s := clear_c1 (update_ptr E s) in
        on_fault (stack_fault_fcom (is_tag_empty s 0) false pops s) (fun s =>
          post_check EXP_ALL (h (load_stx s 0) m (frp s)) s (fun s => FDone (Nat.iter pops tag_pop s) None true)) end))
  (* [fpu_arithmetic] (JT 4057-4219), register operands: both checks ask for the response
     in ST0 without a pop, whatever the form *)
  | FarithSt f i h => start (fun s => on_fault (stack_underflow_reg i 0 false s) (fun s =>
      on_fault (stack_underflow_reg 0 0 false s) (fun s =>
      let dst := match f with ToSt0 => 0 | _ => i end in
      let other := match f with ToSt0 => i | _ => 0 end in
      let '(v, sw) := h (load_stx s dst) (load_stx s other) (frp s) in
      post_check EXP_ALL sw s (fun s =>
        let s := store_tag dst v s in
        FDone (match f with ToStiPop => tag_pop s | _ => s end) None true))))
  (* [fpu_arithmetic], memory operand *)
  | FarithMem src h => check_nm E s (check_unmasked E s
      (match src with None => FPage s | Some m =>
        let s := clear_c1 (update_ptr E s) in
        on_fault (stack_underflow_reg 0 0 false s) (fun s =>
          let '(v, sw) := h (load_stx s 0) m (frp s) in
          post_check EXP_ALL sw s (fun s => FDone (store_tag 0 v s) None true)) end))
  (* [FCHS_] (JT 6012-6031): no EM/TS test, C1 cleared after the check *)
  | Fchs => check_unmasked E s
      (let s := update_ptr E s in
       on_fault (stack_underflow_reg 0 0 false s) (fun s =>
         let s := clear_c1 s in
         FDone (store_tag 0 (Z.lxor (load_stx s 0) (2 ^ 79)) s) None true))
  (* [FSQRT_] (JT 6484-6513) *)
  | Fsqrt h => start (fun s => on_fault (stack_underflow_reg 0 0 false s) (fun s =>
      let '(v, sw) := h (load_stx s 0) (frp s) in
      post_check EXP_ALL sw s (fun s => FDone (store_tag 0 v s) None true)))
  (* [FSIN_] (JT 6409-6441), [FCOS_] (JT 6103-6135): out of range skips RESTORE_FPU_CTX *)
  | Ftrig h => start (fun s => on_fault (stack_underflow_reg 0 0 false (clear_c2 s)) (fun s =>
      let '(v, sw) := h (load_stx s 0) (frp s) in
      post_check EXP_ALL sw s (fun s =>
        if nz (Z.land (fstatus s) SW_C2) then FDone s None false
        else FDone (store_tag 0 v s) None true)))
  (* [FSINCOS_] (JT 6443-6482); the host gives sine and cosine *)
  | Fsincos h => start (fun s => on_fault (stack_fault_fsincos (clear_c2 s)) (fun s =>
      let '(sn, cs, sw) := h (load_stx s 0) (frp s) in
      post_check EXP_ALL sw s (fun s =>
        if nz (Z.land (fstatus s) SW_C2) then FDone s None false
        else
          let s := store_stx 0 sn s in
          let s := store_stx 0 cs (fpu_push s) in
          FDone (update_tag true 1 (update_tag true 0 s)) None true)))
  (* [FPATAN_] (JT 6376-6407): the tag of the result is not updated *)
  | Fpatan h => start (fun s => on_fault (stack_fault_fpatan s) (fun s =>
      let '(v, sw) := h (load_stx s 1) (load_stx s 0) (frp s) in
      post_check EXP_ALL sw s (fun s => FDone (tag_pop (store_stx 1 v s)) None true)))
  (* [FXCH_] (JT 6568-6591): the tags are not exchanged *)
  | Fxch i => start (fun s => on_fault (stack_fault_fxch i s) (fun s =>
      let a := load_stx s 0 in
      let b := load_stx s i in
      FDone (store_stx i a (store_stx 0 b s)) None true))
  (* [FLDCW_] (JT 6203-6238) *)
  | Fldcw src => check_nm E s (check_unmasked E s
      (match src with None => FPage s | Some m =>
        let c := Z.lor m 0x40 in
        let s := set_frp (Z.lor c EXP_ALL) (set_fctrl c s) in
        FDone (if nz (Z.land (Z.land (fstatus s) (not16 c)) EXP_ALL)
               then set_fstatus (Z.lor (fstatus s) SW_ES) s
               else set_fstatus (Z.land (fstatus s) (not16 SW_ES)) s) None true end))
  (* [FNCLEX_] (JT 6294-6303) *)
  | Fnclex => check_nm E s (FDone (set_fstatus (Z.land (fstatus s) (not16 0x80FF)) s) None true)
  (* [FNINIT] (JT 6305-6330) *)
  | Fninit => check_nm E s (FDone
      (mkfpu (fr s) (fun k => if (0 <=? k) && (k <? 8) then TAG_EMPTY else ftag s k) 0 0x37F 0 0x37F (mkptrs 0 0 0 0 0) (xmm s) (mxcsr s) (shadow s)) None true)
  (* [EMMS_] (JT 5890-5908) *)
  | Emms => check_emms E s (check_unmasked E s
      (FDone (set_ftop 0 (set_ftag (fun k => if (0 <=? k) && (k <? 8) then TAG_EMPTY else ftag s k) s)) None true))
  (* [MOVQ] (JT 8431-8480) to a register, ST_MM (JT 512), [gen_fpu2mmx_transition] (JT 2753-2758) *)
  | MovqToMm r v => check_mmx E s (check_unmasked E s
      (FDone (set_ftop 0 (set_ftag (fun k => if (0 <=? k) && (k <? 8) then TAG_VALID else ftag s k)
        (set_fr (upd (fr s) r (Z.lor (Z.shiftl 0xFFFF 64) v)) s))) None true))
  end.

(** FNSTSW (JT 6352-6373) is [read_fstatus] *)
