(** * The host side of the x87 instructions

    The emitters of the x87 instructions compute with the host's own x87 unit.
    [FpuModel.v] takes the result of that computation as an input; here the host code
    itself is modelled: which registers are loaded on the host stack, in which order,
    which host instruction is executed under which control word, and what the host's
    unit looks like afterwards.  JT is lib86cpu/core/emitter/x64/jit.cpp.

    Simplifications: the host's arithmetic is a parameter [arith]; the host register stack
    is a list (TOP itself is invisible to the emitted code); of the host's status word only
    the exception flags and the condition codes are kept (JT 2548 masks the others);
    loading and storing 80 bit values raises no exception, as on the hardware. *)

From Coq Require Import ZArith Bool List.
From Verif Require Import FpuModel.
Import ListNotations.
Local Open Scope Z_scope.

(** ** The host's unit *)

(** an operand as the host gets it: a stack register, or an integer or a floating point
    number of the given number of bytes in memory *)
Inductive operand := OReg (v : Z) | OInt (bytes v : Z) | OFloat (bytes v : Z).
Inductive binop := Badd | Bsub | Bmul | Bdiv.
Inductive unop := Usqrt | Usin | Ucos.

(** the host's arithmetic.  Each function takes the control word and the condition codes
    before (which the host may leave standing) and gives values, the exception flags
    raised and the condition codes after. *)
Record arith := mkarith {
  a_bin : binop -> Z -> Z -> operand -> operand -> Z * Z * Z;
  a_un : unop -> Z -> Z -> Z -> Z * Z * Z;
  a_sincos : Z -> Z -> Z -> Z * Z * Z * Z;
  a_patan : Z -> Z -> Z -> Z -> Z * Z * Z;
  a_cmp : Z -> Z -> operand -> operand -> Z * Z;
  a_load : Z -> Z -> operand -> Z * Z * Z;
  a_store : bool -> Z -> Z -> Z -> Z -> Z * Z * Z;
  a_const : Z -> Z -> Z
}.

(** the guest's unit [g], the host's register stack, control word, exception flags and
    condition codes, and the word LOCAL_VARS_off(5) of the JIT's stack frame *)
Record world := mkworld { g : fpu; hs : list Z; hcw : Z; hex : Z; hcc : Z; sv : Z }.
Definition set_g v w := mkworld v (hs w) (hcw w) (hex w) (hcc w) (sv w).
Definition set_hs v w := mkworld (g w) v (hcw w) (hex w) (hcc w) (sv w).
Definition set_hcw v w := mkworld (g w) (hs w) v (hex w) (hcc w) (sv w).
Definition set_hex v w := mkworld (g w) (hs w) (hcw w) v (hcc w) (sv w).
Definition set_hcc v w := mkworld (g w) (hs w) (hcw w) (hex w) v (sv w).
Definition set_sv v w := mkworld (g w) (hs w) (hcw w) (hex w) (hcc w) v.
Definition on_g (f : fpu -> fpu) w := set_g (f (g w)) w.

(** what an instruction ends in; [HFault] is a fault of the host's register stack *)
Inductive hout :=
| HDone (w : world) (m : option (Z * Z))
| HPage (w : world)
| HExc (n : Z) (w : world)
| HAbort
| HFault.

(** host instructions that change the register stack: FLD m80 and the other loads, FSTP
    m80; [e] and [cc] are the flags a computation raises (exception flags are sticky) *)
Definition hpush (v : Z) (k : world -> hout) (w : world) : hout :=
  if Nat.ltb (length (hs w)) 8 then k (set_hs (v :: hs w) w) else HFault.
Definition hpop (k : Z -> world -> hout) (w : world) : hout :=
  match hs w with v :: r => k v (set_hs r w) | [] => HFault end.
Definition raise (e cc : Z) (w : world) : world := set_hcc cc (set_hex (Z.lor (hex w) e) w).
(** FNSTSW AX, as far as it is used *)
Definition hsw (w : world) : Z := Z.lor (hex w) (hcc w).

(** [gen_set_host_fpu_ctx] (JT 2571-2578): EMMS, FNCLEX, FNSTCW, FLDCW.  EMMS marks all
    registers empty, FNCLEX leaves the condition codes *)
Definition set_ctx (w : world) : world :=
  set_hcw (frp (g w)) (set_sv (hcw w) (set_hex 0 (set_hs [] w))).
(** RESTORE_FPU_CTX (JT 559) *)
Definition restore (w : world) : world := set_hcw (sv w) w.
(** [gen_fpu_load_stx] (JT 2707-2721), [gen_fpu_store_stx] (JT 2724-2738) *)
Definition gload (i : Z) (k : world -> hout) (w : world) : hout := hpush (load_stx (g w) i) k w.
Definition gstore (i : Z) (k : world -> hout) (w : world) : hout :=
  hpop (fun v w => k (on_g (store_stx i v) w)) w.
(** the dummy pops FSTP(MEMD80(RSP, LOCAL_VARS_off(0))) *)
Definition dummy (k : world -> hout) (w : world) : hout := hpop (fun _ => k) w.
(** end_instr *)
Definition fin (w : world) : hout := HDone w None.

(** [gen_fpu_exp_post_check<true>] (JT 2535-2569): [un] is the code for an unmasked
    exception, [k] the code after the check *)
Definition post (e : Z) (un k : world -> hout) (w : world) : hout :=
  let w1 := on_g (fun s => set_fstatus (post_sw (hsw w) s) s) w in
  if post_unmasked e (hsw w) (g w)
  then un (on_g (fun s => set_fstatus (Z.lor (fstatus s) SW_ES) s) w1)
  else k w1.

(** ** Emitted instructions *)

(** the template argument of [fpu_arithmetic] (JT 4060) *)
Inductive aop := Fsub | Fadd | Fmul | Fdivr | Fdiv | Fsubr.

(** instructions with their run-time inputs: the memory operand ([None]: page fault) or
    the success of the store.  [opc] is the first opcode byte. *)
Inductive hinstr :=
| HldConst (c : Z)
| HldMem (int : bool) (bytes : Z) (src : option Z)
| HldSt (i : Z)
| HstSt (i : Z) (pop : bool)
| HstMem (int : bool) (bytes addr edx qnan : Z) (wok pop : bool)
| HcomSt (i : Z) (pops : nat)
| HcomMem (opc : Z) (src : option Z) (pops : nat)
| HarithSt (o : aop) (opc i : Z)
| HarithMem (o : aop) (opc : Z) (src : option Z)
| Hchs
| Hsqrt
| Htrig (u : unop)
| Hsincos
| Hpatan
| Hxch (i : Z)
| Hldcw (src : option Z)
| Hnclex
| Hninit
| Hemms.

(** the host instructions with the operands ST0, ST1 (JT 4098-4118): the result replaces ST0 *)
Definition host_op (A : arith) (o : aop) (cw cc x0 : Z) (y : operand) : Z * Z * Z :=
  match o with
  | Fsub => a_bin A Bsub cw cc (OReg x0) y
  | Fadd => a_bin A Badd cw cc (OReg x0) y
  | Fmul => a_bin A Bmul cw cc (OReg x0) y
  | Fdivr => a_bin A Bdiv cw cc y (OReg x0)
  | Fdiv => a_bin A Bdiv cw cc (OReg x0) y
  | Fsubr => a_bin A Bsub cw cc y (OReg x0)
  end.
Definition op_st0_st1 (A : arith) (o : aop) (k : world -> hout) (w : world) : hout :=
  match hs w with
  | x0 :: x1 :: r =>
      let '(v, e, cc) := host_op A o (hcw w) (hcc w) x0 (OReg x1) in
      k (raise e cc (set_hs (v :: x1 :: r) w))
  | _ => HFault
  end.
(** the same with a memory operand (JT 4168-4196) *)
Definition op_st0_mem (A : arith) (o : aop) (m : operand) (k : world -> hout) (w : world) : hout :=
  match hs w with
  | x0 :: r =>
      let '(v, e, cc) := host_op A o (hcw w) (hcc w) x0 m in
      k (raise e cc (set_hs (v :: r) w))
  | _ => HFault
  end.
(** FSQRT, FSIN, FCOS; out of range (C2) they leave ST0 *)
Definition op_un (A : arith) (u : unop) (k : world -> hout) (w : world) : hout :=
  match hs w with
  | x0 :: r =>
      let '(v, e, cc) := a_un A u (hcw w) (hcc w) x0 in
      let v := match u with Usqrt => v | _ => if nz (Z.land cc SW_C2) then x0 else v end in
      k (raise e cc (set_hs (v :: r) w))
  | _ => HFault
  end.
(** FSINCOS: the sine replaces ST0, the cosine is pushed; out of range nothing changes *)
Definition op_sincos (A : arith) (k : world -> hout) (w : world) : hout :=
  match hs w with
  | x0 :: r =>
      let '(sn, cs, e, cc) := a_sincos A (hcw w) (hcc w) x0 in
      if nz (Z.land cc SW_C2) then k (raise e cc w)
      else if Nat.ltb (length (hs w)) 8 then k (raise e cc (set_hs (cs :: sn :: r) w)) else HFault
  | _ => HFault
  end.
(** FPATAN: the arctangent of ST1/ST0 replaces ST1, then a pop *)
Definition op_patan (A : arith) (k : world -> hout) (w : world) : hout :=
  match hs w with
  | x0 :: x1 :: r =>
      let '(v, e, cc) := a_patan A (hcw w) (hcc w) x1 x0 in
      k (raise e cc (set_hs (v :: r) w))
  | _ => HFault
  end.
(** FCOMPP compares ST0 with ST1 and pops both, FCOMP m compares ST0 with memory and pops *)
Definition op_compp (A : arith) (k : world -> hout) (w : world) : hout :=
  match hs w with
  | x0 :: x1 :: r => let '(e, cc) := a_cmp A (hcw w) (hcc w) (OReg x0) (OReg x1) in k (raise e cc (set_hs r w))
  | _ => HFault
  end.
Definition op_comp (A : arith) (m : operand) (k : world -> hout) (w : world) : hout :=
  match hs w with
  | x0 :: r => let '(e, cc) := a_cmp A (hcw w) (hcc w) (OReg x0) m in k (raise e cc (set_hs r w))
  | _ => HFault
  end.
(** FLD m, FILD m *)
Definition op_load (A : arith) (m : operand) (k : world -> hout) (w : world) : hout :=
  let '(v, e, cc) := a_load A (hcw w) (hcc w) m in hpush v (fun w => k (raise e cc w)) w.
(** FSTP m, FISTP m *)
Definition op_store (A : arith) (int : bool) (bytes : Z) (k : Z -> world -> hout) (w : world) : hout :=
  hpop (fun x w => let '(v, e, cc) := a_store A int bytes (hcw w) (hcc w) x in k v (raise e cc w)) w.
(** FXCH ST1 *)
Definition op_xch (k : world -> hout) (w : world) : hout :=
  match hs w with x0 :: x1 :: r => k (set_hs (x1 :: x0 :: r) w) | _ => HFault end.

(** the memory operand of an arithmetic instruction by its opcode byte (JT 4132-4152,
    4166): D8 32 bit and DC 64 bit floating point, DA 32 bit and DE 16 bit integer *)
Definition mem_operand (opc m : Z) : operand :=
  if opc =? 0xD8 then OFloat 4 m
  else if opc =? 0xDC then OFloat 8 m
  else if opc =? 0xDA then OInt 4 m
  else OInt 2 m.

Definition hexec (A : arith) (E : fenv) (i : hinstr) (w : world) : hout :=
  let s := g w in
  (* [gen_check_fpu_unmasked_exp] (JT 2692-2704), after the EM/TS test *)
  let unmasked_exp k := if e_ne E then (if nz (Z.land (fstatus s) SW_ES) then HExc 16 w else k) else HAbort in
  let guard k := if e_em E || e_ts E then HExc 7 w else unmasked_exp k in
  let w1 := on_g (fun s => clear_c1 (update_ptr E s)) w in
  let guest o := match o with FDone s m _ => HDone (set_g s w) m | FPage s => HPage (set_g s w) | FExc n s => HExc n (set_g s w) | FAbort => HAbort end in
  let checked (r : bool * fpu) (w : world) (k : world -> hout) :=
    if fst r then fin (set_g (snd r) w) else k (set_g (snd r) w) in
  match i with
  (* [fpu_load_constant] (JT 3804-3853) *)
  | HldConst c => guard (checked (stack_overflow (g w1)) w1 (fun w =>
      let w := set_ctx w in
      hpush (a_const A c (hcw w)) (fun w =>
        gstore 0 (fun w => fin (on_g (update_tag true 0) (restore w))) (on_g fpu_push w)) w))
  (* [fpu_load] (JT 3963-4055): memory *)
  | HldMem int bytes src => guard (match src with None => HPage w | Some m =>
      checked (stack_overflow (g w1)) w1 (fun w =>
        let push w := gstore 0 (fun w => fin (on_g (update_tag true 0) (restore w))) (on_g fpu_push w) in
        op_load A (if int then OInt bytes m else OFloat bytes m) (fun w =>
          if int then push w
          else post EXP_INVALID (dummy (fun w => fin (restore w))) push w) (set_ctx w)) end)
  (* register *)
  | HldSt i => guard (checked (stack_overflow (g w1)) w1 (fun w =>
      checked (stack_underflow_reg i 0 false (g w)) w (fun w =>
        gload i (fun w => gstore 0 (fun w => fin (on_g (update_tag true 0) (restore w))) (on_g fpu_push w)) (set_ctx w))))
  (* [fpu_store] (JT 3855-3961): register *)
  | HstSt i pop => guard (checked (stack_underflow_reg 0 i pop (g w1)) w1 (fun w =>
      let finish w := fin (if pop : bool then on_g tag_pop w else w) in
      if nz i then gload 0 (gstore i (fun w => finish (on_g (update_tag true i) (restore w)))) (set_ctx w)
      else finish w))
  (* memory; ST_MEMs comes after RESTORE_FPU_CTX, so a page fault leaves the host restored *)
  | HstMem int bytes addr edx qnan wok pop => guard (
      if is_tag_empty (g w1) 0 then
        if masked (g w1) then
          if wok then HDone (on_g (fun s => stack_fault STACK_UNDERFLOW (if pop then fpu_pop s else s)) w1) (Some (edx, qnan))
          else HPage w1
        else fin (on_g (stack_fault STACK_UNDERFLOW) w1)
      else
        gload 0 (op_store A int bytes (fun v w =>
          if post_unmasked EXP_ALL (hsw w) (g w)
          then fin (restore (on_g (fun s => set_fstatus (Z.lor (post_sw (hsw w) s) SW_ES) s) w))
          else
            let w2 := restore w in
            if wok then
              HDone (on_g (fun s => let s := set_fstatus (post_sw (hsw w) s) s in if pop then tag_pop s else s) w2) (Some (addr, v))
            else HPage w2)) (set_ctx w1))
  (* [FCOM] (JT 6033-6090) *)
  | HcomSt i pops => guard (checked (stack_fault_fcom (is_tag_empty (g w1) 0) (is_tag_empty (g w1) i) pops (g w1)) w1 (fun w =>
      gload i (gload 0 (op_compp A
        (post EXP_ALL (fun w => fin (restore w)) (fun w => fin (on_g (Nat.iter pops tag_pop) (restore w)))))) (set_ctx w)))
  | HcomMem opc src pops => guard (match src with None => HPage w | Some m =>
      checked (stack_fault_fcom (is_tag_empty (g w1) 0) false pops (g w1)) w1 (fun w =>
        gload 0 (op_comp A (OFloat (if opc =? 0xD8 then 4 else 8) m)
          (post EXP_ALL (fun w => fin (restore w)) (fun w => fin (on_g (Nat.iter pops tag_pop) (restore w))))) (set_ctx w)) end)
  (* [fpu_arithmetic] (JT 4057-4219): registers *)
  | HarithSt o opc i => guard (checked (stack_underflow_reg i 0 false (g w1)) w1 (fun w =>
      checked (stack_underflow_reg 0 0 false (g w)) w (fun w =>
        let dst := if opc =? 0xD8 then 0 else i in
        let first := if opc =? 0xD8 then i else 0 in
        gload first (gload dst (op_st0_st1 A o
          (post EXP_ALL (dummy (dummy (fun w => fin (restore w))))
            (gstore dst (dummy (fun w =>
              let w := on_g (update_tag true dst) (restore w) in
              fin (if opc =? 0xDE then on_g tag_pop w else w))))))) (set_ctx w))))
  (* memory *)
  | HarithMem o opc src => guard (match src with None => HPage w | Some m =>
      checked (stack_underflow_reg 0 0 false (g w1)) w1 (fun w =>
        gload 0 (op_st0_mem A o (mem_operand opc m)
          (post EXP_ALL (dummy (fun w => fin (restore w)))
            (gstore 0 (fun w => fin (on_g (update_tag true 0) (restore w)))))) (set_ctx w)) end)
  (* [FCHS_] (JT 6011-6031): no EM/TS test *)
  | Hchs => unmasked_exp (
      let w0 := on_g (update_ptr E) w in
      checked (stack_underflow_reg 0 0 false (g w0)) w0 (fun w =>
        gload 0 (hpop (fun v => hpush (Z.lxor v (2 ^ 79))
          (gstore 0 (fun w => fin (on_g (update_tag true 0) (restore w))))))
          (set_ctx (on_g clear_c1 w))))
  (* [FSQRT_] (JT 6484-6513) *)
  | Hsqrt => guard (checked (stack_underflow_reg 0 0 false (g w1)) w1 (fun w =>
      gload 0 (op_un A Usqrt
        (post EXP_ALL (dummy (fun w => fin (restore w)))
          (gstore 0 (fun w => fin (on_g (update_tag true 0) (restore w)))))) (set_ctx w)))
  (* [FSIN_] (JT 6409-6441), [FCOS_] (JT 6103-6135): out of range jumps to the end, past
     the store and RESTORE_FPU_CTX *)
  | Htrig u => guard (let w2 := on_g clear_c2 w1 in checked (stack_underflow_reg 0 0 false (g w2)) w2 (fun w =>
      gload 0 (op_un A u
        (post EXP_ALL (dummy (fun w => fin (restore w)))
          (fun w => if nz (Z.land (fstatus (g w)) SW_C2) then fin w
                    else gstore 0 (fun w => fin (on_g (update_tag true 0) (restore w))) w))) (set_ctx w)))
  (* [FSINCOS_] (JT 6443-6482) *)
  | Hsincos => guard (let w2 := on_g clear_c2 w1 in checked (stack_fault_fsincos (g w2)) w2 (fun w =>
      gload 0 (op_sincos A
        (post EXP_ALL (dummy (dummy (fun w => fin (restore w))))
          (fun w => if nz (Z.land (fstatus (g w)) SW_C2) then fin w
                    else op_xch (gstore 0 (fun w => gstore 0 (fun w =>
                           fin (on_g (fun s => update_tag true 1 (update_tag true 0 s)) (restore w))) (on_g fpu_push w))) w)))
        (set_ctx w)))
  (* [FPATAN_] (JT 6376-6407) *)
  | Hpatan => guard (checked (stack_fault_fpatan (g w1)) w1 (fun w =>
      gload 1 (gload 0 (op_patan A
        (post EXP_ALL (dummy (fun w => fin (restore w)))
          (gstore 1 (fun w => fin (on_g tag_pop (restore w))))))) (set_ctx w)))
  (* [FXCH_] (JT 6568-6591) *)
  | Hxch i => guard (checked (stack_fault_fxch i (g w1)) w1 (fun w =>
      gload 0 (gload i (gstore 0 (gstore i (fun w => fin (restore w))))) (set_ctx w)))
  (* FLDCW, FNCLEX, FNINIT, EMMS (JT 6203-6238, 6294-6330, 5890-5908) use no host x87
     instruction *)
  | Hldcw src => guest (fexec E (Fldcw src) s)
  | Hnclex => guest (fexec E Fnclex s)
  | Hninit => guest (fexec E Fninit s)
  | Hemms => guest (fexec E Emms s)
  end.

(** a program: instructions one after the other, each with its translation-time inputs,
    whatever each ends in short of an abort *)
Definition after (o : hout) : option world :=
  match o with HDone w _ | HPage w | HExc _ w => Some w | _ => None end.
Fixpoint hrun (A : arith) (p : list (fenv * hinstr)) (w : world) : option world :=
  match p with
  | [] => Some w
  | (E, i) :: p => match after (hexec A E i w) with Some w => hrun A p w | None => None end
  end.
