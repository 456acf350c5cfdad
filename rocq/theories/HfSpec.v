(** * What the x87 instructions compute, and with what

    The documented results in terms of the arithmetic of the unit: destination and source
    operand, not host registers. *)

From Coq Require Import ZArith Bool List.
From Verif Require Import FpuModel FpuSpec HfModel.
Import ListNotations.
Local Open Scope Z_scope.

(** FADD: destination + source.  FSUB: destination - source, FSUBR: source - destination,
    and so on *)
Definition documented (A : arith) (o : aop) (cw cc : Z) (dst src : operand) : Z * Z * Z :=
  match o with
  | Fadd => a_bin A Badd cw cc dst src
  | Fmul => a_bin A Bmul cw cc dst src
  | Fsub => a_bin A Bsub cw cc dst src
  | Fdiv => a_bin A Bdiv cw cc dst src
  | Fsubr => a_bin A Bsub cw cc src dst
  | Fdivr => a_bin A Bdiv cw cc src dst
  end.

(** the control word of the computation: the guest's precision and rounding, all
    exceptions masked *)
Definition working_cw (s : fpu) : Z := Z.lor (fctrl s) 0x3F.
Definition synced (s : fpu) : Prop := frp s = working_cw s.

(** what is assumed of the host's FSIN, FCOS and FSINCOS: the exception flags do not
    overlap the condition codes, and an operand out of range raises no exception *)
Definition sane (A : arith) : Prop :=
  (forall u cw cc x, let '(_, e, c) := a_un A u cw cc x in Z.land e SW_C2 = 0) /\
  (forall cw cc x, let '(_, _, e, c) := a_sincos A cw cc x in
     Z.land e SW_C2 = 0 /\ (nz (Z.land c SW_C2) = true -> Z.land (Z.lor e c) 0x3F = 0)).

(** the guest's instruction with the documented function in place of the host *)
Definition sw3 (r : Z * Z * Z) : Z * Z := let '(v, e, c) := r in (v, Z.lor e c).
Definition form (opc : Z) : aform := if opc =? 0xD8 then ToSt0 else if opc =? 0xDE then ToStiPop else ToSti.
Definition doc (A : arith) (cc : Z) (i : hinstr) : finstr :=
  match i with
  | HldConst c => FldConst (fun cw => a_const A c cw)
  | HldMem int b src => FldMem int src (fun m cw => sw3 (a_load A cw cc (if int then OInt b m else OFloat b m)))
  | HldSt i => FldSt i
  | HstSt i pop => FstSt i pop
  | HstMem int b addr edx qnan wok pop => FstMem addr edx qnan wok pop (fun v cw => sw3 (a_store A int b cw cc v))
  | HcomSt i n => FcomSt i n (fun a b cw => let '(e, c) := a_cmp A cw cc (OReg a) (OReg b) in Z.lor e c)
  | HcomMem opc src n => FcomMem src n (fun a m cw => let '(e, c) := a_cmp A cw cc (OReg a) (OFloat (if opc =? 0xD8 then 4 else 8) m) in Z.lor e c)
  | HarithSt o opc i => FarithSt (form opc) i (fun d s cw => sw3 (documented A o cw cc (OReg d) (OReg s)))
  | HarithMem o opc src => FarithMem src (fun d m cw => sw3 (documented A o cw cc (OReg d) (mem_operand opc m)))
  | Hchs => Fchs
  | Hsqrt => Fsqrt (fun x cw => sw3 (a_un A Usqrt cw cc x))
  | Htrig u => Ftrig (fun x cw => sw3 (a_un A u cw cc x))
  | Hsincos => Fsincos (fun x cw => let '(sn, cs, e, c) := a_sincos A cw cc x in (sn, cs, Z.lor e c))
  | Hpatan => Fpatan (fun y x cw => sw3 (a_patan A cw cc y x))
  | Hxch i => Fxch i
  | Hldcw src => Fldcw src
  | Hnclex => Fnclex
  | Hninit => Fninit
  | Hemms => Emms
  end.

(** the host's unit after an instruction of the guest: its control word is the one it had,
    and no guest value is left on its register stack *)
Definition host_kept (w w' : world) : Prop := hcw w' = hcw w /\ (hs w' = [] \/ hs w' = hs w).
(** or it was left running with the guest's control word and a guest value on its stack *)
Definition host_lost (w w' : world) : Prop := hcw w' = frp (g w) /\ exists v, hs w' = [v].

(** the emitted code [o] does what the documented instruction [f] does *)
Definition agrees (w : world) (o : hout) (f : fout) : Prop :=
  match o, f with
  | HDone w' m, FDone s m' ok => g w' = s /\ m = m' /\ if ok then host_kept w w' else host_lost w w'
  | HPage w', FPage s => g w' = s /\ host_kept w w'
  | HExc n w', FExc n' s => n = n' /\ g w' = s /\ host_kept w w'
  | HAbort, FAbort => True
  | _, _ => False
  end.
