(** * What the system instructions should do *)

From Coq Require Import ZArith Bool List.
From Verif Require Import HostModel AluModel AluSpec SysModel SseSpec.
Import ListNotations.
Local Open Scope Z_scope.

(** ** Results *)

(** the next instruction; the end of the block; an exception; a page fault or
    the like on [n] bytes at [a].  Each with the state of the guest. *)
Inductive result :=
| RNext (g : view) | RLeave (g : view) | RExc (vec code : Z) (g : view) | RFault (wr : bool) (a n : Z) (g : view).

(** the same registers, as 32-bit numbers *)
Definition ctx_eq (c c' : gctx) : Prop :=
  (forall r, gprs c r mod 2 ^ 32 = gprs c' r mod 2 ^ 32) /\ eip c mod 2 ^ 32 = eip c' mod 2 ^ 32 /\
  segb c = segb c' /\ gsel c = gsel c' /\ eflags c = eflags c' /\ res c = res c' /\ aux c = aux c' /\ cr4 c = cr4 c'.
(** the state of the guest is [g], and nothing was added to the pending interrupts *)
Definition shows (s s' : hst) (y' : sysst) (g : view) : Prop :=
  ctx_eq (ctx s') (v_ctx g) /\ (forall a, gmem s' a = v_mem g a) /\
  (forall c, cell y' c = cell (v_sys g) c) /\ exc y' = exc (v_sys g) /\ masked s' = masked s.
Definition meets (r : outcome * sysst) (s : hst) (x : result) : Prop :=
  exists s' y', match x with
  | RNext g => r = (Done s', y') /\ shows s s' y' g
  | RLeave g => r = (Left s', y') /\ shows s s' y' g
  | RExc v c g => r = (Raise v c s', y') /\ shows s s' y' g
  | RFault wr a n g => r = (Fault wr a n s', y') /\ shows s s' y' g
  end.

Definition guest_view (s : hst) (y : sysst) : view := mkview (ctx s) (gmem s) y.

(** ** The documented behaviour *)

Definition with_reg (r : greg) (v : Z) (g : view) : view :=
  mkview (set_gprs (fun x => if greg_eqb x r then v else gprs (v_ctx g) x) (v_ctx g)) (v_mem g) (v_sys g).
Definition with_mem (m : Z -> Z) (g : view) : view := mkview (v_ctx g) m (v_sys g).
Definition with_cell (c : scell) (v : Z) (g : view) : view := mkview (v_ctx g) (v_mem g) (set_cell c v (v_sys g)).
Definition at_eip (v : Z) (g : view) : view := mkview (set_eip v (v_ctx g)) (v_mem g) (v_sys g).

Section Spec.
(** privilege level above 0; virtual 8086 mode; protected mode (including virtual
    8086 mode); the address of the next instruction; which accesses fault; what
    the helpers do *)
Variables (u vm pe : bool) (nxt : Z) (fault : bool -> Z -> Z -> bool) (help : helper -> Z -> Z -> view -> view * Z).

Definition gp (g : view) : result := RExc 13 0 g.
Definition ud (g : view) : result := RExc 6 0 g.

(** 16-bit operands: a register or memory *)
Definition with_operand (o : rm) (g : view) (k : Z -> result) : result :=
  match o with
  | RmReg r => k (gprs (v_ctx g) (g_reg r) mod 2 ^ 16)
  | RmMem m =>
      let a := ea m (v_ctx g) in
      if fault false a 2 then RFault false a 2 g else k (value_at 2 (v_mem g) a)
  end.

(** six bytes: a limit and a base *)
Definition load_table (base limit : scell) (op16 : bool) (m : memop) (g : view) : result :=
  let a := ea m (v_ctx g) in let b := (a + 2) mod 2 ^ 32 in
  if fault false a 2 then RFault false a 2 g
  else if fault false b 4 then RFault false b 4 g
  else RNext (with_cell limit (value_at 2 (v_mem g) a)
             (with_cell base (value_at 4 (v_mem g) b mod (if op16 then 2 ^ 24 else 2 ^ 32)) g)).
Definition store_table (base limit : scell) (m : memop) (g : view) : result :=
  let a := ea m (v_ctx g) in let b := (a + 2) mod 2 ^ 32 in
  if fault true a 2 then RFault true a 2 g
  else let m1 := put_at 2 (v_mem g) a (cell (v_sys g) limit) in
    if fault true b 4 then RFault true b 4 (with_mem m1 g)
    else RNext (with_mem (put_at 4 m1 b (cell (v_sys g) base)) g).

(** a selector to a register (zero extended with a 32-bit operand) or to memory *)
Definition store_sel (c : scell) (op16 : bool) (o : rm) (g : view) : result :=
  let v := cell (v_sys g) c mod 2 ^ 16 in
  match o with
  | RmReg r =>
      let old := gprs (v_ctx g) (g_reg r) in
      RNext (with_reg (g_reg r) (if op16 then old - old mod 2 ^ 16 + v else v) g)
  | RmMem m =>
      let a := ea m (v_ctx g) in
      if fault true a 2 then RFault true a 2 g else RNext (with_mem (put_at 2 (v_mem g) a v) g)
  end.

(** helpers that report an exception, and helpers that report a refusal *)
Definition reports (r : view * Z) : result :=
  if snd r mod 2 ^ 32 =? 0 then RNext (fst r) else RExc (fst (exc (v_sys (fst r)))) (snd (exc (v_sys (fst r)))) (fst r).
Definition refuses (r : view * Z) : result :=
  if snd r mod 2 ^ 32 =? 0 then RNext (fst r) else gp (fst r).
Definition then_leave (r : result) : result := match r with RNext g => RLeave (at_eip nxt g) | _ => r end.

(** privileged; not there in real and virtual 8086 mode; user mode
    instruction prevention (CR4 bit 11); CR4.TSD (bit 2) *)
Definition privileged (g : view) (k : result) : result := if u then gp g else k.
Definition protected_only (g : view) (k : result) : result := if pe && negb vm then k else ud g.
Definition prevented (g : view) (k : result) : result := if u && Z.testbit (cr4 (v_ctx g)) 11 then gp g else k.

Definition cr_value (c : creg) (g : view) : Z :=
  match c with
  | CR0 => cell (v_sys g) Cr0 | CR2 => cell (v_sys g) Cr2 | CR3 => cell (v_sys g) Cr3 | CR4 => cr4 (v_ctx g)
  end.

Definition spec_sys (k : sysop) (g : view) : result :=
  match k with
  | LGDT w m => privileged g (load_table GdtBase GdtLimit w m g)
  | LIDT w m => privileged g (load_table IdtBase IdtLimit w m g)
  | SGDT m => prevented g (store_table GdtBase GdtLimit m g)
  | SIDT m => prevented g (store_table IdtBase IdtLimit m g)
  | LLDT o => protected_only g (privileged g (with_operand o g (fun v => reports (help HLldt v 0 g))))
  | LTR o => protected_only g (privileged g (with_operand o g (fun v => reports (help HLtr v 0 g))))
  | SLDT w o => protected_only g (prevented g (store_sel LdtSel w o g))
  | STR w o => protected_only g (prevented g (store_sel TrSel w o g))
  | VERR o => protected_only g (with_operand o g (fun v => RNext (fst (help HVerr v 0 g))))
  | VERW o => protected_only g (with_operand o g (fun v => RNext (fst (help HVerw v 0 g))))
  | LMSW o => privileged g (with_operand o g (fun v =>
      (* PE cannot be cleared *)
      then_leave (RNext (fst (help (HCr 1) (if pe && (v mod 2 =? 0) then v + 1 else v) 0 g)))))
  | CLTS => privileged g (then_leave (RNext (fst (help (HCr 2) 0 0 g))))
  | MOV_from_CR c r => privileged g (RNext (with_reg r (cr_value c g) g))
  | MOV_to_CR c r =>
      let v := gprs (v_ctx g) r mod 2 ^ 32 in
      privileged g
        match c with
        | CR2 => RNext (with_cell Cr2 v g)
        | CR3 => refuses (help (HCr 0) v 3 g)
        | CR0 => then_leave (refuses (help (HCr 0) v 0 g))
        | CR4 => then_leave (refuses (help (HCr 0) v 4 g))
        end
  | RDMSR => privileged g (refuses (help HRdmsr 0 0 g))
  | WRMSR => privileged g (refuses (help HWrmsr 0 0 g))
  | RDTSC => if u && Z.testbit (cr4 (v_ctx g)) 2 then gp g else RNext (fst (help HRdtsc 0 0 g))
  | CPUID => RNext (fst (help HCpuid 0 0 g))
  | INVLPG m => privileged g (RNext (fst (help HInvlpg (ea m (v_ctx g)) 0 g)))
  | WBINVD => privileged g (RNext g)
  | HLT => privileged g (RLeave (fst (help HHlt 0 0 (at_eip nxt g))))
  end.
End Spec.

(** ** What is given *)

(** the operand's segment base flag describes the segment, and 16-bit operands
    are whole registers *)
Definition sys_ok (k : sysop) (c : gctx) : Prop :=
  let ok o := match o with RmReg g => g_high g = false | RmMem m => memop_ok m c end in
  match k with
  | LGDT _ m | LIDT _ m | SGDT m | SIDT m | INVLPG m => memop_ok m c
  | LLDT o | LTR o | SLDT _ o | STR _ o | VERR o | VERW o | LMSW o => ok o
  | _ => True
  end.
