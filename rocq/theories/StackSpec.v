(** * What the stack and privileged flag instructions should do *)

From Coq Require Import ZArith Bool List.
From Verif Require Import HostModel AluModel AluSpec StackModel.
Import ListNotations.
Local Open Scope Z_scope.

(** the stack pointer [d] bytes away, wrapping at the width of the stack *)
Definition sp_off (k : stk) (d : Z) (c : gctx) : Z :=
  (gprs c ESP + d) mod (if k_ss32 k then 2 ^ 32 else 2 ^ 16).
(** its linear address *)
Definition slot (k : stk) (d : Z) (c : gctx) : Z := (segb c SS + sp_off k d c) mod 2 ^ 32.
(** registers with the (low part of the) stack pointer replaced *)
Definition set_sp (k : stk) (v : Z) (g : greg -> Z) : greg -> Z := gput (k_sp k) false ESP v g.

(** translation-time facts that hold when the block runs *)
Definition stk_ok (k : stk) (c : gctx) : Prop :=
  (k_w k = W16 \/ k_w k = W32) /\ (k_zero k = true -> segb c SS = 0).

(** an instruction makes these accesses (write?, address, size) in this order;
    the first one that faults is reported and nothing has changed; if none
    faults the instruction has the given effect *)
Fixpoint first_bad (E : henv) (acc : list (bool * Z * Z)) : option (bool * Z * Z) :=
  match acc with
  | [] => None
  | (wr, a, n) :: tl => if e_fault E wr a n then Some (wr, a, n) else first_bad E tl
  end.

Definition does (E : henv) (l : list instr) (s : hst) (acc : list (bool * Z * Z))
    (regs : greg -> Z) (mem : Z -> Z) (fl : aflags) : Prop :=
  match first_bad E acc with
  | Some (wr, a, n) => exists s', run E l s = Fault wr a n s' /\ untouched s s'
  | None => exists s', run E l s = Done s' /\ becomes s s' regs mem fl
  end.

Definition rm_acc (wr : bool) (w : width) (o : rm) (c : gctx) : list (bool * Z * Z) :=
  match o with RmReg _ => [] | RmMem m => [(wr, ea m c, wbytes w)] end.

(** the value a PUSH pushes *)
Definition push_value (src : pushsrc) (k : stk) (s : hst) : Z :=
  match src with
  | PsReg r => gget (k_w k) false r (gprs (ctx s))
  | PsImm v => v mod modulus (k_w k)
  | PsImm8 v => signed W8 (v mod 256) mod modulus (k_w k)
  | PsRm o => read_rm (k_w k) o s
  end.
Definition push_acc (src : pushsrc) (k : stk) (c : gctx) : list (bool * Z * Z) :=
  match src with PsRm o => rm_acc false (k_w k) o c | _ => [] end
  ++ [(true, slot k (- k_n k) c, k_n k)].
Definition push_ok (src : pushsrc) (c : gctx) : Prop :=
  match src with PsRm o => rm_ok o c | _ => True end.

(** the state after popping: what the address of a memory destination of POP
    is computed from *)
Definition popped (k : stk) (c : gctx) : gctx :=
  set_gprs (set_sp k (sp_off k (k_n k) c) (gprs c)) c.

(** PUSHA: eight slots going down, with the registers as they were *)
Fixpoint pusha_mem (k : stk) (l : list greg) (d : Z) (c : gctx) (m : Z -> Z) : Z -> Z :=
  match l with
  | [] => m
  | r :: tl => pusha_mem k tl (d - k_n k) c
                 (mstore m (k_w k) (slot k (d - k_n k) c) (gget (k_w k) false r (gprs c)))
  end.
Fixpoint pusha_acc (k : stk) (l : list greg) (d : Z) (c : gctx) : list (bool * Z * Z) :=
  match l with
  | [] => []
  | r :: tl => (true, slot k (d - k_n k) c, k_n k) :: pusha_acc k tl (d - k_n k) c
  end.

(** POPA: slots going up, ESP's image is skipped *)
Definition popa_regs (k : stk) (s : hst) : greg -> Z :=
  let at_ i := mload (gmem s) (k_w k) (slot k (i * k_n k) (ctx s)) in
  let put r i g := gput (k_w k) false r (at_ i) g in
  set_sp k (sp_off k (8 * k_n k) (ctx s))
    (put EAX 7 (put ECX 6 (put EDX 5 (put EBX 4 (put EBP 2 (put ESI 1 (put EDI 0 (gprs (ctx s))))))))).
Definition popa_acc (k : stk) (c : gctx) : list (bool * Z * Z) :=
  map (fun i => (false, slot k (i * k_n k) c, k_n k)) [0; 1; 2; 4; 5; 6; 7].

(** ** The flags register *)

(** the IOPL of the block is the current one *)
Definition fmode_ok (f : fmode) (c : gctx) : Prop :=
  fm_iopl f = Z.land (Z.shiftr (eflags c) 12) 3 /\ 0 <= fm_cpl f <= 3.

(** EFLAGS as PUSHF stores it: VM and RF read as zero *)
Definition pushed_flags (w : width) (c : gctx) : Z :=
  match w with W32 => Z.land (read_eflags c) 0xFCFFFF | _ => Z.land (read_eflags c) 0xFFFF end.

(** the bits a POPF may change: status, TF, DF, NT always; IOPL in ring 0; IF
    when CPL <= IOPL; ID and AC with a 32-bit operand *)
Definition popf_mask (f : fmode) (w : width) : Z :=
  Z.lor (Z.lor STATUS 0x4500)
   (Z.lor (if (fm_cpl f =? 0) && negb (fm_vm86 f) then 0x3000 else 0)
    (Z.lor (if (fm_cpl f <=? fm_iopl f) then 0x200 else 0)
           (match w with W32 => 0x240000 | _ => 0 end))).

(** POPF where the privilege level decides (not virtual-8086 with IOPL < 3) *)
Definition popf_done (f : fmode) (k : stk) (nxt : Z) (s s' : hst) : Prop :=
  let v := mload (gmem s) (k_w k) (slot k 0 (ctx s)) in
  let M := popf_mask f (k_w k) in
  ctx_ok (ctx s') /\
  read_eflags (ctx s') = Z.lor (Z.lor (Z.land (read_eflags (ctx s)) (w32 (Z.lnot M))) (Z.land v M)) 2 /\
  gprs (ctx s') = set_sp k (sp_off k (k_n k) (ctx s)) (gprs (ctx s)) /\
  w32 (eip (ctx s')) = w32 nxt /\ segb (ctx s') = segb (ctx s) /\ cr4 (ctx s') = cr4 (ctx s) /\
  gsel (ctx s') = gsel (ctx s) /\ gmem s' = gmem s /\ masked s' = masked s.

(** only bit [n] of EFLAGS changed *)
Definition flag_set_to (n : Z) (b : bool) (s s' : hst) (masks : bool) : Prop :=
  h_rcx (hr s') = P PCtx /\ gmem s' = gmem s /\ masked s' = masks /\
  gprs (ctx s') = gprs (ctx s) /\ segb (ctx s') = segb (ctx s) /\ cr4 (ctx s') = cr4 (ctx s) /\ gsel (ctx s') = gsel (ctx s) /\ eip (ctx s') = eip (ctx s) /\
  ctx_ok (ctx s') /\
  read_eflags (ctx s') = if b then Z.lor (read_eflags (ctx s)) (2 ^ n) else Z.land (read_eflags (ctx s)) (w32 (Z.lnot (2 ^ n))).

(** ESP := EBP *)
Definition leave_ctx (k : stk) (c : gctx) : gctx :=
  set_gprs (set_sp k (gget (k_sp k) false EBP (gprs c)) (gprs c)) c.

(** what a fault in the middle leaves: memory, flags and ESP as they were *)
Definition only_regs (s s' : hst) : Prop :=
  gmem s' = gmem s /\ masked s' = masked s /\
  exists g, ctx s' = set_gprs g (ctx s) /\ g ESP = gprs (ctx s) ESP.

Definition gp_fault (E : henv) (l : list instr) (s : hst) : Prop :=
  exists s', run E l s = Raise 13 0 s' /\ untouched s s'.
