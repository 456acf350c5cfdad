(** * Properties of the stack instructions and of the privileged flag instructions *)

From Coq Require Import ZArith Bool List Lia ZifyBool.
From Verif Require Import HostModel AluModel AluSpec StackModel StackSpec SymExec EaProofs AluProofs StackProofs StackProofs2
  StackProofs3 AluProps.
Import ListNotations.
Local Open Scope Z_scope.

(** ** C47: the stack instructions *)

(** PUSH of a register, an immediate or a memory operand: the value is the one
    the operand had before the instruction (so PUSH ESP pushes the old ESP), it
    is stored just below the stack pointer, the stack pointer wraps at the
    width of the stack, and a fault on either access changes nothing. *)
Theorem C47_push : forall E src k s,
  h_rcx (hr s) = P PCtx -> ctx_ok (ctx s) -> stk_ok k (ctx s) -> push_ok src (ctx s) ->
  does E (emit_PUSH src k) s (push_acc src k (ctx s))
    (set_sp k (sp_off k (- k_n k) (ctx s)) (gprs (ctx s)))
    (mstore (gmem s) (k_w k) (slot k (- k_n k) (ctx s)) (push_value src k s)) (flags_now s).
Proof. exact PUSH_ok. Qed.
Print Assumptions C47_push.

(** POP into a register: the stack pointer moves first, so that POP ESP keeps
    the popped value *)
Theorem C47_pop_register : forall E g k s,
  h_rcx (hr s) = P PCtx -> ctx_ok (ctx s) -> stk_ok k (ctx s) ->
  does E (emit_POP (RmReg g) k) s [(false, slot k 0 (ctx s), k_n k)]
    (gput (k_w k) (g_high g) (g_reg g) (mload (gmem s) (k_w k) (slot k 0 (ctx s))) (gprs (popped k (ctx s))))
    (gmem s) (flags_now s).
Proof. exact POP_reg_ok. Qed.
Print Assumptions C47_pop_register.

(** POP into memory.  The architecture computes the address of the destination
    from the incremented stack pointer, i.e. in [popped k (ctx s)].  This holds
    when the address does not depend on ESP. *)
Theorem C47_pop_memory_partial : forall E m k s,
  h_rcx (hr s) = P PCtx -> ctx_ok (ctx s) -> stk_ok k (ctx s) -> memop_ok m (ctx s) ->
  ea m (popped k (ctx s)) = ea m (ctx s) ->
  does E (emit_POP (RmMem m) k) s [(false, slot k 0 (ctx s), k_n k); (true, ea m (popped k (ctx s)), k_n k)]
    (gprs (popped k (ctx s)))
    (mstore (gmem s) (k_w k) (ea m (popped k (ctx s))) (mload (gmem s) (k_w k) (slot k 0 (ctx s)))) (flags_now s).
Proof. intros E m k s H1 H2 H3 H4 H5. rewrite H5. now apply POP_mem_ok. Qed.
Print Assumptions C47_pop_memory_partial.

(** operands that do not name ESP meet that condition *)
Lemma C47_pop_memory_condition : forall m k c,
  match m with
  | MOffs _ _ _ _ => True
  | MRm _ b i _ _ _ _ => b <> Some ESP /\ match i with Some (r, _) => r <> ESP | None => True end
  end -> ea m (popped k c) = ea m c.
Proof.
  intros m k c H. destruct m as [|a32 b i d m1 sg z]; [reflexivity |]. destruct H as [Hb Hi].
  assert (G : forall r, r <> ESP -> gprs (popped k c) r = gprs c r).
  { intros r Hr. unfold popped, set_sp, k_sp, gput, set_gprs; cbn [gprs].
    destruct (k_ss32 k), r; try reflexivity; now elim Hr. }
  unfold ea. destruct b as [b |]; [rewrite G by congruence |]; destruct i as [[r sc] |]; rewrite ?G by assumption; reflexivity.
Qed.

(** With ESP as base the destination is the wrong one: POP [ESP+4] stores over
    the slot that follows the popped one instead of the one after that. *)
Definition k0 : stk := mkstk W32 true true.
Definition pop_esp : memop := MRm true (Some ESP) None (Some 4) true SS true.
Theorem C47_refuted_pop_memory : exists s',
  run env0 (emit_POP (RmMem pop_esp) k0) st0 = Done s' /\
  mload (gmem st0) W32 (slot k0 0 (ctx st0)) <> mload (gmem s') W32 (ea pop_esp (popped k0 (ctx st0))).
Proof.
  assert (match run env0 (emit_POP (RmMem pop_esp) k0) st0 with
          | Done s' => negb (mload (gmem st0) W32 (slot k0 0 (ctx st0)) =? mload (gmem s') W32 (ea pop_esp (popped k0 (ctx st0))))
          | _ => false end = true) as H by (vm_compute; reflexivity).
  destruct (run env0 (emit_POP (RmMem pop_esp) k0) st0) as [s' | | | | |]; try discriminate.
  exists s'. split; [reflexivity | lia].
Qed.
Print Assumptions C47_refuted_pop_memory.

(** LEAVE, as far as it completes *)
Theorem C47_leave_partial : forall E k s,
  h_rcx (hr s) = P PCtx -> ctx_ok (ctx s) -> stk_ok k (ctx s) ->
  e_fault E false (slot k 0 (leave_ctx k (ctx s))) (k_n k) = false ->
  exists s', run E (emit_leave k) s = Done s' /\
    becomes s s' (gput (k_w k) false EBP (mload (gmem s) (k_w k) (slot k 0 (leave_ctx k (ctx s))))
                    (gprs (popped k (leave_ctx k (ctx s))))) (gmem s) (flags_now s).
Proof.
  intros E k s H1 H2 H3 H4. pose proof (LEAVE_ok E k s H1 H2 H3) as L. cbv zeta in L. now rewrite H4 in L.
Qed.
Print Assumptions C47_leave_partial.

(** ... but a LEAVE whose access faults has already moved the stack pointer *)
Definition st_bp : hst :=
  mkst (hr st0) (hf st0) (set_gprs (gput W32 false EBP 0x5000 (gprs ctx0)) ctx0) (gmem st0) (loc st0) 0 false.
Theorem C47_refuted_leave_fault : exists s',
  run env0 (emit_leave k0) st_bp = Fault false 0x5000 4 s' /\ gprs (ctx s') ESP <> gprs (ctx st_bp) ESP.
Proof.
  assert (match run env0 (emit_leave k0) st_bp with
          | Fault false a n s' => (a =? 0x5000) && (n =? 4) && negb (gprs (ctx s') ESP =? gprs (ctx st_bp) ESP)
          | _ => false end = true) as H by (vm_compute; reflexivity).
  destruct (run env0 (emit_leave k0) st_bp) as [| | | [|] a n s' | |]; try discriminate.
  exists s'. replace a with 0x5000 by lia. replace n with 4 by lia. split; [reflexivity | lia].
Qed.
Print Assumptions C47_refuted_leave_fault.

(** PUSHA stores the eight registers as they were, ESP included; a fault leaves
    every register as it was (slots below the stack pointer may have been
    written, so that executing the instruction again has the full effect) *)
Theorem C47_pusha : forall E k s,
  h_rcx (hr s) = P PCtx -> ctx_ok (ctx s) -> stk_ok k (ctx s) ->
  match first_bad E (pusha_acc k [EAX; ECX; EDX; EBX; ESP; EBP; ESI; EDI] 0 (ctx s)) with
  | Some (wr, a, n) => exists s', run E (emit_pusha k) s = Fault wr a n s' /\ ctx s' = ctx s /\ masked s' = masked s
  | None => exists s', run E (emit_pusha k) s = Done s' /\
      becomes s s' (set_sp k (sp_off k (-8 * k_n k) (ctx s)) (gprs (ctx s)))
        (pusha_mem k [EAX; ECX; EDX; EBX; ESP; EBP; ESI; EDI] 0 (ctx s) (gmem s)) (flags_now s)
  end.
Proof. exact PUSHA_ok. Qed.
Print Assumptions C47_pusha.

(** POPA restores seven registers and skips the image of ESP; a fault leaves
    ESP, memory and flags alone, so that the instruction can be restarted *)
Theorem C47_popa : forall E k s,
  h_rcx (hr s) = P PCtx -> ctx_ok (ctx s) -> stk_ok k (ctx s) ->
  match first_bad E (popa_acc k (ctx s)) with
  | Some (wr, a, n) => exists s', run E (emit_popa k) s = Fault wr a n s' /\ only_regs s s'
  | None => exists s', run E (emit_popa k) s = Done s' /\ becomes s s' (popa_regs k s) (gmem s) (flags_now s)
  end.
Proof. exact POPA_ok. Qed.
Print Assumptions C47_popa.

Example C47_example :
  stk_ok k0 (ctx st0) /\ stk_ok (mkstk W16 false false) (ctx st0) /\
  slot k0 (-4) (ctx st0) = 0x7FFC /\ push_ok (PsRm (RmMem mop0)) (ctx st0) /\
  push_acc (PsRm (RmMem mop0)) k0 (ctx st0) = [(false, 0x4010, 4); (true, 0x7FFC, 4)] /\
  first_bad env0 (push_acc (PsRm (RmMem mop0)) k0 (ctx st0)) = None /\
  first_bad env0 (popa_acc k0 (ctx st0)) = None /\
  first_bad env0 (pusha_acc k0 pusha_regs 0 (ctx st0)) = None /\
  ea mop0 (popped k0 (ctx st0)) = ea mop0 (ctx st0) /\
  e_fault env0 false (slot k0 0 (leave_ctx k0 (ctx st0))) 4 = false.
Proof. repeat split; auto; discriminate. Qed.

(** ** C48: PUSHF and POPF *)

Theorem C48_pushf : forall E f k s,
  h_rcx (hr s) = P PCtx -> ctx_ok (ctx s) -> stk_ok k (ctx s) -> fm_vm86 f && (fm_iopl f <? 3) = false ->
  does E (emit_pushf f k) s [(true, slot k (- k_n k) (ctx s), k_n k)]
    (set_sp k (sp_off k (- k_n k) (ctx s)) (gprs (ctx s)))
    (mstore (gmem s) (k_w k) (slot k (- k_n k) (ctx s)) (pushed_flags (k_w k) (ctx s))) (flags_now s).
Proof. exact PUSHF_ok. Qed.
Print Assumptions C48_pushf.

(** POPF changes exactly the flags the privilege level allows *)
Theorem C48_popf : forall E f k nxt s,
  h_rcx (hr s) = P PCtx -> ctx_ok (ctx s) -> stk_ok k (ctx s) ->
  0 <= fm_cpl f -> 0 <= fm_iopl f -> (fm_vm86 f = true -> fm_cpl f = 3 /\ fm_iopl f = 3) ->
  if e_fault E false (slot k 0 (ctx s)) (k_n k)
  then exists s', run E (emit_popf f k nxt) s = Fault false (slot k 0 (ctx s)) (k_n k) s' /\ untouched s s'
  else exists s', run E (emit_popf f k nxt) s = Left s' /\ popf_done f k nxt s s'.
Proof. exact POPF_ok. Qed.
Print Assumptions C48_popf.

(** what that means for the protected flags: outside ring 0 POPF cannot change
    IOPL, VM or RF, and cannot change IF when CPL > IOPL *)
Theorem C48_popf_privilege : forall f k nxt s s',
  popf_done f k nxt s s' -> k_w k = W16 \/ k_w k = W32 -> forall i, 0 <= i < 32 ->
  (fm_cpl f <> 0 /\ (i = 12 \/ i = 13)) \/ i = 16 \/ i = 17 \/ i = 19 \/ i = 20 \/ (fm_cpl f > fm_iopl f /\ i = 9) ->
  Z.testbit (read_eflags (ctx s')) i = Z.testbit (read_eflags (ctx s)) i.
Proof.
  intros f k nxt s s' H Hw i Hi Hc. destruct H as (_ & H & _). rewrite H.
  rewrite !Z.lor_spec, !Z.land_spec, LazyFlagsProofs.w32_bit, Z.lnot_spec by lia.
  assert (M : Z.testbit (popf_mask f (k_w k)) i = false /\ Z.testbit 2 i = false).
  { unfold popf_mask. destruct Hc as [[C [-> | ->]] | [-> | [-> | [-> | [-> | [C ->]]]]]].
    1,2: replace (fm_cpl f =? 0) with false by lia; cbn [andb];
         destruct (fm_cpl f <=? fm_iopl f); destruct Hw as [-> | ->]; split; reflexivity.
    1-4: destruct ((fm_cpl f =? 0) && negb (fm_vm86 f)), (fm_cpl f <=? fm_iopl f); destruct Hw as [-> | ->]; split; reflexivity.
    replace (fm_cpl f <=? fm_iopl f) with false by lia.
    destruct ((fm_cpl f =? 0) && negb (fm_vm86 f)); destruct Hw as [-> | ->]; split; reflexivity. }
  destruct M as [-> ->]. now rewrite !andb_false_r, !orb_false_r, andb_true_r.
Qed.
Print Assumptions C48_popf_privilege.

(** in virtual-8086 mode with IOPL < 3 and no mode extensions (or a 32-bit
    operand) both are trapped *)
Theorem C48_trapped : forall E f k nxt s,
  h_rcx (hr s) = P PCtx -> (k_w k = W16 \/ k_w k = W32) ->
  fm_vm86 f = true -> fm_iopl f < 3 -> (k_w k = W32 \/ fm_vme f = false) ->
  gp_fault E (emit_pushf f k) s /\ gp_fault E (emit_popf f k nxt) s.
Proof. intros. split; [now apply PUSHF_trap | now apply POPF_trap]. Qed.
Print Assumptions C48_trapped.

(** With the mode extensions on, a 16-bit POPF whose image has IF and TF clear
    must not fault.  It does when the processor's own IF is set while VIP is. *)
Definition fm_v : fmode := mkfm true 0 3 true false true.
Definition st_vip : hst :=
  mkst (hr st0) (hf st0) (mkg (gprs ctx0) (segb ctx0) 0x120202 0x100 0x100 0 0 (gsel ctx0)) (fun _ => 0) (loc st0) 0 false.
Theorem C48_refuted_vme_popf : exists s',
  mload (gmem st_vip) W16 (slot (mkstk W16 false true) 0 (ctx st_vip)) = 0 /\
  run env0 (emit_popf fm_v (mkstk W16 false true) 0x101) st_vip = Raise 13 0 s'.
Proof.
  assert (match run env0 (emit_popf fm_v (mkstk W16 false true) 0x101) st_vip with
          | Raise v c s' => (v =? 13) && (c =? 0) | _ => false end = true) as H by (vm_compute; reflexivity).
  destruct (run env0 (emit_popf fm_v (mkstk W16 false true) 0x101) st_vip) as [| | | | v c s' |]; try discriminate.
  exists s'. replace v with 13 by lia. replace c with 0 by lia. split; reflexivity.
Qed.
Print Assumptions C48_refuted_vme_popf.

Example C48_example :
  let f := mkfm false 0 3 false false true in
  popf_mask f W32 = 0x244DD5 /\ pushed_flags W32 (ctx st0) = 0x206 /\
  e_fault env0 false (slot k0 0 (ctx st0)) 4 = false /\
  fm_vm86 f && (fm_iopl f <? 3) = false /\ 0 <= fm_cpl f /\ 0 <= fm_iopl f.
Proof. repeat split; discriminate. Qed.

(** ** C49: CLI and STI *)

(** the interrupt flag changes only in real mode or when CPL <= IOPL *)
Theorem C49_cli : forall E f s, h_rcx (hr s) = P PCtx -> ctx_ok (ctx s) ->
  if negb (fm_pe f) || (fm_cpl f <=? fm_iopl f) then
    exists s', run E (emit_cli f) s = Done s' /\ flag_set_to 9 false s s' (masked s)
  else if fm_vme f || fm_pvi f then
    exists s', run E (emit_cli f) s = Done s' /\ flag_set_to 19 false s s' (masked s)
  else gp_fault E (emit_cli f) s.
Proof. exact CLI_ok. Qed.
Print Assumptions C49_cli.

(** STI: also, interrupts stay blocked for one more instruction exactly when
    they were disabled before *)
Theorem C49_sti : forall E f s, h_rcx (hr s) = P PCtx -> ctx_ok (ctx s) ->
  let shadow := masked s || negb (Z.testbit (eflags (ctx s)) 9) in
  if negb (fm_pe f) || (fm_cpl f <=? fm_iopl f) then
    exists s', run E (emit_sti f) s = Done s' /\ flag_set_to 9 true s s' shadow
  else if fm_vme f || fm_pvi f then
    if Z.testbit (eflags (ctx s)) 20 then gp_fault E (emit_sti f) s
    else exists s', run E (emit_sti f) s = Done s' /\ flag_set_to 19 true s s' shadow
  else gp_fault E (emit_sti f) s.
Proof. exact STI_ok. Qed.
Print Assumptions C49_sti.

(** The virtual interrupt flag belongs to virtual-8086 mode with CR4.VME and to
    ring 3 with CR4.PVI; anywhere else the instruction must raise #GP. *)
Definition vif_allowed (f : fmode) : bool :=
  (fm_vm86 f && fm_vme f) || (negb (fm_vm86 f) && fm_pvi f && (fm_cpl f =? 3)).

(** so for these modes CLI and STI do what the architecture says *)
Theorem C49_virtual_partial : forall E f s, h_rcx (hr s) = P PCtx -> ctx_ok (ctx s) ->
  fm_pe f = true -> fm_cpl f > fm_iopl f -> (fm_vme f || fm_pvi f) = vif_allowed f ->
  (if vif_allowed f then exists s', run E (emit_cli f) s = Done s' /\ flag_set_to 19 false s s' (masked s)
   else gp_fault E (emit_cli f) s) /\
  (if vif_allowed f && negb (Z.testbit (eflags (ctx s)) 20)
   then exists s', run E (emit_sti f) s = Done s' /\
          flag_set_to 19 true s s' (masked s || negb (Z.testbit (eflags (ctx s)) 9))
   else gp_fault E (emit_sti f) s).
Proof.
  intros E f s H1 H2 H3 H4 H5. pose proof (CLI_ok E f s H1 H2) as C. pose proof (STI_ok E f s H1 H2) as S. cbv zeta in S.
  rewrite H3, H5 in *. replace (fm_cpl f <=? fm_iopl f) with false in * by lia. cbn [negb orb] in *.
  split; [exact C |]. destruct (vif_allowed f); [| exact S].
  destruct (Z.testbit (eflags (ctx s)) 20); exact S.
Qed.
Print Assumptions C49_virtual_partial.

(** A ring 3 program in protected mode with only CR4.VME set executes CLI
    without the fault that is due. *)
Theorem C49_refuted_missing_fault :
  let f := mkfm false 0 3 true false true in
  vif_allowed f = false /\ exists s', run env0 (emit_cli f) st0 = Done s' /\ flag_set_to 19 false st0 s' false.
Proof. split; [reflexivity |]. exact (CLI_ok env0 (mkfm false 0 3 true false true) st0 st0_rcx st0_ok). Qed.
Print Assumptions C49_refuted_missing_fault.

Example C49_example :
  let f := mkfm false 0 3 false true true in
  vif_allowed f = true /\ (fm_vme f || fm_pvi f) = vif_allowed f /\ fm_cpl f > fm_iopl f.
Proof. repeat split. Qed.
