(** * Properties of data moves, near and real-mode far transfers, ENTER and ARPL *)

From Coq Require Import ZArith Bool List Lia ZifyBool.
From Verif Require Import HostModel AluModel AluSpec StackModel StackSpec MoveModel MoveSpec SymExec EaProofs AluProofs XchgProofs
  AluForms FlagArith StackProofs CondProofs MoveProofs MoveProofs2 MoveProofs3 MoveProofs4 MoveRound EnterProofs ArplProofs AluProps StackProps.
Import ListNotations.
Local Open Scope Z_scope.

(** ** C65: data moves *)

(** MOV between registers, memory and immediates, of 8, 16 or 32 bits: the
    destination gets the value of the source, nothing else changes, flags
    included; one access is made; a fault changes nothing *)
Theorem C65_mov : forall E f w s,
  arith_w w -> h_rcx (hr s) = P PCtx -> ctx_ok (ctx s) -> mov_ok f (ctx s) ->
  does E (emit_mov f w) s (mov_acc f w (ctx s)) (regs_after w (mov_dst f) (mov_value f w s) s)
    (mem_after w (mov_dst f) (mov_value f w s) s) (flags_now s).
Proof. exact mov_ok_all. Qed.
Print Assumptions C65_mov.

(** LEA: the offset, without the segment base, cut to the operand size; no
    memory access, so no fault *)
Theorem C65_lea : forall E w dst m s,
  w = W16 \/ w = W32 -> h_rcx (hr s) = P PCtx -> ctx_ok (ctx s) -> scale_ok m ->
  does E (emit_lea w dst m) s [] (regs_after w (RmReg dst) (offset m (ctx s) mod modulus w) s) (gmem s) (flags_now s).
Proof. exact lea_ok. Qed.
Print Assumptions C65_lea.

(** MOV r/m, Sreg: two bytes to memory, zero-extended to a 32-bit register *)
Theorem C65_mov_from_segment_partial : forall E dst r s,
  h_rcx (hr s) = P PCtx -> ctx_ok (ctx s) -> rm_ok dst (ctx s) ->
  does E (emit_mov_from_sreg dst r) s (rm_acc true W16 dst (ctx s))
    (match dst with RmReg g => gput W32 false (g_reg g) (selector (ctx s) r) (gprs (ctx s)) | RmMem _ => gprs (ctx s) end)
    (mem_after W16 dst (selector (ctx s) r) s) (flags_now s).
Proof. exact mov_from_sreg_ok. Qed.
Print Assumptions C65_mov_from_segment_partial.

(** ... but the 16-bit form, which is the same host code, destroys the upper half
    of the register: MOV AX, DS with EAX = 7FFFFFFF leaves EAX = 00000100 *)
Theorem C65_refuted_mov_r16_segment : exists s',
  run env0 (emit_mov_from_sreg (RmReg (mkgop false EAX)) DS) st0 = Done s' /\
  gprs (ctx s') EAX <> gput W16 false EAX (selector (ctx st0) DS) (gprs (ctx st0)) EAX.
Proof.
  assert (match run env0 (emit_mov_from_sreg (RmReg (mkgop false EAX)) DS) st0 with
          | Done s' => negb (gprs (ctx s') EAX =? gput W16 false EAX (selector (ctx st0) DS) (gprs (ctx st0)) EAX)
          | _ => false end = true) as H by (vm_compute; reflexivity).
  destruct (run env0 (emit_mov_from_sreg (RmReg (mkgop false EAX)) DS) st0) as [s' | | | | |]; try discriminate.
  exists s'. split; [reflexivity | lia].
Qed.
Print Assumptions C65_refuted_mov_r16_segment.

(** MOV Sreg, r/m outside protected mode: base and selector follow, SS opens an
    interrupt shadow.  The 32-bit form is covered with a register source. *)
Theorem C65_mov_to_segment_partial : forall E r src w nxt s,
  h_rcx (hr s) = P PCtx -> ctx_ok (ctx s) -> rm_ok src (ctx s) -> (w = W16 \/ w = W32) ->
  (w = W32 -> exists g, src = RmReg g) ->
  transfers E (emit_mov_to_sreg r src w nxt) s (rm_acc false W16 src (ctx s))
    (loads s r (read_rm W16 src s) (gprs (ctx s)) nxt (match r with SS => true | _ => false end)).
Proof. exact mov_to_sreg_ok. Qed.
Print Assumptions C65_mov_to_segment_partial.

(** ... with a 32-bit operand size and a memory source four bytes are read, which
    faults when the selector is the last word of its page *)
Definition env_end : henv := mkenv (fun _ => 0x1000) (fun _ _ => 0xDEAD) (fun _ => 7) (fun _ a n => 0x5000 <? a + n).
Definition end_op : memop := MOffs true 0x4FFE SS true.
Theorem C65_refuted_mov_segment_m16 : exists s',
  e_fault env_end false (ea end_op (ctx st0)) 2 = false /\
  run env_end (emit_mov_to_sreg DS (RmMem end_op) W32 0x102) st0 = Fault false (ea end_op (ctx st0)) 4 s'.
Proof.
  assert (match run env_end (emit_mov_to_sreg DS (RmMem end_op) W32 0x102) st0 with
          | Fault false a n s' => (a =? ea end_op (ctx st0)) && (n =? 4) | _ => false end = true) as H by (vm_compute; reflexivity).
  destruct (run env_end (emit_mov_to_sreg DS (RmMem end_op) W32 0x102) st0) as [| | | [|] a n s' | |]; try discriminate.
  exists s'. replace a with (ea end_op (ctx st0)) by lia. replace n with 4 by lia. split; reflexivity.
Qed.
Print Assumptions C65_refuted_mov_segment_m16.

(** PUSH Sreg, zero-extended to the operand size, and POP Sreg outside protected mode *)
Theorem C65_push_segment : forall E r k s,
  h_rcx (hr s) = P PCtx -> ctx_ok (ctx s) -> stk_ok k (ctx s) ->
  does E (emit_push_sreg r k) s [(true, slot k (- k_n k) (ctx s), k_n k)]
    (moved k (- k_n k) (ctx s)) (mstore (gmem s) (k_w k) (slot k (- k_n k) (ctx s)) (selector (ctx s) r)) (flags_now s).
Proof. exact push_sreg_ok. Qed.
Print Assumptions C65_push_segment.

Theorem C65_pop_segment : forall E r k nxt s,
  h_rcx (hr s) = P PCtx -> ctx_ok (ctx s) -> stk_ok k (ctx s) ->
  transfers E (emit_pop_sreg r k nxt) s [(false, slot k 0 (ctx s), k_n k)]
    (loads s r (top_of k 0 s mod 2 ^ 16) (moved k (k_n k) (ctx s)) nxt (match r with SS => true | _ => false end)).
Proof. exact pop_sreg_ok. Qed.
Print Assumptions C65_pop_segment.

(** LDS, LES, LFS, LGS, LSS outside protected mode *)
Theorem C65_load_far_pointer : forall E r dst m w nxt s,
  h_rcx (hr s) = P PCtx -> ctx_ok (ctx s) -> memop_ok m (ctx s) -> (w = W16 \/ w = W32) ->
  let a := ea m (ctx s) in
  transfers E (emit_lxs r dst m w nxt) s (far_acc w a)
    (loads s r (far_sel w a s) (regs_after w (RmReg dst) (far_off w a s) s) nxt false).
Proof. exact lxs_ok. Qed.
Print Assumptions C65_load_far_pointer.

Example C65_example :
  mov_ok (MvStore (RmMem mop0) (mkgop true EAX)) (ctx st0) /\ mov_value (MvStore (RmMem mop0) (mkgop true EAX)) W8 st0 = 0xFF /\
  mov_acc (MvStore (RmMem mop0) (mkgop true EAX)) W8 (ctx st0) = [(true, 0x4010, 1)] /\
  scale_ok (MRm true (Some EBX) (Some (ECX, 3)) (Some 0x10) true DS false) /\
  offset (MRm true (Some EBX) (Some (ECX, 3)) (Some 0x10) true DS false) (ctx st0) = 0x3018 /\
  selector (ctx st0) DS = 0x100 /\ memop_ok mop0 (ctx st0) /\
  first_bad env0 (far_acc W16 (ea mop0 (ctx st0))) = None /\
  far_acc W16 (ea mop0 (ctx st0)) = [(false, 0x4010, 2); (false, 0x4012, 2)].
Proof. repeat split; auto; try discriminate; lia. Qed.

(** ** C66: near transfers and far transfers outside protected mode *)

Definition is16 (w : width) : bool := match w with W16 => true | _ => false end.

Theorem C66_jmp_relative : forall E w nxt disp s,
  h_rcx (hr s) = P PCtx -> ctx_ok (ctx s) -> w = W16 \/ w = W32 ->
  transfers E (emit_jmp_rel w nxt disp) s [] (near s (gprs (ctx s)) (gmem s) (branch_target (is16 w) nxt disp)).
Proof. exact jmp_rel_ok. Qed.
Print Assumptions C66_jmp_relative.

Theorem C66_jmp_indirect : forall E o w s,
  h_rcx (hr s) = P PCtx -> ctx_ok (ctx s) -> rm_ok o (ctx s) -> w = W16 \/ w = W32 ->
  transfers E (emit_jmp_rm o w) s (rm_acc false w o (ctx s)) (near s (gprs (ctx s)) (gmem s) (read_rm w o s)).
Proof. exact jmp_rm_ok. Qed.
Print Assumptions C66_jmp_indirect.

Theorem C66_call_relative : forall E k ret disp s,
  h_rcx (hr s) = P PCtx -> ctx_ok (ctx s) -> stk_ok k (ctx s) ->
  transfers E (emit_call_rel k ret disp) s [(true, slot k (- k_n k) (ctx s), k_n k)]
    (near s (moved k (- k_n k) (ctx s))
       (mstore (gmem s) (k_w k) (slot k (- k_n k) (ctx s)) (ret mod modulus (k_w k)))
       (branch_target (is16 (k_w k)) ret disp)).
Proof. exact call_rel_ok. Qed.
Print Assumptions C66_call_relative.

(** the target is read before the return address is pushed *)
Theorem C66_call_indirect : forall E o k ret s,
  h_rcx (hr s) = P PCtx -> ctx_ok (ctx s) -> stk_ok k (ctx s) -> rm_ok o (ctx s) ->
  transfers E (emit_call_rm o k ret) s (rm_acc false (k_w k) o (ctx s) ++ [(true, slot k (- k_n k) (ctx s), k_n k)])
    (near s (moved k (- k_n k) (ctx s))
       (mstore (gmem s) (k_w k) (slot k (- k_n k) (ctx s)) (ret mod modulus (k_w k))) (read_rm (k_w k) o s)).
Proof. exact call_rm_ok. Qed.
Print Assumptions C66_call_indirect.

Theorem C66_ret : forall E k imm s,
  h_rcx (hr s) = P PCtx -> ctx_ok (ctx s) -> stk_ok k (ctx s) ->
  transfers E (emit_ret k imm) s [(false, slot k 0 (ctx s), k_n k)]
    (near s (moved k (k_n k + released imm) (ctx s)) (gmem s) (top_of k 0 s)).
Proof. exact ret_ok. Qed.
Print Assumptions C66_ret.

Theorem C66_jmp_far : forall E w sel off s,
  h_rcx (hr s) = P PCtx -> ctx_ok (ctx s) -> w = W16 \/ w = W32 ->
  transfers E (emit_jmpf w sel off) s [] (far s (gprs (ctx s)) (gmem s) (sel mod 2 ^ 16) (off mod modulus w)).
Proof. exact jmpf_ok. Qed.
Print Assumptions C66_jmp_far.

Theorem C66_jmp_far_indirect : forall E m w s,
  h_rcx (hr s) = P PCtx -> ctx_ok (ctx s) -> memop_ok m (ctx s) -> w = W16 \/ w = W32 ->
  let a := ea m (ctx s) in
  transfers E (emit_jmpf_m m w) s (far_acc w a) (far s (gprs (ctx s)) (gmem s) (far_sel w a s) (far_off w a s)).
Proof. exact jmpf_m_ok. Qed.
Print Assumptions C66_jmp_far_indirect.

Theorem C66_retf : forall E k imm s,
  h_rcx (hr s) = P PCtx -> ctx_ok (ctx s) -> stk_ok k (ctx s) ->
  transfers E (emit_retf k imm) s [(false, slot k 0 (ctx s), k_n k); (false, slot k (k_n k) (ctx s), k_n k)]
    (far s (moved k (2 * k_n k + released imm) (ctx s)) (gmem s) (top_of k (k_n k) s mod 2 ^ 16) (top_of k 0 s)).
Proof. exact retf_ok. Qed.
Print Assumptions C66_retf.

(** far CALL: exact when the selector at translation time is still the current
    one and the second push does not fault after the first has been made *)
Theorem C66_call_far_partial : forall E k ret sel off s,
  h_rcx (hr s) = P PCtx -> ctx_ok (ctx s) -> stk_ok k (ctx s) -> frame_whole E k (ctx s) ->
  transfers E (emit_callf k (selector (ctx s) CS) ret sel off) s (call_acc k (ctx s))
    (far s (moved k (-2 * k_n k) (ctx s)) (far_frame k (selector (ctx s) CS) ret s) (sel mod 2 ^ 16) (off mod modulus (k_w k))).
Proof. intros. now apply callf_ok. Qed.
Print Assumptions C66_call_far_partial.

Theorem C66_call_far_indirect_partial : forall E m k ret s,
  h_rcx (hr s) = P PCtx -> ctx_ok (ctx s) -> stk_ok k (ctx s) -> memop_ok m (ctx s) -> frame_whole E k (ctx s) ->
  let a := ea m (ctx s) in
  transfers E (emit_callf_m m k (selector (ctx s) CS) ret) s (far_acc (k_w k) a ++ call_acc k (ctx s))
    (far s (moved k (-2 * k_n k) (ctx s)) (far_frame k (selector (ctx s) CS) ret s) (far_sel (k_w k) a s) (far_off (k_w k) a s)).
Proof. intros. now apply callf_m_ok. Qed.
Print Assumptions C66_call_far_indirect_partial.

(** ... otherwise the fault is reported with ESP already moved *)
Definition env_low : henv := mkenv (fun _ => 0x1000) (fun _ _ => 0xDEAD) (fun _ => 7) (fun _ a _ => a <? 0x7FFC).
Theorem C66_refuted_call_far_fault : exists s',
  run env_low (emit_callf k0 (selector (ctx st0) CS) 0x107 0x2000 0x10) st0 = Fault true 0x7FF8 4 s' /\
  gprs (ctx s') ESP <> gprs (ctx st0) ESP.
Proof.
  assert (match run env_low (emit_callf k0 (selector (ctx st0) CS) 0x107 0x2000 0x10) st0 with
          | Fault true a n s' => (a =? 0x7FF8) && (n =? 4) && negb (gprs (ctx s') ESP =? gprs (ctx st0) ESP)
          | _ => false end = true) as H by (vm_compute; reflexivity).
  destruct (run env_low (emit_callf k0 (selector (ctx st0) CS) 0x107 0x2000 0x10) st0) as [| | | [|] a n s' | |]; try discriminate.
  exists s'. replace a with 0x7FF8 by lia. replace n with 4 by lia. split; [reflexivity | lia].
Qed.
Print Assumptions C66_refuted_call_far_fault.

(** Translated code is found again by linear address, CS base and flags (C32); the
    selector is not among them.  Code translated under CS = 8 with base 0, as
    right after leaving protected mode, and found again under CS = 0, pushes 8. *)
Definition same_code (c c' : gctx) : Prop :=
  segb c CS = segb c' CS /\ eip c = eip c' /\ eflags c = eflags c'.
Definition with_cs (v : Z) : gctx := set_gsel (put_seg CS v (gsel ctx0)) ctx0.
Definition st_cs (v : Z) : hst := mkst (hr st0) (hf st0) (with_cs v) (gmem st0) (loc st0) 0 false.
Theorem C66_refuted_stale_selector : exists s',
  same_code (with_cs 8) (with_cs 0) /\
  run env0 (emit_callf k0 (selector (with_cs 8) CS) 0x107 0x2000 0x10) (st_cs 0) = Left s' /\
  top_of k0 4 s' = 8 /\ selector (ctx (st_cs 0)) CS = 0.
Proof.
  assert (match run env0 (emit_callf k0 (selector (with_cs 8) CS) 0x107 0x2000 0x10) (st_cs 0) with
          | Left s' => top_of k0 4 s' =? 8 | _ => false end = true) as H by (vm_compute; reflexivity).
  destruct (run env0 (emit_callf k0 (selector (with_cs 8) CS) 0x107 0x2000 0x10) (st_cs 0)) as [| | s' | | |]; try discriminate.
  exists s'. split; [repeat split |]. split; [reflexivity |]. split; [lia | reflexivity].
Qed.
Print Assumptions C66_refuted_stale_selector.

(** CALL and RET match: whatever runs in between, if it puts ESP back and leaves
    the return address alone, RET continues after the CALL with ESP as before
    it, plus the released parameters *)
Theorem C66_call_return : forall E E' k ret disp imm s s1 s2,
  h_rcx (hr s) = P PCtx -> ctx_ok (ctx s) -> stk_ok k (ctx s) -> run E (emit_call_rel k ret disp) s = Left s1 ->
  h_rcx (hr s2) = P PCtx -> ctx_ok (ctx s2) -> stk_ok k (ctx s2) -> kept k 1 s1 s2 ->
  e_fault E' false (slot k (- k_n k) (ctx s)) (k_n k) = false ->
  exists s3, run E' (emit_ret k imm) s2 = Left s3 /\
    lands s2 s3 (near s2 (fun r => if greg_eqb r ESP then moved k (released imm) (ctx s) ESP else gprs (ctx s2) r)
      (gmem s2) (ret mod modulus (k_w k))).
Proof. intros E E' k ret disp imm s s1 s2 H1 H2 H3. exact (call_word E E' k imm _ _ _ ret s s1 s2 (call_rel_ok E k ret disp s H1 H2 H3) H3). Qed.
Print Assumptions C66_call_return.

Theorem C66_call_indirect_return : forall E E' o k ret imm s s1 s2,
  h_rcx (hr s) = P PCtx -> ctx_ok (ctx s) -> stk_ok k (ctx s) -> rm_ok o (ctx s) -> run E (emit_call_rm o k ret) s = Left s1 ->
  h_rcx (hr s2) = P PCtx -> ctx_ok (ctx s2) -> stk_ok k (ctx s2) -> kept k 1 s1 s2 ->
  e_fault E' false (slot k (- k_n k) (ctx s)) (k_n k) = false ->
  exists s3, run E' (emit_ret k imm) s2 = Left s3 /\
    lands s2 s3 (near s2 (fun r => if greg_eqb r ESP then moved k (released imm) (ctx s) ESP else gprs (ctx s2) r)
      (gmem s2) (ret mod modulus (k_w k))).
Proof. intros E E' o k ret imm s s1 s2 H1 H2 H3 H4. exact (call_word E E' k imm _ _ _ ret s s1 s2 (call_rm_ok E o k ret s H1 H2 H3 H4) H3). Qed.
Print Assumptions C66_call_indirect_return.

Theorem C66_call_far_return : forall E E' k cs ret sel off imm s s1 s2,
  h_rcx (hr s) = P PCtx -> ctx_ok (ctx s) -> stk_ok k (ctx s) -> frame_whole E k (ctx s) ->
  run E (emit_callf k cs ret sel off) s = Left s1 ->
  h_rcx (hr s2) = P PCtx -> ctx_ok (ctx s2) -> stk_ok k (ctx s2) -> kept k 2 s1 s2 ->
  e_fault E' false (slot k (-2 * k_n k) (ctx s)) (k_n k) = false -> e_fault E' false (slot k (- k_n k) (ctx s)) (k_n k) = false ->
  exists s3, run E' (emit_retf k imm) s2 = Left s3 /\
    lands s2 s3 (far s2 (fun r => if greg_eqb r ESP then moved k (released imm) (ctx s) ESP else gprs (ctx s2) r)
      (gmem s2) (cs mod 2 ^ 16) (ret mod modulus (k_w k))).
Proof.
  intros E E' k cs ret sel off imm s s1 s2 H1 H2 H3 H4.
  exact (callf_words E E' k imm _ _ cs _ _ ret s s1 s2 (callf_ok E k cs ret sel off s H1 H2 H3 H4) H3).
Qed.
Print Assumptions C66_call_far_return.

(** the value [moved k 0] is ESP itself, so that without parameters ESP is as before the call *)
Lemma C66_moved_0 : forall k c r, moved k 0 c r = gprs c r.
Proof. exact moved_0. Qed.

Example C66_example :
  branch_target true 0x105 (-0x106) = 0xFFFF /\ stk_ok k0 (ctx st0) /\ frame_whole env0 k0 (ctx st0) /\
  frame_whole env_low k0 (set_gprs (fun _ => 0x7FFC) ctx0) /\ ~ frame_whole env_low k0 (ctx st0) /\
  first_bad env0 (call_acc k0 (ctx st0)) = None /\
  (forall k n h s1, kept k n s1 (set_hr h s1)) /\
  match run env0 (emit_call_rel k0 0x105 0x10) st0 with Left s1 => top_of k0 0 s1 =? 0x105 | _ => false end = true /\
  match run env0 (emit_callf k0 (selector (ctx st0) CS) 0x107 0x2000 0x10) st0 with
  | Left s1 => (top_of k0 0 s1 =? 0x107) && (top_of k0 4 s1 =? 0x1234) | _ => false end = true.
Proof.
  split; [reflexivity |]. split; [split; auto |]. split; [right; reflexivity |]. split; [left; reflexivity |].
  split; [intros [H | H]; discriminate H |]. split; [reflexivity |].
  split; [intros; repeat split |]. split; vm_compute; reflexivity.
Qed.

(** ** C67: ENTER *)

(** The frame: the old EBP, the display of the enclosing frames copied word by
    word, the new frame pointer, room for the locals; the whole is checked down
    to the final stack pointer; a fault leaves the registers as they were.  On a
    16-bit stack this needs display words that do not wrap below offset 0. *)
Theorem C67_enter_partial : forall E k size level s,
  h_rcx (hr s) = P PCtx -> ctx_ok (ctx s) -> stk_ok k (ctx s) -> display_reach k (level_of level - 1) (ctx s) ->
  match first_bad E (enter_acc k size level (ctx s)) with
  | Some (wr, a, n) => exists s', run E (emit_enter k size level) s = Fault wr a n s' /\ ctx s' = ctx s /\ masked s' = masked s
  | None => exists s', run E (emit_enter k size level) s = Done s' /\
      becomes s s' (enter_regs k size level (ctx s)) (enter_mem k level s) (flags_now s)
  end.
Proof. exact enter_ok. Qed.
Print Assumptions C67_enter_partial.

(** ... otherwise the display is read from outside the 64K of the stack: ENTER 0, 2
    with BP = 0 reads the word at linear FFFFFFFE instead of SS:FFFE *)
Definition k16 : stk := mkstk W16 false true.
Definition env_top : henv := mkenv (fun _ => 0x1000) (fun _ _ => 0xDEAD) (fun _ => 7) (fun _ a _ => 0x10000 <=? a).
Theorem C67_refuted_display_wrap : exists s',
  stk_ok k16 (ctx st0) /\ first_bad env_top (enter_acc k16 0 2 (ctx st0)) = None /\
  run env_top (emit_enter k16 0 2) st0 = Fault false 0xFFFFFFFE 2 s'.
Proof.
  assert (match run env_top (emit_enter k16 0 2) st0 with
          | Fault false a n s' => (a =? 0xFFFFFFFE) && (n =? 2) | _ => false end = true) as H by (vm_compute; reflexivity).
  destruct (run env_top (emit_enter k16 0 2) st0) as [| | | [|] a n s' | |]; try discriminate.
  exists s'. replace a with 0xFFFFFFFE by lia. replace n with 2 by lia.
  split; [split; auto |]. split; [vm_compute; reflexivity | reflexivity].
Qed.
Print Assumptions C67_refuted_display_wrap.

Definition ctx_bp : gctx := set_gprs (gput W32 false EBP 0x9000 (gprs ctx0)) ctx0.
Example C67_example :
  stk_ok k16 ctx_bp /\ display_reach k16 (level_of 35 - 1) ctx_bp /\ display_reach k0 30 ctx_bp /\
  enter_acc k0 0x20 2 ctx_bp = [(true, 0x7FFC, 4); (false, 0x8FFC, 4); (true, 0x7FF8, 4); (true, 0x7FF4, 4); (true, 0x7FD4, 4)] /\
  enter_regs k0 0x20 2 ctx_bp ESP = 0x7FD4 /\ enter_regs k0 0x20 2 ctx_bp EBP = 0x7FFC /\
  first_bad env0 (enter_acc k0 0x20 2 ctx_bp) = None /\ enter_acc k16 0x20 35 ctx_bp <> [].
Proof. repeat split; auto; try discriminate; try (right; vm_compute; discriminate); vm_compute; reflexivity. Qed.

(** ** C68: ARPL *)

(** the privilege level of the destination selector is raised to that of the
    source if it is below, and ZF says whether; the other flags stay; the
    destination is written only if it changes *)
Theorem C68_arpl : forall E dst src s,
  h_rcx (hr s) = P PCtx -> ctx_ok (ctx s) -> rm_ok dst (ctx s) -> g_high src = false ->
  (forall g, dst = RmReg g -> g_high g = false) ->
  let d := read_rm W16 dst s in let v := read_gop W16 src (ctx s) in
  let adj := arpl_adjusts d v in
  does E (emit_arpl false dst src) s (arpl_acc dst adj (ctx s))
    (if adj then regs_after W16 dst (arpl_value d v) s else gprs (ctx s))
    (if adj then mem_after W16 dst (arpl_value d v) s else gmem s)
    (with_zf adj (flags_now s)).
Proof. exact arpl_ok. Qed.
Print Assumptions C68_arpl.

(** afterwards the destination does not claim more privilege than the source, and
    it is the same selector *)
Theorem C68_result : forall d v, 0 <= d < 2 ^ 16 -> 0 <= v < 2 ^ 16 ->
  let r := if arpl_adjusts d v then arpl_value d v else d in
  rpl r = Z.max (rpl d) (rpl v) /\ r / 4 = d / 4 /\ 0 <= r < 2 ^ 16.
Proof.
  intros d v Hd Hv r. unfold r, arpl_adjusts, arpl_value, rpl in *.
  pose proof (Z.mod_pos_bound d 4 ltac:(lia)). pose proof (Z.mod_pos_bound v 4 ltac:(lia)).
  pose proof (Z.div_mod d 4 ltac:(lia)).
  destruct (Z.ltb_spec (d mod 4) (v mod 4)).
  - replace (d - d mod 4 + v mod 4) with (v mod 4 + d / 4 * 4) by lia.
    rewrite Z.mod_add, Z.div_add, Z.mod_mod, Z.div_small by lia. lia.
  - lia.
Qed.
Print Assumptions C68_result.

(** not available in virtual-8086 mode ... *)
Theorem C68_vm86 : forall E dst src s, exists s', run E (emit_arpl true dst src) s = Raise 6 0 s' /\ untouched s s'.
Proof. intros. exists s. repeat split. Qed.
Print Assumptions C68_vm86.

(** ... nor in real mode, where it must raise #UD too; but translation only asks
    for the VM flag *)
Definition arpl_legal (pe vm : bool) : bool := pe && negb vm.
Theorem C68_refuted_real_mode : exists pe vm s',
  arpl_legal pe vm = false /\ run env0 (emit_arpl vm (RmReg (mkgop false EBX)) (mkgop false ECX)) st0 = Done s' /\
  gprs (ctx s') EBX <> gprs (ctx st0) EBX.
Proof.
  assert (match run env0 (emit_arpl false (RmReg (mkgop false EBX)) (mkgop false ECX)) st0 with
          | Done s' => negb (gprs (ctx s') EBX =? gprs (ctx st0) EBX) | _ => false end = true) as H by (vm_compute; reflexivity).
  exists false, false. destruct (run env0 (emit_arpl false (RmReg (mkgop false EBX)) (mkgop false ECX)) st0) as [s' | | | | |]; try discriminate.
  exists s'. split; [reflexivity |]. split; [reflexivity | lia].
Qed.
Print Assumptions C68_refuted_real_mode.

Example C68_example :
  rm_ok (RmMem mop0) (ctx st0) /\ read_rm W16 (RmMem mop0) st0 = 0x5655 /\ read_gop W16 (mkgop false EAX) (ctx st0) = 0xFFFF /\
  arpl_adjusts 0x5655 0xFFFF = true /\ arpl_value 0x5655 0xFFFF = 0x5657 /\ arpl_adjusts 0x5655 1 = false /\
  first_bad env0 (arpl_acc (RmMem mop0) true (ctx st0)) = None /\
  arpl_acc (RmMem mop0) true (ctx st0) = [(false, 0x4010, 2); (true, 0x4010, 2)].
Proof. repeat split; auto; try discriminate; vm_compute; reflexivity. Qed.
