(** * Properties of the flags API and of the integer instruction sequences *)

From Coq Require Import ZArith Bool List Lia ZifyBool.
From Verif Require Import HostModel AluModel AluSpec HostProofs LazyFlagsProofs FlagsApiProofs
  FlagArith SymExec EaProofs AluProofs AluForms UnaryProofs XchgProofs CondProofs FlagInstrProofs LahfProofs.
Import ListNotations.
Local Open Scope Z_scope.

(** ** A concrete machine, used by the examples *)

Definition env0 : henv := mkenv (fun _ => 0x1000) (fun _ _ => 0xDEAD) (fun _ => 7) (fun _ a _ => a =? 0x5000).
Definition ctx0 : gctx :=
  mkg (fun r => match r with EAX => 0x7FFFFFFF | EBX => 0x3000 | ESP => 0x8000 | ECX => 1 | _ => 0 end)
      (fun s => match s with DS => 0x1000 | _ => 0 end) 0x202 0x100 0x100 0 0
      (fun s => match s with CS => 0x1234 | DS => 0x100 | SS => 0x8000 | _ => 0 end).
Definition st0 : hst :=
  mkst (mkregs (N 1) (N 2) (P PCtx) (N 3) (N 4) (N 5) (N 6) (N 7)) (mkf false false false false) ctx0
       (fun a => a mod 251) (fun _ => 0) 0 false.
Lemma st0_rcx : h_rcx (hr st0) = P PCtx. Proof. reflexivity. Qed.
Lemma st0_ok : ctx_ok (ctx st0). Proof. reflexivity. Qed.
(** [EBX + 0x10] in DS, 32-bit addressing *)
Definition mop0 : memop := MRm true (Some EBX) None (Some 0x10) true DS false.

(** ** C05: flags written through the API are read back *)

(** the flags this processor implements: all but the reserved bits *)
Definition IMPLEMENTED : Z := 0x3F7FD5.

Theorem C05_write_read_32 : forall v c, Z.testbit (read_eflags c) 1 = true ->
  read_eflags (write_eflags v true c) = Z.lor (Z.land v IMPLEMENTED) 2.
Proof.
  intros v c H. rewrite round_trip32. f_equal.
  change 2 with (2 ^ 1). rewrite land_pow2 by lia. now rewrite H.
Qed.
Print Assumptions C05_write_read_32.

(** the 16-bit form keeps the upper half *)
Theorem C05_write_read_16 : forall v c, Z.testbit (read_eflags c) 1 = true ->
  read_eflags (write_eflags v false c)
  = Z.lor (Z.lor (Z.land v (Z.land IMPLEMENTED 0xFFFF)) 2) (Z.land (read_eflags c) 0xFFFF0000).
Proof.
  intros v c H. rewrite round_trip16. change (Z.land IMPLEMENTED 0xFFFF) with 0x7FD5.
  rewrite <- Z.lor_assoc. f_equal.
  change 0xFFFF0002 with (Z.lor 2 0xFFFF0000). rewrite Z.land_lor_distr_r. f_equal.
  change 2 with (2 ^ 1). rewrite land_pow2 by lia. now rewrite H.
Qed.
Print Assumptions C05_write_read_16.

(** The hypothesis on the reserved bit is met in every state that a history of
    API writes and guest flag restores (IRET, far return: write_eflags_helper)
    reaches from reset, and the stored word never holds a status flag. *)
Inductive flag_call := ApiWrite (v : Z) (is32 : bool) | GuestRestore (v mask : Z).
Definition flag_step (c : gctx) (f : flag_call) : gctx :=
  match f with ApiWrite v b => write_eflags v b c | GuestRestore v m => write_eflags_helper v m c end.
Definition flag_call_ok (f : flag_call) : Prop :=
  match f with ApiWrite _ _ => True | GuestRestore _ m => 0 <= m < 2 ^ 32 /\ Z.land m STATUS = 0 end.

Theorem C05_reserved_bit_always_set : forall l c,
  eflags c = 2 -> Forall flag_call_ok l ->
  Z.testbit (read_eflags (fold_left flag_step l c)) 1 = true /\ ctx_ok (fold_left flag_step l c).
Proof.
  intros l c E F.
  assert (H : Z.testbit (read_eflags c) 1 = true /\ ctx_ok c).
  { split; [| unfold ctx_ok; now rewrite E].
    assert (Z.land (read_eflags c) 2 = Z.land (eflags c) 2) as A by (apply read_land_control; [lia|reflexivity]).
    rewrite E in A. apply (f_equal (fun z => Z.testbit z 1)) in A. rewrite Z.land_spec in A.
    rewrite <- (andb_true_r (Z.testbit _ 1)). exact A. }
  clear E. revert c H. induction F as [| f l Hf F IH]; intros c [H K]; [now split|].
  cbn [fold_left]. apply IH. destruct f as [v b | v m]; cbn [flag_step flag_call_ok] in *.
  - split; [| apply write_ctx_ok]. destruct b.
    + rewrite (C05_write_read_32 v c H), Z.lor_spec. now rewrite orb_true_r.
    + rewrite (C05_write_read_16 v c H), !Z.lor_spec. now rewrite orb_true_r.
  - destruct Hf as [Hm Hs]. split; [| now apply helper_ctx_ok].
    rewrite (helper_read v m c Hm Hs K), !Z.lor_spec. now rewrite orb_true_r.
Qed.
Print Assumptions C05_reserved_bit_always_set.

(** what a guest flag restore with writable-bit mask [m] leaves visible *)
Theorem C05_guest_restore : forall v m c,
  0 <= m < 2 ^ 32 -> Z.land m STATUS = 0 -> ctx_ok c ->
  read_eflags (write_eflags_helper v m c)
  = Z.lor (Z.lor (Z.land v (Z.lor m STATUS)) (Z.land (read_eflags c) (w32 (Z.lnot (Z.lor m STATUS))))) 2.
Proof. exact (fun v m c => helper_read v m c). Qed.
Print Assumptions C05_guest_restore.

Example C05_example :
  Z.testbit (read_eflags ctx0) 1 = true /\
  read_eflags (write_eflags 0xFFFFFFFF true ctx0) = 0x3F7FD7 /\
  read_eflags (write_eflags 0x8C5 false ctx0) = 0x8C7.
Proof. repeat split; vm_compute; reflexivity. Qed.

(** ** C06: additions *)

(** ADD and ADC, every size and operand form *)
Theorem C06_add : forall E w f s,
  arith_w w -> h_rcx (hr s) = P PCtx -> ctx_ok (ctx s) -> form_ok f (ctx s) ->
  let a := read_rm w (form_dst f) s in let b := form_src_val w f s in let v := (a + b) mod 2 ^ wbits w in
  effect E (emit_alu ALU_ADD w f) w s (form_mem f) (rm_mem (form_dst f))
    (regs_after w (form_dst f) v s) (mem_after w (form_dst f) v s) (add_flags_spec w a b 0).
Proof. exact (fun E w f s => alu_ok E ALU_ADD w f s). Qed.
Print Assumptions C06_add.

Theorem C06_adc : forall E w f s,
  arith_w w -> h_rcx (hr s) = P PCtx -> ctx_ok (ctx s) -> form_ok f (ctx s) ->
  let a := read_rm w (form_dst f) s in let b := form_src_val w f s in
  let c := b2z (Z.testbit (read_eflags (ctx s)) 0) in let v := (a + b + c) mod 2 ^ wbits w in
  effect E (emit_alu ALU_ADC w f) w s (form_mem f) (rm_mem (form_dst f))
    (regs_after w (form_dst f) v s) (mem_after w (form_dst f) v s) (add_flags_spec w a b c).
Proof. exact (fun E w f s => alu_ok E ALU_ADC w f s). Qed.
Print Assumptions C06_adc.

Theorem C06_xadd : forall E w dst src s,
  arith_w w -> h_rcx (hr s) = P PCtx -> ctx_ok (ctx s) -> rm_ok dst (ctx s) ->
  let a := read_rm w dst s in let b := read_gop w src (ctx s) in
  effect E (emit_xadd w dst src) w s (rm_mem dst) (rm_mem dst) (xadd_regs w dst src a b s)
    (mem_after w dst ((a + b) mod 2 ^ wbits w) s) (add_flags_spec w a b 0).
Proof. exact xadd_ok. Qed.
Print Assumptions C06_xadd.

Theorem C06_inc : forall E w o s,
  arith_w w -> h_rcx (hr s) = P PCtx -> ctx_ok (ctx s) -> rm_ok o (ctx s) ->
  let a := read_rm w o s in let v := (a + 1) mod 2 ^ wbits w in
  effect E (emit_incdec true w o) w s (rm_mem o) (rm_mem o) (regs_after w o v s) (mem_after w o v s)
    (with_cf (Z.testbit (read_eflags (ctx s)) 0) (add_flags_spec w a 1 0)).
Proof. exact (fun E w o s => incdec_ok E true w o s). Qed.
Print Assumptions C06_inc.

Example C06_example :
  (* 0x7FFFFFFF + 1: sign and overflow and half carry and parity *)
  add_flags_spec W32 0x7FFFFFFF 1 0 = mkaf false true true false true true /\
  form_ok (F_rm_r (RmMem mop0) (mkgop false EAX)) (ctx st0) /\
  first_fault env0 W32 (Some mop0) (Some mop0) st0 = None.
Proof. split; [reflexivity|]. split; [cbn; split; [discriminate | exact I] | reflexivity]. Qed.

(** ** C07: subtractions and comparisons *)

Theorem C07_sub : forall E w f s,
  arith_w w -> h_rcx (hr s) = P PCtx -> ctx_ok (ctx s) -> form_ok f (ctx s) ->
  let a := read_rm w (form_dst f) s in let b := form_src_val w f s in let v := (a - b) mod 2 ^ wbits w in
  effect E (emit_alu ALU_SUB w f) w s (form_mem f) (rm_mem (form_dst f))
    (regs_after w (form_dst f) v s) (mem_after w (form_dst f) v s) (sub_flags_spec w a b 0).
Proof. exact (fun E w f s => alu_ok E ALU_SUB w f s). Qed.
Print Assumptions C07_sub.

Theorem C07_sbb : forall E w f s,
  arith_w w -> h_rcx (hr s) = P PCtx -> ctx_ok (ctx s) -> form_ok f (ctx s) ->
  let a := read_rm w (form_dst f) s in let b := form_src_val w f s in
  let c := b2z (Z.testbit (read_eflags (ctx s)) 0) in let v := (a - b - c) mod 2 ^ wbits w in
  effect E (emit_alu ALU_SBB w f) w s (form_mem f) (rm_mem (form_dst f))
    (regs_after w (form_dst f) v s) (mem_after w (form_dst f) v s) (sub_flags_spec w a b c).
Proof. exact (fun E w f s => alu_ok E ALU_SBB w f s). Qed.
Print Assumptions C07_sbb.

Theorem C07_cmp : forall E w f s,
  arith_w w -> h_rcx (hr s) = P PCtx -> ctx_ok (ctx s) -> form_ok f (ctx s) ->
  let a := read_rm w (form_dst f) s in let b := form_src_val w f s in
  effect E (emit_alu ALU_CMP w f) w s (form_mem f) None (gprs (ctx s)) (gmem s) (sub_flags_spec w a b 0).
Proof. exact (fun E w f s => alu_ok E ALU_CMP w f s). Qed.
Print Assumptions C07_cmp.

Theorem C07_neg : forall E w o s,
  arith_w w -> h_rcx (hr s) = P PCtx -> ctx_ok (ctx s) -> rm_ok o (ctx s) ->
  let a := read_rm w o s in let v := (- a) mod 2 ^ wbits w in
  effect E (emit_neg w o) w s (rm_mem o) (rm_mem o) (regs_after w o v s) (mem_after w o v s)
    (sub_flags_spec w 0 a 0).
Proof. exact neg_ok. Qed.
Print Assumptions C07_neg.

Theorem C07_dec : forall E w o s,
  arith_w w -> h_rcx (hr s) = P PCtx -> ctx_ok (ctx s) -> rm_ok o (ctx s) ->
  let a := read_rm w o s in let v := (a - 1) mod 2 ^ wbits w in
  effect E (emit_incdec false w o) w s (rm_mem o) (rm_mem o) (regs_after w o v s) (mem_after w o v s)
    (with_cf (Z.testbit (read_eflags (ctx s)) 0) (sub_flags_spec w a 1 0)).
Proof. exact (fun E w o s => incdec_ok E false w o s). Qed.
Print Assumptions C07_dec.

(** CMPXCHG compares the accumulator with the destination; the architectural
    flags are those of accumulator - destination.  The code computes
    destination - accumulator: ZF is right, and everything is right when the
    comparison succeeds; the other flags of a failed comparison are not. *)
Definition cmpxchg_flags_ok (w : width) (acc a : Z) (fl : aflags) : Prop :=
  f_zf fl = f_zf (sub_flags_spec w acc a 0) /\ (acc = a -> fl = sub_flags_spec w acc a 0).

Theorem C07_cmpxchg_partial : forall E w dst src s,
  arith_w w -> h_rcx (hr s) = P PCtx -> ctx_ok (ctx s) -> rm_ok dst (ctx s) ->
  let a := read_rm w dst s in let acc := gget w false EAX (gprs (ctx s)) in
  exists fl, cmpxchg_flags_ok w acc a fl /\
    effect E (emit_cmpxchg w dst src) w s (rm_mem dst) (if acc =? a then rm_mem dst else None)
      (cmpxchg_regs w dst src acc a s) (cmpxchg_mem w dst src acc a s) fl.
Proof.
  intros E w dst src s Hw Hc Ho Hr a acc. exists (sub_flags_spec w a acc 0). split; [| now apply cmpxchg_ok].
  assert (Ra : 0 <= a < modulus w).
  { unfold a, read_rm. destruct dst; [apply gget_range | apply mload_range]. }
  assert (Rc : 0 <= acc < modulus w) by apply gget_range.
  clearbody a acc. split; [| now intros ->].
  unfold sub_flags_spec; cbn [f_zf].
  assert (M : 0 < modulus w) by (unfold modulus; destruct w; reflexivity).
  destruct (Z.eq_dec a acc) as [-> | N]; [reflexivity|].
  assert (forall x y, 0 <= x < modulus w -> 0 <= y < modulus w -> x <> y -> ((x - y - 0) mod modulus w =? 0) = false) as D.
  { intros x y X Y D. apply Z.eqb_neq. intros Q. apply Z.mod_divide in Q; [| lia]. destruct Q as [q Q].
    assert (q = 0) by nia. subst q. lia. }
  rewrite !D; auto.
Qed.
Print Assumptions C07_cmpxchg_partial.

(** a failed CMPXCHG of 1 in EAX against 2: the guest should see a borrow *)
Theorem C07_refuted_cmpxchg : exists E w o src s,
  arith_w w /\ h_rcx (hr s) = P PCtx /\ ctx_ok (ctx s) /\
  let acc := gget w false EAX (gprs (ctx s)) in let a := read_rm w (RmReg o) s in
  f_cf (sub_flags_spec w acc a 0) = true /\
  exists s', run E (emit_cmpxchg w (RmReg o) src) s = Done s' /\ f_cf (flags_now s') = false.
Proof.
  exists env0, W32, (mkgop false EBX), (mkgop false EDX).
  exists (set_ctx (set_gprs (fun r => match r with EAX => 1 | EBX => 2 | _ => 0 end) ctx0) st0).
  split; [discriminate|]. split; [reflexivity|]. split; [reflexivity|]. split; [reflexivity|].
  match goal with |- exists s', ?r = Done s' /\ _ =>
    assert (Q : match r with Done s' => negb (f_cf (flags_now s')) | _ => false end = true)
      by (vm_compute; reflexivity);
    destruct r as [s'| | | | |]; try discriminate Q; exists s' end.
  split; [reflexivity | now destruct (f_cf (flags_now s'))].
Qed.
Print Assumptions C07_refuted_cmpxchg.

Example C07_example :
  sub_flags_spec W8 0 1 0 = mkaf true true true false true false /\
  form_ok (F_rm_imm (RmMem mop0) 5) (ctx st0) /\ cf_in (ctx st0) = 0.
Proof. split; [reflexivity|]. split; [cbn; split; [discriminate | exact I] | reflexivity]. Qed.

(** ** C08: conditions *)

Theorem C08_setcc : forall E c o s,
  h_rcx (hr s) = P PCtx -> ctx_ok (ctx s) -> rm_ok o (ctx s) ->
  let v := b2z (cond_spec c (flags_of_eflags (read_eflags (ctx s)))) in
  effect E (emit_setcc c o) W8 s None (rm_mem o) (regs_after W8 o v s) (mem_after W8 o v s) (flags_now s).
Proof. exact setcc_ok. Qed.
Print Assumptions C08_setcc.

Theorem C08_cmovcc : forall E c w dst src s, (w = W16 \/ w = W32) ->
  h_rcx (hr s) = P PCtx -> ctx_ok (ctx s) -> rm_ok src (ctx s) ->
  effect E (emit_cmovcc c w dst src) w s (rm_mem src) None
    (if cond_spec c (flags_of_eflags (read_eflags (ctx s)))
     then gput w false dst (read_rm w src s) (gprs (ctx s)) else gprs (ctx s))
    (gmem s) (flags_now s).
Proof. exact cmovcc_ok. Qed.
Print Assumptions C08_cmovcc.

Theorem C08_jcc : forall E c s sz nxt disp base, h_rcx (hr s) = P PCtx -> ctx_ok (ctx s) ->
  exists s' ip, run E (emit_jcc c sz nxt disp base) s = Left s' /\
    gmem s' = gmem s /\ masked s' = masked s /\
    ctx s' = set_eip ip (ctx s) /\ h_rbx (hr s') = N (w32 (ip + base)) /\
    w32 ip = if cond_spec c (flags_of_eflags (read_eflags (ctx s))) then branch_target sz nxt disp else w32 nxt.
Proof. intros. rewrite <- target_eq. now apply jcc_ok. Qed.
Print Assumptions C08_jcc.

Example C08_example :
  cond_spec C_Z (flags_of_eflags (read_eflags ctx0)) = false /\
  cond_spec C_Z (flags_of_eflags (read_eflags (write_eflags 0x40 true ctx0))) = true /\
  ctx_ok (write_eflags 0x40 true ctx0).
Proof. repeat split; vm_compute; reflexivity. Qed.

(** ** C42: a faulting instruction leaves no trace (integer instructions) *)

(** [effect] says it for each instruction; this is the reading of it *)
Theorem C42_fault_leaves_no_trace : forall E op w f s wr a n s',
  arith_w w -> h_rcx (hr s) = P PCtx -> ctx_ok (ctx s) -> form_ok f (ctx s) ->
  run E (emit_alu op w f) s = Fault wr a n s' ->
  gprs (ctx s') = gprs (ctx s) /\ read_eflags (ctx s') = read_eflags (ctx s) /\ eip (ctx s') = eip (ctx s) /\
  gmem s' = gmem s /\ e_fault E wr a n = true.
Proof.
  intros E op w f s wr a n s' Hw Hc Ho Hf R. pose proof (alu_ok E op w f s Hw Hc Ho Hf) as A.
  unfold form_effect, effect in A. destruct (first_fault _ _ _ _ _) as [[wr' a'] |] eqn:FF.
  - destruct A as [s1 [R1 [U1 [U2 U3]]]]. rewrite R in R1. injection R1 as -> -> -> ->.
    rewrite U1. repeat split; auto.
    unfold first_fault in FF.
    destruct (form_mem f) as [m|]; [destruct (e_fault E false (ea m (ctx s)) (wbytes w)) eqn:F1|];
      try (injection FF as <- <-; exact F1);
      destruct (if writes op then _ else _) as [m'|]; try discriminate FF;
      destruct (e_fault E true (ea m' (ctx s)) (wbytes w)) eqn:F2; try discriminate FF;
      injection FF as <- <-; exact F2.
  - destruct A as [s1 [R1 _]]. rewrite R in R1. discriminate.
Qed.
Print Assumptions C42_fault_leaves_no_trace.

Theorem C42_unary_fault : forall E w o s wr a n s',
  arith_w w -> h_rcx (hr s) = P PCtx -> ctx_ok (ctx s) -> rm_ok o (ctx s) ->
  run E (emit_neg w o) s = Fault wr a n s' \/
  (exists inc, run E (emit_incdec inc w o) s = Fault wr a n s') \/
  run E (emit_not w o) s = Fault wr a n s' \/
  (exists src, run E (emit_xadd w o src) s = Fault wr a n s') \/
  (exists src, run E (emit_cmpxchg w o src) s = Fault wr a n s') ->
  untouched s s'.
Proof.
  intros E w o s wr a n s' Hw Hc Ho Hf R.
  assert (G : forall l st regs mem fl, effect E l w s (rm_mem o) st regs mem fl ->
              run E l s = Fault wr a n s' -> untouched s s').
  { intros l st regs mem fl A R1. unfold effect in A. destruct (first_fault _ _ _ _ _) as [[w' a']|].
    - destruct A as [s1 [Q U]]. rewrite R1 in Q. injection Q as -> -> -> ->. exact U.
    - destruct A as [s1 [Q _]]. rewrite R1 in Q. discriminate. }
  destruct R as [R | [[i R] | [R | [[x R] | [x R]]]]]; refine (G _ _ _ _ _ _ R).
  - now apply neg_ok.
  - now apply incdec_ok.
  - now apply not_ok.
  - now apply xadd_ok.
  - now apply cmpxchg_ok.
Qed.
Print Assumptions C42_unary_fault.

Example C42_example :
  let m := MOffs true 0x4000 DS false in
  first_fault env0 W32 (Some m) (Some m) st0 = Some (false, 0x5000) /\ memop_ok m (ctx st0).
Proof. split; [reflexivity | discriminate]. Qed.

(** ** C43: logical instructions *)

Theorem C43_logic : forall E op w f s,
  is_logic op = true -> arith_w w -> h_rcx (hr s) = P PCtx -> ctx_ok (ctx s) -> form_ok f (ctx s) ->
  let a := read_rm w (form_dst f) s in let b := form_src_val w f s in
  let v := match op with ALU_OR => Z.lor a b | ALU_XOR => Z.lxor a b | _ => Z.land a b end in
  let wr := match op with ALU_TEST => false | _ => true end in
  effect E (emit_alu op w f) w s (form_mem f) (if wr then rm_mem (form_dst f) else None)
    (if wr then regs_after w (form_dst f) v s else gprs (ctx s))
    (if wr then mem_after w (form_dst f) v s else gmem s)
    (mkaf false (even_parity v) false (v =? 0) (signed w v <? 0) false).
Proof.
  intros E op w f s L Hw Hc Ho Hf. pose proof (alu_ok E op w f s Hw Hc Ho Hf) as A.
  destruct op; try discriminate L; exact A.
Qed.
Print Assumptions C43_logic.

Theorem C43_not : forall E w o s,
  arith_w w -> h_rcx (hr s) = P PCtx -> ctx_ok (ctx s) -> rm_ok o (ctx s) ->
  let v := 2 ^ wbits w - 1 - read_rm w o s in
  effect E (emit_not w o) w s (rm_mem o) (rm_mem o) (regs_after w o v s) (mem_after w o v s) (flags_now s).
Proof. exact not_ok. Qed.
Print Assumptions C43_not.

Example C43_example : is_logic ALU_TEST = true /\ is_logic ALU_XOR = true /\
  (let v := Z.lxor 0xF0 0x0F in mkaf false (even_parity v) false (v =? 0) (signed W8 v <? 0) false)
  = mkaf false true false false true false.
Proof. repeat split. Qed.

(** ** C44: CMPXCHG8B *)

Theorem C44_cmpxchg8b : forall E m s,
  h_rcx (hr s) = P PCtx -> ctx_ok (ctx s) -> memop_ok m (ctx s) ->
  let a := mload (gmem s) W64 (ea m (ctx s)) in
  let eq := a =? pair64 EDX EAX (ctx s) in
  effect E (emit_cmpxchg8b m) W64 s (Some m) (Some m)
    (if eq then gprs (ctx s)
     else gput W32 false EDX (a / 2 ^ 32) (gput W32 false EAX (a mod 2 ^ 32) (gprs (ctx s))))
    (mstore (gmem s) W64 (ea m (ctx s)) (if eq then pair64 ECX EBX (ctx s) else a))
    (with_zf eq (flags_now s)).
Proof. exact cmpxchg8b_ok. Qed.
Print Assumptions C44_cmpxchg8b.

Example C44_example : memop_ok mop0 (ctx st0) /\ first_fault env0 W64 (Some mop0) (Some mop0) st0 = None /\
  (mload (gmem st0) W64 (ea mop0 (ctx st0)) =? pair64 EDX EAX (ctx st0)) = false.
Proof. split; [cbn; split; [discriminate | exact I]|]. split; vm_compute; reflexivity. Qed.

(** ** C45: effective addresses *)

(** the address register holds segment base plus wrapped offset, and nothing
    the guest can see has changed *)
Theorem C45_effective_address : forall E m s,
  h_rcx (hr s) = P PCtx -> memop_ok m (ctx s) ->
  exists s', run E (emit_ea m) s = Done s' /\ untouched s s' /\
    num E (h_rdx (hr s')) = ea m (ctx s).
Proof.
  intros E m s Hc Hm. destruct (ea_run E m s Hc Hm) as [s1 [R [f [r10 [r11 H]]]]].
  exists s1. split; [exact R|]. rewrite H. split; [repeat split | reflexivity].
Qed.
Print Assumptions C45_effective_address.

(** the specification [ea] itself, spelled out for the two addressing sizes *)
Lemma C45_wraps : forall base index disp seg z s r sc,
  index = Some (r, sc) ->
  ea (MRm true (Some base) index (Some disp) false seg z) (ctx s)
  = (segb (ctx s) seg + (gprs (ctx s) base + gprs (ctx s) r * 2 ^ sc + disp) mod 2 ^ 32) mod 2 ^ 32 /\
  ea (MRm false (Some base) index (Some disp) false seg z) (ctx s)
  = (segb (ctx s) seg + (gprs (ctx s) base + gprs (ctx s) r * 2 ^ sc + disp) mod 2 ^ 16) mod 2 ^ 32.
Proof. intros. subst index. split; reflexivity. Qed.

Example C45_example : ea mop0 (ctx st0) = 0x4010 /\ memop_ok mop0 (ctx st0) /\
  ea (MRm false (Some EBX) None (Some 0xF000) false DS false) (ctx st0) = 0x3000.
Proof. split; [reflexivity|]. split; [cbn; split; [discriminate | exact I] | reflexivity]. Qed.

(** ** C46: LAHF, SAHF and the carry and direction instructions *)

Theorem C46_lahf : forall E s, h_rcx (hr s) = P PCtx -> ctx_ok (ctx s) ->
  exists s', run E emit_lahf s = Done s' /\
    becomes s s' (gput W8 true EAX (Z.lor (Z.land (read_eflags (ctx s)) 0xD5) 2) (gprs (ctx s)))
      (gmem s) (flags_now s).
Proof. exact lahf_ok. Qed.
Print Assumptions C46_lahf.

Theorem C46_sahf : forall E s, h_rcx (hr s) = P PCtx -> ctx_ok (ctx s) ->
  let ah := gget W8 true EAX (gprs (ctx s)) in
  exists s', run E emit_sahf s = Done s' /\
    becomes s s' (gprs (ctx s)) (gmem s)
      (mkaf (Z.testbit ah 0) (Z.testbit ah 2) (Z.testbit ah 4) (Z.testbit ah 6) (Z.testbit ah 7)
         (f_of (flags_now s))).
Proof. exact sahf_ok. Qed.
Print Assumptions C46_sahf.

Theorem C46_carry : forall E s, h_rcx (hr s) = P PCtx -> ctx_ok (ctx s) ->
  let goes l cf := exists s', run E l s = Done s' /\
     becomes s s' (gprs (ctx s)) (gmem s) (with_cf cf (flags_now s)) in
  goes emit_clc false /\ goes emit_stc true /\ goes emit_cmc (negb (Z.testbit (read_eflags (ctx s)) 0)).
Proof. intros E s Hc Ho. split; [now apply clc_ok | split; [now apply stc_ok | now apply cmc_ok]]. Qed.
Print Assumptions C46_carry.

Theorem C46_direction : forall E s, h_rcx (hr s) = P PCtx -> ctx_ok (ctx s) ->
  let goes l e := exists s', run E l s = Done s' /\ h_rcx (hr s') = P PCtx /\ gmem s' = gmem s /\
    masked s' = masked s /\ ctx s' = set_eflags (eflags (ctx s')) (ctx s) /\ ctx_ok (ctx s') /\
    read_eflags (ctx s') = e in
  goes emit_cld (Z.clearbit (read_eflags (ctx s)) 10) /\ goes emit_std (Z.setbit (read_eflags (ctx s)) 10).
Proof. intros E s Hc Ho. split; [now apply cld_ok | now apply std_ok]. Qed.
Print Assumptions C46_direction.

Example C46_example :
  let c := write_eflags 0xD5 true ctx0 in
  Z.lor (Z.land (read_eflags c) 0xD5) 2 = 0xD7 /\ ctx_ok c /\ Z.setbit (read_eflags c) 10 = 0x4D7.
Proof. repeat split; vm_compute; reflexivity. Qed.
