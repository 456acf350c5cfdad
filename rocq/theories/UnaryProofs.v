(** * One-operand and exchange instructions *)

From Coq Require Import ZArith Bool List Lia ZifyBool.
From Verif Require Import HostModel AluModel AluSpec HostProofs LazyFlagsProofs FlagsApiProofs
  FlagArith SymExec EaProofs AluProofs AluForms.
Import ListNotations.
Local Open Scope Z_scope.

(** ** Bits of words that are kept below bit 30 *)

Lemma lit31 i : 0 <= i -> i <> 31 -> Z.testbit 2147483648 i = false.
Proof. intros. change 2147483648 with (2 ^ 31). apply Z.pow2_bits_false. lia. Qed.
Lemma lit3031 i : 0 <= i < 30 -> Z.testbit 3221225472 i = false.
Proof. intros. change 3221225472 with (Z.shiftl 3 30). apply Z.shiftl_spec_low. lia. Qed.
Lemma ones30 i : 0 <= i < 30 -> Z.testbit 1073741823 i = true.
Proof. intros. change 1073741823 with (Z.ones 30). apply Z.ones_spec_low. lia. Qed.
Lemma below32 i : i < 31 -> (i <? wbits W32) = true.
Proof. intros. apply Z.ltb_lt. cbn. lia. Qed.

Ltac lit_getw :=
  repeat match goal with
  | |- context [getw W32 (Zpos ?p)] =>
      let v := eval vm_compute in (getw W32 (Zpos p)) in change (getw W32 (Zpos p)) with v
  end.

Ltac lowbit :=
  lit_getw;
  repeat first [ rewrite Z.land_spec | rewrite Z.lor_spec | rewrite Z.lxor_spec
               | rewrite Z.lnot_spec by lia | rewrite Z.shiftr_spec by lia
               | rewrite getw_testbit by lia | rewrite setw_testbit by lia
               | rewrite putw_testbit by lia ];
  repeat first [ rewrite lit31 by lia | rewrite lit3031 by lia | rewrite ones30 by lia
               | rewrite below32 by lia ];
  repeat (rewrite ?andb_true_r, ?andb_false_r, ?orb_false_r, ?orb_true_r, ?xorb_false_r,
          ?xorb_true_r, ?andb_true_l, ?andb_false_l, ?orb_false_l, ?orb_true_l, ?xorb_false_l,
          ?xorb_true_l; cbn [negb]).

(** the word computed by [ld_of] *)
Lemma twice x : x + Z.shiftl x 0 + 0 = Z.shiftl x 1.
Proof. rewrite Z.shiftl_0_r, Z.shiftl_mul_pow2 by lia. lia. Qed.

Lemma setw_getw32 o v : setw W32 o (getw W32 v) = getw W32 v.
Proof. apply (getw_idem W32). Qed.

Lemma if00 (a b : Z) : (if 0 =? 0 then a else b) = a.
Proof. reflexivity. Qed.

(** ** INC and DEC *)

Definition keep_tail : list instr :=
  [MOV hEAX c_aux] ++ LD_OF RDX RAX ++
  [XOR hEDX R11D; SHR hEDX 1; OR hEDX R11D; AND hEAX (i32 0x3FFFFFFF); OR hEDX hEAX;
   MOV c_aux hEDX].

Lemma keep_tail_ok E s ax0 :
  h_rcx (hr s) = P PCtx ->
  getw W32 (num E (h_r11 (hr s))) = Z.land (getw W32 ax0) 0x80000000 ->
  exists s' a', run E keep_tail s = Done s' /\ h_rcx (hr s') = P PCtx /\
    ctx s' = set_aux a' (ctx s) /\ gmem s' = gmem s /\ masked s' = masked s /\
    Z.testbit a' 31 = Z.testbit ax0 31 /\
    Z.testbit a' 30 = xorb (xorb (Z.testbit (aux (ctx s)) 31) (Z.testbit (aux (ctx s)) 30)) (Z.testbit ax0 31) /\
    forall i, 0 <= i < 30 -> Z.testbit a' i = Z.testbit (aux (ctx s)) i.
Proof.
  intros Hcx H11. start_state s Hcx.
  unfold run; expand_list; sym. rewrite !H11, !if00, !setw_getw32, !twice.
  eexists _, _. split; [reflexivity |]. split; [reflexivity |].
  split; [unfold set_aux; cbn [ctx gprs segb eflags eip res aux cr4 gsel]; reflexivity |].
  split; [reflexivity |]. split; [reflexivity |]. cbn [ctx aux].
  split; [hbits; reflexivity |]. split; [hbits; f_equal; apply xorb_comm |].
  intros i Hi. lowbit. reflexivity.
Qed.

Lemma keep_cf_ok E op w a b s0 s av bv g m :
  is_logic op = false -> arith_w w -> ab_op w a b -> h_rcx (hr s) = P PCtx ->
  (forall v f, op_read E a (set_hf f (set_hr (rset R11 v (hr s)) s)) = Some av) ->
  (forall v f, op_read E b (set_hf f (set_hr (rset R11 v (hr s)) s)) = Some bv) ->
  getw w (num E (h_r8 (hr s))) = alu_value op w av bv (cf_in (ctx s0)) ->
  ctx s = set_gprs g (ctx s0) -> gmem s = m -> masked s = masked s0 -> ctx_ok (ctx s0) ->
  exists s', run E (keep_cf (flags_of (is_sum op) w a b)) s = Done s' /\
    becomes s0 s' g m
      (with_cf (f_cf (flags_now s0)) (alu_flags op w av bv (cf_in (ctx s0)))).
Proof.
  intros Hl Hw Hab Hcx RA RB HV Hc Hm Hk Hok.
  change (keep_cf (flags_of (is_sum op) w a b)) with (LD_CF R11D ++ flags_of (is_sum op) w a b ++ keep_tail).
  assert (K : exists f o, run E (LD_CF R11D) s =
     Done (set_hf f (set_hr (rset R11 (N (setw W32 o (Z.land (getw W32 (aux (ctx s))) 0x80000000))) (hr s)) s))).
  { start_state s Hcx. unfold run; expand_list; sym. rewrite if00.
    change (getw W32 2147483648) with 2147483648. exists (logic_flags W32 (Z.land (getw W32 ax) 2147483648)), 0. reflexivity. }
  destruct K as (f & o & K). rewrite (run_seq _ _ _ _ _ K); clear K.
  set (s1 := set_hf f _).
  assert (K : exists s', run E (flags_of (is_sum op) w a b) s1 = Done s' /\
                         flags_set s1 s' (alu_flags op w av bv (cf_in (ctx s0)))).
  { pose proof (cf_range (ctx s0)).
    assert (H8 : h_r8 (hr s1) = h_r8 (hr s)) by (unfold s1; destruct s as [[q1 q2 q3 q4 q5 q6 q7 q8] q9 q10 q11 q12 q13 q14]; reflexivity).
    assert (H1 : h_rcx (hr s1) = P PCtx) by (rewrite <- Hcx; unfold s1; destruct s as [[q1 q2 q3 q4 q5 q6 q7 q8] q9 q10 q11 q12 q13 q14]; reflexivity).
    destruct op; try discriminate Hl; cbn [is_sum flags_of alu_flags alu_value] in *;
    first [ apply set_flags_sum_ok | apply set_flags_sub_ok ]; try assumption; try lia;
    try exact (RA _ _); try exact (RB _ _); rewrite H8, HV, ?Z.add_0_r, ?Z.sub_0_r, getw_mod; reflexivity. }
  destruct K as (s2 & HR & F1 & F11 & (r & x & F2 & F3) & F4 & _ & F5).
  rewrite (run_seq _ _ _ _ _ HR).
  assert (C1 : ctx s1 = ctx s) by (unfold s1; destruct s as [[q1 q2 q3 q4 q5 q6 q7 q8] q9 q10 q11 q12 q13 q14]; reflexivity).
  destruct (keep_tail_ok E s2 (aux (ctx s))) as (s3 & a' & T1 & T2 & T3 & T4 & T5 & T6 & T7 & T8).
  { assumption. }
  { rewrite F11. unfold s1. destruct s as [[q1 q2 q3 q4 q5 q6 q7 q8] q9 q10 q11 q12 q13 q14]. cbn [set_hf set_hr rset hr h_r11 num ctx].
    rewrite getw_setw. unfold getw at 1. rewrite <- Z.land_assoc. reflexivity. }
  exists s3. split; [assumption |].
  rewrite F2, C1 in T3.
  apply becomes_flags with r a'; try assumption.
  - rewrite T3, Hc. reflexivity.
  - rewrite T4, F4. unfold s1. now destruct s as [[q1 q2 q3 q4 q5 q6 q7 q8] q9 q10 q11 q12 q13 q14].
  - rewrite T5, F5. unfold s1. destruct s as [[q1 q2 q3 q4 q5 q6 q7 q8] q9 q10 q11 q12 q13 q14]. exact Hk.
  - rewrite F2 in T7, T8. cbn [aux set_aux] in T7, T8.
    rewrite (lazy_low r x a') by exact T8. rewrite <- F3. unfold with_cf. cbn [f_pf f_af f_zf f_sf f_of].
    unfold flags_now. rewrite read_flags by assumption. cbn [f_cf lazy_flags].
    rewrite T6, T7, Hc. cbn [aux set_gprs].
    f_equal. unfold lazy_flags; cbn [f_of]. now destruct (Z.testbit x 31), (Z.testbit x 30), (Z.testbit (aux (ctx s0)) 31).
Qed.

Ltac nom := cbn [set_hf set_hr hr hf ctx gmem loc ncall masked rset rget h_rax h_rbx h_rcx h_rdx h_r8
   h_r9 h_r10 h_r11 num op_read].

Ltac one :=
  repeat match goal with
  | |- context [getw ?w 1] => change (getw w 1) with 1
  end.

Ltac close_keep op w Hw Hok :=
  apply (keep_cf_ok _ op w);
  [ reflexivity | exact Hw | unfold ab_op; pick | reflexivity
  | intros; unfold set_hf, set_hr; nom; rewrite ?getw_setw, ?getw_idem, ?getw_gget, ?getw_mload; reflexivity
  | intros; reflexivity
  | nom; rewrite ?getw_setw, ?getw_idem; apply getw_mod
  | reflexivity | reflexivity | reflexivity | exact Hok ].

Lemma incdec_ok E inc w o s :
  arith_w w -> h_rcx (hr s) = P PCtx -> ctx_ok (ctx s) -> rm_ok o (ctx s) ->
  let a := read_rm w o s in let v := incdec_value inc w a in
  effect E (emit_incdec inc w o) w s (rm_mem o) (rm_mem o) (regs_after w o v s) (mem_after w o v s)
    (incdec_flags inc w a (f_cf (flags_now s))).
Proof.
  intros Hw Hcx Hok Hm a v. subst a v. unfold incdec_value, incdec_flags, emit_incdec, effect, first_fault.
  destruct o as [[h r] | m]; cbn [rm_mem read_rm regs_after mem_after rm_ok] in *; unfold read_gop;
  cbn [g_high g_reg].
  - start_state s Hcx. rewrite <- !getw_mod.
    destruct w; try (now elim Hw); destruct inc; seg_done; one;
    lazymatch goal with |- context [keep_cf (flags_of ?i ?w _ _)] =>
      lazymatch i with true => close_keep ALU_ADD w Hw Hok | _ => close_keep ALU_SUB w Hw Hok end end.
  - start_state s Hcx. rewrite <- !getw_mod.
    destruct w; try (now elim Hw); destruct inc; rewrite <- ?app_assoc;
    run_ea m Hm; faults; try (seg_fault; forget); seg_done; one;
    lazymatch goal with |- context [keep_cf (flags_of ?i ?w _ _)] =>
      lazymatch i with true => close_keep ALU_ADD w Hw Hok | _ => close_keep ALU_SUB w Hw Hok end end.
Qed.

(** ** NEG and NOT *)

Lemma neg_ok E w o s :
  arith_w w -> h_rcx (hr s) = P PCtx -> ctx_ok (ctx s) -> rm_ok o (ctx s) ->
  let a := read_rm w o s in let v := (- a) mod modulus w in
  effect E (emit_neg w o) w s (rm_mem o) (rm_mem o) (regs_after w o v s) (mem_after w o v s)
    (sub_flags_spec w 0 a 0).
Proof.
  intros Hw Hcx Hok Hm a v. subst a v. unfold emit_neg, effect, first_fault.
  destruct o as [[h r] | m]; cbn [rm_mem read_rm regs_after mem_after rm_ok] in *; unfold read_gop;
  cbn [g_high g_reg]; start_state s Hcx; rewrite <- !getw_mod, <- ?Z.sub_0_l;
  change set_flags_sub with (flags_of (is_sum ALU_SUB)).
  - destruct w; try (now elim Hw); seg_done; one;
    (apply (finish _ ALU_SUB); [ reflexivity | exact Hw | unfold ab_op; pick | reflexivity | reflexivity | rd
      | nom; rewrite ?getw_setw, ?getw_idem; apply getw_mod | reflexivity | reflexivity | reflexivity | exact Hok ]).
  - destruct w; try (now elim Hw); rewrite <- ?app_assoc;
    run_ea m Hm; faults; try (seg_fault; forget); seg_done; one;
    (apply (finish _ ALU_SUB); [ reflexivity | exact Hw | unfold ab_op; pick | reflexivity | reflexivity | rd
      | nom; rewrite ?getw_setw, ?getw_idem; apply getw_mod | reflexivity | reflexivity | reflexivity | exact Hok ]).
Qed.

Lemma not_val w a : 0 <= a < modulus w -> getw w (Z.lnot a) = modulus w - 1 - a.
Proof.
  intros H. rewrite getw_mod. unfold Z.lnot. symmetry.
  apply (Z.mod_unique _ _ (-1)); lia.
Qed.

Lemma gget_range w h r g : 0 <= gget w h r g < modulus w.
Proof. apply getw_range. Qed.

Lemma mload_range m w a : 0 <= mload m w a < modulus w.
Proof. rewrite <- getw_mload. apply getw_range. Qed.

Lemma becomes_same_flags s s' g m :
  ctx_ok (ctx s) -> h_rcx (hr s') = P PCtx -> ctx s' = set_gprs g (ctx s) -> gmem s' = m ->
  masked s' = masked s -> becomes s s' g m (flags_now s).
Proof.
  intros Hok Hcx Hc Hm Hk. eapply becomes_flags with (r := res (ctx s)) (a := aux (ctx s)); try assumption.
  unfold flags_now. now rewrite read_flags.
Qed.

Lemma not_ok E w o s :
  arith_w w -> h_rcx (hr s) = P PCtx -> ctx_ok (ctx s) -> rm_ok o (ctx s) ->
  let v := modulus w - 1 - read_rm w o s in
  effect E (emit_not w o) w s (rm_mem o) (rm_mem o) (regs_after w o v s) (mem_after w o v s)
    (flags_now s).
Proof.
  intros Hw Hcx Hok Hm v. subst v. unfold emit_not, effect, first_fault.
  destruct o as [[h r] | m]; cbn [rm_mem read_rm regs_after mem_after rm_ok] in *; unfold read_gop;
  cbn [g_high g_reg]; start_state s Hcx.
  - destruct w; try (now elim Hw); unfold run; expand_list; sym'; rewrite not_val by apply gget_range;
    (eexists; split; [reflexivity |]; apply becomes_same_flags; [exact Hok | reflexivity ..]).
  - destruct w; try (now elim Hw); run_ea m Hm; faults;
    unfold run; expand_list; sym'; repeat (access; sym'); cbn [exec]; try forget;
    rewrite not_val by apply mload_range;
    (eexists; split; [reflexivity |]; apply becomes_same_flags; [exact Hok | reflexivity ..]).
Qed.

(** ** XADD *)

Lemma xadd_ok E w dst src s :
  arith_w w -> h_rcx (hr s) = P PCtx -> ctx_ok (ctx s) -> rm_ok dst (ctx s) ->
  let a := read_rm w dst s in let b := read_gop w src (ctx s) in
  effect E (emit_xadd w dst src) w s (rm_mem dst) (rm_mem dst) (xadd_regs w dst src a b s)
    (mem_after w dst ((a + b) mod modulus w) s) (add_flags_spec w a b 0).
Proof.
  intros Hw Hcx Hok Hm a b. subst a b. unfold emit_xadd, xadd_regs, effect, first_fault.
  destruct src as [hs rs'].
  destruct dst as [[h r] | m]; cbn [rm_mem read_rm regs_after mem_after rm_ok] in *; unfold read_gop;
  cbn [g_high g_reg]; start_state s Hcx; rewrite <- !getw_mod;
  change set_flags_sum with (flags_of (is_sum ALU_ADD)).
  - destruct w; try (now elim Hw); rewrite app_assoc; seg_done;
    (apply (finish _ ALU_ADD); [ reflexivity | exact Hw | unfold ab_op; pick | reflexivity | rd | rd
      | nom; rewrite ?getw_setw, ?getw_idem; apply getw_mod | reflexivity | reflexivity | reflexivity | exact Hok ]).
  - destruct w; try (now elim Hw); rewrite <- ?app_assoc; seg_done;
    run_ea m Hm; faults; try (seg_fault; forget); seg_done;
    (apply (finish _ ALU_ADD); [ reflexivity | exact Hw | unfold ab_op; pick | reflexivity | rd | rd
      | nom; rewrite ?getw_setw, ?getw_idem; apply getw_mod | reflexivity | reflexivity | reflexivity | exact Hok ]).
Qed.
