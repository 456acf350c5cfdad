(** * Shifts and double shifts, all operand forms *)

From Coq Require Import ZArith Bool List Lia ZifyBool.
From Verif Require Import HostModel AluModel AluSpec HostProofs LazyFlagsProofs FlagsApiProofs
  FlagArith SymExec EaProofs AluProofs AluForms UnaryProofs XchgProofs ShiftModel ShiftSpec ShiftProofs.
Import ListNotations.
Local Open Scope Z_scope.

(** ** The count in CL *)

Definition no_lab0 (i : instr) : bool := match i with ILab O => false | _ => true end.

Lemma skip_all E l s : forallb no_lab0 l = true -> exec E l (Skip 0 s) = Skip 0 s.
Proof.
  induction l as [| i l IH]; [reflexivity |]. cbn [forallb]. intros H.
  apply andb_prop in H. destruct H as [Hi Hl].
  destruct i; cbn [exec]; try (exact (IH Hl)). destruct l0; [discriminate | exact (IH Hl)].
Qed.

Lemma ea_no_lab m : forallb no_lab0 (emit_ea m) = true.
Proof.
  destruct m as [a32 d sg z | a32 base index disp mod1 sg z]; cbn [emit_ea].
  - now destruct z.
  - destruct a32, base, index as [[i sc] |], disp, z; reflexivity.
Qed.

Lemma lab_end E l s : run E (l ++ [ILab 0]) s =
  match run E l s with Done s' | Skip O s' => Done s' | o => o end.
Proof.
  unfold run. rewrite exec_app. destruct (exec E l (Done s)) as [| [|k] s' | | | |]; reflexivity.
Qed.

Lemma lab_effect E l w s ld st g m fl : effect E l w s ld st g m fl ->
  effect E (l ++ [ILab 0]) w s ld st g m fl.
Proof.
  unfold effect. destruct (first_fault E w ld st s) as [[wr a] |]; intros (s' & R & K);
  exists s'; rewrite lab_end, R; now split.
Qed.

Lemma effect_from E l l' w s s1 ld st g m fl : ctx s1 = ctx s -> masked s1 = masked s ->
  gmem s1 = gmem s -> run E l s = run E l' s1 ->
  effect E l' w s1 ld st g m fl -> effect E l w s ld st g m fl.
Proof.
  intros C M G R. unfold effect.
  assert (F : first_fault E w ld st s1 = first_fault E w ld st s).
  { unfold first_fault. now rewrite C. }
  rewrite F, R. destruct (first_fault E w ld st s) as [[wr a] |]; intros (s' & R' & K); exists s';
  (split; [assumption |]); revert K.
  - unfold untouched. now rewrite C, M, G.
  - unfold becomes, frame. now rewrite C, M.
Qed.

(** the state in which the body runs when the count is not zero *)
Lemma cl_step E l s : h_rcx (hr s) = P PCtx -> forallb no_lab0 l = true ->
  let n := gget W8 false ECX (gprs (ctx s)) mod 32 in
  exists s1, ctx s1 = ctx s /\ gmem s1 = gmem s /\ masked s1 = masked s /\ h_rcx (hr s1) = P PCtx /\
    getw W8 (num E (h_r9 (hr s1))) = n /\
    run E (load_count ++ skip_zero ++ l ++ [ILab 0]) s =
      if n =? 0 then Done s1 else run E (l ++ [ILab 0]) s1.
Proof.
  intros Hcx Hl n. subst n. start_state s Hcx.
  assert (Hg : getw W8 (Z.land (gget W8 false ECX gp) 31) = gget W8 false ECX gp mod 32).
  { rewrite count_mod. pose proof (gget_range W8 false ECX gp) as R. apply getw_small.
    pose proof (Z.mod_pos_bound (gget W8 false ECX gp) 32 eq_refl). change (modulus W8) with 256. lia. }
  unfold run, load_count, skip_zero. rewrite app_assoc, exec_app.
  match goal with |- context [exec E (?x ++ ?y) (Done ?st)] =>
    assert (K : exists s1, ctx s1 = mkg gp sb ef ip rs ax c4 sl /\ gmem s1 = gm /\ masked s1 = mk /\ h_rcx (hr s1) = P PCtx /\
      getw W8 (num E (h_r9 (hr s1))) = gget W8 false ECX gp mod 32 /\
      exec E (x ++ y) (Done st) = if gget W8 false ECX gp mod 32 =? 0 then Skip 0 s1 else Done s1)
  end.
  { expand_list; symh. rewrite exec_step. cbn [step exec hf].
    lazymatch goal with |- context [holds CEQ (sub_flags W8 ?x ?y)] =>
      change (holds CEQ (sub_flags W8 x y)) with (getw W8 (x - y) =? 0);
      rewrite (sub_zero W8 x y) by apply getw_range;
      replace (y =? x) with (gget W8 false ECX gp mod 32 =? 0) end.
    - eexists. split; [| split; [| split; [| split; [| split; [| destruct (_ =? 0); reflexivity]]]]]; try reflexivity.
      nost. cbn [num]. rewrite getw_setw. change (getw W8 31) with 31. exact Hg.
    - change (getw W8 31) with 31. rewrite Hg. change (getw W8 0) with 0. apply Z.eqb_sym. }
  destruct K as (s1 & K1 & K2 & K3 & K4 & K5 & K6). exists s1. repeat (split; [assumption |]).
  rewrite K6. destruct (gget W8 false ECX gp mod 32 =? 0); [| reflexivity].
  rewrite exec_app, skip_all by assumption. reflexivity.
Qed.

(** ** Shifts *)

Lemma shift_op E op w a b n : arith_w w -> 0 < n ->
  sh_op E (IShift op (Rg w RAX)) w None a b n (shift_val op w a n)
    (mkf (shift_val op w a n =? 0) (shift_cf op w a n) (top w (shift_val op w a n)) (shift_of op w a n)).
Proof. intros Hw Hn s co c Ha _ Hc Hl. apply shift_acts with c; auto. lia. Qed.

Lemma read_rm_range w o s : 0 <= read_rm w o s < modulus w.
Proof. destruct o; [apply gget_range | apply mload_range]. Qed.

Lemma shift_ok E op w o count s :
  arith_w w -> h_rcx (hr s) = P PCtx -> ctx_ok (ctx s) -> rm_ok o (ctx s) ->
  let a := read_rm w o s in let n := count_of count (ctx s) in
  (n = 0 -> no_change E (emit_shift op w o count) s) /\
  (n <> 0 -> exists fl, shift_flags op w a n fl /\
     effect E (emit_shift op w o count) w s (rm_mem o) (rm_mem o)
       (regs_after w o (shift_value op w a n) s) (mem_after w o (shift_value op w a n) s) fl).
Proof.
  intros Hw Hcx Hok Hm a n. pose proof (read_rm_range w o s) as Ra. fold a in Ra.
  assert (Hn : 0 <= n < 32) by (apply Z.mod_pos_bound; lia).
  destruct count as [c |].
  - assert (Hc : Z.land c 0x1F = n) by apply count_mod.
    unfold emit_shift. rewrite Hc. destruct (Z.eqb_spec n 0) as [E0 | N0].
    + split; [| congruence]. intros _. exists s. repeat split; auto.
    + split; [congruence |]. intros _.
      eexists; split; [apply shift_flags_spec with (z := (shift_val op w a n =? 0)) (sf := top w (shift_val op w a n)); [exact Ra | lia] |].
      rewrite <- shift_val_spec by (assumption || lia).
      pose proof (shift_val_range op w _ n Ra ltac:(lia)) as Rv.
      destruct o as [g | m]; cbn [rm_mem].
      * exact (gen_reg_imm E (IShift op (Rg w RAX)) w None a 0 n _ _ Hw ltac:(lia) Rv (shift_op E op w a 0 n Hw ltac:(lia)) g s Hcx Hok eq_refl I).
      * exact (gen_mem E (IShift op (Rg w RAX)) w None a 0 n _ _ Hw ltac:(lia) Rv (shift_op E op w a 0 n Hw ltac:(lia)) false m false s Hcx Hok Hm (or_introl eq_refl) eq_refl I ltac:(discriminate)).
  - unfold emit_shift.
    lazymatch goal with |- context [load_count ++ skip_zero ++ ?l ++ _] =>
      destruct (cl_step E l s Hcx) as (s1 & C1 & G1 & M1 & X1 & R9 & HR) end.
    { destruct o; [now destruct w | rewrite forallb_app, ea_no_lab; now destruct w]. }
    change (gget W8 false ECX (gprs (ctx s)) mod 32) with n in R9, HR.
    destruct (Z.eqb_spec n 0) as [E0 | N0].
    + split; [| congruence]. intros _. exists s1. repeat split; auto.
    + split; [congruence |]. intros _.
      eexists; split; [apply shift_flags_spec with (z := (shift_val op w a n =? 0)) (sf := top w (shift_val op w a n)); [exact Ra | lia] |].
      rewrite <- shift_val_spec by (assumption || lia).
      pose proof (shift_val_range op w _ n Ra ltac:(lia)) as Rv.
      assert (Hl : Z.land (getw W8 (num E (h_r9 (hr s1)))) 31 = n) by (rewrite R9, count_mod; apply Z.mod_small; lia).
      eapply effect_from; [exact C1 | exact M1 | exact G1 | exact HR |]. apply lab_effect.
      subst a. destruct o as [g | m]; cbn [rm_mem read_rm regs_after mem_after rm_ok] in *; rewrite <- C1, <- ?G1 in *.
      * exact (gen_reg_cl E (IShift op (Rg w RAX)) w None _ 0 n _ _ Hw Rv (shift_op E op w _ 0 n Hw ltac:(lia)) g s1 X1 Hok eq_refl I Hl).
      * exact (gen_mem E (IShift op (Rg w RAX)) w None _ 0 n _ _ Hw ltac:(lia) Rv (shift_op E op w _ 0 n Hw ltac:(lia)) false m true s1 X1 Hok Hm (or_introl eq_refl) eq_refl I (fun _ => Hl)).
Qed.

(** ** Double shifts *)

Lemma lor_join k x y : 0 <= k -> 0 <= x < 2 ^ k -> Z.lor (Z.shiftl y k) x = y * 2 ^ k + x.
Proof.
  intros Hk Hx. rewrite <- Z.shiftl_mul_pow2 by lia. symmetry.
  rewrite <- Z.lxor_lor; [apply Z.add_nocarry_lxor |];
  (apply Z.bits_inj'; intros i Hi; rewrite Z.land_spec, Z.bits_0;
   destruct (Z.ltb_spec i k);
   [ rewrite Z.shiftl_spec_low by lia; reflexivity
   | rewrite <- (Z.mod_small x (2 ^ k)) by lia; rewrite Z.mod_pow2_bits_high by lia; apply andb_false_r ]).
Qed.

Lemma div_pow_lt w a k : 0 <= a < modulus w -> 0 <= k <= wbits w -> 0 <= a / 2 ^ k < 2 ^ (wbits w - k).
Proof.
  intros Ha Hk. assert (0 < 2 ^ k) by (apply Z.pow_pos_nonneg; lia).
  split; [apply Z.div_pos; lia |]. apply Z.div_lt_upper_bound; [assumption |].
  rewrite <- Z.pow_add_r by lia. replace (k + (wbits w - k)) with (wbits w) by lia. apply Ha.
Qed.

Lemma shd_val_spec op w a b n : 0 <= a < modulus w -> 0 <= b < modulus w -> 0 < n <= wbits w ->
  shd_val op w a b n = dshift_value op w a b n.
Proof.
  intros Ha Hb Hn. destruct op; cbn [shd_val dshift_value]; rewrite getw_mod; f_equal.
  - rewrite (Z.shiftr_div_pow2 b) by lia. apply lor_join; [lia |].
    pose proof (div_pow_lt w b (wbits w - n) Hb ltac:(lia)) as D.
    now replace (wbits w - (wbits w - n)) with n in D by lia.
  - rewrite Z.lor_comm, (Z.shiftr_div_pow2 a) by lia. rewrite lor_join; [lia | lia |].
    apply div_pow_lt; [assumption | lia].
Qed.

Lemma dshift_op E op w src a b n : arith_w w -> 0 < n ->
  sh_op E (IShd op (Rg w RAX) (Rg w RBX)) w (Some src) a b n (shd_val op w a b n)
    (mkf (shd_val op w a b n =? 0) (shd_cf op w a n) (top w (shd_val op w a b n))
         (xorb (top w a) (top w (shd_val op w a b n)))).
Proof. intros Hw Hn s co c Ha Hb Hc Hl. apply shd_acts with c; auto. lia. Qed.

Lemma dshift_flags_spec op w a b n : 0 <= a < modulus w -> 0 <= b < modulus w -> 0 < n <= wbits w ->
  dshift_flags op w a b n
    (sh_flags w (shd_val op w a b n)
       (mkf (shd_val op w a b n =? 0) (shd_cf op w a n) (top w (shd_val op w a b n))
            (xorb (top w a) (top w (shd_val op w a b n))))).
Proof.
  intros Ha Hb Hn. unfold dshift_flags, result_flags, sh_flags. cbn [f_cf f_pf f_zf f_sf f_of hcf hof].
  rewrite (shd_val_spec op w a b n) by assumption. repeat split; auto; now destruct op.
Qed.

Lemma dshift_ok E op w o src count s :
  arith_w w -> h_rcx (hr s) = P PCtx -> ctx_ok (ctx s) -> rm_ok o (ctx s) ->
  let a := read_rm w o s in let b := read_gop w src (ctx s) in let n := count_of count (ctx s) in
  (n = 0 -> no_change E (emit_dshift op w o src count) s) /\
  (0 < n <= wbits w -> exists fl, dshift_flags op w a b n fl /\
     effect E (emit_dshift op w o src count) w s (rm_mem o) (rm_mem o)
       (regs_after w o (dshift_value op w a b n) s) (mem_after w o (dshift_value op w a b n) s) fl).
Proof.
  intros Hw Hcx Hok Hm a b n. pose proof (read_rm_range w o s) as Ra. fold a in Ra.
  assert (Rb : 0 <= b < modulus w) by apply gget_range.
  assert (Hn : 0 <= n < 32) by (apply Z.mod_pos_bound; lia).
  destruct count as [c |].
  - assert (Hc : Z.land c 0x1F = n) by apply count_mod.
    unfold emit_dshift. rewrite Hc. destruct (Z.eqb_spec n 0) as [E0 | N0].
    + split; [| lia]. intros _. exists s. repeat split; auto.
    + split; [congruence |]. intros Hle.
      eexists; split; [apply dshift_flags_spec; assumption |].
      rewrite <- shd_val_spec by assumption.
      assert (Rv : 0 <= shd_val op w a b n < modulus w) by (destruct op; apply getw_range).
      destruct o as [g | m]; cbn [rm_mem].
      * exact (gen_reg_imm E (IShd op (Rg w RAX) (Rg w RBX)) w (Some src) a b n _ _ Hw ltac:(lia) Rv
                 (dshift_op E op w src a b n Hw ltac:(lia)) g s Hcx Hok eq_refl eq_refl).
      * exact (gen_mem E (IShd op (Rg w RAX) (Rg w RBX)) w (Some src) a b n _ _ Hw ltac:(lia) Rv
                 (dshift_op E op w src a b n Hw ltac:(lia)) true m false s Hcx Hok Hm (or_intror eq_refl) eq_refl eq_refl ltac:(discriminate)).
  - unfold emit_dshift.
    lazymatch goal with |- context [load_count ++ skip_zero ++ ?l ++ _] =>
      destruct (cl_step E l s Hcx) as (s1 & C1 & G1 & M1 & X1 & R9 & HR) end.
    { destruct o; [now destruct w | rewrite forallb_app, ea_no_lab; now destruct w]. }
    change (gget W8 false ECX (gprs (ctx s)) mod 32) with n in R9, HR.
    destruct (Z.eqb_spec n 0) as [E0 | N0].
    + split; [| lia]. intros _. exists s1. repeat split; auto.
    + split; [congruence |]. intros Hle.
      eexists; split; [apply dshift_flags_spec; assumption |].
      rewrite <- shd_val_spec by assumption.
      assert (Rv : 0 <= shd_val op w a b n < modulus w) by (destruct op; apply getw_range).
      assert (Hl : Z.land (getw W8 (num E (h_r9 (hr s1)))) 31 = n) by (rewrite R9, count_mod; apply Z.mod_small; lia).
      eapply effect_from; [exact C1 | exact M1 | exact G1 | exact HR |]. apply lab_effect.
      subst a b. destruct o as [g | m]; cbn [rm_mem read_rm regs_after mem_after rm_ok] in *; rewrite <- C1, <- ?G1 in *.
      * exact (gen_reg_cl E (IShd op (Rg w RAX) (Rg w RBX)) w (Some src) _ _ n _ _ Hw Rv
                 (dshift_op E op w src _ _ n Hw ltac:(lia)) g s1 X1 Hok eq_refl eq_refl Hl).
      * exact (gen_mem E (IShd op (Rg w RAX) (Rg w RBX)) w (Some src) _ _ n _ _ Hw ltac:(lia) Rv
                 (dshift_op E op w src _ _ n Hw ltac:(lia)) true m true s1 X1 Hok Hm (or_intror eq_refl) eq_refl eq_refl (fun _ => Hl)).
Qed.
