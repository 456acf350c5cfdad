(** * Rotates *)

From Coq Require Import ZArith Bool List Lia ZifyBool.
From Verif Require Import HostModel AluModel AluSpec HostProofs LazyFlagsProofs FlagsApiProofs
  FlagArith SymExec EaProofs AluProofs AluForms UnaryProofs XchgProofs ShiftModel ShiftSpec
  ShiftProofs ShiftForms.
Import ListNotations.
Local Open Scope Z_scope.

(** ** Iterated one-bit rotates *)

Lemma testbit_over w v i : 0 <= v < modulus w -> wbits w <= i -> Z.testbit v i = false.
Proof.
  intros Hv Hi. rewrite <- (Z.mod_small v (modulus w)) by assumption. unfold modulus.
  apply Z.mod_pow2_bits_high. destruct w; cbn in *; lia.
Qed.

Lemma range_bits w v : 0 <= v -> (forall i, wbits w <= i -> Z.testbit v i = false) -> v < modulus w.
Proof.
  intros H0 H. assert (E : v = v mod modulus w).
  { unfold modulus. apply Z.bits_inj'. intros i Hi. destruct (Z.ltb_spec i (wbits w)).
    - now rewrite Z.mod_pow2_bits_low by lia.
    - rewrite H by lia. symmetry. apply Z.mod_pow2_bits_high. destruct w; cbn in *; lia. }
  rewrite E. apply Z.mod_pos_bound, modulus_pos.
Qed.

Lemma b2z_bit b i : 0 <= i -> Z.testbit (b2z b) i = b && (i =? 0).
Proof.
  intros Hi. destruct b; cbn [b2z andb]; [| apply Z.testbit_0_l].
  change 1 with (2 ^ 0). rewrite Z.pow2_bits_eqb by lia. apply Z.eqb_sym.
Qed.

Lemma rot1_range op w v c : 0 <= v < modulus w -> 0 <= fst (rot1 op w (v, c)) < modulus w.
Proof.
  intros Hv. assert (W : 8 <= wbits w) by apply n8.
  assert (R : forall b, 0 <= Z.lor (Z.shiftr v 1) (Z.shiftl (b2z b) (wbits w - 1)) < modulus w).
  { intros b. assert (N : 0 <= Z.lor (Z.shiftr v 1) (Z.shiftl (b2z b) (wbits w - 1))).
    { apply Z.lor_nonneg. split; [apply Z.shiftr_nonneg; lia | apply Z.shiftl_nonneg; destruct b; cbn; lia]. }
    split; [exact N |]. apply range_bits; [exact N |]. intros i Hi.
    rewrite Z.lor_spec, Z.shiftr_spec, Z.shiftl_spec, b2z_bit by lia.
    rewrite (testbit_over w v) by (assumption || lia). rewrite orb_false_l.
    replace (i - (wbits w - 1) =? 0) with false by lia. apply andb_false_r. }
  destruct op; cbn [rot1 fst]; try apply getw_range; apply R.
Qed.

(** position [i] of the ring after one step *)
Lemma rol1_bit w v c i : 0 <= v < modulus w -> 0 <= i < wbits w ->
  Z.testbit (fst (rot1 ORol w (v, c))) i = Z.testbit v ((i - 1) mod wbits w).
Proof.
  intros Hv Hi. pose proof (n8 w). cbn [rot1 fst]. rewrite getw_testbit, Z.lor_spec, Z.shiftl_spec, b2z_bit by lia.
  replace (i <? wbits w) with true by lia. rewrite andb_true_r. unfold top.
  destruct (Z.eqb_spec i 0) as [-> | N].
  - rewrite Z.testbit_neg_r by lia. rewrite orb_false_l, andb_true_r. f_equal.
    apply (Z.mod_unique _ _ (-1)); lia.
  - rewrite andb_false_r, orb_false_r. f_equal. symmetry. apply Z.mod_small. lia.
Qed.

Lemma ror1_bit w v c i : 0 <= v < modulus w -> 0 <= i < wbits w ->
  Z.testbit (fst (rot1 ORor w (v, c))) i = Z.testbit v ((i + 1) mod wbits w).
Proof.
  intros Hv Hi. pose proof (n8 w). cbn [rot1 fst]. rewrite Z.lor_spec, Z.shiftr_spec, Z.shiftl_spec by lia.
  destruct (Z.eqb_spec i (wbits w - 1)) as [-> | N].
  - rewrite b2z_bit by lia. replace (wbits w - 1 - (wbits w - 1) =? 0) with true by lia.
    replace (wbits w - 1 + 1) with (wbits w) by lia. rewrite (testbit_over w v) by (assumption || lia).
    rewrite Z.mod_same by lia. rewrite andb_true_r. reflexivity.
  - rewrite (Z.testbit_neg_r _ (i - (wbits w - 1))) by lia. rewrite orb_false_r, Z.mod_small by lia. reflexivity.
Qed.

Lemma rcl1_bit w v c i : 0 <= v < modulus w -> 0 <= i <= wbits w ->
  ring_bit w (fst (rot1 ORcl w (v, c))) (snd (rot1 ORcl w (v, c))) i
  = ring_bit w v c ((i - 1) mod (wbits w + 1)).
Proof.
  intros Hv Hi. pose proof (n8 w). cbn [rot1 fst snd]. unfold ring_bit.
  destruct (Z.ltb_spec i (wbits w)).
  - rewrite getw_testbit, Z.lor_spec, Z.shiftl_spec, b2z_bit by lia.
    replace (i <? wbits w) with true by lia. rewrite andb_true_r.
    destruct (Z.eqb_spec i 0) as [-> | N].
    + rewrite Z.testbit_neg_r by lia. rewrite orb_false_l, andb_true_r.
      replace ((0 - 1) mod (wbits w + 1)) with (wbits w) by (apply (Z.mod_unique _ _ (-1)); lia).
      now rewrite Z.ltb_irrefl.
    + rewrite andb_false_r, orb_false_r, Z.mod_small by lia. now replace (i - 1 <? wbits w) with true by lia.
  - replace i with (wbits w) by lia. rewrite Z.mod_small by lia.
    replace (wbits w - 1 <? wbits w) with true by lia. reflexivity.
Qed.

Lemma rcr1_bit w v c i : 0 <= v < modulus w -> 0 <= i <= wbits w ->
  ring_bit w (fst (rot1 ORcr w (v, c))) (snd (rot1 ORcr w (v, c))) i
  = ring_bit w v c ((i + 1) mod (wbits w + 1)).
Proof.
  intros Hv Hi. pose proof (n8 w). cbn [rot1 fst snd]. unfold ring_bit.
  destruct (Z.ltb_spec i (wbits w)).
  - rewrite Z.lor_spec, Z.shiftr_spec, Z.shiftl_spec by lia. rewrite Z.mod_small by lia.
    destruct (Z.eqb_spec i (wbits w - 1)) as [-> | N].
    + rewrite b2z_bit by lia. replace (wbits w - 1 - (wbits w - 1) =? 0) with true by lia.
      replace (wbits w - 1 + 1) with (wbits w) by lia. rewrite (testbit_over w v) by (assumption || lia).
      rewrite Z.ltb_irrefl, andb_true_r. reflexivity.
    + rewrite (Z.testbit_neg_r _ (i - (wbits w - 1))) by lia. replace (i + 1 <? wbits w) with true by lia. apply orb_false_r.
  - replace i with (wbits w) by lia. rewrite Z.mod_same by lia. replace (0 <? wbits w) with true by lia. reflexivity.
Qed.

Lemma rot_succ op w v c n : 0 <= n -> rot op w v c (n + 1) = rot1 op w (rot op w v c n).
Proof. intros Hn. unfold rot. rewrite Z2Nat.inj_add, Nat.add_1_r by lia. reflexivity. Qed.

Lemma rot_range op w v c n : 0 <= v < modulus w -> 0 <= n -> 0 <= fst (rot op w v c n) < modulus w.
Proof.
  intros Hv Hn. revert n Hn. refine (natlike_ind _ _ _); [exact Hv |].
  intros n Hn IH. rewrite <- Z.add_1_r, rot_succ by assumption.
  destruct (rot op w v c n). now apply rot1_range.
Qed.

Lemma mod_shift a k m : 0 < m -> (a mod m + k) mod m = (a + k) mod m.
Proof. intros. apply Zplus_mod_idemp_l. Qed.

Lemma rol_bits w v c n : 0 <= v < modulus w -> 0 <= n -> forall i, 0 <= i < wbits w ->
  Z.testbit (fst (rot ORol w v c n)) i = Z.testbit v ((i - n) mod wbits w).
Proof.
  intros Hv Hn. pose proof (n8 w). revert n Hn. refine (natlike_ind _ _ _).
  - intros i Hi. rewrite Z.sub_0_r, Z.mod_small by lia. reflexivity.
  - intros n Hn IH i Hi. rewrite <- Z.add_1_r, rot_succ by assumption.
    pose proof (rot_range ORol w v c n Hv Hn) as R. destruct (rot ORol w v c n) as [v' c'] eqn:Er. cbn [fst] in *.
    rewrite rol1_bit by assumption. rewrite IH by (apply Z.mod_pos_bound; lia).
    rewrite Zminus_mod_idemp_l. f_equal. f_equal. lia.
Qed.

Lemma ror_bits w v c n : 0 <= v < modulus w -> 0 <= n -> forall i, 0 <= i < wbits w ->
  Z.testbit (fst (rot ORor w v c n)) i = Z.testbit v ((i + n) mod wbits w).
Proof.
  intros Hv Hn. pose proof (n8 w). revert n Hn. refine (natlike_ind _ _ _).
  - intros i Hi. rewrite Z.add_0_r, Z.mod_small by lia. reflexivity.
  - intros n Hn IH i Hi. rewrite <- Z.add_1_r, rot_succ by assumption.
    pose proof (rot_range ORor w v c n Hv Hn) as R. destruct (rot ORor w v c n) as [v' c'] eqn:Er. cbn [fst] in *.
    rewrite ror1_bit by assumption. rewrite IH by (apply Z.mod_pos_bound; lia).
    rewrite Zplus_mod_idemp_l. f_equal. f_equal. lia.
Qed.

Lemma rcl_bits w v c n : 0 <= v < modulus w -> 0 <= n -> forall i, 0 <= i <= wbits w ->
  ring_bit w (fst (rot ORcl w v c n)) (snd (rot ORcl w v c n)) i = ring_bit w v c ((i - n) mod (wbits w + 1)).
Proof.
  intros Hv Hn. pose proof (n8 w). revert n Hn. refine (natlike_ind _ _ _).
  - intros i Hi. rewrite Z.sub_0_r, Z.mod_small by lia. reflexivity.
  - intros n Hn IH i Hi. rewrite <- Z.add_1_r, rot_succ by assumption.
    pose proof (rot_range ORcl w v c n Hv Hn) as R. destruct (rot ORcl w v c n) as [v' c'] eqn:Er. cbn [fst snd] in *.
    rewrite rcl1_bit by assumption. rewrite IH.
    + rewrite Zminus_mod_idemp_l. f_equal. f_equal. lia.
    + pose proof (Z.mod_pos_bound (i - 1) (wbits w + 1)). lia.
Qed.

Lemma rcr_bits w v c n : 0 <= v < modulus w -> 0 <= n -> forall i, 0 <= i <= wbits w ->
  ring_bit w (fst (rot ORcr w v c n)) (snd (rot ORcr w v c n)) i = ring_bit w v c ((i + n) mod (wbits w + 1)).
Proof.
  intros Hv Hn. pose proof (n8 w). revert n Hn. refine (natlike_ind _ _ _).
  - intros i Hi. rewrite Z.add_0_r, Z.mod_small by lia. reflexivity.
  - intros n Hn IH i Hi. rewrite <- Z.add_1_r, rot_succ by assumption.
    pose proof (rot_range ORcr w v c n Hv Hn) as R. destruct (rot ORcr w v c n) as [v' c'] eqn:Er. cbn [fst snd] in *.
    rewrite rcr1_bit by assumption. rewrite IH.
    + rewrite Zplus_mod_idemp_l. f_equal. f_equal. lia.
    + pose proof (Z.mod_pos_bound (i + 1) (wbits w + 1)). lia.
Qed.

(** the carry of a plain rotate *)
Lemma rol_carry w v c n : 0 <= v < modulus w -> 0 < n ->
  snd (rot ORol w v c n) = Z.testbit (fst (rot ORol w v c n)) 0.
Proof.
  intros Hv Hn. replace n with ((n - 1) + 1) by lia. rewrite rot_succ by lia.
  destruct (rot ORol w v c (n - 1)) as [v' c']. cbn [rot1 fst snd].
  rewrite getw_testbit, Z.lor_spec, Z.shiftl_spec, b2z_bit by lia.
  rewrite Z.testbit_neg_r by lia. pose proof (n8 w). replace (0 <? wbits w) with true by lia.
  now rewrite andb_true_r, orb_false_l, andb_true_r.
Qed.

Lemma ror_carry w v c n : 0 <= v < modulus w -> 0 < n ->
  snd (rot ORor w v c n) = sign_bit w (fst (rot ORor w v c n)).
Proof.
  intros Hv Hn. pose proof (n8 w). replace n with ((n - 1) + 1) by lia. rewrite rot_succ by lia.
  pose proof (rot_range ORor w v c (n - 1) Hv ltac:(lia)) as R.
  destruct (rot ORor w v c (n - 1)) as [v' c']. cbn [rot1 fst snd] in *. unfold sign_bit.
  rewrite Z.lor_spec, Z.shiftr_spec, Z.shiftl_spec, b2z_bit by lia.
  replace (wbits w - 1 - (wbits w - 1) =? 0) with true by lia.
  replace (wbits w - 1 + 1) with (wbits w) by lia.
  rewrite (testbit_over w v' (wbits w)) by (assumption || lia). now rewrite orb_false_l, andb_true_r.
Qed.

Lemma rot_spec op w v c n : 0 <= v < modulus w -> 0 < n ->
  rotated op w v c n (fst (rot op w v c n)) (snd (rot op w v c n)).
Proof.
  intros Hv Hn. split; [apply rot_range; [assumption | lia] |].
  destruct op.
  - split; [apply rol_bits; lia | now apply rol_carry].
  - split; [apply ror_bits; lia | now apply ror_carry].
  - apply rcl_bits; lia.
  - apply rcr_bits; lia.
Qed.

(** plain rotates do not use the incoming carry *)
Lemma rot_no_carry op w v c c' n : is_rc op = false -> 0 < n -> rot op w v c n = rot op w v c' n.
Proof.
  intros Hr Hn. replace n with ((n - 1) + 1) by lia. assert (H : 0 <= n - 1) by lia.
  revert H. generalize (n - 1). clear n Hn. intros n Hn.
  assert (F : forall n, 0 <= n -> fst (rot op w v c n) = fst (rot op w v c' n) /\
    rot op w v c (n + 1) = rot op w v c' (n + 1)).
  { clear n Hn. refine (natlike_ind _ _ _).
    - split; [reflexivity |]. rewrite !rot_succ by lia. now destruct op.
    - intros n Hn [I1 I2]. rewrite <- Z.add_1_r. split; [now rewrite I2 |].
      rewrite !(rot_succ _ _ _ _ (n + 1)) by lia. now rewrite I2. }
  now apply F.
Qed.

(** ** The guest's CF in the host's CF *)

Lemma host_cf_run E s : h_rcx (hr s) = P PCtx ->
  exists v f, run E set_host_cf s = Done (set_hf f (set_hr (rset RDX v (hr s)) s)) /\
    hcf f = Z.testbit (aux (ctx s)) 31.
Proof.
  intros Hcx. start_state s Hcx. unfold run; expand_list; symh.
  rewrite exec_step. cbn [step hf].
  assert (J : forall x, holds CEQ (logic_flags W32 x) = (getw W32 x =? 0)) by reflexivity.
  rewrite J, if00.
  assert (K : (getw W32 (Z.land (getw W32 (Z.land (getw W32 ax) (getw W32 2147483648)))
                 (getw W32 (Z.land (getw W32 ax) (getw W32 2147483648)))) =? 0) = negb (Z.testbit ax 31)).
  { rewrite Z.land_diag, getw_idem. change (getw W32 2147483648) with (2 ^ 31). rewrite land_pow2 by lia.
    rewrite getw_testbit by lia. change (31 <? wbits W32) with true. rewrite andb_true_r.
    now destruct (Z.testbit ax 31). }
  rewrite K. destruct (Z.testbit ax 31) eqn:B; cbn [negb].
  - do 2 sym1. eexists _, _. split; [reflexivity | reflexivity].
  - skip. sym. eexists _, _. split; [reflexivity | reflexivity].
Qed.

(** ** Emitted rotates *)

Definition rot_op (E : henv) (op : opnd -> instr) (w : width) (needs cf : bool) (a n v : Z) (cy o : bool) : Prop :=
  forall s co c, op_read E (Rg w RAX) s = Some a -> (needs = true -> hcf (hf s) = cf) ->
    op_read E co s = Some c -> Z.land c 31 = n ->
    acts E (op co) w s v (mkf (hzf (hf s)) cy (hsf (hf s)) o).

Definition rot_flags (old : aflags) (cy o : bool) : aflags :=
  mkaf cy (f_pf old) (f_af old) (f_zf old) (f_sf old) o.

(** the common end of the register and of the memory forms *)
Lemma merge_ok E s c o : h_rcx (hr s) = P PCtx -> getw W32 (num E (h_rbx (hr s))) = cfof c o ->
  exists s', run E merge_cfof s = Done s' /\ h_rcx (hr s') = P PCtx /\ gmem s' = gmem s /\
    masked s' = masked s /\
    exists A, ctx s' = set_aux A (ctx s) /\ w32 A = Z.lor (Z.land (w32 (aux (ctx s))) 0x3FFFFFFF) (cfof c o).
Proof.
  intros Hcx Hb. start_state s Hcx. unfold run; expand_list; symh. cbn [exec].
  eexists. split; [reflexivity |]. split; [reflexivity |]. split; [reflexivity |]. split; [reflexivity |].
  eexists. split; [cbn [ctx]; unfold set_aux; cbn [gprs segb eflags eip res aux cr4 gsel]; reflexivity |].
  cbn [ctx aux]. rewrite if00, w32_putw. change w32 with (getw W32). rewrite Hb.
  change (getw W32 1073741823) with 1073741823.
  replace (getw W32 (Z.land (getw W32 ax) 1073741823)) with (Z.land (getw W32 ax) 1073741823).
  2:{ change 1073741823 with (getw W32 1073741823) at 2. now rewrite getw_land. }
  replace (cfof c o) with (getw W32 (cfof c o)) by (destruct c, o; reflexivity).
  replace (Z.land (getw W32 ax) 1073741823) with (getw W32 (Z.land (getw W32 ax) 1073741823)).
  2:{ change 1073741823 with (getw W32 1073741823). now rewrite getw_land. }
  rewrite !getw_lor. reflexivity.
Qed.

Definition rpre (needs : bool) : list instr := if needs then set_host_cf else [].

Lemma rpre_run E needs cf s : h_rcx (hr s) = P PCtx -> Z.testbit (aux (ctx s)) 31 = cf ->
  exists v f, run E (rpre needs) s = Done (set_hf f (set_hr (rset RDX v (hr s)) s)) /\ (needs = true -> hcf f = cf).
Proof.
  intros Hcx Hc. unfold rpre. destruct needs.
  - destruct (host_cf_run E s Hcx) as (x & f & R & K). exists x, f. split; [exact R | congruence].
  - exists (h_rdx (hr s)), (hf s). split; [| discriminate].
    now destruct s as [[q1 q2 q3 q4 q5 q6 q7 q8] q9 q10 q11 q12 q13 q14].
Qed.

Section Rot.
Variables (E : henv) (op : opnd -> instr) (w : width) (needs cf : bool) (a n v : Z) (cy o : bool).
Hypothesis Hw : arith_w w.
Hypothesis Hn : 0 < n < 32.
Hypothesis Hv : 0 <= v < modulus w.
Hypothesis Hop : rot_op E op w needs cf a n v cy o.

Definition rot_reg (g : gop) (cl : bool) : list instr :=
  let d := Rg w RAX in
  [MOV d (g_opnd w g)] ++ rpre needs ++
  (if cl then [MOV CL R9B; op CL; RELOAD_RCX_CTX] else [op (Im W8 n)]) ++
  cfof_reg ++ [MOV (g_opnd w g) d] ++ merge_cfof.

Definition rot_mem (m : memop) (cl : bool) : list instr :=
  let d := Rg w RAX in
  emit_ea m ++ ([MOV hEBX hEDX] ++ (if cl then [MOV (local W8 0) R9B] else []) ++ [ILoad w]) ++ rpre needs ++
  ((if cl then [MOV CL (local W8 0); op CL] else [op (Im W8 n)]) ++
   [MOV (Rg w R8) d; MOV hEDX hEBX] ++ (if cl then [RELOAD_RCX_CTX] else []) ++ cfof_mem ++ [IStore w]) ++
  merge_cfof.

Ltac rpre_step Hc :=
  lazymatch goal with |- context [run E (rpre needs ++ ?tl) ?st] =>
    let v := fresh "v" in let f := fresh "f" in
    destruct (rpre_run E needs cf st eq_refl Hc) as (v & f & HR & Hf); rewrite (run_seq _ _ _ _ _ HR); clear HR; nost
  end.

(** merge the carries and finish *)
Ltac close_rot Hok :=
  lazymatch goal with |- context [run E merge_cfof ?st] =>
    let K := fresh in
    assert (K : getw W32 (num E (h_rbx (hr st))) = cfof cy o);
    [ cbn [hr h_rbx num]; rewrite ?getw_setw, ?getw_idem; destruct cy, o; reflexivity |];
    destruct (merge_ok E st cy o eq_refl K) as (s' & R' & X' & G' & M' & A' & C' & W'); clear K;
    exists s'; split; [exact R' |]
  end.

Ltac rot_end Hok C' G' X' M' W' :=
  eapply becomes_flags;
    [ exact Hok | exact X'
    | rewrite C'; cbn [ctx]; unfold set_aux, set_res, set_gprs; cbn [gprs segb eflags eip res aux cr4 gsel]; reflexivity
    | rewrite G'; cbn [gmem]; reflexivity | rewrite M'; reflexivity
    | unfold flags_now; cbn [ctx]; rewrite read_flags by exact Hok; apply lazy_merge; exact W' ].

Lemma gen_rot_reg g cl s : h_rcx (hr s) = P PCtx -> ctx_ok (ctx s) -> read_gop w g (ctx s) = a ->
  Z.testbit (aux (ctx s)) 31 = cf ->
  (cl = true -> Z.land (getw W8 (num E (h_r9 (hr s)))) 31 = n) ->
  effect E (rot_reg g cl) w s None None (regs_after w (RmReg g) v s) (gmem s) (rot_flags (flags_now s) cy o).
Proof.
  intros Hcx Hok Ha Hc H9. unfold rot_reg, effect, first_fault, regs_after.
  destruct g as [h r]. unfold read_gop in *. cbn [g_high g_reg] in *. start_state s Hcx.
  destruct cl; [specialize (H9 eq_refl) | clear H9];
  (destruct w; try (now elim Hw)); seg_done; rpre_step Hc;
  rewrite ?(app_assoc cfof_reg), app_assoc;
  (erewrite run_seq;
   [| unfold run; expand_list; symh;
      (erewrite acts_exec; [| eapply Hop; [rd' | exact Hf | reflexivity |
         first [exact (imm_count n Hn) | cbn [rget hr h_rcx num]; rewrite ?getw_setw, ?getw_idem; exact H9]]]);
      nost; symh; rewrite ?(getw_small _ _ Hv); cbn [exec]; reflexivity]);
  close_rot Hok; rot_end Hok C' G' X' M' W'.
Qed.

Lemma gen_rot_mem m cl s : h_rcx (hr s) = P PCtx -> ctx_ok (ctx s) -> memop_ok m (ctx s) ->
  mload (gmem s) w (ea m (ctx s)) = a -> Z.testbit (aux (ctx s)) 31 = cf ->
  (cl = true -> Z.land (getw W8 (num E (h_r9 (hr s)))) 31 = n) ->
  effect E (rot_mem m cl) w s (Some m) (Some m) (gprs (ctx s)) (mem_after w (RmMem m) v s)
    (rot_flags (flags_now s) cy o).
Proof.
  intros Hcx Hok Hm Ha Hc H9. unfold rot_mem, effect, first_fault, mem_after. start_state s Hcx. run_ea m Hm.
  destruct cl; [specialize (H9 eq_refl) | clear H9];
  (destruct w; try (now elim Hw));
  lazymatch goal with |- context [e_fault E false ?x ?y] => destruct (e_fault E false x y) eqn:? end;
  try (seg_fault; forget); seg_done; rpre_step Hc;
  lazymatch goal with |- context [e_fault E true ?x ?y] => destruct (e_fault E true x y) eqn:? end;
  first
  [ erewrite run_fault;
    [| unfold run; expand_list; symh;
      (erewrite acts_exec; [| eapply Hop; [rd' | exact Hf | reflexivity |
         first [exact (imm_count n Hn) | cbn [rget hr h_rcx num]; rewrite ?getw_setw, ?getw_putw, ?getw_idem; exact H9]]]);
      nost; symh; access; cbn [exec]; reflexivity]; forget
  | erewrite run_seq;
    [| unfold run; expand_list; symh;
      (erewrite acts_exec; [| eapply Hop; [rd' | exact Hf | reflexivity |
         first [exact (imm_count n Hn) | cbn [rget hr h_rcx num]; rewrite ?getw_setw, ?getw_putw, ?getw_idem; exact H9]]]);
      nost; symh; access; rewrite ?(getw_small _ _ Hv); cbn [exec]; reflexivity];
    close_rot Hok; rot_end Hok C' G' X' M' W' ].
Qed.
End Rot.

Lemma rotate_op E op w a cf n : arith_w w -> 0 < n ->
  rot_op E (IRot op (Rg w RAX)) w (is_rc op) cf a n (fst (rot op w a cf n)) (snd (rot op w a cf n))
    (rot_of op w (fst (rot op w a cf n)) (snd (rot op w a cf n))).
Proof.
  intros Hw Hn s co c Ha Hf Hc Hl. apply rot_acts with a c n; auto; try lia.
  destruct (is_rc op) eqn:Hr.
  - rewrite (Hf eq_refl). now destruct (rot op w a cf n).
  - rewrite (rot_no_carry op w a (hcf (hf s)) cf n) by assumption. now destruct (rot op w a cf n).
Qed.

Lemma rotate_flags_spec op w v c n old : rotate_flags op w v c n old (rot_flags old c (rot_of op w v c)).
Proof. unfold rotate_flags, rot_flags. cbn. repeat split; auto; now destruct op. Qed.

Lemma rotate_ok E op w o count s :
  arith_w w -> h_rcx (hr s) = P PCtx -> ctx_ok (ctx s) -> rm_ok o (ctx s) ->
  let a := read_rm w o s in let n := count_of count (ctx s) in
  (n = 0 -> no_change E (emit_rotate op w o count) s) /\
  (n <> 0 -> exists v c fl,
     rotated op w a (f_cf (flags_now s)) n v c /\ rotate_flags op w v c n (flags_now s) fl /\
     effect E (emit_rotate op w o count) w s (rm_mem o) (rm_mem o)
       (regs_after w o v s) (mem_after w o v s) fl).
Proof.
  intros Hw Hcx Hok Hm a n. pose proof (read_rm_range w o s) as Ra. fold a in Ra.
  assert (Hn : 0 <= n < 32) by (apply Z.mod_pos_bound; lia).
  assert (Hcf : f_cf (flags_now s) = Z.testbit (aux (ctx s)) 31)
    by (unfold flags_now; now rewrite read_flags).
  destruct count as [c |].
  - assert (Hc : Z.land c 0x1F = n) by apply count_mod.
    unfold emit_rotate. rewrite Hc. destruct (Z.eqb_spec n 0) as [E0 | N0].
    + split; [| congruence]. intros _. exists s. repeat split; auto.
    + split; [congruence |]. intros _. rewrite Hcf.
      eexists _, _, _; split; [apply rot_spec; [exact Ra | lia] |]. split; [apply rotate_flags_spec |].
      pose proof (rot_range op w _ (Z.testbit (aux (ctx s)) 31) n Ra ltac:(lia)) as Rv.
      pose proof (rotate_op E op w a (Z.testbit (aux (ctx s)) 31) n Hw ltac:(lia)) as Hop.
      destruct o as [g | m]; cbn [rm_mem].
      * exact (gen_rot_reg E _ w (is_rc op) _ a n _ _ _ Hw ltac:(lia) Rv Hop g false s Hcx Hok eq_refl eq_refl ltac:(discriminate)).
      * exact (gen_rot_mem E _ w (is_rc op) _ a n _ _ _ Hw ltac:(lia) Rv Hop m false s Hcx Hok Hm eq_refl eq_refl ltac:(discriminate)).
  - unfold emit_rotate.
    lazymatch goal with |- context [load_count ++ skip_zero ++ ?l ++ _] =>
      destruct (cl_step E l s Hcx) as (s1 & C1 & G1 & M1 & X1 & R9 & HR) end.
    { destruct o; [now destruct w, op | rewrite forallb_app, ea_no_lab; now destruct w, op]. }
    change (gget W8 false ECX (gprs (ctx s)) mod 32) with n in R9, HR.
    destruct (Z.eqb_spec n 0) as [E0 | N0].
    + split; [| congruence]. intros _. exists s1. repeat split; auto.
    + split; [congruence |]. intros _. rewrite Hcf.
      eexists _, _, _; split; [apply rot_spec; [exact Ra | lia] |]. split; [apply rotate_flags_spec |].
      pose proof (rot_range op w _ (Z.testbit (aux (ctx s)) 31) n Ra ltac:(lia)) as Rv.
      pose proof (rotate_op E op w a (Z.testbit (aux (ctx s)) 31) n Hw ltac:(lia)) as Hop.
      assert (Hl : Z.land (getw W8 (num E (h_r9 (hr s1)))) 31 = n) by (rewrite R9, count_mod; apply Z.mod_small; lia).
      assert (Hfl : flags_now s = flags_now s1) by (unfold flags_now; now rewrite C1). rewrite Hfl.
      eapply effect_from; [exact C1 | exact M1 | exact G1 | exact HR |]. apply lab_effect.
      subst a. clearbody n. destruct o as [g | m]; cbn [rm_mem read_rm regs_after mem_after rm_ok] in *; rewrite <- C1, <- ?G1 in *.
      * exact (gen_rot_reg E _ w (is_rc op) _ _ n _ _ _ Hw ltac:(lia) Rv Hop g true s1 X1 Hok eq_refl eq_refl (fun _ => Hl)).
      * exact (gen_rot_mem E _ w (is_rc op) _ _ n _ _ _ Hw ltac:(lia) Rv Hop m true s1 X1 Hok Hm eq_refl eq_refl (fun _ => Hl)).
Qed.
