(** * Bit scans, byte swap, multiplication and conversions *)

From Coq Require Import ZArith Bool List Lia ZifyBool.
From Verif Require Import HostModel AluModel AluSpec HostProofs LazyFlagsProofs FlagsApiProofs
  FlagArith SymExec EaProofs AluProofs AluForms UnaryProofs XchgProofs ShiftModel ShiftSpec
  ShiftProofs ShiftForms RotateProofs BitProofs.
Import ListNotations.
Local Open Scope Z_scope.

(** ** Common parts *)

Lemma becomes_regs s s' g m r a fl regs :
  ctx_ok (ctx s) -> h_rcx (hr s') = P PCtx ->
  ctx s' = set_aux a (set_res r (set_gprs g (ctx s))) -> gmem s' = m -> masked s' = masked s ->
  lazy_flags r a = fl -> (forall x, g x = regs x) -> becomes s s' regs m fl.
Proof.
  intros Hok Hcx Hc Hm Hk Hfl Hg.
  destruct (becomes_flags s s' g m r a fl Hok Hcx Hc Hm Hk Hfl) as (B1 & B2 & B3 & B4 & B5).
  repeat split; try assumption; try apply B2. intros x. now rewrite B3.
Qed.

Lemma gput_getw w h r v g x : gput w h r (getw w v) g x = gput w h r v g x.
Proof.
  unfold gput, putw. now replace (Z.land (getw w v) (wmask w)) with (Z.land v (wmask w))
    by (symmetry; apply (getw_idem w)).
Qed.

Lemma gput_ext w h r v g g' x : (forall y, g y = g' y) -> gput w h r v g x = gput w h r v g' x.
Proof. intros H. unfold gput. now rewrite !H. Qed.

Lemma gput_val w h r v v' g x : getw w v = getw w v' -> gput w h r v g x = gput w h r v' g x.
Proof. intros H. rewrite <- (gput_getw w h r v), <- (gput_getw w h r v'). now rewrite H. Qed.

Ltac to_ctx := cbn [ctx]; unfold set_aux, set_res, set_gprs;
  cbn [gprs segb eflags eip res aux cr4 gsel]; reflexivity.

(** ** Bit tests whose index leaves the operand *)

Lemma bit_out E op w m g s :
  arith_w w -> h_rcx (hr s) = P PCtx -> memop_ok m (ctx s) ->
  e_fault E false (ea m (ctx s)) (wbytes w) = false -> wbits w <= read_gop w g (ctx s) ->
  run E (emit_bit op w (RmMem m) (BReg g)) s = Stuck.
Proof.
  intros Hw Hcx Hm Hf Hout. unfold emit_bit. destruct g as [hs rs'].
  unfold read_gop in *; cbn [g_high g_reg] in *. start_state s Hcx.
  rewrite <- !app_assoc. run_ea m Hm.
  destruct w; try (now elim Hw); destruct (is_bt op); unfold run; expand_list; symb; access; symb;
  (eapply bit_step_out; [exact Hw | rd' | rd' | exact Hout]).
Qed.

(** ** Scans *)

Lemma low_bit_spec : forall n i a, 0 <= i ->
  (forall j, 0 <= j < i -> Z.testbit a j = false) ->
  (exists j, i <= j < i + Z.of_nat n /\ Z.testbit a j = true) ->
  lowest_set a (low_bit n i a) /\ low_bit n i a < i + Z.of_nat n.
Proof.
  induction n as [| n IH]; intros i a Hi Hlow [j [Hj Bj]]; [lia |].
  cbn [low_bit]. destruct (Z.testbit a i) eqn:B; [split; [split; [assumption | auto] | lia] |].
  destruct (IH (i + 1) a) as [K1 K2]; [lia | | | split; [exact K1 | lia]].
  - intros k Hk. destruct (Z.eq_dec k i) as [-> | ?]; [assumption | apply Hlow; lia].
  - exists j. split; [| assumption]. assert (j <> i) by congruence. lia.
Qed.

Lemma some_bit w a : 0 <= a < modulus w -> a <> 0 -> exists j, 0 <= j < wbits w /\ Z.testbit a j = true.
Proof.
  intros Ha H0. exists (Z.log2 a). split; [| apply Z.bit_log2; lia].
  split; [apply Z.log2_nonneg |]. apply Z.log2_lt_pow2; [lia | apply Ha].
Qed.

Lemma bsf_ok w a : 0 <= a < modulus w -> a <> 0 ->
  lowest_set a (bsf_val w a) /\ bsf_val w a < wbits w.
Proof.
  intros Ha H0. destruct (some_bit w a Ha H0) as [j [Hj Bj]].
  pose proof (n8 w). unfold bsf_val.
  destruct (low_bit_spec (Z.to_nat (wbits w)) 0 a) as [K1 K2]; try lia.
  - exists j. split; [lia | assumption].
  - split; [exact K1 | lia].
Qed.

Lemma bsr_ok w a : 0 <= a < modulus w -> a <> 0 ->
  highest_set a (bsr_val a) /\ bsr_val a < wbits w.
Proof.
  intros Ha H0. unfold bsr_val. split.
  - split; [apply Z.log2_nonneg | split; [apply Z.bit_log2; lia |]].
    intros j Hj. apply Z.bits_above_log2; lia.
  - apply Z.log2_lt_pow2; [lia | apply Ha].
Qed.

Definition scan_val (fwd : bool) (w : width) (a : Z) : Z := if fwd then bsf_val w a else bsr_val a.

Lemma scan_step E (fwd : bool) w s a tl :
  op_read E (Rg w RAX) s = Some a ->
  exec E ((if fwd then IBsf else IBsr) (Rg w R8) (Rg w RAX) :: tl) (Done s) =
  exec E tl (Done (set_hf (mkf (a =? 0) false false false)
    (set_hr (rset R8 (if a =? 0 then h_r8 (hr s)
                      else N (setw w (num E (h_r8 (hr s))) (scan_val fwd w a))) (hr s)) s))).
Proof.
  intros Ha. rewrite exec_step.
  destruct fwd; cbn [step scan_val]; rewrite Ha; cbn [bind opw]; destruct (a =? 0);
  destruct s as [[q1 q2 q3 q4 q5 q6 q7 q8] q9 q10 q11 q12 q13 q14]; reflexivity.
Qed.

Definition scan_step_f E := scan_step E true : forall w s a tl, _ ->
  exec E (IBsf (Rg w R8) (Rg w RAX) :: tl) (Done s) = _.
Definition scan_step_r E := scan_step E false : forall w s a tl, _ ->
  exec E (IBsr (Rg w R8) (Rg w RAX) :: tl) (Done s) = _.

Lemma zf_only r A a : f_zf (lazy_flags (putw W32 r (b2z a)) A) = negb a.
Proof. cbn [lazy_flags f_zf]. rewrite w32_putw. now destruct a. Qed.

(** the value of the destination when the source is zero: whatever R8 held *)
Definition scan_left (E : henv) (w : width) (src : rm) (s : hst) : Z :=
  match src with
  | RmReg _ => getw w (num E (h_r8 (hr s)))
  | RmMem _ => getw w (e_clob E (ncall s) R8)
  end.

Lemma scan_ok E (fwd : bool) w dst src s :
  arith_w w -> h_rcx (hr s) = P PCtx -> ctx_ok (ctx s) -> rm_ok src (ctx s) ->
  let a := read_rm w src s in
  exists fl, f_zf fl = (a =? 0) /\ f_cf fl = f_cf (flags_now s) /\
    effect E (emit_bscan fwd w dst src) w s (rm_mem src) None
      (gput w false dst (if a =? 0 then scan_left E w src s else scan_val fwd w a) (gprs (ctx s)))
      (gmem s) fl.
Proof.
  intros Hw Hcx Hok Hm a.
  assert (HF : forall r, f_cf (lazy_flags r (aux (ctx s))) = f_cf (flags_now s)).
  { intros r. unfold flags_now. now rewrite read_flags. }
  revert HF. subst a. unfold emit_bscan, effect, first_fault, flags_now.
  destruct src as [[h r] | m]; cbn [rm_mem read_rm rm_ok scan_left] in *; unfold read_gop; cbn [g_high g_reg];
  start_state s Hcx; intros HF.
  - set (a := gget w h r gp) in *.
    destruct fwd, w; try (now elim Hw);  unfold run; expand_list; symb; 
    (first [rewrite (scan_step_f E _ _ a) by (unfold a; rd') | rewrite (scan_step_r E _ _ a) by (unfold a; rd')]);
    nost; clearbody a;
    (destruct (a =? 0) eqn:Ez;
      [| lazymatch goal with |- context [scan_val ?f ?w a] => set (v := scan_val f w a) in *; clearbody v end]);
    symb; cbn [exec];
    (eexists; split; [| split; [| eexists; split; [reflexivity |];
       eapply becomes_regs; [exact Hok | reflexivity | to_ctx | reflexivity | reflexivity | reflexivity |]]];
     [ rewrite ?getw_setw, ?getw_putw, ?getw_idem; cbn [holds hzf]; first [apply (zf_only rs ax true) | apply (zf_only rs ax false)] | apply HF | intro; apply gput_val; now rewrite ?getw_setw, ?getw_idem ]).
  - rewrite <- !app_assoc. run_ea m Hm. set (a := mload gm w (ea m _)) in *.
    destruct fwd, w; try (now elim Hw); faults; unfold run; expand_list; symb; access; symb; try (eexists; split; [| split; [| forget]]; [rewrite (zf_only rs ax (negb (a =? 0))); apply negb_involutive | apply HF]);
    (first [rewrite (scan_step_f E _ _ a) by (unfold a; rd') | rewrite (scan_step_r E _ _ a) by (unfold a; rd')]);
    nost; clearbody a;
    (destruct (a =? 0) eqn:Ez;
      [| lazymatch goal with |- context [scan_val ?f ?w a] => set (v := scan_val f w a) in *; clearbody v end]);
    symb; cbn [exec];
    (eexists; split; [| split; [| eexists; split; [reflexivity |];
       eapply becomes_regs; [exact Hok | reflexivity | to_ctx | reflexivity | reflexivity | reflexivity |]]];
     [ rewrite ?getw_setw, ?getw_putw, ?getw_idem; cbn [holds hzf]; first [apply (zf_only rs ax true) | apply (zf_only rs ax false)] | apply HF | intro; apply gput_val; now rewrite ?getw_setw, ?getw_idem ]).
Qed.

(** ** BSWAP *)

Lemma bswap_bytes a k : 0 <= k < 4 -> byte_of (bswap_val a) k = byte_of a (3 - k).
Proof.
  intros Hk. unfold byte_of. rewrite <- !Z.shiftr_div_pow2 by lia. change 256 with (2 ^ 8).
  assert (K : k = 0 \/ k = 1 \/ k = 2 \/ k = 3) by lia.
  apply Z.bits_inj'. intros i Hi.
  destruct (Z.ltb_spec i 8).
  - rewrite !Z.mod_pow2_bits_low by lia. rewrite !Z.shiftr_spec by lia. unfold bswap_val.
    rewrite !Z.lor_spec.
    assert (L : forall x n j, 0 <= j -> 0 <= n -> Z.testbit (Z.shiftl (Z.land x 0xFF) n) j =
                (n <=? j) && (j <? n + 8) && Z.testbit x (j - n)).
    { intros x n j Hj Hn. rewrite Z.shiftl_spec by assumption. rewrite Z.land_spec.
      change 0xFF with (Z.ones 8). destruct (Z.leb_spec n j); cbn [andb].
      - rewrite Z.testbit_ones_nonneg by lia. replace (j - n <? 8) with (j <? n + 8) by lia. apply andb_comm.
      - rewrite Z.testbit_neg_r by lia. reflexivity. }
    rewrite <- (Z.shiftl_0_r (Z.land (Z.shiftr a 24) 0xFF)). rewrite !L by lia.
    destruct K as [-> | [-> | [-> | ->]]];
    repeat match goal with |- context [?x <=? ?y] =>
      first [replace (x <=? y) with true by lia | replace (x <=? y) with false by lia] end;
    repeat match goal with |- context [?x <? ?y] =>
      first [replace (x <? y) with true by lia | replace (x <? y) with false by lia] end;
    cbn [andb orb]; rewrite ?orb_false_r, ?Z.shiftr_spec by lia; f_equal; lia.
  - rewrite !Z.mod_pow2_bits_high by lia. reflexivity.
Qed.

Lemma bswap_range a : 0 <= bswap_val a < 2 ^ 32.
Proof.
  assert (R : forall n x, 0 <= n <= 24 -> 0 <= Z.shiftl (Z.land x 0xFF) n < 2 ^ 32).
  { intros n x Hn. change 0xFF with (Z.ones 8). rewrite Z.land_ones, Z.shiftl_mul_pow2 by lia.
    pose proof (Z.mod_pos_bound x (2 ^ 8) eq_refl).
    assert (2 ^ n <= 2 ^ 24) by (apply Z.pow_le_mono_r; lia).
    assert (0 < 2 ^ n) by (apply Z.pow_pos_nonneg; lia). change (2 ^ 32) with (2 ^ 8 * 2 ^ 24). nia. }
  assert (L : forall x y, 0 <= x < 2 ^ 32 -> 0 <= y < 2 ^ 32 -> 0 <= Z.lor x y < 2 ^ 32).
  { intros x y Hx Hy. assert (0 <= Z.lor x y) by (apply Z.lor_nonneg; lia). split; [assumption |].
    apply (range_bits W32); [assumption |]. intros j Hj. rewrite Z.lor_spec.
    rewrite (testbit_over W32 x j), (testbit_over W32 y j) by assumption. reflexivity. }
  unfold bswap_val. rewrite <- (Z.shiftl_0_r (Z.land (Z.shiftr a 24) 0xFF)).
  apply L; apply L; apply R; lia.
Qed.

Lemma bswap_ok E r s : h_rcx (hr s) = P PCtx -> ctx_ok (ctx s) ->
  exists s', run E (emit_bswap r) s = Done s' /\
    becomes s s' (gput W32 false r (bswap_val (gget W32 false r (gprs (ctx s)))) (gprs (ctx s)))
      (gmem s) (flags_now s).
Proof.
  intros Hcx Hok. unfold emit_bswap, flags_now. rewrite read_flags by assumption. start_state s Hcx.
  unfold run. expand_list. sym1. rewrite exec_step. cbn [step]. unfold hval. cbn [rget hr h_rax num op_write next].
  rewrite ?getw_setw, ?getw_gget.
  set (v := bswap_val (gget W32 false r gp)). clearbody v. nost. sym1. cbn [exec]. eexists. split; [reflexivity |].
  eapply becomes_regs; [exact Hok | reflexivity | to_ctx | reflexivity | reflexivity | reflexivity |].
  intro. apply gput_val. now rewrite ?getw_setw, ?getw_idem.
Qed.

(** ** Multiplication *)

Definition prod_host (E : henv) (w : width) (p : Z) (s : hst) : hregs :=
  match w with
  | W8 => rset RAX (N (setw W16 (num E (h_rax (hr s))) p)) (hr s)
  | _ => rset RDX (N (setw w (num E (h_rdx (hr s))) (Z.shiftr p (wbits w))))
           (rset RAX (N (setw w (num E (h_rax (hr s))) p)) (hr s))
  end.

Lemma mul_step E w s a b tl : arith_w w ->
  op_read E (Rg w RAX) s = Some a -> op_read E (Rg w RBX) s = Some b ->
  exec E (IMul (Rg w RBX) :: tl) (Done s) =
  let ov := negb (Z.shiftr (a * b) (wbits w) =? 0) in
  exec E tl (Done (set_hf (mkf false ov false ov) (set_hr (prod_host E w (a * b) s) s))).
Proof.
  intros Hw Ha Hb. rewrite exec_step. cbn [step]. rewrite Hb. cbn [bind opw].
  injection Ha as Ha. unfold hval. cbn [rget]. rewrite Ha.
  destruct w; try (now elim Hw); destruct s as [[q1 q2 q3 q4 q5 q6 q7 q8] q9 q10 q11 q12 q13 q14]; reflexivity.
Qed.

Lemma imul1_step E w s a b tl : arith_w w ->
  op_read E (Rg w RAX) s = Some a -> op_read E (Rg w RBX) s = Some b ->
  exec E (IImul1 (Rg w RBX) :: tl) (Done s) =
  let p := sext w a * sext w b in let ov := negb (p =? sext w p) in
  exec E tl (Done (set_hf (mkf false ov false ov) (set_hr (prod_host E w p s) s))).
Proof.
  intros Hw Ha Hb. rewrite exec_step. cbn [step]. rewrite Hb. cbn [bind opw].
  injection Ha as Ha. unfold hval. cbn [rget]. rewrite Ha.
  destruct w; try (now elim Hw); destruct s as [[q1 q2 q3 q4 q5 q6 q7 q8] q9 q10 q11 q12 q13 q14]; reflexivity.
Qed.

Lemma cfof_two r A c : w32 A = cfof c c -> mul_flags_ok c (lazy_flags r A).
Proof.
  intros HA. unfold mul_flags_ok. cbn [lazy_flags f_cf f_of].
  rewrite <- (w32_bit A 31), <- (w32_bit A 30), HA by lia. now destruct c.
Qed.

(** the end of every multiplication *)
Ltac close_mul Hok ov :=
  cbn [exec]; eexists; split;
  [ | eexists; split; [reflexivity |];
      eapply becomes_regs; [ exact Hok | reflexivity | to_ctx | reflexivity | reflexivity | reflexivity |] ];
  [ apply cfof_two; rewrite ?w32_putw, ?w32_getw; destruct ov; reflexivity
  | intro; unfold product_regs; cbn [ctx gprs] ].

Ltac fault_mul ov :=
  lazymatch goal with
  | |- exists fl, _ /\ exists s', Fault _ _ _ _ = _ /\ _ =>
      eexists; split; [apply (cfof_two 0 (cfof ov ov)); destruct ov; reflexivity | forget]
  end.

Ltac sym1m :=
  lazymatch goal with
  | |- context [exec _ (?i :: _) (Done _)] =>
      lazymatch i with
      | ILoad _ => fail | IStore _ => fail | IMul _ => fail | IImul1 _ => fail | IImul2 _ _ => fail
      | IImul3 _ _ _ => fail | IJcc _ _ => fail | IDiv _ => fail
      | _ => sym1
      end
  end.
Ltac symm := repeat sym1m; rewrite ?getw_putw, ?getw_setw, ?getw_idem; try rewrite !getw_gget;
  try rewrite !getw_mload; try rewrite !getw_ea.

Lemma gput_two w r1 r2 v1 v2 u1 u2 g x :
  getw w v1 = getw w u1 -> getw w v2 = getw w u2 ->
  gput w false r1 v1 (gput w false r2 v2 g) x = gput w false r1 u1 (gput w false r2 u2 g) x.
Proof.
  intros H1 H2. rewrite (gput_val w false r1 v1 u1 _ x H1). apply gput_ext. intro. now apply gput_val.
Qed.

Ltac prod_goal :=
  first [apply gput_two | apply gput_val]; rewrite ?getw_setw, ?getw_putw, ?getw_idem; try reflexivity;
  unfold modulus; rewrite Z.shiftr_div_pow2 by discriminate; reflexivity.

Lemma mul_ok E w o s :
  arith_w w -> h_rcx (hr s) = P PCtx -> ctx_ok (ctx s) -> rm_ok o (ctx s) ->
  let p := gget w false EAX (gprs (ctx s)) * read_rm w o s in
  exists fl, mul_flags_ok (negb (Z.shiftr p (wbits w) =? 0)) fl /\
    effect E (emit_mul w o) w s (rm_mem o) None
      (product_regs w (p) s) (gmem s) fl.
Proof.
  intros Hw Hcx Hok Hm p. subst p. unfold emit_mul, effect, first_fault, product_regs.
  destruct o as [[h r] | m]; cbn [rm_mem read_rm rm_ok] in *; unfold read_gop; cbn [g_high g_reg];
  start_state s Hcx.
  - set (b := gget w h r gp). set (a := gget w false EAX gp).
    destruct w; try (now elim Hw); unfold run; expand_list; symm;
    (erewrite (mul_step E _ _ a b); [| exact Hw | unfold a; rd' | unfold b; rd' ]); cbv zeta;
    cbn [prod_host]; nost; set (ov := negb _) in *; set (p := a * b) in *; clearbody p ov; symm;
    close_mul Hok ov; prod_goal.
  - rewrite <- !app_assoc. run_ea m Hm.
    set (b := mload gm w (ea m _)). set (a := gget w false EAX gp).
    set (ov := negb (Z.shiftr (a * b) (wbits w) =? 0)).
    destruct w; try (now elim Hw); faults; unfold run; expand_list; symm; access; symm; try fault_mul ov;
    (erewrite (mul_step E _ _ b a); [| exact Hw | unfold b; rd' | unfold a; rd' ]); cbv zeta;
    rewrite (Z.mul_comm b a);
    cbn [prod_host]; nost; fold ov; set (p := a * b) in *; clearbody ov p; symm;
    close_mul Hok ov; prod_goal.
Qed.

Lemma sext_small w v : 0 <= v < modulus w -> sext w v = signed w v.
Proof. intros H. rewrite sext_signed. now rewrite getw_small. Qed.

Lemma half_modulus w : modulus w = 2 * 2 ^ (wbits w - 1) /\ 0 < 2 ^ (wbits w - 1).
Proof. destruct w; split; reflexivity. Qed.

Lemma sext_fits w p : (p =? sext w p) = fits w p.
Proof.
  rewrite sext_signed, getw_mod. unfold fits, signed. destruct (half_modulus w) as [HM HP].
  unfold modulus in *. set (h := 2 ^ (wbits w - 1)) in *. rewrite HM. clearbody h.
  pose proof (Z.mod_pos_bound p (2 * h) ltac:(lia)) as Hb.
  pose proof (Z.div_mod p (2 * h) ltac:(lia)) as Hd.
  set (q := p / (2 * h)) in *. set (m := p mod (2 * h)) in *. clearbody q m.
  apply Bool.eq_iff_eq_true. rewrite Z.eqb_eq, andb_true_iff, Z.leb_le, Z.ltb_lt. split.
  - destruct (Z.ltb_spec m h); lia.
  - intros Hp. assert (q = 0 \/ q = -1) as [-> | ->] by nia; destruct (Z.ltb_spec m h); lia.
Qed.

Lemma imul1_ok E w o s :
  arith_w w -> h_rcx (hr s) = P PCtx -> ctx_ok (ctx s) -> rm_ok o (ctx s) ->
  let p := signed w (gget w false EAX (gprs (ctx s))) * signed w (read_rm w o s) in
  exists fl, mul_flags_ok (negb (fits w p)) fl /\
    effect E (emit_imul1 w o) w s (rm_mem o) None (product_regs w p s) (gmem s) fl.
Proof.
  intros Hw Hcx Hok Hm p. subst p. rewrite <- sext_fits.
  rewrite <- (sext_small w (gget w false EAX _)), <- (sext_small w (read_rm w o s))
    by (apply gget_range || apply read_rm_range).
  unfold emit_imul1, effect, first_fault, product_regs.
  destruct o as [[h r] | m]; cbn [rm_mem read_rm rm_ok] in *; unfold read_gop; cbn [g_high g_reg];
  start_state s Hcx.
  - set (b := gget w h r gp). set (a := gget w false EAX gp).
    destruct w; try (now elim Hw); unfold run; expand_list; symm;
    (erewrite (imul1_step E _ _ a b); [| exact Hw | unfold a; rd' | unfold b; rd' ]); cbv zeta;
    cbn [prod_host]; nost; set (ov := negb _) in *; set (p := _ * _) in *; clearbody p ov; symm;
    close_mul Hok ov; prod_goal.
  - rewrite <- !app_assoc. run_ea m Hm.
    set (b := mload gm w (ea m _)). set (a := gget w false EAX gp). set (p := _ * _). set (ov := negb _).
    destruct w; try (now elim Hw); faults; unfold run; expand_list; symm; access; symm; try fault_mul ov;
    (erewrite (imul1_step E _ _ a b); [| exact Hw | unfold a; rd' | unfold b; rd' ]); cbv zeta;
    fold p; cbn [prod_host]; nost; fold ov; clearbody ov p; symm;
    close_mul Hok ov; prod_goal.
Qed.

Lemma imul2_step E w d src s a b tl :
  op_read E (Rg w d) s = Some a -> op_read E src s = Some b ->
  exec E (IImul2 (Rg w d) src :: tl) (Done s) =
  let p := sext w a * sext w b in let ov := negb (p =? sext w p) in
  exec E tl (Done (set_hf (mkf false ov false ov)
    (set_hr (rset d (N (setw w (num E (rget d (hr s))) p)) (hr s)) s))).
Proof.
  intros Ha Hb. rewrite exec_step. cbn [step]. rewrite Ha, Hb. cbn [bind opw].
  destruct d, s as [[q1 q2 q3 q4 q5 q6 q7 q8] q9 q10 q11 q12 q13 q14]; reflexivity.
Qed.

Lemma imul3_step E w src s a imm tl :
  op_read E src s = Some a ->
  exec E (IImul3 (Rg w RBX) src imm :: tl) (Done s) =
  let p := sext w a * sext w imm in let ov := negb (p =? sext w p) in
  exec E tl (Done (set_hf (mkf false ov false ov)
    (set_hr (rset RBX (N (setw w (num E (h_rbx (hr s))) p)) (hr s)) s))).
Proof.
  intros Ha. rewrite exec_step. cbn [step]. rewrite Ha. cbn [bind opw].
  destruct s as [[q1 q2 q3 q4 q5 q6 q7 q8] q9 q10 q11 q12 q13 q14]; reflexivity.
Qed.

Lemma imul2_ok E w dst src s :
  arith_w w -> h_rcx (hr s) = P PCtx -> ctx_ok (ctx s) -> rm_ok src (ctx s) ->
  let p := signed w (gget w false dst (gprs (ctx s))) * signed w (read_rm w src s) in
  exists fl, mul_flags_ok (negb (fits w p)) fl /\
    effect E (emit_imul2 w dst src) w s (rm_mem src) None
      (gput w false dst p (gprs (ctx s))) (gmem s) fl.
Proof.
  intros Hw Hcx Hok Hm p. subst p. rewrite <- sext_fits.
  rewrite <- (sext_small w (gget w false dst _)), <- (sext_small w (read_rm w src s))
    by (apply gget_range || apply read_rm_range).
  unfold emit_imul2, effect, first_fault.
  destruct src as [[h r] | m]; cbn [rm_mem read_rm rm_ok] in *; unfold read_gop; cbn [g_high g_reg];
  start_state s Hcx.
  - set (b := gget w h r gp). set (a := gget w false dst gp). set (p := _ * _). set (ov := negb _).
    destruct w; try (now elim Hw); unfold run; expand_list; symm;
    (erewrite (imul2_step E _ _ _ _ a b); [| unfold a; rd' | unfold b; rd' ]); cbv zeta;
    fold p; fold ov; nost; clearbody p ov; symm;
    close_mul Hok ov; prod_goal.
  - rewrite <- !app_assoc. run_ea m Hm.
    set (b := mload gm w (ea m _)). set (a := gget w false dst gp). set (p := _ * _). set (ov := negb _).
    destruct w; try (now elim Hw); faults; unfold run; expand_list; symm; access; symm; try fault_mul ov;
    (erewrite (imul2_step E _ _ _ _ a b); [| unfold a; rd' | unfold b; rd' ]); cbv zeta;
    fold p; fold ov; nost; clearbody p ov; symm;
    close_mul Hok ov; prod_goal.
Qed.

(** the immediate of the three-operand form: a signed byte (6B) or a full word (69) *)
Lemma imm_ext (short : bool) w imm : arith_w w ->
  sext w (if short then sext W8 imm else imm) = imm_value short w imm.
Proof.
  intros Hw. unfold imm_value. destruct short.
  - change (2 ^ 8) with (modulus W8). rewrite (sext_signed W8), getw_mod. set (v := imm mod modulus W8).
    assert (Hv : 0 <= v < 256) by (apply Z.mod_pos_bound; reflexivity). clearbody v.
    assert (F : fits w (signed W8 v) = true).
    { unfold signed. change (2 ^ (wbits W8 - 1)) with 128. change (modulus W8) with 256.
      unfold fits. destruct w; try (now elim Hw); cbn [wbits];
      [change (2 ^ (8 - 1)) with 128 | change (2 ^ (16 - 1)) with 32768 | change (2 ^ (32 - 1)) with 2147483648];
      destruct (Z.ltb_spec v 128); apply andb_true_iff; split; lia. }
    rewrite <- sext_fits in F. apply Z.eqb_eq in F. symmetry. exact F.
  - now rewrite sext_signed, getw_mod.
Qed.

Lemma imul3_ok E short w dst src imm s :
  arith_w w -> h_rcx (hr s) = P PCtx -> ctx_ok (ctx s) -> rm_ok src (ctx s) ->
  let p := signed w (read_rm w src s) * imm_value short w imm in
  exists fl, mul_flags_ok (negb (fits w p)) fl /\
    effect E (emit_imul3 short w dst src imm) w s (rm_mem src) None
      (gput w false dst p (gprs (ctx s))) (gmem s) fl.
Proof.
  intros Hw Hcx Hok Hm p. subst p. rewrite <- sext_fits. rewrite <- (imm_ext short w imm Hw).
  rewrite <- (sext_small w (read_rm w src s)) by apply read_rm_range.
  unfold emit_imul3. set (i := if short then sext W8 imm else imm). clearbody i. unfold effect, first_fault.
  destruct src as [[h r] | m]; cbn [rm_mem read_rm rm_ok] in *; unfold read_gop; cbn [g_high g_reg];
  start_state s Hcx.
  - set (b := gget w h r gp). set (p := _ * _). set (ov := negb _).
    destruct w; try (now elim Hw); unfold run; expand_list; symm;
    (erewrite (imul3_step E _ _ _ b); [| unfold b; rd' ]); cbv zeta;
    fold p; fold ov; nost; clearbody p ov; symm;
    close_mul Hok ov; prod_goal.
  - rewrite <- !app_assoc. run_ea m Hm.
    set (b := mload gm w (ea m _)). set (p := _ * _). set (ov := negb _).
    destruct w; try (now elim Hw); faults; unfold run; expand_list; symm; access; symm; try fault_mul ov;
    (erewrite (imul3_step E _ _ _ b); [| unfold b; rd' ]); cbv zeta;
    fold p; fold ov; nost; clearbody p ov; symm;
    close_mul Hok ov; prod_goal.
Qed.

(** ** Conversions *)

(** MOVSX and MOVZX *)
Lemma movx_ok E (sx : bool) w sw dst src s :
  arith_w w -> arith_w sw -> h_rcx (hr s) = P PCtx -> ctx_ok (ctx s) -> rm_ok src (ctx s) ->
  let v := read_rm sw src s in
  effect E (emit_movx sx w sw dst src) sw s (rm_mem src) None
    (gput w false dst (if sx then signed sw v else v) (gprs (ctx s))) (gmem s) (flags_now s).
Proof.
  intros Hw Hsw Hcx Hok Hm v. subst v. rewrite <- (sext_small sw (read_rm sw src s)) by apply read_rm_range.
  unfold flags_now. rewrite read_flags by assumption.
  unfold emit_movx, effect, first_fault.
  destruct src as [[h r] | m]; cbn [rm_mem read_rm rm_ok] in *; unfold read_gop; cbn [g_high g_reg];
  start_state s Hcx.
  - destruct sx, w; try (now elim Hw); destruct sw; try (now elim Hsw); unfold run; expand_list; symm; cbn [exec];
    (eexists; split; [reflexivity |]; eapply becomes_regs;
     [exact Hok | reflexivity | to_ctx | reflexivity | reflexivity | reflexivity |]; intro;
     apply gput_val; rewrite ?getw_setw, ?getw_idem, ?getw_gget; reflexivity).
  - rewrite <- !app_assoc. run_ea m Hm.
    destruct sx, w; try (now elim Hw); destruct sw; try (now elim Hsw); faults; unfold run; expand_list; symm;
    access; symm; cbn [exec]; try forget;
    (eexists; split; [reflexivity |]; eapply becomes_regs;
     [exact Hok | reflexivity | to_ctx | reflexivity | reflexivity | reflexivity |]; intro;
     apply gput_val; rewrite ?getw_setw, ?getw_idem, ?getw_gget; reflexivity).
Qed.

Lemma top_spec w v : 0 <= v < modulus w -> sign_bit w v = negb (v <? 2 ^ (wbits w - 1)).
Proof.
  intros Hv. unfold sign_bit. pose proof (n8 w). rewrite testbit_half by lia.
  replace (wbits w - 1 + 1) with (wbits w) by lia. fold (modulus w). rewrite Z.mod_small by assumption. lia.
Qed.

Lemma cwd_val v : 0 <= v < 2 ^ 16 ->
  getw W16 (Z.shiftr (getw W32 (sext W16 v)) 16) = if sign_bit W16 v then 0xFFFF else 0.
Proof.
  intros Hv. rewrite top_spec by assumption. rewrite sext_small by assumption. unfold signed.
  rewrite !getw_mod, Z.shiftr_div_pow2 by lia. change (modulus W16) with 65536 in *.
  change (modulus W32) with 4294967296. change (2 ^ (wbits W16 - 1)) with 32768. change (2 ^ 16) with 65536 in *.
  destruct (Z.ltb_spec v 32768); cbn [negb].
  - rewrite (Z.mod_small v) by lia. rewrite (Z.div_small v) by lia. reflexivity.
  - replace ((v - 65536) mod 4294967296) with (v + 65535 * 65536)
      by (apply Z.mod_unique with (q := -1); lia).
    rewrite Z.div_add, (Z.div_small v) by lia. reflexivity.
Qed.

Lemma cdq_val v : 0 <= v < 2 ^ 32 ->
  getw W32 (Z.shiftr (getw W64 (sext W32 v)) 32) = if sign_bit W32 v then 0xFFFFFFFF else 0.
Proof.
  intros Hv. rewrite top_spec by assumption. rewrite sext_small by assumption. unfold signed.
  rewrite !getw_mod, Z.shiftr_div_pow2 by lia. change (modulus W64) with (2 ^ 64).
  change (modulus W32) with (2 ^ 32) in *. change (2 ^ (wbits W32 - 1)) with (2 ^ 31).
  destruct (Z.ltb_spec v (2 ^ 31)); cbn [negb].
  - rewrite (Z.mod_small v) by lia. rewrite (Z.div_small v) by lia. reflexivity.
  - replace ((v - 2 ^ 32) mod 2 ^ 64) with (v + 4294967295 * 2 ^ 32)
      by (apply Z.mod_unique with (q := -1); lia).
    rewrite Z.div_add, (Z.div_small v) by lia. reflexivity.
Qed.

Lemma getw_16_32 v : getw W16 (getw W32 v) = getw W16 v.
Proof. unfold getw. now rewrite <- Z.land_assoc. Qed.

Lemma getw_low16 o v : getw W16 (setw W32 o v) = getw W16 v.
Proof. apply getw_16_32. Qed.
Lemma getw_low32 o v : getw W32 (setw W64 o v) = getw W32 v.
Proof. unfold getw, setw. now rewrite <- Z.land_assoc. Qed.

Lemma conv_ok E k s : h_rcx (hr s) = P PCtx -> ctx_ok (ctx s) ->
  exists s', run E (emit_conv k) s = Done s' /\
    becomes s s' (conv_regs k (gprs (ctx s))) (gmem s) (flags_now s).
Proof.
  intros Hcx Hok. unfold flags_now. rewrite read_flags by assumption.
  destruct k; cbn [emit_conv conv_regs]; start_state s Hcx; unfold run; expand_list; symm; cbn [exec];
  (eexists; split; [reflexivity |]; eapply becomes_regs;
     [exact Hok | reflexivity | to_ctx | reflexivity | reflexivity | reflexivity |]; intro;
     apply gput_val; rewrite ?getw_setw, ?getw_idem, ?getw_gget).
  - cbn [setw]. rewrite <- (getw_16_32 (signed _ _)). rewrite <- sext_small by apply gget_range. reflexivity.
  - now rewrite sext_small by apply gget_range.
  - rewrite getw_low16, cwd_val by apply gget_range. now destruct (sign_bit _ _).
  - rewrite getw_low32, cdq_val by apply gget_range. now destruct (sign_bit _ _).
Qed.
