(** * Decimal adjustments *)

From Coq Require Import ZArith Bool List Lia ZifyBool.
From Verif Require Import HostModel AluModel AluSpec HostProofs LazyFlagsProofs FlagsApiProofs
  FlagArith SymExec EaProofs AluProofs AluForms UnaryProofs XchgProofs ShiftModel ShiftSpec
  ShiftProofs ShiftForms RotateProofs BitProofs MulProofs.
Import ListNotations.
Local Open Scope Z_scope.

(** ** Bytes of the accumulator *)

Lemma putw_arith w o v : putw w o v = modulus w * (o / modulus w) + v mod modulus w.
Proof.
  unfold putw. pose proof (n8 w). rewrite <- (getw_mod w v). unfold modulus.
  replace (Z.land o (Z.lnot (wmask w))) with (Z.shiftl (o / 2 ^ wbits w) (wbits w)).
  2:{ apply Z.bits_inj'. intros i Hi. rewrite Z.land_spec, Z.lnot_spec by assumption.
      replace (wmask w) with (Z.ones (wbits w)) by (destruct w; reflexivity).
      rewrite Z.testbit_ones_nonneg by lia. rewrite Z.shiftl_spec by assumption.
      destruct (Z.ltb_spec i (wbits w)).
      - rewrite Z.testbit_neg_r by lia. now rewrite andb_false_r.
      - rewrite <- Z.shiftr_div_pow2, Z.shiftr_spec, andb_true_r by lia. f_equal. lia. }
  rewrite Z.mul_comm, <- Z.shiftl_mul_pow2 by lia. change (Z.land v (wmask w)) with (getw w v).
  symmetry. rewrite <- Z.lxor_lor; [apply Z.add_nocarry_lxor |];
  (apply Z.bits_inj'; intros i Hi; rewrite Z.land_spec, Z.bits_0, getw_testbit by assumption;
   destruct (Z.ltb_spec i (wbits w));
   [ rewrite Z.shiftl_spec_low by lia; reflexivity | now rewrite !andb_false_r ]).
Qed.

Lemma gget16_split r g : gget W16 false r g = 256 * gget W8 true r g + gget W8 false r g.
Proof.
  unfold gget. rewrite !getw_mod, Z.shiftr_div_pow2 by lia.
  change (modulus W16) with 65536. change (modulus W8) with 256. change (2 ^ 8) with 256.
  Z.div_mod_to_equations. lia.
Qed.

Lemma put8_16 r v ax g x :
  gput W8 false r v (gput W16 false r ax g) x = gput W16 false r (256 * (ax / 256) + v mod 256) g x.
Proof.
  unfold gput. destruct (greg_eqb x r) eqn:E; [| reflexivity].
  replace (greg_eqb r r) with true by (now destruct r). rewrite !putw_arith.
  change (modulus W16) with 65536. change (modulus W8) with 256. Z.div_mod_to_equations. lia.
Qed.

Lemma put8_low r v g x :
  gput W8 false r v g x = gput W16 false r (256 * gget W8 true r g + v mod 256) g x.
Proof.
  unfold gput, gget. destruct (greg_eqb x r) eqn:E; [| reflexivity].
  rewrite !putw_arith, getw_mod, Z.shiftr_div_pow2 by lia.
  change (modulus W16) with 65536. change (modulus W8) with 256. change (2 ^ 8) with 256.
  Z.div_mod_to_equations. lia.
Qed.

Lemma put8_high r v g x :
  gput W8 true r v g x = gput W16 false r (256 * (v mod 256) + gget W8 false r g) g x.
Proof.
  unfold gput, gget. destruct (greg_eqb x r) eqn:E; [| reflexivity].
  change (wmask W8) with 255.
  assert (B : Z.lor (Z.land (g r) (Z.lnot (Z.shiftl 255 8))) (Z.shiftl (Z.land v 255) 8) =
              putw W8 (putw W16 (g r) (Z.shiftl v 8)) (g r)).
  { apply Z.bits_inj'. intros i Hi.
    rewrite !putw_testbit, Z.lor_spec, Z.land_spec, Z.lnot_spec, !Z.shiftl_spec by assumption.
    cbn [wbits]. destruct (Z.ltb_spec i 8).
    - rewrite !(Z.testbit_neg_r _ (i - 8)) by lia. now rewrite andb_true_r, orb_false_r.
    - rewrite Z.land_spec. change 255 with (Z.ones 8). rewrite !Z.testbit_ones_nonneg by lia.
      destruct (Z.ltb_spec i 16).
      + replace (i - 8 <? 8) with true by lia. cbn [negb]. now rewrite andb_false_r, andb_true_r.
      + replace (i - 8 <? 8) with false by lia. cbn [negb]. now rewrite andb_false_r, andb_true_r, orb_false_r. }
  rewrite B, !putw_arith, getw_mod, Z.shiftl_mul_pow2 by lia.
  change (modulus W16) with 65536. change (modulus W8) with 256. change (2 ^ 8) with 256.
  Z.div_mod_to_equations. lia.
Qed.

Lemma put8_pair r a b g x :
  gput W8 true r a (gput W8 false r b g) x = gput W16 false r (256 * (a mod 256) + b mod 256) g x.
Proof.
  rewrite put8_high. unfold gput, gget. destruct (greg_eqb x r) eqn:E; [| reflexivity].
  replace (greg_eqb r r) with true by (now destruct r). rewrite getw_putw, !putw_arith, getw_mod.
  change (modulus W16) with 65536. change (modulus W8) with 256. Z.div_mod_to_equations. lia.
Qed.

(** ** Branches *)

Lemma jcc_exec E c k tl s :
  exec E (IJcc c k :: tl) (Done s) = if holds c (hf s) then exec E tl (Skip k s) else exec E tl (Done s).
Proof. rewrite exec_step. cbn [step]. now destruct (holds c (hf s)). Qed.

Lemma lab_exec E k tl s : exec E (ILab k :: tl) (Done s) = exec E tl (Done s).
Proof. reflexivity. Qed.

(** run up to the next jump, division or access *)
Ltac sym1j :=
  lazymatch goal with
  | |- context [exec _ (?i :: _) (Done _)] =>
      lazymatch i with
      | ILoad _ => fail | IStore _ => fail | IJcc _ _ => fail | IDiv _ => fail | IImul2 _ _ => fail
      | ILab _ => rewrite lab_exec
      | IJmp _ => rewrite jmp_step; skip
      | _ => sym1
      end
  end.
Ltac symj := repeat sym1j; rewrite ?getw_putw, ?getw_setw, ?getw_idem; try rewrite !getw_gget.

Lemma ugt_spec w a b : holds CUGT (sub_flags w a b) = negb (a <? b) && negb (getw w (a - b) =? 0).
Proof. reflexivity. Qed.


(** everything as divisions by constants *)
Lemma setw8 o v : setw W8 o v = 256 * (o / 256) + v mod 256.
Proof. apply (putw_arith W8). Qed.
Lemma setw16 o v : setw W16 o v = 65536 * (o / 65536) + v mod 65536.
Proof. apply (putw_arith W16). Qed.
Lemma setw32 o v : setw W32 o v = v mod 4294967296.
Proof. apply (getw_mod W32). Qed.
Lemma getw8 v : getw W8 v = v mod 256. Proof. apply getw_mod. Qed.
Lemma getw16 v : getw W16 v = v mod 65536. Proof. apply getw_mod. Qed.
Lemma getw32 v : getw W32 v = v mod 4294967296. Proof. apply getw_mod. Qed.
Lemma land15 v : Z.land v 15 = v mod 16. Proof. apply (Z.land_ones v 4). lia. Qed.
Lemma land255 v : Z.land v 255 = v mod 256. Proof. apply (Z.land_ones v 8). lia. Qed.

Ltac consts :=
  repeat match goal with
  | |- context [getw ?w (Zpos ?p)] =>
      let v := eval vm_compute in (getw w (Zpos p)) in change (getw w (Zpos p)) with v
  | |- context [getw ?w Z0] => change (getw w Z0) with 0
  end.
Ltac to_arith := consts; rewrite ?land15, ?land255, ?setw8, ?setw16, ?setw32, ?getw8, ?getw16, ?getw32.

(** AF as the emitted code tests it *)
Lemma af_zero ax : (getw W32 (getw W32 (Z.land (getw W32 ax) (getw W32 8)) - getw W32 0) =? 0) = negb (Z.testbit ax 3).
Proof.
  consts. rewrite Z.sub_0_r, getw_idem. change 8 with (2 ^ 3). rewrite land_pow2 by lia.
  rewrite getw_testbit by lia. change (3 <? wbits W32) with true. rewrite andb_true_r.
  now destruct (Z.testbit ax 3).
Qed.

Lemma above w a b : 0 <= a < modulus w -> 0 <= b < modulus w ->
  holds CUGT (sub_flags w a b) = (b <? a).
Proof.
  intros Ha Hb. rewrite ugt_spec, sub_zero by assumption. destruct (Z.ltb_spec a b), (Z.eqb_spec b a); cbn; lia.
Qed.

(** the flag word with CF and AF alone *)
Lemma lazy_8 r o : f_cf (lazy_flags r (putw W32 o (getw W32 0x80000008))) = true /\
  f_af (lazy_flags r (putw W32 o (getw W32 0x80000008))) = true.
Proof.
  cbn [lazy_flags f_cf f_af]. rewrite !putw_testbit, !getw_testbit by lia. now split.
Qed.
Lemma lazy_0 r o : f_cf (lazy_flags r (putw W32 o (getw W32 0))) = false /\
  f_af (lazy_flags r (putw W32 o (getw W32 0))) = false.
Proof.
  cbn [lazy_flags f_cf f_af]. rewrite !putw_testbit, !getw_testbit by lia. now split.
Qed.

Ltac eqz := lazymatch goal with
  | |- context [holds CEQ (sub_flags ?w ?a ?b)] =>
     change (holds CEQ (sub_flags w a b)) with (getw w (a - b) =? 0) end.

Ltac close_aaa Hok :=
  cbn [exec]; eexists _, _; split; [reflexivity |];
  (split; [| split; [| eapply becomes_regs;
    [exact Hok | reflexivity | to_ctx | reflexivity | reflexivity | reflexivity |]]]);
  [ first [apply lazy_8 | apply lazy_0] | first [apply lazy_8 | apply lazy_0] |].

Lemma aaa_ok E s : h_rcx (hr s) = P PCtx -> ctx_ok (ctx s) ->
  let '(al', ah', c) := aaa_spec (gget W8 false EAX (gprs (ctx s))) (gget W8 true EAX (gprs (ctx s))) (f_af (flags_now s)) in
  exists s' fl, run E emit_aaa s = Done s' /\ f_af fl = c /\ f_cf fl = c /\
    becomes s s' (gput W16 false EAX (256 * ah' + al') (gprs (ctx s))) (gmem s) fl.
Proof.
  intros Hcx Hok. unfold flags_now. rewrite read_flags by assumption. unfold emit_aaa. start_state s Hcx.
  cbn [f_af lazy_flags]. pose proof (gget16_split EAX gp) as HX.
  pose proof (gget_range W8 false EAX gp) as HL. pose proof (gget_range W8 true EAX gp) as HH.
  change (modulus W8) with 256 in HL, HH.
  unfold run. expand_list. symj. rewrite jcc_exec. cbn [hf].
  rewrite above by (split; apply getw_range).
  replace (getw W8 9 <? getw W8 _) with (9 <? gget W8 false EAX gp mod 16).
  2:{ rewrite HX. to_arith. f_equal. Z.div_mod_to_equations. lia. }
  unfold aaa_spec. destruct (9 <? gget W8 false EAX gp mod 16) eqn:E1; cbn [orb].
  - skip. symj. close_aaa Hok. intro. rewrite put8_16. apply gput_val. rewrite HX. to_arith. f_equal.
    Z.div_mod_to_equations. lia.
  - symj. rewrite jcc_exec. cbn [hf]. eqz. rewrite ?if00, af_zero. destruct (Z.testbit ax 3) eqn:E2; cbn [negb].
    + skip. symj. close_aaa Hok. intro. rewrite put8_16. apply gput_val. rewrite HX. to_arith. f_equal.
      Z.div_mod_to_equations. lia.
    + skip. symj. close_aaa Hok. intro. rewrite put8_low. apply gput_val. rewrite HX. to_arith. f_equal.
      Z.div_mod_to_equations. lia.
Qed.

Lemma lor_hi_lo a b : 0 <= b < 256 -> Z.lor (256 * a) b = 256 * a + b.
Proof.
  intros Hb. rewrite (Z.mul_comm 256 a). change 256 with (2 ^ 8). rewrite <- Z.shiftl_mul_pow2 by lia.
  symmetry. rewrite <- Z.lxor_lor; [apply Z.add_nocarry_lxor |];
  (apply Z.bits_inj'; intros i Hi; rewrite Z.land_spec, Z.bits_0;
   destruct (Z.ltb_spec i 8);
   [ rewrite Z.shiftl_spec_low by lia; reflexivity
   | rewrite <- (Z.mod_small b (2 ^ 8)) by (change (2 ^ 8) with 256; lia);
     rewrite Z.mod_pow2_bits_high by lia; apply andb_false_r ]).
Qed.

Ltac aas_arith :=
  change ((65530 mod 4294967296) mod 65536) with 65530;
  lazymatch goal with
  | |- context [256 * ?h + ?l - 6] =>
      replace (256 * h + l - 6) with (256 * h + l + 65530 + (-1) * 65536) by lia;
      rewrite Z.mod_add by discriminate;
      let b := fresh "b" in set (b := (256 * h + l + 65530) mod 65536);
      assert (0 <= b < 65536) by (apply Z.mod_pos_bound; reflexivity); clearbody b;
      rewrite !(Z.mod_small b 4294967296) by lia; rewrite ?(Z.mod_small b 65536), ?(Z.div_small b 65536) by lia;
      rewrite !Z.shiftr_div_pow2, !Z.shiftl_mul_pow2 by lia; change (2 ^ 8) with 256;
      let c := fresh "c" in set (c := b / 256);
      assert (0 <= c < 256) by (unfold c; split; [apply Z.div_pos; lia | apply Z.div_lt_upper_bound; lia]);
      assert (b = 256 * c + b mod 256) by (unfold c; Z.div_mod_to_equations; lia);
      clearbody c; rewrite ?Z.mul_0_r, ?Z.add_0_l; rewrite !(Z.mod_small c) by lia;
      let t := fresh "t" in set (t := (c - 1) mod 256);
      assert (0 <= t < 256) by (apply Z.mod_pos_bound; reflexivity); clearbody t;
      rewrite !(Z.mod_small t) by lia; rewrite !(Z.mod_small (t * 256)) by lia;
      pose proof (Z.mod_pos_bound b 256 eq_refl);
      rewrite !(Z.mod_small (b mod 256)) by lia;
      rewrite !(Z.mul_comm t 256); rewrite !lor_hi_lo by assumption;
      Z.div_mod_to_equations; lia
  end.

Lemma aas_ok E s : h_rcx (hr s) = P PCtx -> ctx_ok (ctx s) ->
  let '(al', ah', c) := aas_spec (gget W8 false EAX (gprs (ctx s))) (gget W8 true EAX (gprs (ctx s))) (f_af (flags_now s)) in
  exists s' fl, run E emit_aas s = Done s' /\ f_af fl = c /\ f_cf fl = c /\
    becomes s s' (gput W16 false EAX (256 * ah' + al') (gprs (ctx s))) (gmem s) fl.
Proof.
  intros Hcx Hok. unfold flags_now. rewrite read_flags by assumption. unfold emit_aas. start_state s Hcx.
  cbn [f_af lazy_flags]. pose proof (gget16_split EAX gp) as HX.
  pose proof (gget_range W8 false EAX gp) as HL. pose proof (gget_range W8 true EAX gp) as HH.
  change (modulus W8) with 256 in HL, HH.
  unfold run. expand_list. symj. rewrite jcc_exec. cbn [hf].
  rewrite above by (split; apply getw_range).
  replace (getw W8 9 <? getw W8 _) with (9 <? gget W8 false EAX gp mod 16).
  2:{ rewrite HX. to_arith. f_equal. Z.div_mod_to_equations. lia. }
  unfold aas_spec. destruct (9 <? gget W8 false EAX gp mod 16) eqn:E1; cbn [orb].
  - skip. symj. close_aaa Hok. intro. rewrite put8_16. apply gput_val. rewrite HX. to_arith. f_equal.
    aas_arith.
  - symj. rewrite jcc_exec. cbn [hf]. eqz. rewrite ?if00, af_zero. destruct (Z.testbit ax 3) eqn:E2; cbn [negb].
    + skip. symj. close_aaa Hok. intro. rewrite put8_16. apply gput_val. rewrite HX. to_arith. f_equal.
      aas_arith.
    + skip. symj. close_aaa Hok. intro. rewrite put8_low. apply gput_val. rewrite HX. to_arith. f_equal.
      Z.div_mod_to_equations. lia.
Qed.

(** ** AAD and AAM *)

Lemma lazy_res w v R o : arith_w w -> 0 <= v < modulus w -> w32 R = w32 (sext w v) ->
  result_flags w v (lazy_flags R (putw W32 o (getw W32 0))).
Proof.
  intros Hw Hv HR. rewrite (lazy_cfof w v R _ false false Hw Hv HR).
  - unfold result_flags. cbn [f_pf f_zf f_sf]. auto.
  - rewrite w32_putw. reflexivity.
Qed.

Lemma sext32_byte h : 0 <= h < 256 -> sext W32 (getw W32 h) = h.
Proof.
  intros H. rewrite sext_getw, sext_small by (change (modulus W32) with 4294967296; lia).
  unfold signed. change (2 ^ (wbits W32 - 1)) with 2147483648. destruct (Z.ltb_spec h 2147483648); lia.
Qed.

Ltac close_res Hok v :=
  cbn [exec]; eexists _, _; split; [reflexivity |];
  (split; [| eapply becomes_regs;
    [exact Hok | reflexivity | to_ctx | reflexivity | reflexivity | reflexivity |]]).

Lemma w32_sext8 r x v : 0 <= v < 256 -> getw W8 x = v ->
  w32 (putw W32 r (getw W32 (sext W8 x))) = w32 (sext W8 v).
Proof. intros Hv H. rewrite w32_putw, w32_getw, <- H. now rewrite sext_getw. Qed.

Lemma aad_ok E imm s : h_rcx (hr s) = P PCtx -> ctx_ok (ctx s) -> 0 <= imm < 256 ->
  let v := (gget W8 true EAX (gprs (ctx s)) * imm + gget W8 false EAX (gprs (ctx s))) mod 256 in
  exists s' fl, run E (emit_aad imm) s = Done s' /\ result_flags W8 v fl /\
    becomes s s' (gput W16 false EAX v (gprs (ctx s))) (gmem s) fl.
Proof.
  intros Hcx Hok Hi v. unfold emit_aad. start_state s Hcx.
  pose proof (gget_range W8 false EAX gp) as HL. pose proof (gget_range W8 true EAX gp) as HH.
  change (modulus W8) with 256 in HL, HH.
  set (l := gget W8 false EAX gp) in *. set (h := gget W8 true EAX gp) in *.
  assert (Hv : 0 <= v < 256) by (apply Z.mod_pos_bound; reflexivity).
  unfold run. expand_list. symj.
  erewrite (imul2_step E _ _ _ _ (getw W32 h) (getw W32 imm)); [| rd' | rd']. cbv zeta.
  rewrite !sext32_byte by assumption. nost. set (ov := negb _). clearbody ov.
  set (p := h * imm) in *. clearbody p. symj.
  assert (HW : getw W8 (getw W8 (setw W32 0 p) + l) = v).
  { unfold v. to_arith. clear. Z.div_mod_to_equations. lia. }
  close_res Hok v.
  - apply (lazy_res W8); [discriminate | exact Hv |]. apply w32_sext8; [exact Hv |].
    rewrite getw_idem. fold l. rewrite <- HW. to_arith. reflexivity.
  - intro. rewrite put8_pair. apply gput_val. rewrite <- HW. fold l. to_arith. clear. f_equal.
    change (0 mod 256) with 0. Z.div_mod_to_equations. lia.
Qed.

Lemma div_exec E s a d tl : op_read E (Rg W32 RAX) s = Some a -> h_rdx (hr s) = N 0 ->
  op_read E (Rg W32 RBX) s = Some d -> 0 <= a < 2 ^ 32 -> 0 < d ->
  exec E (IDiv (Rg W32 RBX) :: tl) (Done s) =
  exec E tl (Done (set_hr (rset RDX (N (setw W32 0 (a mod d))) (rset RAX (N (setw W32 (num E (h_rax (hr s))) (a / d))) (hr s))) s)).
Proof.
  intros Ha Hx Hd Ra Pd. rewrite exec_step. cbn [step]. rewrite Hd. cbn [bind].
  injection Ha as Ha. unfold hval. cbn [rget]. rewrite Ha, Hx. cbn [num].
  change (Z.shiftl (getw W32 0) 32) with 0. rewrite Z.lor_0_l.
  assert (a / d <= a) by (apply Z.div_le_upper_bound; nia).
  destruct (Z.eqb_spec d 0); [lia |]. destruct (Z.ltb_spec 0xFFFFFFFF (a / d)); [lia |].
  destruct s as [[q1 q2 q3 q4 q5 q6 q7 q8] q9 q10 q11 q12 q13 q14]. cbn [hr h_rdx] in Hx. subst q4. reflexivity.
Qed.

Lemma aam_ok E imm s : h_rcx (hr s) = P PCtx -> ctx_ok (ctx s) -> 0 < imm < 256 ->
  let a := gget W8 false EAX (gprs (ctx s)) in
  exists s' fl, run E (emit_aam imm) s = Done s' /\ result_flags W8 (a mod imm) fl /\
    becomes s s' (gput W16 false EAX (256 * (a / imm) + a mod imm) (gprs (ctx s))) (gmem s) fl.
Proof.
  intros Hcx Hok Hi a. unfold emit_aam. replace (imm =? 0) with false by lia. start_state s Hcx.
  pose proof (gget_range W8 false EAX gp) as HL. change (modulus W8) with 256 in HL. fold a in HL.
  assert (Hv : 0 <= a mod imm < 256) by (pose proof (Z.mod_pos_bound a imm ltac:(lia)); lia).
  assert (Hq : 0 <= a / imm < 256).
  { split; [apply Z.div_pos; lia |]. assert (a / imm <= a) by (apply Z.div_le_upper_bound; nia). lia. }
  unfold run. expand_list. symj.
  rewrite (div_exec E _ a imm).
  2:{ cbn [op_read rget hr h_rax num]. rewrite getw_setw. f_equal. fold a. apply getw_small.
      change (modulus W32) with 4294967296. lia. }
  2:{ cbn [hr h_rdx]. f_equal. rewrite Z.lxor_nilpotent. reflexivity. }
  2:{ cbn [op_read rget hr h_rbx num]. rewrite getw_setw, getw_idem. f_equal. apply getw_small.
      change (modulus W32) with 4294967296. lia. }
  2:{ lia. }
  2:{ lia. }
  nost. set (q := a / imm) in *. set (r := a mod imm) in *. clearbody q r. symj.
  close_res Hok r.
  - apply (lazy_res W8); [discriminate | exact Hv |]. apply w32_sext8; [exact Hv |]. to_arith. clear - Hv.
    Z.div_mod_to_equations. lia.
  - intro. rewrite put8_pair. apply gput_val. to_arith. clear - Hv Hq. f_equal.
    Z.div_mod_to_equations. lia.
Qed.

Lemma aam_zero E s : run E (emit_aam 0) s = Raise 0 0 s.
Proof. reflexivity. Qed.

(** ** DAA and DAS *)

(** flag words that hold CF and AF only *)
Definition cfaf (c a : bool) : Z := b2z c * 2 ^ 31 + b2z a * 8.

Lemma cfaf_cf x : Z.land (getw W32 x) 0x80000000 = cfaf (Z.testbit x 31) false.
Proof.
  change 0x80000000 with (2 ^ 31). rewrite land_pow2, getw_testbit by lia.
  change (31 <? wbits W32) with true. rewrite andb_true_r. now destruct (Z.testbit x 31).
Qed.
Lemma cfaf_or c a c' a' : Z.lor (cfaf c a) (cfaf c' a') = cfaf (c || c') (a || a').
Proof. now destruct c, a, c', a'. Qed.
Lemma cfaf_get c a : getw W32 (cfaf c a) = cfaf c a.
Proof. now destruct c, a. Qed.
Lemma cfaf_clear c a : Z.land (cfaf c a) 0x7FFFFFFF = cfaf false a.
Proof. now destruct c, a. Qed.
Lemma cfaf_zero c : (cfaf c false =? 0) = negb c.
Proof. now destruct c. Qed.

Lemma cfaf_flags v R A c a : 0 <= v < 256 -> w32 R = w32 (sext W8 v) -> w32 A = cfaf c a ->
  result_flags W8 v (lazy_flags R A) /\ f_cf (lazy_flags R A) = c /\ f_af (lazy_flags R A) = a.
Proof.
  intros Hv HR HA.
  assert (B : forall i, 0 <= i < 32 -> Z.testbit A i = Z.testbit (cfaf c a) i)
    by (intros i Hi; now rewrite <- (w32_bit A i Hi), HA).
  assert (A0 : Z.testbit A 0 = false) by (rewrite B by lia; now destruct c, a).
  destruct (res_bits W8 R A v ltac:(discriminate) A0 HR) as (Pr & ZR & S).
  change (modulus W8) with 256 in *. rewrite Z.mod_small in * by assumption.
  unfold result_flags, lazy_flags. cbn [f_pf f_zf f_sf f_cf f_af].
  split; [split; [| split] |].
  - apply parity_from_res; [| exact Pr]. intros i Hi. rewrite B by lia.
    destruct (byte2_cases i Hi) as [-> | [-> | [-> | [-> | [-> | [-> | [-> | ->]]]]]]]; now destruct c, a.
  - exact ZR.
  - exact S.
  - split; rewrite B by lia; now destruct c, a.
Qed.

Lemma all_bytes (P : Z -> bool) :
  forallb P (map Z.of_nat (seq 0 256)) = true -> forall a, 0 <= a < 256 -> P a = true.
Proof.
  intros H a Ha. rewrite forallb_forall in H. apply H. rewrite in_map_iff.
  exists (Z.to_nat a). split; [lia |]. apply in_seq. lia.
Qed.

Definition da_head (sum : bool) : list instr :=
  [MOV R10B al] ++ LD_CF R11D ++
  [MOV R8B R10B; AND R8B (Im W8 0xF); CMP R8B (Im W8 9); IJcc CUGT 1] ++ LD_AF hEDX ++
  [CMP hEDX (i32 0); IJcc CEQ 2; ILab 1; MOV hRDX hRCX; MOV CL R10B; MOV R8B R10B;
   (if sum then ADD else SUB) R8B (Im W8 6); MOV (Mm W8 (MCtx RDX (CReg false EAX))) R8B; MOV AL CL] ++
  (if sum then gen_sum_vec16_8 else gen_sub_vec16_8) W8 (Im W8 6) R8B ++
  [RELOAD_RCX_CTX; AND hEAX (i32 0x80000000); OR hEAX R11D; OR hEAX (i32 8); MOV c_aux hEAX;
   IJmp 3; ILab 2; MOV c_aux (i32 0); ILab 3].

Definition da_step (sum : bool) (n v : Z) : Z := if sum then v + n else v - n.

Definition da_mid (E : henv) (sum : bool) (s s' : hst) : Prop :=
  let g := gprs (ctx s) in let a := gget W8 false EAX g in
  let c := Z.testbit (aux (ctx s)) 31 in
  let low := (9 <? a mod 16) || Z.testbit (aux (ctx s)) 3 in
  exists A g' b, h_rcx (hr s') = P PCtx /\ getw W8 (num E (h_r10 (hr s'))) = a /\
    getw W32 (num E (h_r11 (hr s'))) = cfaf c false /\
    ctx s' = set_aux A (set_gprs g' (ctx s)) /\
    (forall x, g' x = if low then gput W8 false EAX (da_step sum 6 a) g x else g x) /\
    w32 A = cfaf b low /\
    (sum = false -> b = low && (c || (a <? 6))) /\ gmem s' = gmem s /\ masked s' = masked s.

Lemma byte_bool (f g : Z -> bool) : forallb (fun a => Bool.eqb (f a) (g a)) (map Z.of_nat (seq 0 256)) = true ->
  forall a, 0 <= a < 256 -> f a = g a.
Proof. intros H a Ha. apply Bool.eqb_prop. exact (all_bytes (fun a => Bool.eqb (f a) (g a)) H a Ha). Qed.

Lemma low8 : getw W32 8 = cfaf false true. Proof. reflexivity. Qed.

Ltac cfaf_norm := rewrite ?w32_putw, ?w32_getw; change w32 with (getw W32); rewrite ?getw_setw, ?getw_putw, ?getw_idem, ?if00, ?low8;
  consts; rewrite ?cfaf_cf, ?cfaf_get; repeat rewrite ?cfaf_or, ?cfaf_get, ?orb_false_r, ?orb_false_l;
  change 0 with (cfaf false false); rewrite ?cfaf_get; try reflexivity.

Ltac das_borrow :=
  let H := fresh in intros H; try discriminate H; clear H; cbn [orb andb];
  try reflexivity;
  rewrite orb_comm; f_equal;
  lazymatch goal with
  | HL : 0 <= gget W8 false EAX ?gp < 256 |- _ =>
      revert HL; generalize (gget W8 false EAX gp); intros a0 HL;
      lazymatch goal with
      | |- ?l = ?r =>
         let f := eval pattern a0 in l in let g := eval pattern a0 in r in
         lazymatch f with ?F _ => lazymatch g with ?G _ =>
           apply (byte_bool F G); [vm_compute; reflexivity | exact HL] end end
      end
  end.

Ltac da_close :=
  cbn [exec]; eexists; split; [reflexivity |];
  cbn [hr h_rcx h_r10 h_r11 num ctx gmem masked];
  eexists _, _, _; split; [reflexivity |];
  split; [rewrite ?getw_setw, ?getw_idem, ?getw_gget; reflexivity |];
  split; [cfaf_norm |];
  split; [to_ctx |];
  split; [intro; cbn [da_step]; try reflexivity; apply gput_val; rewrite ?getw_setw, ?getw_idem; consts; reflexivity |];
  split; [cfaf_norm |];
  split; [das_borrow | split; reflexivity].

Lemma da_head_ok E sum s : h_rcx (hr s) = P PCtx -> exists s', run E (da_head sum) s = Done s' /\ da_mid E sum s s'.
Proof.
  intros Hcx. unfold da_mid, da_head. start_state s Hcx.
  pose proof (gget_range W8 false EAX gp) as HL. change (modulus W8) with 256 in HL.
  destruct sum; unfold run; expand_list; symj; rewrite jcc_exec; cbn [hf];
  rewrite above by (split; apply getw_range);
  (replace (getw W8 9 <? getw W8 _) with (9 <? gget W8 false EAX gp mod 16)
     by (to_arith; f_equal; Z.div_mod_to_equations; lia));
  (destruct (9 <? gget W8 false EAX gp mod 16) eqn:E1; cbn [orb];
   [ skip; symj
   | symj; rewrite jcc_exec; cbn [hf]; eqz; rewrite ?if00, af_zero; destruct (Z.testbit ax 3) eqn:E2; cbn [negb];
     skip; symj ]).
  - da_close.
  - da_close.
  - da_close.
  - da_close.
  - da_close.
  - da_close.
Qed.

Definition da_tail (sum : bool) : list instr :=
  [CMP R10B (Im W8 0x99); IJcc CUGT 4;
   CMP R11D (i32 0); IJcc CEQ 5; ILab 4; MOV R10B al; (if sum then ADD else SUB) R10B (Im W8 0x60); MOV al R10B;
   MOV hEDX c_aux; OR hEDX (i32 0x80000000); MOV c_aux hEDX] ++
  (if sum then [IJmp 6; ILab 5; MOV hEDX c_aux; AND hEDX (i32 0x7FFFFFFF); MOV c_aux hEDX; ILab 6]
   else [ILab 5]) ++ [MOVSX R10D al; MOV c_res R10D].

Lemma daa_split : emit_daa = da_head true ++ da_tail true. Proof. reflexivity. Qed.
Lemma das_split : emit_das = da_head false ++ da_tail false. Proof. reflexivity. Qed.

Lemma r11_zero c : (getw W32 (cfaf c false - getw W32 0) =? 0) = negb c.
Proof. now destruct c. Qed.

Definition da_spec (sum : bool) := if sum then daa_spec else das_spec.

Lemma gput8_twice r v u g x : gput W8 false r v (gput W8 false r u g) x = gput W8 false r v g x.
Proof.
  unfold gput. destruct (greg_eqb x r) eqn:E; [| reflexivity].
  replace (greg_eqb r r) with true by (now destruct r). rewrite !putw_arith. change (modulus W8) with 256.
  Z.div_mod_to_equations. lia.
Qed.

Lemma gput8_get r v g : gget W8 false r (gput W8 false r v g) = getw W8 v.
Proof.
  unfold gget, gput. replace (greg_eqb r r) with true by (now destruct r). apply getw_putw.
Qed.

Lemma gput8_same r g x : gput W8 false r (gget W8 false r g) g x = g x.
Proof.
  unfold gput, gget. destruct (greg_eqb x r) eqn:E; [| reflexivity].
  assert (x = r) as -> by (destruct x, r; (reflexivity || discriminate E)).
  rewrite putw_arith, getw_mod. change (modulus W8) with 256. Z.div_mod_to_equations. lia.
Qed.

(** the accumulator between the two corrections *)
Lemma da_middle (low : bool) sum g g' :
  (forall x, g' x = if low then gput W8 false EAX (da_step sum 6 (gget W8 false EAX g)) g x else g x) ->
  gget W8 false EAX g' = (if low then da_step sum 6 (gget W8 false EAX g) else gget W8 false EAX g) mod 256 /\
  (forall v x, gput W8 false EAX v g' x = gput W8 false EAX v g x) /\
  (forall x, g' x = gput W8 false EAX ((if low then da_step sum 6 (gget W8 false EAX g) else gget W8 false EAX g) mod 256) g x).
Proof.
  intros H. destruct low.
  - split; [| split].
    + rewrite <- (getw8 (da_step _ _ _)), <- (gput8_get EAX (da_step sum 6 (gget W8 false EAX g)) g).
      unfold gget. now rewrite H.
    + intros v x. rewrite (gput_ext W8 false EAX v g' _ x H). apply gput8_twice.
    + intros x. rewrite H. apply gput_val. now rewrite !getw8, Zmod_mod.
  - split; [| split].
    + unfold gget. rewrite H, !getw8. now rewrite Zmod_mod.
    + intros v x. now apply gput_ext.
    + intros x. rewrite H, <- (getw8 (gget _ _ _ _)), getw_gget. symmetry. apply gput8_same.
Qed.

Ltac da_word M6 :=
  rewrite ?w32_putw, ?w32_getw, ?if00; change (getw W32 2147483648) with (cfaf true false);
  change (getw W32 2147483647) with 0x7FFFFFFF; change w32 with (getw W32) in *;
  rewrite ?M6, ?cfaf_or, ?cfaf_clear, ?cfaf_get, ?orb_true_r, ?orb_false_r; reflexivity.

Ltac da_res HV D1 :=
  apply w32_sext8; [exact HV | rewrite ?gput8_get, ?getw_idem, ?D1; consts;
      rewrite ?getw8, ?Zplus_mod_idemp_l, ?Zminus_mod_idemp_l, ?Zmod_mod; reflexivity].

Ltac da_finish Hok D1 D2 D3 M6 c a :=
  let HV := fresh "HV" in
  lazymatch goal with |- context [result_flags W8 ?v _] =>
    assert (HV : 0 <= v < 256) by (apply Z.mod_pos_bound; reflexivity) end;
  cbn [exec]; eexists _, _; split; [reflexivity |];
  (split; [| split; [| split; [| eapply becomes_regs;
    [exact Hok | reflexivity | to_ctx | reflexivity | reflexivity | reflexivity |]]]]);
  [ eapply (cfaf_flags _ _ _ c a HV); [da_res HV D1 | da_word M6]
  | eapply (cfaf_flags _ _ _ c a HV); [da_res HV D1 | da_word M6]
  | eapply (cfaf_flags _ _ _ c a HV); [da_res HV D1 | da_word M6]
  | intro; rewrite ?D2, ?D3; apply gput_val; rewrite ?getw_idem, ?D1; consts;
      rewrite ?getw8, ?Zplus_mod_idemp_l, ?Zminus_mod_idemp_l, ?Zmod_mod; reflexivity ].

Lemma da_ok E sum s : h_rcx (hr s) = P PCtx -> ctx_ok (ctx s) ->
  let a := gget W8 false EAX (gprs (ctx s)) in
  let '(al', af', cf') := da_spec sum a (f_af (flags_now s)) (f_cf (flags_now s)) in
  exists s' fl, run E (if sum then emit_daa else emit_das) s = Done s' /\
    result_flags W8 al' fl /\ f_af fl = af' /\ f_cf fl = cf' /\
    becomes s s' (gput W8 false EAX al' (gprs (ctx s))) (gmem s) fl.
Proof.
  intros Hcx Hok a. unfold flags_now. rewrite read_flags by assumption. cbn [lazy_flags f_af f_cf].
  destruct (da_head_ok E sum s Hcx) as (s1 & R1 & A & g' & b & M1 & M2 & M3 & M4 & M5 & M6 & M7 & M8 & M9).
  replace (if sum then emit_daa else emit_das) with (da_head sum ++ da_tail sum)
    by (destruct sum; symmetry; [apply daa_split | apply das_split]).
  rewrite (run_seq _ _ _ _ _ R1). clear R1. fold a in M2, M5, M7.
  pose proof (gget_range W8 false EAX (gprs (ctx s))) as HL. change (modulus W8) with 256 in HL. fold a in HL.
  set (low := (9 <? a mod 16) || Z.testbit (aux (ctx s)) 3) in *.
  destruct s as [[rax0 rbx0 rcx0 rdx0 r80 r90 r100 r110] hf1 [gp sb ef ip rs ax c4 sl] gm0 lc0 nc0 mk0].
  destruct s1 as [[rax rbx rcx rdx r8 r9 r10 r11] hf0 c1 gm lc nc mk].
  cbn [hr h_rcx h_r10 h_r11 ctx gmem masked gprs aux] in *. subst c1 rcx gm mk.
  unfold set_aux, set_gprs. cbn [gprs segb eflags eip res aux cr4 gsel].
  destruct sum; unfold run, da_tail; expand_list; symj; rewrite jcc_exec; cbn [hf];
  rewrite M2; consts; rewrite above by (change (modulus W8) with 256; lia);
  cbn [da_spec]; unfold daa_spec, das_spec; fold low.
  all: destruct (da_middle low _ gp g' M5) as (D1 & D2 & D3); fold a in D1, D3; cbn [da_step] in D1, D3.
  all: destruct (0x99 <? a) eqn:E1; cbn [orb].
  - skip. symj. da_finish Hok D1 D2 D3 M6 true low.
  - symj. rewrite jcc_exec. cbn [hf]. eqz. rewrite M3, r11_zero. destruct (Z.testbit ax 31); cbn [negb orb]; skip; symj.
    + da_finish Hok D1 D2 D3 M6 true low.
    + da_finish Hok D1 D2 D3 M6 false low.
  - skip. symj. da_finish Hok D1 D2 D3 M6 true low.
  - symj. rewrite jcc_exec. cbn [hf]. eqz. rewrite M3, r11_zero.
    specialize (M7 eq_refl). destruct (Z.testbit ax 31); cbn [negb orb] in *; skip; symj.
    + da_finish Hok D1 D2 D3 M6 true low.
    + subst b. da_finish Hok D1 D2 D3 M6 (low && (a <? 6)) low.
Qed.
