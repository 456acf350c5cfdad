(** * The SSE instructions: arithmetic *)

From Coq Require Import ZArith Bool List Lia ZifyBool.
From Verif Require Import HostModel AluModel AluSpec HostProofs LazyFlagsProofs FlagsApiProofs FlagArith SymExec
  EaProofs AluProofs AluForms UnaryProofs SseModel SseSpec SseArith SseProofs SseProofs2.
Import ListNotations.
Local Open Scope Z_scope.

(** a state inside the check: the accumulators and what is kept *)
Definition mid (E : senv) (a d : Z) (s0 : hst) (x0 : xst) (s : hst) (x : xst) : Prop :=
  h_rcx (hr s) = P PCtx /\ hval (s_host E) W32 RAX s = a /\ hval (s_host E) W32 RDX s = d /\ untouched s0 s /\
  getw W32 (loc s 5%nat) = getw W32 (loc s0 5%nat) /\ h_rbx (hr s) = h_rbx (hr s0) /\
  (forall g, xg x g = xg x0 g) /\ xsh x = xsh x0 /\ xhost x = xhost x0 /\ xh x = xh x0.

Lemma host_mid E l a d s0 x0 s x s' a' d' :
  mid E a d s0 x0 s x -> run (s_host E) l s = Done s' -> forallb (fun i => negb (calls i)) l = true ->
  h_rcx (hr s') = P PCtx -> hval (s_host E) W32 RAX s' = a' -> hval (s_host E) W32 RDX s' = d' -> untouched s s' -> loc s' = loc s -> h_rbx (hr s') = h_rbx (hr s) ->
  exists x', mid E a' d' s0 x0 s' x' /\ xmx x' = xmx x /\ forall r, srun E (shost l ++ r) s x = srun E r s' x'.
Proof.
  intros (C & A & D & (U1 & U2 & U3) & L & B & G & S & H & X) R F C' A' D' (V1 & V2 & V3) L' B'.
  destruct (shost_run E l s s' x R) as (x' & (K & K1 & K2 & K3) & KX & RR). exists x'. split; [| split; [exact K1 | exact RR]].
  split; [exact C' |]. split; [exact A' |]. split; [exact D' |]. split; [repeat split; congruence |]. split; [congruence |]. split; [congruence |].
  split; [intros; rewrite K; apply G |]. rewrite KX by exact F. repeat split; congruence.
Qed.

(** an exception is pending: the test the code makes *)
Definition is_unmasked (mx fl : Z) : bool := negb (Z.land (Z.land (Z.lnot (Z.shiftr mx 7)) 63) fl =? 0).

Lemma host_mask H s a d : h_rcx (hr s) = P PCtx -> hval H W32 RAX s = a -> hval H W32 RDX s = d ->
  exists s', run H [SHR hEDX 7; AND hEAX (i32 MX_EXP); NOT hEDX] s = Done s' /\ h_rcx (hr s') = P PCtx /\
    hval H W32 RAX s' = Z.land a 63 /\ hval H W32 RDX s' = getw W32 (Z.lnot (Z.shiftr d 7)) /\
    untouched s s' /\ loc s' = loc s /\ h_rbx (hr s') = h_rbx (hr s).
Proof.
  intros C A D. destruct s as [[q1 q2 q3 q4 q5 q6 q7 q8] w1 w2 w3 w4 w5 w6]. unfold hval in A, D. cbn [hr rget h_rax h_rdx h_rcx] in A, D, C. subst q3.
  eexists. split; [unfold run; expand_list; sym; reflexivity |]. split; [reflexivity |]. split; [| split; [| repeat split]].
  - unfold hval. cbn [hr rget h_rax num]. rewrite ?getw_setw, ?A. rewrite <- A. change 63 with (getw W32 63). apply getw_land.
  - unfold hval. cbn [hr rget h_rdx num]. rewrite ?getw_setw, ?D. 
    apply Z.bits_inj'. intros i Hi. rewrite !getw_testbit, !Z.lnot_spec, getw_testbit by assumption. destruct (i <? wbits W32); now rewrite ?andb_true_r, ?andb_false_r.
Qed.
Lemma host_test H s a d : h_rcx (hr s) = P PCtx -> hval H W32 RAX s = a -> hval H W32 RDX s = d ->
  exists s', run H [AND hEDX (i32 MX_EXP); ITest hEDX hEAX; IJcc CEQ 1] s = (if Z.land (Z.land d 63) a =? 0 then Skip 1 s' else Done s') /\ h_rcx (hr s') = P PCtx /\
    untouched s s' /\ loc s' = loc s /\ h_rbx (hr s') = h_rbx (hr s).
Proof.
  intros C A D. destruct s as [[q1 q2 q3 q4 q5 q6 q7 q8] w1 w2 w3 w4 w5 w6]. unfold hval in A, D. cbn [hr rget h_rax h_rdx h_rcx] in A, D, C. subst q3.
  unfold run. expand_list. sym. unfold logic_flags. cbn [holds hzf]. rewrite ?A, ?D.
  replace (getw W32 (Z.land (getw W32 (Z.land d (getw W32 63))) a)) with (Z.land (Z.land d 63) a).
  - destruct (Z.land (Z.land d 63) a =? 0); eexists; (split; [reflexivity | repeat split]).
  - rewrite <- A, <- D. change 63 with (getw W32 63) at 1. rewrite !getw_land. reflexivity.
Qed.

Lemma post_ok E c s x : h_rcx (hr s) = P PCtx -> 0 <= xmx x < 2 ^ 32 ->
  let fl := Z.land (xhost x) 63 in let mx' := Z.lor (Z.land (xmx x) (getw W32 (Z.lnot MX_EXP))) fl in
  if is_unmasked (xmx x) fl
  then exists s', untouched s s' /\ forall r, exists x', srun E (simd_post_check c ++ r) s x = (Raise (if c then 19 else 6) 0 s', x') /\
    (forall g, xg x' g = xg x g) /\ xsh x' = xsh x /\ xmx x' = mx' /\ xhost x' = getw W32 (loc s 5%nat)
  else exists s' x' a d, mid E a d s x s' x' /\ xmx x' = mx' /\ forall r, srun E (simd_post_check c ++ r) s x = srun E r s' x'.
Proof.
  intros C Hm fl mx'. unfold simd_post_check.
  (* STMXCSR, MOV EDX, MOV EAX *)
  assert (H1 : exists s1 x1 a, mid E a (xmx x) s x s1 x1 /\ getw W32 (loc s1 4%nat) = getw W32 (xhost x) /\ xmx x1 = xmx x /\
    forall r, srun E ([SStmx 4; SMxGet RDX] ++ r) s x = srun E r s1 x1).
  { destruct s as [[q1 q2 q3 q4 q5 q6 q7 q8] w1 w2 w3 w4 w5 w6]. cbn [hr h_rcx] in C. subst q3.
    eexists _, _, _. split; [| split; [| split; [| intros r; unfold srun; cbn [app sexec sstep op_write next fst snd set_loc]; unfold has_ctx;
      cbn [hr h_rcx op_write next rset rget set_hr h_rdx fst snd loc]; reflexivity]]].
    - split; [reflexivity |]. split; [reflexivity |]. split; [| repeat split].
      unfold hval. cbn [set_loc set_hr hr rset rget h_rdx num]. rewrite getw_setw. apply getw_small. exact Hm.
    - cbn [set_loc set_hr loc Nat.eqb]. apply getw_putw.
    - reflexivity. }
  destruct H1 as (s1 & x1 & a1 & M1 & L1 & X1 & R1).
  assert (H2 : exists s2 x2, mid E (getw W32 (xhost x)) (xmx x) s x s2 x2 /\ xmx x2 = xmx x /\
    forall r, srun E (shost [MOV hEAX (local W32 4)] ++ r) s1 x1 = srun E r s2 x2).
  { assert (D1 : hval (s_host E) W32 RDX s1 = xmx x) by apply M1. assert (C1 : h_rcx (hr s1) = P PCtx) by apply M1.
    edestruct (host_mid E [MOV hEAX (local W32 4)] _ _ _ _ _ _
      (set_hr (rset RAX (N (setw W32 (num (s_host E) (rget RAX (hr s1))) (getw W32 (loc s1 4%nat)))) (hr s1)) s1)
      (getw W32 (xhost x)) (xmx x) M1) as (x2 & M2 & X2 & R2);
    destruct s1 as [[q1 q2 q3 q4 q5 q6 q7 q8] w1 w2 w3 w4 w5 w6]; try reflexivity; try exact D1; try exact C1.
    - unfold hval. cbn [set_hr rset hr rget h_rax num loc]. cbn [loc] in L1. rewrite getw_setw, L1. apply getw_idem.
    - repeat split.
    - eexists _, x2. split; [exact M2 |]. split; [congruence | exact R2]. }
  destruct H2 as (s2 & x2 & M2 & X2 & R2). clear M1 L1 X1.
  assert (H3 : exists s3 x3, mid E (getw W32 (xhost x)) (xmx x) s x s3 x3 /\ xmx x3 = Z.land (xmx x) (getw W32 (Z.lnot MX_EXP)) /\
    forall r, srun E ([SMxAnd (Z.lnot MX_EXP)] ++ r) s2 x2 = srun E r s3 x3).
  { pose proof M2 as (C2 & M2'). eexists _, _. split; [| split; [| intros r; unfold srun; cbn [app sexec sstep]; rewrite (has_ctx_ok _ C2); cbn [fst snd]; reflexivity]].
    - exact M2.
    - cbn [set_xmx xmx]. now rewrite X2. }
  destruct H3 as (s3 & x3 & M3 & X3 & R3). clear M2 X2.
  set (d := getw W32 (Z.lnot (Z.shiftr (xmx x) 7))).
  assert (H4 : exists s4 x4, mid E fl d s x s4 x4 /\ xmx x4 = xmx x3 /\
    forall r, srun E (shost [SHR hEDX 7; AND hEAX (i32 MX_EXP); NOT hEDX] ++ r) s3 x3 = srun E r s4 x4).
  { assert (D1 : hval (s_host E) W32 RDX s3 = xmx x) by apply M3. assert (C1 : h_rcx (hr s3) = P PCtx) by apply M3.
    assert (A1 : hval (s_host E) W32 RAX s3 = getw W32 (xhost x)) by apply M3.
    destruct (host_mask _ _ _ _ C1 A1 D1) as (s4 & RR & C4 & A4 & D4 & U4 & L4 & B4).
    destruct (host_mid E _ _ _ _ _ _ _ _ _ _ M3 RR eq_refl C4 A4 D4 U4 L4 B4) as (x4 & M4 & X4 & R4).
    exists s4, x4. split; [| split; [exact X4 | exact R4]].
    replace fl with (Z.land (getw W32 (xhost x)) 63); [exact M4 |]. unfold fl, getw. rewrite <- Z.land_assoc. reflexivity. }
  destruct H4 as (s4 & x4 & M4 & X4 & R4). clear M3.
  assert (Hfl : getw W32 fl = fl) by (apply getw_small; unfold fl; change 63 with (Z.ones 6); rewrite Z.land_ones by lia;
    pose proof (Z.mod_pos_bound (xhost x) (2 ^ 6) eq_refl); change (modulus W32) with (2 ^ 32); lia).
  assert (H5 : exists s5 x5, mid E fl d s x s5 x5 /\ xmx x5 = mx' /\ forall r, srun E ([SMxOr RAX] ++ r) s4 x4 = srun E r s5 x5).
  { pose proof M4 as (C4 & A4 & M4'). eexists _, _. split; [| split; [| intros r; unfold srun; cbn [app sexec sstep]; rewrite (has_ctx_ok _ C4); cbn [fst snd]; reflexivity]].
    - exact M4.
    - cbn [set_xmx xmx]. now rewrite A4, X4, X3. }
  destruct H5 as (s5 & x5 & M5 & X5 & R5). clear M4.
  destruct M5 as (C5 & A5 & D5 & (U1 & U2 & U3) & L5 & B5 & G5 & S5 & H5 & Y5).
  destruct (host_test _ _ _ _ C5 A5 D5) as (s6 & R6 & C6 & (V1 & V2 & V3) & L6 & B6).
  replace (Z.land (Z.land d 63) fl =? 0) with (negb (is_unmasked (xmx x) fl)) in R6.
  2:{ unfold is_unmasked. rewrite negb_involutive. f_equal. f_equal. unfold d, getw. rewrite <- (Z.land_assoc _ (wmask W32)). reflexivity. }
  destruct (shost_any E [AND hEDX (i32 MX_EXP); ITest hEDX hEAX; IJcc CEQ 1] (Done s5) x5) as (x6 & (K & K1 & K2 & K3) & KX & R6').
  unfold run in R6.
  assert (RA : forall r, srun E (([SStmx 4; SMxGet RDX] ++ shost [MOV hEAX (local W32 4)] ++ [SMxAnd (Z.lnot MX_EXP)] ++
     shost [SHR hEDX 7; AND hEAX (i32 MX_EXP); NOT hEDX] ++ [SMxOr RAX] ++ shost [AND hEDX (i32 MX_EXP); ITest hEDX hEAX; IJcc CEQ 1] ++
     restore_simd ++ shost [IRaise (if c then 19 else 6) 0; ILab 1]) ++ r) s x =
     sexec E (restore_simd ++ shost [IRaise (if c then 19 else 6) 0; ILab 1] ++ r) (if is_unmasked (xmx x) fl then Done s6 else Skip 1 s6) x6).
  { intros r. rewrite <- !app_assoc. rewrite R1, R2, R3, R4, R5. unfold srun. rewrite R6', R6. now destruct (is_unmasked (xmx x) fl). }
  destruct (is_unmasked (xmx x) fl).
  - exists s6. split; [repeat split; congruence |]. intros r. rewrite RA. unfold restore_simd. cbn [app sexec sstep fst snd shost map].
    cbn [exec step]. destruct (over_sexec E r (Raise (if c then 19 else 6) 0 s6) (after E (ILab 1) (Raise (if c then 19 else 6) 0 s6) (after E (IRaise (if c then 19 else 6) 0) (Done s6) (set_xhost (getw W32 (loc s6 5%nat)) x6))) eq_refl)
      as (x7 & R7 & (Q & Q1 & Q2 & Q3)).
    exists x7. split; [exact R7 |]. cbn [after calls set_xp set_xhost xg xmx xsh xhost] in Q, Q1, Q2, Q3.
    split; [intros g; now rewrite Q, K |]. rewrite Q1, Q2, Q3, L6, K1, K2. repeat split; congruence.
  - exists s6. eexists _, _, _. split; [| split; [| intros r; rewrite RA; unfold restore_simd; cbn [app sexec shost map exec step Nat.eqb]; reflexivity]].
    + split; [exact C6 |]. split; [reflexivity |]. split; [reflexivity |]. cbn [after calls set_xp xg xsh xhost xh]. rewrite KX by reflexivity.
      split; [repeat split; congruence |]. split; [congruence |]. split; [congruence |]. split; [intros g; now rewrite K |]. repeat split; congruence.
    + cbn [after calls set_xp xmx]. congruence.
Qed.

Lemma unmasked_iff mx fl : 0 <= fl < 64 -> is_unmasked mx fl = true <-> unmasked mx fl.
Proof.
  intros Hf. unfold is_unmasked, unmasked. rewrite negb_true_iff, Z.eqb_neq. split.
  - intros N. destruct (Z.eq_dec (Z.land (Z.land (Z.lnot (Z.shiftr mx 7)) 63) fl) 0) as [| _]; [contradiction |].
    assert (X : exists i, 0 <= i < 6 /\ Z.testbit (Z.land (Z.land (Z.lnot (Z.shiftr mx 7)) 63) fl) i = true).
    { set (v := Z.land (Z.land (Z.lnot (Z.shiftr mx 7)) 63) fl) in *.
      assert (Hv : v = v mod 2 ^ 6).
      { rewrite <- Z.land_ones by lia. unfold v. apply Z.bits_inj'. intros i Hi. rewrite !Z.land_spec. change 63 with (Z.ones 6).
        destruct (Z.testbit (Z.ones 6) i), (Z.testbit (Z.lnot (Z.shiftr mx 7)) i), (Z.testbit fl i); reflexivity. }
      assert (R : 0 <= v < 64) by (rewrite Hv; apply Z.mod_pos_bound; reflexivity). clearbody v. clear Hv.
      assert (LV : 0 <= Z.log2 v < 6) by (split; [apply Z.log2_nonneg | apply Z.log2_lt_pow2; lia]).
      exists (Z.log2 v). split; [exact LV |]. apply Z.bit_log2. lia. }
    destruct X as (i & Hi & B). exists i. split; [exact Hi |]. rewrite !Z.land_spec, Z.lnot_spec, Z.shiftr_spec in B by lia.
    destruct (Z.testbit fl i), (Z.testbit mx (i + 7)); rewrite ?andb_false_r in B; cbn in B; try discriminate. auto.
  - intros (i & Hi & F & M) Q. apply (f_equal (fun z => Z.testbit z i)) in Q. rewrite !Z.land_spec, Z.lnot_spec, Z.shiftr_spec, Z.bits_0, F, M in Q by lia.
    change 63 with (Z.ones 6) in Q. rewrite Z.testbit_ones_nonneg in Q by lia. assert (i <? 6 = true) by lia. rewrite H in Q. discriminate.
Qed.

Lemma latest_ok mx fl : 0 <= mx < 2 ^ 32 -> 0 <= fl < 64 -> latest mx fl (Z.lor (Z.land mx (getw W32 (Z.lnot MX_EXP))) fl).
Proof.
  intros Hm Hf i Hi. rewrite Z.lor_spec, Z.land_spec, getw_testbit, Z.lnot_spec by exact Hi. change MX_EXP with (Z.ones 6). rewrite Z.testbit_ones_nonneg by lia.
  change (wbits W32) with 32. destruct (Z.ltb_spec i 6).
  - cbn [negb andb]. now rewrite andb_false_r.
  - replace (Z.testbit fl i) with false by (symmetry; apply (high_bits _ 6); lia).
    cbn [negb andb]. rewrite orb_false_r. destruct (Z.ltb_spec i 32); [apply andb_true_r |]. rewrite andb_false_r. symmetry. apply (high_bits _ 32); lia.
Qed.

Lemma control_range mx : exists c, 0 <= c < 8 /\ control mx = c * 2 ^ 13.
Proof. exists (mx / 2 ^ 13 mod 8). split; [apply Z.mod_pos_bound; reflexivity | reflexivity]. Qed.
Lemma shadow_ok mx fl : 0 <= fl < 64 ->
  let h := Z.land (control mx + 0x1F80) 0xFFFFFFFF in
  Z.land h MX_CTL = control mx /\ Z.land (Z.lor h fl) 63 = fl.
Proof.
  intros Hf. destruct (control_range mx) as (c & Hc & ->). cbv zeta. split.
  - assert (c = 0 \/ c = 1 \/ c = 2 \/ c = 3 \/ c = 4 \/ c = 5 \/ c = 6 \/ c = 7) as [-> | [-> | [-> | [-> | [-> | [-> | [-> | ->]]]]]]] by lia; reflexivity.
  - rewrite Z.land_lor_distr_l. replace (Z.land (Z.land (c * 2 ^ 13 + 0x1F80) 0xFFFFFFFF) 63) with 0.
    + rewrite Z.lor_0_l. change 63 with (Z.ones 6). rewrite Z.land_ones by lia. apply Z.mod_small. exact Hf.
    + assert (c = 0 \/ c = 1 \/ c = 2 \/ c = 3 \/ c = 4 \/ c = 5 \/ c = 6 \/ c = 7) as [-> | [-> | [-> | [-> | [-> | [-> | [-> | ->]]]]]]] by lia; reflexivity.
Qed.

Lemma lor64 a b : 0 <= a < 64 -> 0 <= b < 64 -> 0 <= Z.lor a b < 64.
Proof.
  intros Ha Hb. split; [apply Z.lor_nonneg; lia |]. destruct (Z.eq_dec (Z.lor a b) 0) as [-> | N]; [reflexivity |].
  change 64 with (2 ^ 6). assert (0 <= Z.lor a b) by (apply Z.lor_nonneg; lia). apply Z.log2_lt_pow2; [lia |]. rewrite Z.log2_lor by lia.
  apply Z.max_lub_lt.
  - destruct (Z.eq_dec a 0) as [-> | ]; [reflexivity | apply Z.log2_lt_pow2; lia].
  - destruct (Z.eq_dec b 0) as [-> | ]; [reflexivity | apply Z.log2_lt_pow2; lia].
Qed.
Lemma land63 v : 0 <= v < 64 -> Z.land v MX_EXP = v.
Proof. intros H. change MX_EXP with (Z.ones 6). rewrite Z.land_ones by lia. now apply Z.mod_small. Qed.
Lemma land32 v : 0 <= v < 2 ^ 32 -> Z.land v 0xFFFFFFFF = v.
Proof. intros H. change 0xFFFFFFFF with (Z.ones 32). rewrite Z.land_ones by lia. now apply Z.mod_small. Qed.

Lemma arith_value E op p ctl a b : single E ->
  arith128 E op p ctl a b = (lanewise (s_fp E) op p ctl a b, flags_of (s_fp E) op p ctl a b).
Proof.
  intros (S & _). unfold arith128, lanewise, flags_of. rewrite !lane32_eq by lia.
  rewrite !(fun i => land63 _ (proj2 (S op ctl (lane i a) (lane i b)))), !(fun i => land32 _ (proj1 (S op ctl (lane i a) (lane i b)))).
  destruct p; f_equal; apply lanes_pack; try apply S; apply lane_range.
Qed.
Lemma flags_range E op p ctl a b : single E -> 0 <= flags_of (s_fp E) op p ctl a b < 64.
Proof. intros (S & _). unfold flags_of. destruct p; [| apply S]. apply lor64; apply lor64; apply S. Qed.

(** ** Operands *)

Lemma operand_ok E (packed : bool) src s x : h_rcx (hr s) = P PCtx -> xrm_ok src (ctx s) ->
  let n := if packed then 16 else 4 in
  let l := match src with
           | XReg g => [SMov (XH 1) (XG g)]
           | XMem m => if packed then shost (emit_ea m) ++ [SLd128; SMov (XH 1) XBuf] else shost (emit_ea m ++ [ILoad W32]) ++ [SMovd 1]
           end in
  let good := exists s1 x1 v, h_rcx (hr s1) = P PCtx /\ untouched s s1 /\ xkept x x1 /\ xh x1 1%nat = v /\
     (if packed then v = src128 src s x else lane 0 v = src32 src s x) /\ forall r, srun E (l ++ r) s x = srun E r s1 x1 in
  match src with
  | XReg _ => good
  | XMem m => if e_fault (s_host E) false (ea m (ctx s)) n then forall r, faults E (l ++ r) s x false (ea m (ctx s)) n else good
  end.
Proof.
  intros Hcx Hm n l good. destruct src as [g | m].
  - eexists s, _, (xg x g). split; [exact Hcx |]. split; [repeat split |]. split; [| split; [| split; [| intros r; unfold srun, l; cbn [app]; sx; rewrite (has_ctx_ok _ Hcx); sx; reflexivity]]].
    + repeat split.
    + reflexivity.
    + destruct packed; reflexivity.
  - destruct packed; subst n; cbv iota beta.
    + pose proof (mem128_ok E false m s x Hcx Hm) as A. cbv zeta in A. cbn [andb] in A. unfold checked_addr in A. rewrite app_nil_r in A.
      assert (LE : forall r, l ++ r = shost (emit_ea m) ++ SLd128 :: ([SMov (XH 1) XBuf] ++ r)) by (intros r; unfold l; now rewrite <- app_assoc).
      destruct (e_fault (s_host E) false (ea m (ctx s)) 16).
      * intros r. rewrite LE. apply A.
      * destruct A as (s2 & x2 & C & U & K & V & _ & R). eexists s2, _, _. split; [exact C |]. split; [exact U |].
        split; [| split; [| split; [| intros r; rewrite LE, R; unfold srun; cbn [app sexec sstep]; rewrite V; sx; reflexivity]]].
        -- destruct K as (K & K1 & K2 & K3). repeat split; assumption.
        -- reflexivity.
        -- reflexivity.
    + pose proof (ld_ok E W32 m s x Hcx Hm) as A. cbv zeta in A. change (wbytes W32) with 4 in A.
      destruct (e_fault (s_host E) false (ea m (ctx s)) 4).
      * destruct A as (s1 & U & R). intros r. destruct (R [] ([SMovd 1] ++ r)) as (x1 & K & R1). exists s1, x1. split; [| auto].
        unfold l. rewrite <- app_assoc. exact R1.
      * destruct A as (s1 & x1 & C & U & K & V & R). eexists s1, _, _. split; [exact C |]. split; [exact U |].
        split; [| split; [| split; [| intros r; unfold l; rewrite <- app_assoc, R; unfold srun; cbn [app]; sx; reflexivity]]].
        -- destruct K as (K & K1 & K2 & K3). repeat split; assumption.
        -- reflexivity.
        -- cbn [xh set_xh Nat.eqb src32]. unfold hval. change (rget RAX (hr s1)) with (h_rax (hr s1)). rewrite V. unfold lane.
           change (2 ^ (32 * 0)) with 1. rewrite Z.div_1_r. apply Z.mod_small. exact (value_range 4 _ _).
Qed.

Lemma lanewise_scalar f op ctl a v w : lane 0 v = lane 0 w -> lanewise f op false ctl a v = lanewise f op false ctl a w.
Proof. intros H. unfold lanewise. now rewrite H. Qed.
Lemma flags_scalar f op ctl a v w : lane 0 v = lane 0 w -> flags_of f op false ctl a v = flags_of f op false ctl a w.
Proof. intros H. unfold flags_of. now rewrite H. Qed.
Lemma src32_lane src s x : lane 0 (src32 src s x) = src32 src s x.
Proof.
  assert (R : 0 <= src32 src s x < 2 ^ 32) by (destruct src; [apply lane_range | exact (value_range 4 _ _)]).
  unfold lane. change (2 ^ (32 * 0)) with 1. rewrite Z.div_1_r. now apply Z.mod_small.
Qed.

(** ** Checked arithmetic *)

Lemma core_ok E op packed c dst s x v : single E -> in_step x -> 0 <= xhost x < 2 ^ 32 -> h_rcx (hr s) = P PCtx -> xh x 1%nat = v ->
  let ctl := control (xmx x) in
  computes E ([SMov (XH 0) (XG dst)] ++ set_host_simd ++ [SArith op packed 0 1] ++ simd_post_check c ++ [SMov (XG dst) (XH 0)] ++ restore_simd)
    s x latest c (flags_of (s_fp E) op packed ctl (xg x dst) v) (gprs (ctx s)) (with_x x dst (lanewise (s_fp E) op packed ctl (xg x dst) v)).
Proof.
  intros Hs (Hmx & Hst) Hh Hcx Hv ctl. set (fl := flags_of _ _ _ _ _ _). set (res := lanewise _ _ _ _ _ _).
  assert (Hfl : 0 <= fl < 64) by (apply flags_range; exact Hs).
  destruct (shadow_ok (xmx x) fl Hfl) as (S1 & S2). rewrite <- Hst in S1, S2.
  set (s2 := set_loc (fun k => if Nat.eqb k 5 then putw W32 (loc s 5%nat) (xhost x) else loc s k) s).
  set (x2 := mkx (xg x) (xmx x) (xsh x) (fun k => if Nat.eqb k 0 then res else if Nat.eqb k 0 then xg x dst else xh x k)
                 (Z.lor (Z.land (xsh x) 0xFFFFFFFF) fl) (xp x)).
  assert (R2 : forall r, srun E ([SMov (XH 0) (XG dst)] ++ set_host_simd ++ [SArith op packed 0 1] ++ r) s x = srun E r s2 x2).
  { intros r. unfold srun, set_host_simd. cbn [app]. cbn [sexec sstep xread]. rewrite (has_ctx_ok _ Hcx). cbn [xwrite fst snd sexec sstep op_write next].
    change (has_ctx (set_loc _ s)) with (has_ctx s). rewrite (has_ctx_ok _ Hcx). cbn [fst snd sexec sstep].
    cbn [set_xh set_xhost xh xsh xhost xg xmx xp Nat.eqb]. rewrite S1, Hv. rewrite (arith_value _ _ _ _ _ _ Hs). cbn [fst snd]. reflexivity. }
  clearbody res.
  assert (L5 : getw W32 (loc s2 5%nat) = xhost x) by (cbn [s2 set_loc loc Nat.eqb]; rewrite getw_putw; now apply getw_small).
  pose proof (post_ok E c s2 x2 Hcx Hmx) as PO. cbv zeta in PO. change (xmx x2) with (xmx x) in PO.
  replace (Z.land (xhost x2) 63) with fl in PO by (symmetry; exact S2).
  pose proof (unmasked_iff (xmx x) fl Hfl) as UI.
  unfold computes. destruct (is_unmasked (xmx x) fl).
  - destruct PO as (s' & U & R). destruct (R ([SMov (XG dst) (XH 0)] ++ restore_simd)) as (x' & R' & G & S & M & H).
    eexists _, x'. split; [rewrite R2; exact R' |]. split; [congruence |]. split; [exact S |]. split; [rewrite M; now apply latest_ok |].
    left. split; [apply UI; reflexivity |]. exists s'. split; [reflexivity |]. split; [exact U | exact G].
  - destruct PO as (s' & x' & a & d & (C & _ & _ & (U1 & U2 & U3) & L & _ & G & S & H & X) & M & R).
    eexists _, _. split; [rewrite R2, R; unfold srun, restore_simd; cbn [app sexec sstep xread xwrite]; rewrite (has_ctx_ok _ C); cbn [fst snd sexec sstep]; reflexivity |].
    cbn [set_xhost set_xg xhost xsh xmx xg]. split; [congruence |]. split; [exact S |]. split; [rewrite M; now apply latest_ok |].
    right. split; [intros Q; apply UI in Q; discriminate |]. exists s'. split; [reflexivity |]. split; [exact C |].
    split; [exists (gprs (ctx s)); split; [rewrite U1; change (ctx s2) with (ctx s); now destruct (ctx s) | reflexivity] |]. split; [exact U2 |]. split; [exact U3 |].
    intros g. unfold upd, with_x. rewrite X, G. reflexivity.
Qed.

Lemma before_computes E l l' s s1 x x1 rel c fl regs g1 g' :
  srun E l s x = srun E l' s1 x1 -> untouched s s1 -> xkept x x1 -> (forall g, g1 g = g' g) ->
  computes E l' s1 x1 rel c fl regs g1 -> computes E l s x rel c fl regs g'.
Proof.
  intros R (U1 & U2 & U3) (K & K1 & K2 & K3) HG (o & x' & R' & H & S & M & D). exists o, x'. rewrite R.
  split; [exact R' |]. rewrite <- K1, <- K2, <- K3. split; [exact H |]. split; [exact S |]. split; [exact M |].
  destruct D as [(Q & s' & O & (V1 & V2 & V3) & G) | (Q & s' & O & C & (f & F & FR) & V2 & V3 & G)].
  - left. split; [exact Q |]. exists s'. split; [exact O |]. split; [repeat split; congruence |]. intros g. now rewrite G.
  - right. split; [exact Q |]. exists s'. split; [exact O |]. split; [exact C |]. split; [exists f; split; [congruence | exact FR] |].
    split; [congruence |]. split; [congruence |]. intros g. now rewrite G.
Qed.

Lemma in_step_kept x x1 : xkept x x1 -> in_step x -> in_step x1.
Proof. intros (_ & K1 & K2 & _) (A & B). split; [now rewrite K1 | now rewrite K1, K2]. Qed.

Lemma arith_ok E op packed c dst src s x : checks op = true -> single E -> in_step x -> 0 <= xhost x < 2 ^ 32 ->
  h_rcx (hr s) = P PCtx -> xrm_ok src (ctx s) ->
  let ctl := control (xmx x) in let b := operand packed src s x in
  calculates E (emit_arith op packed c dst src) s x latest c (if packed then 16 else 4) src
    (flags_of (s_fp E) op packed ctl (xg x dst) b) (gprs (ctx s)) (with_x x dst (lanewise (s_fp E) op packed ctl (xg x dst) b)).
Proof.
  intros Hc Hs Hi Hh Hcx Hm ctl b. pose proof (operand_ok E packed src s x Hcx Hm) as A. cbv zeta in A.
  unfold emit_arith. rewrite Hc.
  assert (GOOD : forall l, (exists s1 x1 v, h_rcx (hr s1) = P PCtx /\ untouched s s1 /\ xkept x x1 /\ xh x1 1%nat = v /\
     (if packed then v = src128 src s x else lane 0 v = src32 src s x) /\ forall r, srun E (l ++ r) s x = srun E r s1 x1) ->
     computes E (l ++ [SMov (XH 0) (XG dst)] ++ set_host_simd ++ [SArith op packed 0 1] ++ simd_post_check c ++ [SMov (XG dst) (XH 0)] ++ restore_simd) s x latest c
       (flags_of (s_fp E) op packed ctl (xg x dst) b) (gprs (ctx s)) (with_x x dst (lanewise (s_fp E) op packed ctl (xg x dst) b))).
  { intros l (s1 & x1 & v & C & U & K & V & Hv & R). pose proof K as (K0 & K1 & K2 & K3).
    pose proof (core_ok E op packed c dst s1 x1 v Hs (in_step_kept _ _ K Hi) ltac:(now rewrite K3) C V) as Q. cbv zeta in Q.
    rewrite K0, K1 in Q. replace (gprs (ctx s1)) with (gprs (ctx s)) in Q by (now rewrite (proj1 U)).
    replace (flags_of (s_fp E) op packed ctl (xg x dst) b) with (flags_of (s_fp E) op packed (control (xmx x)) (xg x dst) v).
    2:{ unfold b, operand. destruct packed; [now rewrite Hv |]. apply flags_scalar. now rewrite src32_lane. }
    replace (lanewise (s_fp E) op packed ctl (xg x dst) b) with (lanewise (s_fp E) op packed (control (xmx x)) (xg x dst) v).
    2:{ unfold b, operand. destruct packed; [now rewrite Hv |]. apply lanewise_scalar. now rewrite src32_lane. }
    eapply before_computes; [apply R | exact U | exact K | | exact Q]. intros g. unfold with_x. destruct (g =? dst); [reflexivity | apply K0]. }
  destruct src as [g | m]; cbn [calculates]; [apply GOOD; exact A |].
  destruct (e_fault (s_host E) false (ea m (ctx s)) (if packed then 16 else 4)); [apply A | apply GOOD; exact A].
Qed.

(** ** RCP and RSQRT: no flags, no rounding control *)

Lemma rcp_ok E op packed c dst src s x : checks op = false -> single E ->
  (forall ctl ctl' a b, s_fp E op ctl a b = s_fp E op ctl' a b /\ snd (s_fp E op ctl a b) = 0) ->
  h_rcx (hr s) = P PCtx -> xrm_ok src (ctx s) ->
  accesses E (emit_arith op packed c dst src) s x false false (if packed then 16 else 4) src
    (with_x x dst (lanewise (s_fp E) op packed (control (xmx x)) (xg x dst) (operand packed src s x))) (gmem s).
Proof.
  intros Hc Hs Hf Hcx Hm. pose proof (operand_ok E packed src s x Hcx Hm) as A. cbv zeta in A.
  unfold emit_arith. rewrite Hc. cbn [app].
  assert (FZ : forall ctl a b, flags_of (s_fp E) op packed ctl a b = 0).
  { intros ctl a b. unfold flags_of. rewrite !(fun p q => proj2 (Hf ctl ctl p q)). destruct packed; reflexivity. }
  assert (LC : forall ctl ctl' a b, lanewise (s_fp E) op packed ctl a b = lanewise (s_fp E) op packed ctl' a b).
  { intros ctl ctl' a b. unfold lanewise. rewrite !(fun p q => proj1 (Hf ctl ctl' p q)). reflexivity. }
  assert (GOOD : forall l, (exists s1 x1 v, h_rcx (hr s1) = P PCtx /\ untouched s s1 /\ xkept x x1 /\ xh x1 1%nat = v /\
     (if packed then v = src128 src s x else lane 0 v = src32 src s x) /\ forall r, srun E (l ++ r) s x = srun E r s1 x1) ->
     gives E (l ++ [SMov (XH 0) (XG dst); SArith op packed 0 1; SMov (XG dst) (XH 0)]) s x
       (with_x x dst (lanewise (s_fp E) op packed (control (xmx x)) (xg x dst) (operand packed src s x))) (gmem s)).
  { intros l (s1 & x1 & v & C & (U1 & U2 & U3) & K & V & Hv & R). pose proof K as (K0 & K1 & K2 & K3).
    eexists s1, _. split; [rewrite R; unfold srun; cbn [sexec sstep xread xwrite]; rewrite (has_ctx_ok _ C); cbn [fst snd sexec sstep xread xwrite]; rewrite (has_ctx_ok _ C); cbn [fst snd sexec]; reflexivity |].
    cbn [set_xh set_xhost set_xg xh xg xmx xsh xhost Nat.eqb]. rewrite V, !(arith_value _ _ _ _ _ _ Hs). cbn [fst snd]. rewrite FZ, Z.lor_0_r.
    split; [exact C |]. split; [exact U1 |]. split; [exact U3 |]. split; [intros; now rewrite U2 |]. split; [| repeat split; assumption].
    intros g. rewrite (upd_kept x x1) by exact K. unfold with_x. destruct (g =? dst); [| reflexivity]. rewrite K0.
    rewrite (LC _ (control (xmx x))). unfold operand. destruct packed; [now rewrite Hv |]. apply lanewise_scalar. now rewrite src32_lane. }
  destruct src as [g | m]; cbn [accesses andb]; [apply GOOD; exact A |].
  destruct (e_fault (s_host E) false (ea m (ctx s)) (if packed then 16 else 4)); [apply A | apply GOOD; exact A].
Qed.

(** ** CVTTSS2SI *)

Lemma cvt_operand E src s x : h_rcx (hr s) = P PCtx -> xrm_ok src (ctx s) ->
  let l := match src with
           | XReg g => [SMov (XH 0) (XG g)]
           | XMem m => shost (emit_ea m ++ [ILoad W32]) ++ [SMovd 0]
           end in
  let good := exists s1 x1, h_rcx (hr s1) = P PCtx /\ untouched s s1 /\ xkept x x1 /\
     lane 0 (xh x1 0%nat) = src32 src s x /\ forall r, srun E (l ++ r) s x = srun E r s1 x1 in
  match src with
  | XReg _ => good
  | XMem m => if e_fault (s_host E) false (ea m (ctx s)) 4 then forall r, faults E (l ++ r) s x false (ea m (ctx s)) 4 else good
  end.
Proof.
  intros Hcx Hm l good. destruct src as [g | m].
  - eexists s, _. split; [exact Hcx |]. split; [repeat split |]. split; [| split; [| intros r; unfold srun, l; cbn [app]; sx; rewrite (has_ctx_ok _ Hcx); sx; reflexivity]].
    + repeat split.
    + reflexivity.
  - pose proof (ld_ok E W32 m s x Hcx Hm) as A. cbv zeta in A. change (wbytes W32) with 4 in A.
    destruct (e_fault (s_host E) false (ea m (ctx s)) 4).
    + destruct A as (s1 & U & R). intros r. destruct (R [] ([SMovd 0] ++ r)) as (x1 & K & R1). exists s1, x1. split; [| auto].
      unfold l. rewrite <- app_assoc. exact R1.
    + destruct A as (s1 & x1 & C & U & K & V & R). eexists s1, _. split; [exact C |]. split; [exact U |].
      split; [| split; [| intros r; unfold l; rewrite <- app_assoc, R; unfold srun; cbn [app]; sx; reflexivity]].
      * destruct K as (K & K1 & K2 & K3). repeat split; assumption.
      * cbn [xh set_xh Nat.eqb src32]. unfold hval. change (rget RAX (hr s1)) with (h_rax (hr s1)). rewrite V. unfold lane.
        change (2 ^ (32 * 0)) with 1. rewrite Z.div_1_r. apply Z.mod_small. exact (value_range 4 _ _).
Qed.

Lemma cvt_core E c dst s x v : single E -> in_step x -> 0 <= xhost x < 2 ^ 32 -> h_rcx (hr s) = P PCtx -> lane 0 (xh x 0%nat) = v ->
  let r := s_cvt E (control (xmx x)) v in
  computes E (set_host_simd ++ [SCvt 0] ++ simd_post_check c ++ shost [MOV (c_reg W32 false dst) hEBX] ++ restore_simd)
    s x latest c (snd r) (regs_after W32 (RmReg (mkgop false dst)) (fst r) s) (xg x).
Proof.
  intros (_ & Hs) (Hmx & Hst) Hh Hcx Hv r. destruct (Hs (control (xmx x)) v) as (Hr & Hfl). fold r in Hr, Hfl.
  destruct (shadow_ok (xmx x) (snd r) Hfl) as (S1 & S2). rewrite <- Hst in S1, S2.
  set (s1 := set_loc (fun k => if Nat.eqb k 5 then putw W32 (loc s 5%nat) (xhost x) else loc s k) s).
  set (s2 := set_hr (rset RBX (N (setw W32 (num (s_host E) (rget RBX (hr s1))) (fst r))) (hr s1)) s1).
  set (x2 := forget RBX (set_xhost (Z.lor (Z.land (xsh x) 0xFFFFFFFF) (snd r)) (set_xhost (Z.land (xsh x) 0xFFFFFFFF) x))).
  assert (R2 : forall l, srun E (set_host_simd ++ [SCvt 0] ++ l) s x = srun E l s2 x2).
  { intros l. unfold srun, set_host_simd. cbn [app]. cbn [sexec sstep op_write next fst snd].
    change (has_ctx (set_loc _ s)) with (has_ctx s). rewrite (has_ctx_ok _ Hcx). cbn [fst snd sexec sstep].
    cbn [set_xhost xh xsh xhost]. rewrite lane32_eq by lia. rewrite S1, Hv. fold r. rewrite (land63 _ Hfl). reflexivity. }
  assert (C2 : h_rcx (hr s2) = P PCtx) by (subst s2 s1; destruct s as [[q1 q2 q3 q4 q5 q6 q7 q8] w1 w2 w3 w4 w5 w6]; exact Hcx).
  assert (B2 : hval (s_host E) W32 RBX s2 = fst r).
  { subst s2 s1. destruct s as [[q1 q2 q3 q4 q5 q6 q7 q8] w1 w2 w3 w4 w5 w6]. unfold hval. cbn [set_loc set_hr rset hr rget h_rbx num].
    rewrite getw_setw. apply getw_small. exact Hr. }
  assert (L5 : getw W32 (loc s2 5%nat) = xhost x) by (cbn [s2 s1 set_hr set_loc loc Nat.eqb]; rewrite getw_putw; now apply getw_small).
  pose proof (post_ok E c s2 x2 C2 Hmx) as PO. cbv zeta in PO. change (xmx x2) with (xmx x) in PO.
  replace (Z.land (xhost x2) 63) with (snd r) in PO by (symmetry; exact S2).
  pose proof (unmasked_iff (xmx x) (snd r) Hfl) as UI.
  unfold computes. destruct (is_unmasked (xmx x) (snd r)).
  - destruct PO as (s' & U & R). destruct (R (shost [MOV (c_reg W32 false dst) hEBX] ++ restore_simd)) as (x' & R' & G & S & M & H).
    eexists _, x'. split; [rewrite R2; exact R' |]. split; [congruence |]. split; [exact S |]. split; [rewrite M; now apply latest_ok |].
    left. split; [apply UI; reflexivity |]. exists s'. split; [reflexivity |]. split; [exact U | exact G].
  - destruct PO as (s' & x' & a & d & (C & _ & _ & (U1 & U2 & U3) & L & B & G & S & H & X) & M & R).
    assert (B' : hval (s_host E) W32 RBX s' = fst r) by (unfold hval; cbn [rget]; rewrite B; exact B2).
    set (s3 := set_ctx (set_gprs (gput W32 false dst (fst r) (gprs (ctx s'))) (ctx s')) s').
    assert (R3 : run (s_host E) [MOV (c_reg W32 false dst) hEBX] s' = Done s3).
    { unfold run, hval in *. expand_list. cbn [exec step bind op_read op_write next c_reg hEBX MOV rget] in *. rewrite B', C. reflexivity. }
    destruct (shost_run E _ _ _ x' R3) as (x3 & (K & K1 & K2 & K3) & _ & R3').
    eexists _, _. split; [rewrite R2, R, R3'; unfold srun, restore_simd; cbn [sexec sstep fst snd]; reflexivity |].
    cbn [set_xhost xhost xsh xmx xg]. split; [change (loc s3) with (loc s'); congruence |]. split; [rewrite K2; exact S |]. split; [rewrite K1, M; now apply latest_ok |].
    right. split; [intros Q; apply UI in Q; discriminate |]. exists s3. split; [reflexivity |]. split; [exact C |].
    split; [exists (gput W32 false dst (fst r) (gprs (ctx s))); split; [| reflexivity] |].
    + change (ctx s3) with (set_gprs (gput W32 false dst (fst r) (gprs (ctx s'))) (ctx s')). rewrite U1. reflexivity.
    + split; [exact U2 |]. split; [exact U3 |]. intros g. rewrite K, G. reflexivity.
Qed.

Lemma cvttss2si_ok E c dst src s x : single E -> in_step x -> 0 <= xhost x < 2 ^ 32 -> h_rcx (hr s) = P PCtx -> xrm_ok src (ctx s) ->
  let r := s_cvt E (control (xmx x)) (src32 src s x) in
  calculates E (emit_cvttss2si c dst src) s x latest c 4 src (snd r) (regs_after W32 (RmReg (mkgop false dst)) (fst r) s) (xg x).
Proof.
  intros Hs Hi Hh Hcx Hm r. pose proof (cvt_operand E src s x Hcx Hm) as A. cbv zeta in A. unfold emit_cvttss2si.
  assert (GOOD : forall l, (exists s1 x1, h_rcx (hr s1) = P PCtx /\ untouched s s1 /\ xkept x x1 /\
     lane 0 (xh x1 0%nat) = src32 src s x /\ forall r, srun E (l ++ r) s x = srun E r s1 x1) ->
     computes E (l ++ set_host_simd ++ [SCvt 0] ++ simd_post_check c ++ shost [MOV (c_reg W32 false dst) hEBX] ++ restore_simd) s x latest c
       (snd r) (regs_after W32 (RmReg (mkgop false dst)) (fst r) s) (xg x)).
  { intros l (s1 & x1 & C & U & K & V & R). pose proof K as (K0 & K1 & K2 & K3).
    pose proof (cvt_core E c dst s1 x1 _ Hs (in_step_kept _ _ K Hi) ltac:(now rewrite K3) C V) as Q. cbv zeta in Q. rewrite K1 in Q. fold r in Q.
    replace (regs_after W32 (RmReg (mkgop false dst)) (fst r) s1) with (regs_after W32 (RmReg (mkgop false dst)) (fst r) s) in Q
      by (unfold regs_after; now rewrite (proj1 U)).
    eapply before_computes; [apply R | exact U | exact K | exact K0 | exact Q]. }
  destruct src as [g | m]; cbn [calculates]; [apply GOOD; exact A |].
  destruct (e_fault (s_host E) false (ea m (ctx s)) 4); [apply A | apply GOOD; exact A].
Qed.

Lemma latest_sticky mx fl mx' : 0 <= fl < 64 -> mx mod 64 = 0 -> latest mx fl mx' -> sticky mx fl mx'.
Proof.
  intros Hf Hz L i Hi. rewrite L by exact Hi. destruct (Z.ltb_spec i 6).
  - replace (Z.testbit mx i) with false; [reflexivity |]. change 64 with (2 ^ 6) in Hz. rewrite <- (Z.mod_pow2_bits_low mx 6 i) by lia. now rewrite Hz, Z.bits_0.
  - rewrite (high_bits fl 6) by lia. now rewrite orb_false_r.
Qed.
Lemma computes_rel E l s x (r1 r2 : Z -> Z -> Z -> Prop) c fl regs g' :
  (forall mx', r1 (xmx x) fl mx' -> r2 (xmx x) fl mx') -> computes E l s x r1 c fl regs g' -> computes E l s x r2 c fl regs g'.
Proof. intros H (o & x' & R & A & B & M & D). exists o, x'. auto 10. Qed.
Lemma calculates_rel E l s x (r1 r2 : Z -> Z -> Z -> Prop) c n o fl regs g' :
  (forall mx', r1 (xmx x) fl mx' -> r2 (xmx x) fl mx') -> calculates E l s x r1 c n o fl regs g' -> calculates E l s x r2 c n o fl regs g'.
Proof.
  intros H. destruct o as [g | m]; cbn [calculates]; [now apply computes_rel |]. destruct (e_fault _ _ _ _); [auto | now apply computes_rel].
Qed.
