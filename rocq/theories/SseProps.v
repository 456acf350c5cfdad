(** * C72, C73: the SSE instructions *)

From Coq Require Import ZArith Bool List Lia ZifyBool.
From Verif Require Import HostModel AluModel AluSpec AluProps SseModel SseSpec SseArith SseProofs SseProofs2 SseProofs3.
From Verif Require FpuModel.
Import ListNotations.
Local Open Scope Z_scope.

(** ** C72: moves and shuffles *)

(** The instructions with one operand in a register [dst] and another in a
    register or in memory. [loaded op o old s x] is the new value of [dst]. *)
Inductive load_op := Movaps | Movups | Movss | Shufps (imm : Z) | Unpckhps | Unpcklps | Xorps | Movlps | Movhps.
Definition load_code (op : load_op) (dst : Z) (o : xrm) : list sinstr :=
  match op with
  | Movaps => emit_movaps_load true dst o
  | Movups => emit_movaps_load false dst o
  | Movss => emit_movss_load dst o
  | Shufps imm => emit_shufps dst o imm
  | Unpckhps => emit_unpck AUnpckH dst o
  | Unpcklps => emit_unpck AUnpckL dst o
  | Xorps => emit_xorps dst o
  | Movlps => match o with XMem m => emit_movlps_load 0 dst m | XReg _ => [] end
  | Movhps => match o with XMem m => emit_movlps_load 8 dst m | XReg _ => [] end
  end.
Definition load_ok (op : load_op) (o : xrm) : Prop :=
  match op, o with (Movlps | Movhps), XReg _ => False | _, _ => True end.
Definition load_size (op : load_op) : Z := match op with Movss => 4 | Movlps | Movhps => 8 | _ => 16 end.
Definition load_aligned (op : load_op) : bool := match op with Movups | Movss | Movlps | Movhps => false | _ => true end.
Definition load_value (op : load_op) (o : xrm) (s : hst) (x : xst) (old : Z) : Z :=
  match op with
  | Movaps | Movups => src128 o s x
  | Movss => match o with
             | XReg _ => pack (src32 o s x) (lane 1 old) (lane 2 old) (lane 3 old)
             | XMem _ => src32 o s x
             end
  | Shufps imm => shufps imm old (src128 o s x)
  | Unpckhps => unpckhps old (src128 o s x)
  | Unpcklps => unpcklps old (src128 o s x)
  | Xorps => Z.lxor old (src128 o s x)
  | Movlps => src128 o s x mod 2 ^ 64 + old / 2 ^ 64 * 2 ^ 64
  | Movhps => old mod 2 ^ 64 + src128 o s x mod 2 ^ 64 * 2 ^ 64
  end.

Lemma value_low m a : value_at 16 m a mod 2 ^ 64 = value_at 8 m a.
Proof.
  rewrite (value_app 8 8). pose proof (value_range 8 m a) as R. change (256 ^ Z.of_nat 8) with (2 ^ 64) in *.
  rewrite (Z.mul_comm (2 ^ 64)), Z.mod_add by lia. now apply Z.mod_small.
Qed.

(** For every operand, state and host environment: the destination gets its
    documented value and nothing else changes; a misaligned operand of the aligned
    forms raises #GP(0) and a faulting access faults, both before any change. *)
Theorem C72_loads : forall E op dst o s x,
  h_rcx (hr s) = P PCtx -> xrm_ok o (ctx s) -> regs128 (xg x) -> load_ok op o ->
  accesses E (load_code op dst o) s x false (load_aligned op) (load_size op) o
    (with_x x dst (load_value op o s x (xg x dst))) (gmem s).
Proof.
  intros E op dst o s x Hcx Hm Hr Ho. destruct op; cbn [load_code load_aligned load_size load_value].
  - now apply movaps_load.
  - now apply movaps_load.
  - now apply movss_load.
  - now apply shufps_ok.
  - exact (unpck_ok E AUnpckH dst o s x (or_introl eq_refl) Hcx Hm).
  - exact (unpck_ok E AUnpckL dst o s x (or_intror eq_refl) Hcx Hm).
  - now apply xorps_ok.
  - destruct o as [g | m]; [contradiction |]. cbn [src128]. rewrite value_low. exact (movlps_load E 0 dst m s x Hcx Hm (or_introl eq_refl) Hr).
  - destruct o as [g | m]; [contradiction |]. cbn [src128]. rewrite value_low. exact (movlps_load E 8 dst m s x Hcx Hm (or_intror eq_refl) Hr).
Qed.
Print Assumptions C72_loads.

Inductive store_op := SMovaps | SMovups | SMovntps | SMovss | SMovlps | SMovhps.
Definition store_code (op : store_op) (o : xrm) (src : Z) : list sinstr :=
  match op with
  | SMovaps => emit_movaps_store true o src
  | SMovups => emit_movaps_store false o src
  | SMovntps => match o with XMem m => emit_movntps m src | XReg _ => [] end
  | SMovss => emit_movss_store o src
  | SMovlps => match o with XMem m => emit_movlps_store 0 m src | XReg _ => [] end
  | SMovhps => match o with XMem m => emit_movlps_store 8 m src | XReg _ => [] end
  end.
Definition store_okx (op : store_op) (o : xrm) : Prop :=
  match op, o with (SMovntps | SMovlps | SMovhps), XReg _ => False | _, _ => True end.
Definition store_size (op : store_op) : Z := match op with SMovss => 4 | SMovlps | SMovhps => 8 | _ => 16 end.
Definition store_aligned (op : store_op) : bool := match op with SMovaps | SMovntps => true | _ => false end.
(** what is stored in memory, and what a register destination becomes *)
Definition store_bytes (op : store_op) (v : Z) : Z :=
  match op with SMovss => lane 0 v | SMovlps => v mod 2 ^ 64 | SMovhps => v / 2 ^ 64 mod 2 ^ 64 | _ => v end.
Definition store_reg (op : store_op) (old v : Z) : Z :=
  match op with SMovss => pack (lane 0 v) (lane 1 old) (lane 2 old) (lane 3 old) | _ => v end.

Theorem C72_stores : forall E op o src s x,
  h_rcx (hr s) = P PCtx -> xrm_ok o (ctx s) -> regs128 (xg x) -> store_okx op o ->
  accesses E (store_code op o src) s x true (store_aligned op) (store_size op) o
    (match o with XReg g => with_x x g (store_reg op (xg x g) (xg x src)) | XMem _ => xg x end)
    (match o with XReg _ => gmem s | XMem m => put_at (store_size op) (gmem s) (ea m (ctx s)) (store_bytes op (xg x src)) end).
Proof.
  intros E op o src s x Hcx Hm Hr Ho. destruct op; cbn [store_code store_aligned store_size store_bytes store_reg].
  - now apply movaps_store.
  - now apply movaps_store.
  - destruct o as [g | m]; [contradiction |]. exact (movaps_store E true (XMem m) src s x Hcx Hm).
  - now apply movss_store.
  - destruct o as [g | m]; [contradiction |]. pose proof (movlps_store E 0 src m s x Hcx Hm (or_introl eq_refl)) as L. unfold half in L.
    change (2 ^ (8 * 0)) with 1 in L. rewrite Z.div_1_r in L. exact L.
  - destruct o as [g | m]; [contradiction |]. exact (movlps_store E 8 src m s x Hcx Hm (or_intror eq_refl)).
Qed.
Print Assumptions C72_stores.

(** The availability test, where TS is clear or SSE is otherwise available: #UD,
    #NM or the instruction; an exception changes nothing. Missing: TS set together
    with EM or a clear OSFXSR. *)
Theorem C72_gate_partial : forall E ts em fx l s x, (ts = true -> em = false /\ fx = true) ->
  match unavailable ts em fx with
  | Some v => raises E (sse_gate ts em fx l) s x v 0
  | None => srun E (sse_gate ts em fx l) s x = srun E l s x
  end.
Proof.
  intros E ts em fx l s x H. unfold unavailable, sse_gate.
  destruct ts; [destruct (H eq_refl) as [-> ->] | destruct em, fx]; cbn [orb andb negb]; try reflexivity;
    (exists s; eexists; split; [reflexivity | split; [repeat split | repeat split]]).
Qed.
Print Assumptions C72_gate_partial.

(** With CR0.EM set, TS has no effect and the instruction is undefined; the code
    raises #NM. *)
Theorem C72_refuted_ud_priority : exists E s x l,
  unavailable true true true = Some 6 /\ exists s' x', srun E (sse_gate true true true l) s x = (Raise 7 0 s', x').
Proof.
  exists (mksenv env0 (fun _ _ _ _ => (0, 0)) (fun _ _ => (0, 0)) (fun _ _ => 0)), st0,
    (mkx (fun _ => 0) 0x1F80 0x1F80 (fun _ => 0) 0x1F80 no_ptr), []. split; [reflexivity |].
  eexists _, _. reflexivity.
Qed.
Print Assumptions C72_refuted_ud_priority.

(** ** A sample machine *)

(** an "addition" on bit patterns that depends on the rounding mode and is inexact
    when the first operand is odd *)
Definition fp0 (op : fop) (ctl a b : Z) : Z * Z :=
  ((a + b + (if ctl =? 0 then 0 else 1)) mod 2 ^ 32, if Z.odd a then 32 else 0).
Definition rcp0 (op : fop) (ctl a b : Z) : Z * Z := ((b + 7) mod 2 ^ 32, 0).
Definition cvt0 (ctl a : Z) : Z * Z := (a mod 2 ^ 32, if Z.odd a then 32 else 0).
Definition senv0 : senv := mksenv env0 (fun op => match op with FRcp | FRsqrt => rcp0 op | _ => fp0 op end) cvt0 (fun n k => Z.of_nat (n + k)).
Definition x0 : xst :=
  mkx (fun g => pack (16 * g + 1) (16 * g + 2) (16 * g + 3) (16 * g + 4) mod 2 ^ 128) 0x1F80 0x1F80 (fun _ => 0) 0x1F80 no_ptr.
Definition with_mx (mx : Z) (x : xst) : xst := mkx (xg x) mx (control mx + 0x1F80) (xh x) (xhost x) (xp x).

Lemma single0 : single senv0.
Proof.
  split.
  - intros op c a b. assert (F : forall b : bool, 0 <= (if b then 32 else 0) < 64) by (intros []; lia).
    destruct op; cbn [senv0 s_fp fp0 rcp0 fst snd]; (split; [apply Z.mod_pos_bound; reflexivity | first [apply F | lia]]).
  - intros c a. cbn [senv0 s_cvt cvt0 fst snd]. split; [apply Z.mod_pos_bound; reflexivity | destruct (Z.odd a); lia].
Qed.
Lemma regs0 : regs128 (xg x0).
Proof. intros g. apply Z.mod_pos_bound. reflexivity. Qed.
Lemma in_step0 : in_step x0.
Proof. split; [cbn; lia | reflexivity]. Qed.

(** the load theorem applies to aligned and misaligned memory operands *)
Definition mop1 : memop := MRm true (Some EBX) None (Some 0x14) true DS false.
Example C72_loads_hyp : h_rcx (hr st0) = P PCtx /\ xrm_ok (XMem mop0) (ctx st0) /\ xrm_ok (XMem mop1) (ctx st0) /\ regs128 (xg x0) /\
  load_ok (Shufps 0x1B) (XMem mop0) /\ ea mop0 (ctx st0) mod 16 = 0 /\ ea mop1 (ctx st0) mod 16 <> 0 /\
  load_value (Shufps 0x1B) (XReg 1) st0 x0 (xg x0 0) = pack 4 3 18 17.
Proof. repeat split; try apply regs0; try discriminate. Qed.
Example C72_gate_hyp : (true = true -> false = false /\ true = true) /\ unavailable true false true = Some 7 /\
  unavailable false true true = Some 6 /\ unavailable false false true = None.
Proof. repeat split. Qed.

(** ** C73: arithmetic *)

(** ADDPS, ADDSS, MULPS, MULSS and CVTTSS2SI with MXCSR's rounding mode, no flag of
    MXCSR set before, and an aligned packed operand: the flags of the operation are
    added to MXCSR; if one of them is unmasked, #XM (or #UD if the guest did not
    enable it) and the destination is unchanged, otherwise the destination gets the
    result; the host's own MXCSR is restored either way. Missing: flags that were
    set before, misaligned packed operands, SUBPS and SUBSS. *)
Theorem C73_arith_partial : forall E op packed xmmexc dst o s x,
  op = FAdd \/ op = FMul -> single E -> in_step x -> 0 <= xhost x < 2 ^ 32 -> xmx x mod 64 = 0 ->
  h_rcx (hr s) = P PCtx -> xrm_ok o (ctx s) ->
  let rc := control (xmx x) in let b := operand packed o s x in
  calculates E (emit_arith op packed xmmexc dst o) s x sticky xmmexc (if packed then 16 else 4) o
    (flags_of (s_fp E) op packed rc (xg x dst) b) (gprs (ctx s))
    (with_x x dst (lanewise (s_fp E) op packed rc (xg x dst) b)).
Proof.
  intros E op packed c dst o s x Hop Hs Hi Hh Hz Hcx Hm rc b.
  assert (Hc : checks op = true) by (destruct Hop as [-> | ->]; reflexivity).
  pose proof (arith_ok E op packed c dst o s x Hc Hs Hi Hh Hcx Hm) as A. cbv zeta in A. fold rc b in A.
  apply (calculates_rel _ _ _ _ latest sticky); [| exact A]. intros mx' L. apply latest_sticky; [apply flags_range; exact Hs | exact Hz | exact L].
Qed.
Print Assumptions C73_arith_partial.

Theorem C73_cvttss2si_partial : forall E xmmexc dst o s x,
  single E -> in_step x -> 0 <= xhost x < 2 ^ 32 -> xmx x mod 64 = 0 ->
  h_rcx (hr s) = P PCtx -> xrm_ok o (ctx s) ->
  let r := s_cvt E (control (xmx x)) (src32 o s x) in
  calculates E (emit_cvttss2si xmmexc dst o) s x sticky xmmexc 4 o (snd r)
    (regs_after W32 (RmReg (mkgop false dst)) (fst r) s) (xg x).
Proof.
  intros E c dst o s x Hs Hi Hh Hz Hcx Hm r. pose proof (cvttss2si_ok E c dst o s x Hs Hi Hh Hcx Hm) as A. cbv zeta in A. fold r in A.
  apply (calculates_rel _ _ _ _ latest sticky); [| exact A]. intros mx' L. apply latest_sticky; [apply Hs | exact Hz | exact L].
Qed.
Print Assumptions C73_cvttss2si_partial.

(** With any flags set before, all of this holds except that MXCSR then has the
    flags of this operation only. *)
Theorem C73_arith_latest_partial : forall E op packed xmmexc dst o s x,
  op = FAdd \/ op = FMul -> single E -> in_step x -> 0 <= xhost x < 2 ^ 32 ->
  h_rcx (hr s) = P PCtx -> xrm_ok o (ctx s) ->
  let rc := control (xmx x) in let b := operand packed o s x in
  calculates E (emit_arith op packed xmmexc dst o) s x latest xmmexc (if packed then 16 else 4) o
    (flags_of (s_fp E) op packed rc (xg x dst) b) (gprs (ctx s))
    (with_x x dst (lanewise (s_fp E) op packed rc (xg x dst) b)).
Proof.
  intros E op packed c dst o s x Hop Hs Hi Hh Hcx Hm. apply arith_ok; try assumption. destruct Hop as [-> | ->]; reflexivity.
Qed.
Print Assumptions C73_arith_latest_partial.

(** RCPPS, RCPSS, RSQRTPS and RSQRTSS, which know no rounding mode and raise no
    flags; the alignment of a packed operand is again not tested. *)
Theorem C73_reciprocals_partial : forall E op packed xmmexc dst o s x,
  op = FRcp \/ op = FRsqrt -> single E ->
  (forall rc rc' a b, s_fp E op rc a b = s_fp E op rc' a b /\ snd (s_fp E op rc a b) = 0) ->
  h_rcx (hr s) = P PCtx -> xrm_ok o (ctx s) ->
  accesses E (emit_arith op packed xmmexc dst o) s x false false (if packed then 16 else 4) o
    (with_x x dst (lanewise (s_fp E) op packed (control (xmx x)) (xg x dst) (operand packed o s x))) (gmem s).
Proof. intros E op packed c dst o s x Hop. apply rcp_ok. destruct Hop as [-> | ->]; reflexivity. Qed.
Print Assumptions C73_reciprocals_partial.

(** The register the host computes with stays in step with MXCSR: it is after a
    reset (translate.cpp:413-414), after FXRSTOR has accepted a value
    (fpu_instructions.cpp:51-58) and, whatever the outcome, after an arithmetic
    instruction or conversion. *)
Theorem C73_in_step_reset : forall g h host p, in_step (mkx g 0x1F80 0x1F80 h host p).
Proof. intros. split; [cbn; lia | reflexivity]. Qed.
Print Assumptions C73_in_step_reset.

Definition shadow_of (t : Z) : Z := Z.land (Z.lor t (Z.shiftl FpuModel.EXP_ALL 7)) (Z.lxor 0xFFFFFFFF FpuModel.EXP_ALL).
Lemma range_bit n k i : 0 <= n -> 0 <= k -> 0 <= i -> Z.testbit (Z.shiftl (Z.ones n) k) i = (k <=? i) && (i <? k + n).
Proof.
  intros Hn Hk Hi. rewrite Z.shiftl_spec by exact Hi. destruct (Z.leb_spec k i); cbn [andb].
  - rewrite Z.testbit_ones_nonneg by lia. destruct (Z.ltb_spec (i - k) n), (Z.ltb_spec i (k + n)); reflexivity || lia.
  - apply Z.testbit_neg_r. lia.
Qed.
Theorem C73_in_step_fxrstor : forall t g h host p, 0 <= t < 2 ^ 32 -> Z.land t (Z.lxor 0xFFFFFFFF FpuModel.MXCSR_MASK) = 0 ->
  in_step (mkx g t (shadow_of t) h host p).
Proof.
  intros t g h host p Ht Hz. split; [exact Ht |]. cbn [xsh xmx].
  assert (R : 0 <= t < 65536).
  { assert (Q : Z.shiftr t 16 = 0).
    { replace (Z.shiftr t 16) with (Z.shiftr (Z.land (Z.land t (Z.lxor 0xFFFFFFFF FpuModel.MXCSR_MASK)) 0xFFFF0000) 16); [now rewrite Hz |].
      rewrite <- Z.land_assoc. change (Z.land (Z.lxor 0xFFFFFFFF FpuModel.MXCSR_MASK) 0xFFFF0000) with 0xFFFF0000. rewrite Z.shiftr_land.
      change (Z.shiftr 0xFFFF0000 16) with (Z.ones 16). rewrite Z.land_ones by lia. apply Z.mod_small. rewrite Z.shiftr_div_pow2 by lia.
      split; [apply Z.div_pos; lia | apply Z.div_lt_upper_bound; lia]. }
    rewrite Z.shiftr_div_pow2 in Q by lia. change (2 ^ 16) with 65536 in Q. pose proof (Z.mod_pos_bound t 65536 eq_refl). pose proof (Z.div_mod t 65536 ltac:(lia)). lia. }
  assert (B6 : Z.testbit t 6 = false).
  { pose proof (f_equal (fun z => Z.testbit z 6) Hz) as B. cbv beta in B. rewrite Z.land_spec, Z.bits_0 in B.
    change (Z.testbit (Z.lxor 0xFFFFFFFF FpuModel.MXCSR_MASK) 6) with true in B. now rewrite andb_true_r in B. }
  assert (C : control t = Z.land t (Z.shiftl (Z.ones 3) 13)).
  { unfold control. change 8 with (2 ^ 3). rewrite <- Z.land_ones, <- Z.shiftr_div_pow2, <- Z.shiftl_mul_pow2 by lia.
    apply Z.bits_inj'. intros i Hi. rewrite Z.shiftl_spec, !Z.land_spec, range_bit by lia. destruct (Z_lt_ge_dec i 13).
    - rewrite !Z.testbit_neg_r by lia. replace (13 <=? i) with false by lia. cbn [andb]. now rewrite andb_false_r.
    - rewrite Z.shiftr_spec, Z.testbit_ones_nonneg by lia. replace (i - 13 + 13) with i by lia. f_equal. lia. }
  assert (D : control t + 0x1F80 = Z.lor (control t) (Z.shiftl (Z.ones 6) 7)).
  { change 0x1F80 with (Z.shiftl (Z.ones 6) 7).
    assert (Q : Z.land (control t) (Z.shiftl (Z.ones 6) 7) = 0); [| rewrite Z.add_nocarry_lxor, Z.lxor_lor by exact Q; reflexivity].
    rewrite C. apply Z.bits_inj'. intros i Hi.
    rewrite !Z.land_spec, !range_bit, Z.bits_0 by lia. destruct (Z.testbit t i); cbn [andb]; lia. }
  rewrite D, C. unfold shadow_of. change (Z.shiftl FpuModel.EXP_ALL 7) with (Z.shiftl (Z.ones 6) 7).
  change (Z.lxor 0xFFFFFFFF FpuModel.EXP_ALL) with (Z.shiftl (Z.ones 26) 6). apply Z.bits_inj'. intros i Hi.
  rewrite Z.land_spec, !Z.lor_spec, Z.land_spec, !range_bit by lia.
  destruct (Z_lt_ge_dec i 16).
  - destruct (Z.eq_dec i 6) as [-> | ]; [now rewrite B6 |]. destruct (Z.testbit t i); cbn [andb orb]; lia.
  - rewrite (high_bits t 16) by lia. cbn [andb orb]. lia.
Qed.
Print Assumptions C73_in_step_fxrstor.

Theorem C73_in_step_kept : forall x x' fl, in_step x -> 0 <= fl < 64 -> xsh x' = xsh x ->
  latest (xmx x) fl (xmx x') \/ sticky (xmx x) fl (xmx x') -> in_step x'.
Proof.
  intros x x' fl (Hm & Hs) Hf HS HM.
  assert (B : forall i, 6 <= i -> Z.testbit (xmx x') i = Z.testbit (xmx x) i).
  { intros i Hi. destruct HM as [L | L]; rewrite L by lia.
    - destruct (Z.ltb_spec i 6); [lia | reflexivity].
    - rewrite (high_bits fl 6) by lia. apply orb_false_r. }
  assert (NN : 0 <= xmx x').
  { apply Z.bits_iff_nonneg_ex. exists 40. intros i Hi. rewrite B by lia. apply (high_bits _ 32); lia. }
  assert (C : control (xmx x') = control (xmx x)).
  { unfold control. f_equal. change 8 with (2 ^ 3). rewrite <- !Z.land_ones, <- !Z.shiftr_div_pow2 by lia. apply Z.bits_inj'. intros i Hi.
    rewrite !Z.land_spec, !Z.shiftr_spec by lia. now rewrite B by lia. }
  split; [| now rewrite C, HS].
  split; [exact NN |]. destruct (Z.eq_dec (xmx x') 0) as [-> | N]; [reflexivity |]. apply Z.log2_lt_pow2; [lia |].
  destruct (Z_lt_ge_dec (Z.log2 (xmx x')) 32) as [| G]; [assumption |]. pose proof (Z.bit_log2 (xmx x') ltac:(lia)) as Q.
  rewrite B in Q by lia. rewrite (high_bits _ 32) in Q by lia. discriminate.
Qed.
Print Assumptions C73_in_step_kept.

(** *** Where the code departs *)

(** the four lanes of registers 0 and 1 of the sample machine are 1,2,3,4 and
    17,18,19,20; "inexact" is flag 5 *)
Definition xflag : xst := with_mx 0x1F81 x0.      (* "invalid" was set by an earlier instruction *)
Definition xround : xst := with_mx 0x7F80 x0.     (* round toward zero *)
Definition xtrap : xst := with_mx 0x0F80 x0.      (* inexact results trap *)

(** A flag that was set is lost: ADDPS clears "invalid". *)
Theorem C73_refuted_sticky : exists E s x, single E /\ in_step x /\ 0 <= xhost x < 2 ^ 32 /\ h_rcx (hr s) = P PCtx /\
  Z.testbit (xmx x) 0 = true /\
  exists s' x', srun E (emit_arith FAdd true true 0 (XReg 1)) s x = (Done s', x') /\ Z.testbit (xmx x') 0 = false.
Proof.
  exists senv0, st0, xflag. split; [exact single0 |]. split; [split; [cbn; lia | reflexivity] |]. split; [cbn; lia |].
  split; [reflexivity |]. split; [reflexivity |].
  assert (T : (let r := srun senv0 (emit_arith FAdd true true 0 (XReg 1)) st0 xflag in
               match fst r with Done _ => negb (Z.testbit (xmx (snd r)) 0) | _ => false end) = true) by (vm_compute; reflexivity).
  destruct (srun senv0 (emit_arith FAdd true true 0 (XReg 1)) st0 xflag) as [o x']. cbn [fst snd] in T.
  destruct o as [s' | | | | |]; try discriminate. exists s', x'. split; [reflexivity | now apply negb_true_iff in T].
Qed.
Print Assumptions C73_refuted_sticky.

(** SUBPS computes with the host's rounding mode, not the guest's. *)
Theorem C73_refuted_sub_rounding : exists E s x, single E /\ in_step x /\ 0 <= xhost x < 2 ^ 32 /\ h_rcx (hr s) = P PCtx /\
  exists s' x', srun E (emit_arith FSub true true 0 (XReg 1)) s x = (Done s', x') /\
    xg x' 0 <> lanewise (s_fp E) FSub true (control (xmx x)) (xg x 0) (xg x 1).
Proof.
  exists senv0, st0, xround. split; [exact single0 |]. split; [split; [cbn; lia | reflexivity] |]. split; [cbn; lia |].
  split; [reflexivity |].
  assert (T : (let r := srun senv0 (emit_arith FSub true true 0 (XReg 1)) st0 xround in
               match fst r with Done _ => negb (xg (snd r) 0 =? lanewise (s_fp senv0) FSub true (control (xmx xround)) (xg xround 0) (xg xround 1)) | _ => false end) = true)
    by (vm_compute; reflexivity).
  destruct (srun senv0 (emit_arith FSub true true 0 (XReg 1)) st0 xround) as [o x']. cbn [fst snd] in T.
  destruct o as [s' | | | | |]; try discriminate. exists s', x'. split; [reflexivity |]. apply negb_true_iff, Z.eqb_neq in T. exact T.
Qed.
Print Assumptions C73_refuted_sub_rounding.

(** ... raises no exception for an unmasked flag, does not record it, and leaves it
    in the host's MXCSR. *)
Theorem C73_refuted_sub_exception : exists E s x, single E /\ in_step x /\ 0 <= xhost x < 2 ^ 32 /\ h_rcx (hr s) = P PCtx /\
  unmasked (xmx x) (flags_of (s_fp E) FSub true (control (xmx x)) (xg x 0) (xg x 1)) /\
  exists s' x', srun E (emit_arith FSub true true 0 (XReg 1)) s x = (Done s', x') /\ xmx x' = xmx x /\ xhost x' <> xhost x.
Proof.
  exists senv0, st0, xtrap. split; [exact single0 |]. split; [split; [cbn; lia | reflexivity] |]. split; [cbn; lia |].
  split; [reflexivity |]. split; [exists 5; split; [lia | split; vm_compute; reflexivity] |].
  assert (T : (let r := srun senv0 (emit_arith FSub true true 0 (XReg 1)) st0 xtrap in
               match fst r with Done _ => (xmx (snd r) =? xmx xtrap) && negb (xhost (snd r) =? xhost xtrap) | _ => false end) = true) by (vm_compute; reflexivity).
  destruct (srun senv0 (emit_arith FSub true true 0 (XReg 1)) st0 xtrap) as [o x']. cbn [fst snd] in T.
  destruct o as [s' | | | | |]; try discriminate. exists s', x'. apply andb_prop in T as [T1 T2].
  split; [reflexivity |]. split; [now apply Z.eqb_eq |]. now apply negb_true_iff, Z.eqb_neq in T2.
Qed.
Print Assumptions C73_refuted_sub_exception.

(** ADDPS with a misaligned memory operand completes; it should raise #GP(0). *)
Theorem C73_refuted_alignment : exists E s x m, single E /\ in_step x /\ h_rcx (hr s) = P PCtx /\ memop_ok m (ctx s) /\
  ea m (ctx s) mod 16 <> 0 /\ exists s' x', srun E (emit_arith FAdd true true 0 (XMem m)) s x = (Done s', x').
Proof.
  exists senv0, st0, x0, mop1. split; [exact single0 |]. split; [exact in_step0 |]. split; [reflexivity |].
  split; [repeat split; discriminate |]. split; [vm_compute; discriminate |].
  assert (T : match fst (srun senv0 (emit_arith FAdd true true 0 (XMem mop1)) st0 x0) with Done _ => true | _ => false end = true) by (vm_compute; reflexivity).
  destruct (srun senv0 (emit_arith FAdd true true 0 (XMem mop1)) st0 x0) as [o x']. cbn [fst] in T.
  destruct o as [s' | | | | |]; try discriminate. now exists s', x'.
Qed.
Print Assumptions C73_refuted_alignment.

(** the hypotheses of the theorems are met, with and without an exception *)
Example C73_hyp : single senv0 /\ in_step x0 /\ in_step xtrap /\ xmx xtrap mod 64 = 0 /\
  unmasked (xmx xtrap) (flags_of (s_fp senv0) FAdd true (control (xmx xtrap)) (xg xtrap 0) (xg xtrap 1)) /\
  ~ unmasked (xmx x0) (flags_of (s_fp senv0) FAdd true (control (xmx x0)) (xg x0 0) (xg x0 1)) /\
  (forall rc rc' a b, s_fp senv0 FRcp rc a b = s_fp senv0 FRcp rc' a b /\ snd (s_fp senv0 FRcp rc a b) = 0).
Proof.
  split; [exact single0 |]. split; [exact in_step0 |]. split; [split; [cbn; lia | reflexivity] |]. split; [reflexivity |].
  split; [exists 5; split; [lia | split; vm_compute; reflexivity] |]. split; [| repeat split].
  intros Q. apply unmasked_iff in Q; [vm_compute in Q; discriminate | vm_compute; split; [discriminate | reflexivity]].
Qed.
