(** * SETcc, CMOVcc and the instructions that work on the flags directly *)

From Coq Require Import ZArith Bool List Lia ZifyBool.
From Verif Require Import HostModel AluModel AluSpec HostProofs LazyFlagsProofs FlagsApiProofs
  FlagArith SymExec EaProofs AluProofs AluForms UnaryProofs XchgProofs CondProofs.
Import ListNotations.
Local Open Scope Z_scope.

(** ** SETcc and CMOVcc *)

Lemma becomes_same_flags' s s' g m :
  ctx_ok (ctx s) -> h_rcx (hr s') = P PCtx -> (exists g', ctx s' = set_gprs g' (ctx s) /\ forall r, g' r = g r) ->
  gmem s' = m -> masked s' = masked s -> becomes s s' g m (flags_now s).
Proof.
  intros Hok Hcx (g' & Hc & Hg) Hm Hk.
  destruct (becomes_same_flags s s' g' m Hok Hcx Hc Hm Hk) as (B1 & B2 & B3 & B4 & B5).
  split; [exact B1 |]. split; [exact B2 |]. split; [| split; assumption].
  intros r. now rewrite B3.
Qed.

Ltac run_cond E c s Hcx Hok :=
  let s1 := fresh "s1" in
  destruct (cond_ok E c s Hcx Hok) as (s1 & HR & (S1 & S2 & S3 & S4) & HV);
  rewrite (run_seq _ _ _ _ _ HR); clear HR; rewrite <- ?S2, <- ?S3 in *.

Lemma setcc_ok E c o s : h_rcx (hr s) = P PCtx -> ctx_ok (ctx s) -> rm_ok o (ctx s) ->
  let v := b2z (cond_spec c (flags_now s)) in
  effect E (emit_setcc c o) W8 s None (rm_mem o) (regs_after W8 o v s) (mem_after W8 o v s) (flags_now s).
Proof.
  intros Hcx Hok Hm v. unfold effect, first_fault, emit_setcc.
  destruct (cond_ok E c s Hcx Hok) as (s1 & HR & (S1 & S2 & S3 & S4) & HV).
  fold v in HV. clearbody v.
  destruct o as [[h r] | m]; cbn [rm_mem regs_after mem_after rm_ok g_high g_reg] in *;
  rewrite (run_seq _ _ _ _ _ HR); clear HR.
  - start_state s1 S1. unfold run; expand_list; sym'. cbn [exec]. eexists. split; [reflexivity |].
    apply becomes_same_flags; [exact Hok | reflexivity | | exact S3 | exact S4].
    cbn [ctx hr h_r8] in *. rewrite <- S2, ?HV. reflexivity.
  - rewrite <- S2 in Hm. start_state s1 S1. run_ea m Hm. rewrite <- ?S2.
    destruct (e_fault E true _ _) eqn:F;
    unfold run; expand_list; sym'; access; cbn [exec]; eexists; (split; [reflexivity |]).
    + repeat split; assumption.
    + apply becomes_same_flags; [exact Hok | reflexivity | | | exact S4]; cbn [ctx hr h_r8 gmem] in *.
      * rewrite <- S2; reflexivity.
      * now rewrite S3, HV.
Qed.

Lemma gput_same w r g x : gput w false r (gget w false r g) g x = g x.
Proof.
  unfold gput, gget. destruct (greg_eqb x r) eqn:Q; [| reflexivity].
  replace x with r by (destruct x, r; try discriminate Q; reflexivity).
  apply Z.bits_inj'. intros n Hn. rewrite putw_testbit, getw_testbit by lia.
  destruct (n <? wbits w); [apply andb_true_r | reflexivity].
Qed.

Lemma cmovcc_ok E c w dst src s : (w = W16 \/ w = W32) ->
  h_rcx (hr s) = P PCtx -> ctx_ok (ctx s) -> rm_ok src (ctx s) ->
  effect E (emit_cmovcc c w dst src) w s (rm_mem src) None
    (if cond_spec c (flags_now s) then gput w false dst (read_rm w src s) (gprs (ctx s)) else gprs (ctx s))
    (gmem s) (flags_now s).
Proof.
  intros Hw Hcx Hok Hm. unfold effect, first_fault, emit_cmovcc.
  destruct (cond_ok E c s Hcx Hok) as (s1 & HR & (S1 & S2 & S3 & S4) & HV).
  generalize dependent (cond_spec c (flags_now s)). intros b HV.
  rewrite (run_seq _ _ _ _ _ HR); clear HR.
  destruct src as [[h r] | m]; cbn [rm_mem read_rm rm_ok] in *; unfold read_gop; cbn [g_high g_reg].
  - rewrite <- S2, <- S3. start_state s1 S1. unfold run.
    destruct Hw as [-> | ->]; expand_list; sym'; cbn [exec]; rewrite ?HV; destruct b;
    (eexists; split; [reflexivity |]; rewrite S2 at 1 || idtac);
    (apply becomes_same_flags'; [exact Hok | reflexivity | | reflexivity | exact S4]);
    (eexists; split; [cbn [ctx]; rewrite <- S2; reflexivity |]; intros x; decide_if;
     rewrite getw_gget, ?gput_same; reflexivity).
  - rewrite <- S2 in *. rewrite <- S3. start_state s1 S1.
    destruct Hw as [-> | ->]; (erewrite run_seq; [| seg]); rewrite <- ?app_assoc; run_ea m Hm;
    destruct (e_fault E false _ _) eqn:F; unfold run; expand_list; sym'; access; sym'; cbn [exec];
    rewrite ?HV; try (eexists; split; [reflexivity |]; repeat split; assumption);
    destruct b; (eexists; split; [reflexivity |]);
    (apply becomes_same_flags'; [rewrite <- S2; exact Hok | reflexivity | | reflexivity | exact S4]);
    (eexists; split; [cbn [ctx]; rewrite <- S2; reflexivity |]; intros x2; decide_if;
     rewrite ?getw_gget, ?getw_mload, ?gput_same; reflexivity).
Qed.

(** ** CLC, STC, CMC, CLD, STD *)

(** [l] runs to completion and only changes the status flags *)
Definition sets_flags (E : henv) (l : list instr) (s : hst) (fl : aflags) : Prop :=
  exists s', run E l s = Done s' /\ becomes s s' (gprs (ctx s)) (gmem s) fl.

Lemma low_aux s s' a' : ctx_ok (ctx s) -> h_rcx (hr s') = P PCtx -> ctx s' = set_aux a' (ctx s) ->
  gmem s' = gmem s -> masked s' = masked s ->
  (forall i, 0 <= i < 30 -> Z.testbit a' i = Z.testbit (aux (ctx s)) i) ->
  xorb (Z.testbit a' 31) (Z.testbit a' 30) = xorb (Z.testbit (aux (ctx s)) 31) (Z.testbit (aux (ctx s)) 30) ->
  becomes s s' (gprs (ctx s)) (gmem s) (with_cf (Z.testbit a' 31) (flags_now s)).
Proof.
  intros Hok Hcx Hc Hm Hk HL HO.
  apply becomes_flags with (res (ctx s)) a'; try assumption.
  rewrite (lazy_low _ (aux (ctx s)) a') by exact HL. unfold flags_now. rewrite read_flags by assumption.
  unfold with_cf, lazy_flags. cbn [f_pf f_af f_zf f_sf f_of]. now rewrite HO.
Qed.

Lemma clc_ok E s : h_rcx (hr s) = P PCtx -> ctx_ok (ctx s) ->
  sets_flags E emit_clc s (with_cf false (flags_now s)).
Proof.
  intros Hcx Hok. start_state s Hcx. unfold sets_flags, emit_clc, run. expand_list; sym.
  rewrite ?if00, ?setw_getw32, ?twice.
  eexists. split; [reflexivity |].
  match goal with |- becomes ?s ?s' _ _ _ => change (becomes s s' (gprs (ctx s)) (gmem s) (with_cf false (flags_now s)));
    replace false with (Z.testbit (aux (ctx s')) 31) by (cbn [ctx aux]; hbits; reflexivity);
    apply low_aux end; try reflexivity; try assumption; cbn [ctx aux].
  - intros i Hi. lowbit. reflexivity.
  - hbits. apply xorb_comm.
Qed.

Lemma stc_ok E s : h_rcx (hr s) = P PCtx -> ctx_ok (ctx s) ->
  sets_flags E emit_stc s (with_cf true (flags_now s)).
Proof.
  intros Hcx Hok. start_state s Hcx. unfold sets_flags, emit_stc, run. expand_list; sym.
  rewrite ?if00, ?setw_getw32, ?twice.
  eexists. split; [reflexivity |].
  match goal with |- becomes ?s ?s' _ _ _ => change (becomes s s' (gprs (ctx s)) (gmem s) (with_cf true (flags_now s)));
    replace true with (Z.testbit (aux (ctx s')) 31) by (cbn [ctx aux]; hbits; reflexivity);
    apply low_aux end; try reflexivity; try assumption; cbn [ctx aux].
  - intros i Hi. lowbit. reflexivity.
  - hbits. now destruct (Z.testbit ax 31), (Z.testbit ax 30).
Qed.

Lemma cmc_ok E s : h_rcx (hr s) = P PCtx -> ctx_ok (ctx s) ->
  sets_flags E emit_cmc s (with_cf (negb (f_cf (flags_now s))) (flags_now s)).
Proof.
  intros Hcx Hok. assert (CF : f_cf (flags_now s) = Z.testbit (aux (ctx s)) 31)
    by (unfold flags_now; now rewrite read_flags by assumption).
  rewrite CF. start_state s Hcx. unfold sets_flags, emit_cmc, run. expand_list; sym.
  rewrite ?if00, ?setw_getw32, ?twice.
  eexists. split; [reflexivity |].
  match goal with |- becomes ?s ?s' _ _ (with_cf ?b ?f) => change (becomes s s' (gprs (ctx s)) (gmem s) (with_cf b (flags_now s)));
    replace b with (Z.testbit (aux (ctx s')) 31) by (cbn [ctx aux]; hbits; reflexivity);
    apply low_aux end; try reflexivity; try assumption; cbn [ctx aux].
  - intros i Hi. lowbit. reflexivity.
  - hbits. now destruct (Z.testbit ax 31), (Z.testbit ax 30).
Qed.
