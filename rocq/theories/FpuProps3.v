(** * Properties of the x87 instructions: traps, histories, tag and status words (C28, C29, C52) *)

From Coq Require Import ZArith Bool List Lia.
From Verif Require Import FpuModel FpuSpec FpuProofs FpuProps FpuProps2.
Import ListNotations.
Local Open Scope Z_scope.

(** *** C29 *)

Lemma w16_bit x n : 0 <= n < 16 -> Z.testbit (w16 x) n = Z.testbit x n.
Proof. intros H. unfold w16. apply Z.mod_pow2_bits_low. lia. Qed.
Lemma small_hi v n : 0 <= v < 2 ^ 16 -> 16 <= n -> Z.testbit v n = false.
Proof. intros H Hn. apply hi_bit; [lia |]. split; [lia |]. apply Z.lt_le_trans with (2 ^ 16); [lia | apply Z.pow_le_mono_r; lia]. Qed.
Lemma w16_hi x n : 16 <= n -> Z.testbit (w16 x) n = false.
Proof. intros H. apply small_hi; [apply Z.mod_pos_bound; lia | exact H]. Qed.

Definition tag_bits (v i : Z) : Z := Z.shiftr (Z.land v (Z.shiftl 3 (i * 2))) (i * 2) mod 2 ^ 8.
Lemma tag_bits_bit v i n : 0 <= i < 8 -> 0 <= n -> Z.testbit (tag_bits v i) n = (n <? 2) && Z.testbit v (n + i * 2).
Proof.
  intros Hi Hn. unfold tag_bits. destruct (Z.ltb_spec n 8).
  - rewrite Z.mod_pow2_bits_low, Z.shiftr_spec, Z.land_spec, Z.shiftl_spec by lia.
    replace (n + i * 2 - i * 2) with n by lia. rewrite andb_comm. f_equal.
    destruct (Z.ltb_spec n 2); [assert (n = 0 \/ n = 1) as [-> | ->] by lia; reflexivity |].
    change 3 with (Z.ones 2). apply Z.ones_spec_high. lia.
  - rewrite Z.mod_pow2_bits_high by lia. now rewrite (proj2 (Z.ltb_ge n 2)) by lia.
Qed.
Lemma written_tag v s i : 0 <= i < 8 -> ftag (write_ftags v s) i = tag_bits v i.
Proof.
  intros H. unfold write_ftags. cbn [ftag set_ftag fold_left].
  assert (i = 0 \/ i = 1 \/ i = 2 \/ i = 3 \/ i = 4 \/ i = 5 \/ i = 6 \/ i = 7) as Q by lia.
  repeat (destruct Q as [-> | Q]; [reflexivity |]). now subst.
Qed.

(** The tag word and the status word read back as written; nothing else changes (the TOP
    field of the status word is the top of stack pointer). *)
Theorem C29_tag_word : forall v s, 0 <= v < 2 ^ 16 ->
  read_ftags (write_ftags v s) = v /\
  (forall k, 0 <= k < 8 -> ftag (write_ftags v s) k = (v / 4 ^ k) mod 4) /\
  exists t, write_ftags v s = set_ftag t s.
Proof.
  intros v s Hv. split; [| split; [| eexists; reflexivity]].
  - unfold read_ftags. cbn [fold_left]. rewrite !written_tag by lia. apply Z.bits_inj'. intros n Hn.
    destruct (Z.ltb_spec n 16); [| rewrite w16_hi by lia; symmetry; now apply small_hi].
    assert (S : forall a i, 0 <= i < 8 -> Z.testbit (w16 (Z.lor a (Z.shiftl (tag_bits v i) (i * 2)))) n =
       Z.testbit a n || ((i * 2 <=? n) && (n <? i * 2 + 2) && Z.testbit v n)).
    { intros a i Hi. rewrite w16_bit, Z.lor_spec by lia. f_equal. rewrite Z.shiftl_spec by lia.
      destruct (Z.leb_spec (i * 2) n); [| now rewrite Z.testbit_neg_r by lia].
      rewrite tag_bits_bit by lia. replace (n - i * 2 + i * 2) with n by lia. cbn [andb]. f_equal.
      destruct (Z.ltb_spec (n - i * 2) 2), (Z.ltb_spec n (i * 2 + 2)); lia. }
    rewrite !S, Z.bits_0 by lia. clear S. revert Hn H. destruct (Z.testbit v n); intros Hn H; rewrite ?andb_false_r, ?andb_true_r; [| reflexivity].
    apply (bits16 n); [lia | ..]; reflexivity.
  - intros k Hk. rewrite written_tag by exact Hk. apply Z.bits_inj'. intros n Hn. rewrite tag_bits_bit by lia.
    change 4 with (2 ^ 2). rewrite <- Z.pow_mul_r by lia. destruct (Z.ltb_spec n 2).
    + rewrite Z.mod_pow2_bits_low, <- Z.shiftr_div_pow2, Z.shiftr_spec by lia. cbn [andb]. f_equal. lia.
    + rewrite Z.mod_pow2_bits_high by lia. reflexivity.
Qed.
Print Assumptions C29_tag_word.

Theorem C29_status_word : forall v s, 0 <= v < 2 ^ 16 ->
  read_fstatus (write_fstatus v s) = v /\ ftop (write_fstatus v s) = (v / 2 ^ 11) mod 8 /\
  exists t u, write_fstatus v s = set_fstatus t (set_ftop u s).
Proof.
  intros v s Hv. split; [| split; [| do 2 eexists; reflexivity]].
  - unfold read_fstatus, write_fstatus, SW_TOP, not16. cbn [fstatus ftop set_fstatus set_ftop]. apply Z.bits_inj'. intros n Hn.
    destruct (Z.ltb_spec n 16); [| rewrite w16_hi by lia; symmetry; now apply small_hi].
    rewrite w16_bit, Z.lor_spec, Z.land_spec, Z.shiftl_spec by lia. change (Z.lxor 0xFFFF 0x3800) with 0xC7FF.
    destruct (Z.leb_spec 11 n).
    + rewrite Z.shiftr_spec, Z.land_spec by lia. replace (n - 11 + 11) with n by lia.
      assert (n = 11 \/ n = 12 \/ n = 13 \/ n = 14 \/ n = 15) as Q by lia.
      destruct Q as [-> | [-> | [-> | [-> | ->]]]]; repeat tb; rewrite ?andb_true_r, ?andb_false_r, ?orb_false_r; reflexivity.
    + rewrite (Z.testbit_neg_r _ (n - 11)) by lia. rewrite orb_false_r.
      assert (Hb : 0 <= n < 16) by lia. revert H0. apply (bits16 n); [exact Hb | ..]; intros; try lia; repeat tb; apply andb_true_r.
  - cbn [ftop set_fstatus set_ftop write_fstatus]. unfold write_fstatus. cbn [ftop set_fstatus set_ftop]. apply Z.bits_inj'. intros n Hn.
    change 8 with (2 ^ 3). rewrite Z.shiftr_spec, Z.land_spec by lia. unfold SW_TOP. destruct (Z.ltb_spec n 3).
    + rewrite Z.mod_pow2_bits_low, <- Z.shiftr_div_pow2, Z.shiftr_spec by lia.
      assert (n = 0 \/ n = 1 \/ n = 2) as [-> | [-> | ->]] by lia; cbn [Z.add]; repeat tb; apply andb_true_r.
    + rewrite Z.mod_pow2_bits_high by lia.
      replace (Z.testbit 0x3800 (n + 11)) with false; [apply andb_false_r |]. symmetry. apply hi_bit; [lia |].
      split; [lia |]. apply Z.lt_le_trans with (2 ^ 14); [lia | apply Z.pow_le_mono_r; lia].
Qed.
Print Assumptions C29_status_word.

Example C29_example : read_ftags fpu_init = 0x5555 /\ read_fstatus (write_fstatus 0xB8A5 fpu_init) = 0xB8A5 /\
  ftop (write_fstatus 0xB8A5 fpu_init) = 7 /\ read_ftags (write_ftags 0xE41B fpu_init) = 0xE41B.
Proof. vm_compute. repeat split. Qed.

(** *** C28: traps *)

(** instructions that wait for pending exceptions *)
Definition waits (i : finstr) : bool := match i with Fnclex | Fninit => false | _ => true end.

(** With EM or TS set every instruction but FCHS faults and changes nothing; with an
    unmasked exception pending every waiting instruction raises #MF and changes nothing. *)
Theorem C28_traps_partial : forall E s i,
  (e_em E = true \/ e_ts E = true -> i <> Fchs -> exists n, fexec E i s = FExc n s /\ (n = 7 \/ n = 6)) /\
  (e_em E = false -> e_ts E = false -> e_ne E = true -> pending s = true -> waits i = true -> fexec E i s = FExc 16 s).
Proof.
  intros E s i. split.
  - intros H N. assert (EM : e_em E || e_ts E = true) by (destruct H as [-> | ->]; [reflexivity | apply orb_true_r]).
    destruct i; try congruence; cbn [fexec]; unfold check_nm, check_emms, check_mmx; rewrite EM;
      eexists; (split; [reflexivity |]); try (now left); [destruct (e_ts E); auto | destruct (e_em E); auto].
  - intros A B C D Wt. destruct i; try discriminate; cbn [fexec]; unfold check_nm, check_emms, check_mmx, check_unmasked;
      rewrite ?A, ?B, ?C, pending_es, D; reflexivity.
Qed.
Print Assumptions C28_traps_partial.

(** FCHS is executed although CR0.EM and CR0.TS ask for a trap. *)
Theorem C28_refuted_trap : exists E s s', e_em E = true /\ e_ts E = true /\ fexec E Fchs s = FDone s' None true /\ st s' 0 <> st s 0.
Proof.
  exists (mkfenv true true true 0 0 0 None), fpu_init. eexists. do 2 (split; [reflexivity |]). split; [reflexivity |].
  vm_compute. discriminate.
Qed.
Print Assumptions C28_refuted_trap.

(** Without CR0.NE the emulation is aborted by any waiting instruction, whether or not an
    exception is pending. *)
Theorem C28_refuted_no_ne : forall E s i, e_em E = false -> e_ts E = false -> e_ne E = false -> waits i = true ->
  fexec E i s = FAbort.
Proof.
  intros E s i A B C Wt. destruct i; try discriminate; cbn [fexec]; unfold check_nm, check_emms, check_mmx, check_unmasked;
    rewrite ?A, ?B, ?C; reflexivity.
Qed.
Print Assumptions C28_refuted_no_ne.

(** *** C28: histories *)
Definition ends (o : fout) (s' : fpu) : Prop :=
  match o with FDone s _ _ | FPage s | FExc _ s => s = s' | FAbort => False end.
Inductive ran (P : finstr -> Prop) : fpu -> fpu -> Prop :=
| ran_nil s : ran P s s
| ran_cons s s1 s2 E i : P i -> ends (fexec E i s) s1 -> ran P s1 s2 -> ran P s s2.
Definition okd (P : fpu -> Prop) (o : fout) : Prop :=
  match o with FDone s _ _ | FPage s | FExc _ s => P s | FAbort => True end.
Lemma okd_ends P o s : okd P o -> ends o s -> P s.
Proof. destruct o; cbn; try easy; now intros H <-. Qed.

(** the registers of a MOVQ and a stack operand are numbers below 8 *)
Definition operands_ok (i : finstr) : Prop :=
  match i with
  | FldSt i | FstSt i _ | FcomSt i _ _ | FarithSt _ i _ | Fxch i | MovqToMm i _ => 0 <= i < 8
  | _ => True
  end.

Section Closed.
Variable P : fpu -> Prop.
Hypothesis P_core : forall s t, core_eq s t -> P s -> P t.
Hypothesis P_range : forall s, P s -> 0 <= ftop s < 8.
Hypothesis P_put : forall k s, 0 <= k < 8 -> P s -> P (put_qnan k s).
Hypothesis P_top : forall k s, 0 <= k < 8 -> P s -> P (set_ftop k s).
Hypothesis P_empty : forall k s, 0 <= k < 8 -> P s -> P (set_ftag (upd (ftag s) k 3) s).
Hypothesis P_store : forall i v s, P s -> P (store_tag i v s).
Hypothesis P_sincos : forall a b s, P s -> P (update_tag true 1 (update_tag true 0 (store_stx 0 b (fpu_push (store_stx 0 a s))))).
Hypothesis P_allempty : forall s t, ftop t = 0 -> (forall k, 0 <= k < 8 -> ftag t k = 3) -> P s -> P t.

Lemma cP_push s : P s -> P (fpu_push s).
Proof. intros H. apply P_top; [| exact H]. rewrite land7. apply Z.mod_pos_bound. lia. Qed.
Lemma cP_POP s : P s -> P (FPU_POP s).
Proof. intros H. apply P_top; [| exact H]. rewrite land7. apply Z.mod_pos_bound. lia. Qed.
Lemma cP_tag_pop s : P s -> P (tag_pop s).
Proof.
  intros H. apply cP_POP. unfold update_tag. rewrite idx_top by now apply P_range. apply P_empty; [now apply P_range | exact H].
Qed.
Lemma cP_pop s : P s -> P (fpu_pop s).
Proof. intros H. rewrite fpu_pop_eq by now apply P_range. now apply cP_tag_pop. Qed.
Lemma cP_iter f n s : (forall s, P s -> P (f s)) -> P s -> P (Nat.iter n f s).
Proof. intros F H. induction n; cbn; auto. Qed.
Lemma cP_idx s i : 0 <= idx s i < 8.
Proof. rewrite idx_mod. apply Z.mod_pos_bound. lia. Qed.
Lemma cP_fault e s : P s -> P (stack_fault e s).
Proof. apply P_core, fault_core. Qed.
Lemma cP_over s : P s -> P (snd (stack_overflow s)).
Proof.
  intros H. unfold stack_overflow. destruct (negb _); [| exact H]. cbn [snd]. apply cP_fault. destruct (masked s); [| exact H].
  apply P_put; [apply push_range | now apply cP_push].
Qed.
Lemma cP_under a b c s : P s -> P (snd (stack_underflow_reg a b c s)).
Proof.
  intros H. unfold stack_underflow_reg. destruct (is_tag_empty s a); [| exact H]. cbn [snd]. apply cP_fault. destruct (masked s); [| exact H].
  destruct c; [apply cP_pop |]; apply P_put; auto using cP_idx.
Qed.
Lemma cP_fcom a b n s : P s -> P (snd (stack_fault_fcom a b n s)).
Proof.
  intros H. unfold stack_fault_fcom. destruct (a || b); [| exact H]. cbn [snd]. apply cP_fault.
  assert (K : P (set_fstatus (Z.lor (fstatus s) 17664) s)) by (revert H; apply P_core; now repeat split).
  destruct (masked _); [apply cP_iter; [apply cP_pop | exact K] | exact K].
Qed.
Lemma cP_sc s : P s -> P (snd (stack_fault_fsincos s)).
Proof.
  intros H. unfold stack_fault_fsincos. destruct (_ || _); [| exact H]. cbn [snd]. apply cP_fault. destruct (masked s); [| exact H].
  apply P_put; [apply push_range |]. apply cP_push, P_put; [now apply P_range | exact H].
Qed.
Lemma cP_patan s : P s -> P (snd (stack_fault_fpatan s)).
Proof.
  intros H. unfold stack_fault_fpatan. destruct (_ || _); [| exact H]. cbn [snd]. apply cP_fault. destruct (masked s); [| exact H].
  apply cP_pop, P_put; [apply cP_idx | exact H].
Qed.
Lemma cP_xch i s : P s -> P (snd (stack_fault_fxch i s)).
Proof.
  intros H. unfold stack_fault_fxch. destruct (_ || _); [| exact H]. cbn [snd]. apply cP_fault. destruct (masked s); [| exact H].
  destruct (is_tag_empty s 0), (is_tag_empty s i); auto using cP_idx.
Qed.
Lemma cP_post e sw s k : P s -> (forall s, P s -> okd P (k s)) -> okd P (post_check e sw s k).
Proof.
  intros H K. unfold post_check. assert (H1 : P (set_fstatus (post_sw sw s) s)) by (revert H; apply P_core; now repeat split).
  destruct (post_unmasked e sw s); [| now apply K]. cbn. revert H. apply P_core. now repeat split.
Qed.
Lemma cP_start E s : P s -> P (clear_c1 (update_ptr E s)).
Proof. apply P_core, start_core. Qed.
Lemma cP_nm E s k : P s -> okd P k -> okd P (check_nm E s k).
Proof. intros H K. unfold check_nm. destruct (_ || _); [exact H | exact K]. Qed.
Lemma cP_un E s k : P s -> okd P k -> okd P (check_unmasked E s k).
Proof. intros H K. unfold check_unmasked. destruct (e_ne E); [destruct (nz _); [exact H | exact K] | exact I]. Qed.
Ltac on t HT tac := cbv beta zeta; match goal with |- okd _ (if fst ?r then _ else _) =>
  let HR := fresh in assert (HR : P (snd r)) by tac; destruct (fst r); [exact HR |];
  revert HR; generalize (snd r); intros t HT; cbv beta zeta end.
Lemma cP_core_done s t w r : core_eq s t -> P s -> okd P (FDone t w r).
Proof. intros H HP. exact (P_core s t H HP). Qed.

Lemma closed_exec E i s : match i with Fxch _ | Fpatan _ | MovqToMm _ _ => False | _ => True end -> P s -> okd P (fexec E i s).
Proof.
  intros HI H. destruct i; try contradiction; cbn [fexec]; clear HI.
  - apply cP_nm; [exact H |]. apply cP_un; [exact H |]. on t HT ltac:(now apply cP_over, cP_start). apply P_store. now apply cP_push.
  - apply cP_nm; [exact H |]. apply cP_un; [exact H |]. destruct src as [m |]; [| exact H]. on t HT ltac:(now apply cP_over, cP_start). destruct (h m (frp t)) as [v sw]. destruct int; [apply P_store; now apply cP_push |].
    apply cP_post; [exact HT |]. intros u HU. apply P_store. now apply cP_push.
  - apply cP_nm; [exact H |]. apply cP_un; [exact H |]. on t HT ltac:(now apply cP_over, cP_start).
    on u HU ltac:(now apply cP_under). apply P_store. now apply cP_push.
  - apply cP_nm; [exact H |]. apply cP_un; [exact H |]. on t HT ltac:(now apply cP_under, cP_start).
    assert (K : P (if nz i then store_tag i (load_stx t 0) t else t)) by (destruct (nz i); [now apply P_store | exact HT]).
    destruct pop; [now apply cP_tag_pop | exact K].
  - apply cP_nm; [exact H |]. apply cP_un; [exact H |]. pose proof (cP_start E s H) as HT. set (t := clear_c1 _) in *.
    destruct (is_tag_empty t 0).
    + destruct (masked t); [destruct wok |]; cbn [okd]; [apply cP_fault; destruct pop; [now apply cP_pop |] | | apply cP_fault]; exact HT.
    + destruct (h (load_stx t 0) (frp t)) as [v sw]. destruct (post_unmasked EXP_ALL sw t); [cbn; revert HT; apply P_core; now repeat split |].
      destruct wok; [| exact HT]. assert (K : P (set_fstatus (post_sw sw t) t)) by (revert HT; apply P_core; now repeat split).
      destruct pop; [now apply cP_tag_pop | exact K].
  - apply cP_nm; [exact H |]. apply cP_un; [exact H |]. on t HT ltac:(now apply cP_fcom, cP_start).
    apply cP_post; [exact HT |]. intros u HU. apply cP_iter; [apply cP_tag_pop | exact HU].
  - apply cP_nm; [exact H |]. apply cP_un; [exact H |]. destruct src as [m |]; [| exact H]. on t HT ltac:(now apply cP_fcom, cP_start).
    apply cP_post; [exact HT |]. intros u HU. apply cP_iter; [apply cP_tag_pop | exact HU].
  - apply cP_nm; [exact H |]. apply cP_un; [exact H |]. on t HT ltac:(now apply cP_under, cP_start).
    on u HU ltac:(now apply cP_under). destruct (h _ _ _) as [v sw]. apply cP_post; [exact HU |]. intros w HW.
    destruct f; [now apply P_store | now apply P_store | apply cP_tag_pop; now apply P_store].
  - apply cP_nm; [exact H |]. apply cP_un; [exact H |]. destruct src as [m |]; [| exact H]. on t HT ltac:(now apply cP_under, cP_start).
    destruct (h _ _ _) as [v sw]. apply cP_post; [exact HT |]. intros u HU. now apply P_store.
  - apply cP_un; [exact H |]. on t HT ltac:(apply cP_under; revert H; apply P_core, ptr_core).
    apply P_store. revert HT. apply P_core. now repeat split.
  - apply cP_nm; [exact H |]. apply cP_un; [exact H |]. on t HT ltac:(now apply cP_under, cP_start).
    destruct (h _ _) as [v sw]. apply cP_post; [exact HT |]. intros u HU. now apply P_store.
  - apply cP_nm; [exact H |]. apply cP_un; [exact H |]. on t HT ltac:(apply cP_under; revert H; apply P_core; now repeat split).
    destruct (h _ _) as [v sw]. apply cP_post; [exact HT |]. intros u HU. destruct (nz _); [exact HU | now apply P_store].
  - apply cP_nm; [exact H |]. apply cP_un; [exact H |]. on t HT ltac:(apply cP_sc; revert H; apply P_core; now repeat split).
    destruct (h _ _) as [[v x] sw]. apply cP_post; [exact HT |]. intros u HU. destruct (nz _); [exact HU | now apply P_sincos].
  - apply cP_nm; [exact H |]. apply cP_un; [exact H |]. destruct src as [m |]; [| exact H].
    destruct (nz _); apply (cP_core_done s); auto; now repeat split.
  - apply cP_nm; [exact H |]. apply (cP_core_done s); auto; now repeat split.
  - apply cP_nm; [exact H |]. cbn. apply (P_allempty s); [reflexivity | | exact H]. intros k Hk. cbn.
    rewrite (proj2 (Z.leb_le 0 k)), (proj2 (Z.ltb_lt k 8)) by lia. reflexivity.
  - unfold check_emms. destruct (_ || _); [exact H |]. apply cP_un; [exact H |]. cbn. apply (P_allempty s); [reflexivity | | exact H]. intros k Hk. cbn.
    rewrite (proj2 (Z.leb_le 0 k)), (proj2 (Z.ltb_lt k 8)) by lia. reflexivity.
Qed.
End Closed.

(** the instructions that follow the tags of what they write *)
Definition keeps_tags (i : finstr) : Prop := match i with Fxch _ | Fpatan _ | MovqToMm _ _ => False | _ => True end.

Lemma wf_upd t k v : 0 <= v <= 3 -> (forall j, 0 <= j < 8 -> 0 <= t j <= 3) -> forall j, 0 <= j < 8 -> 0 <= upd t k v j <= 3.
Proof. intros Hv H j Hj. unfold upd. destruct (j =? k); [lia | now apply H]. Qed.
Lemma land7_range x : 0 <= Z.land x 7 < 8.
Proof. rewrite land7. apply Z.mod_pos_bound. lia. Qed.
Lemma tag_for_range v : 0 <= tag_for v <= 3.
Proof. rewrite tag_for_class. pose proof (class_range v). lia. Qed.
Lemma wf_set_fr x s : wf s -> wf (set_fr x s).
Proof. intros H. exact H. Qed.
Lemma wf_set_ftag k v s : 0 <= v <= 3 -> wf s -> wf (set_ftag (upd (ftag s) k v) s).
Proof. intros Hv [A B]. split; [exact A |]. cbn [ftag set_ftag]. now apply wf_upd. Qed.

Lemma wf_exec_keeps E i s : keeps_tags i -> wf s -> okd wf (fexec E i s).
Proof.
  intros K. apply closed_exec; try exact K; try (intros; assumption).
  - exact core_wf.
  - intros s0 [A _]. exact A.
  - intros k s0 Hk H. apply (wf_set_ftag k TAG_SPECIAL (set_fr (upd (fr s0) k QNAN80) s0)); [unfold TAG_SPECIAL; lia | exact H].
  - intros k s0 Hk [_ B]. now split.
  - intros k s0 Hk H. apply wf_set_ftag; [lia | exact H].
  - intros j v s0 H. unfold store_tag, update_tag. apply wf_set_ftag; [apply tag_for_range | now apply wf_set_fr].
  - intros a b s0 H. unfold update_tag at 1. apply wf_set_ftag; [apply tag_for_range |]. unfold update_tag. apply wf_set_ftag; [apply tag_for_range |].
    apply wf_set_fr. split; [apply land7_range | apply H].
  - intros s0 t A B _. split; [lia |]. intros k Hk. rewrite B by exact Hk. lia.
Qed.
Lemma wf_exec E i s : wf s -> okd wf (fexec E i s).
Proof.
  intros H. destruct i; try (apply wf_exec_keeps; [exact I | exact H]); cbn [fexec].
  - apply cP_nm; [exact H |]. apply cP_un; [exact H |]. pose proof (core_wf _ _ (start_core E s) H) as HT. set (t := clear_c1 _) in *.
    assert (G : wf (snd (stack_fault_fpatan t))).
    { unfold stack_fault_fpatan. destruct (_ || _); [| exact HT]. cbn [snd]. apply (core_wf _ _ (fault_core _ _)). destruct (masked t); [| exact HT].
      assert (HQ : wf (put_qnan (idx t 1) t)) by (apply (wf_set_ftag _ TAG_SPECIAL (set_fr (upd (fr t) (idx t 1) QNAN80) t)); [unfold TAG_SPECIAL; lia | exact HT]).
      rewrite fpu_pop_eq by apply HQ. split; [apply land7_range |]. cbn [ftag FPU_POP tag_pop set_ftop set_ftag update_tag].
      apply wf_upd; [unfold TAG_EMPTY; lia | apply HQ]. }
    revert G. destruct (fst _); [intros G; exact G |]. generalize (snd (stack_fault_fpatan t)). intros u HU. cbv beta zeta.
    destruct (h _ _ _) as [v sw]. unfold post_check. destruct (post_unmasked _ _ _); [apply (core_wf u); [now repeat split | exact HU] |].
    cbn [okd]. split; [apply land7_range |]. unfold tag_pop, FPU_POP, update_tag. cbn [ftag set_ftop set_ftag set_fr store_stx set_fstatus].
    apply wf_upd; [unfold TAG_EMPTY; lia | apply HU].
  - apply cP_nm; [exact H |]. apply cP_un; [exact H |]. pose proof (core_wf _ _ (start_core E s) H) as HT. set (t := clear_c1 _) in *.
    assert (Q : forall k u, wf u -> wf (put_qnan k u)) by (intros k u HU; apply (wf_set_ftag k TAG_SPECIAL (set_fr (upd (fr u) k QNAN80) u)); [unfold TAG_SPECIAL; lia | exact HU]).
    assert (G : wf (snd (stack_fault_fxch i t))).
    { unfold stack_fault_fxch. destruct (_ || _); [| exact HT]. cbn [snd]. apply (core_wf _ _ (fault_core _ _)). destruct (masked t); [| exact HT].
      destruct (is_tag_empty t 0), (is_tag_empty t i); auto. }
    revert G. destruct (fst _); [intros G; exact G |]. generalize (snd (stack_fault_fxch i t)). intros u HU. exact HU.
  - unfold check_mmx. destruct (_ || _); [exact H |]. apply cP_un; [exact H |]. split; [cbn; lia |]. intros k Hk. cbn.
    rewrite (proj2 (Z.leb_le 0 k)), (proj2 (Z.ltb_lt k 8)) by lia. cbn. unfold TAG_VALID. lia.
Qed.

(** TOP stays a register number and the tags stay two bits, whatever is executed. *)
Theorem C28_history : forall s, ran (fun _ => True) fpu_init s -> wf s.
Proof.
  assert (G : forall s t, ran (fun _ => True) s t -> wf s -> wf t).
  { intros s t R. induction R; [easy |]. intros H1. apply IHR. exact (okd_ends _ _ _ (wf_exec E i s H1) H0). }
  intros s R. apply (G _ _ R). split; [cbn; lia |]. intros k _. cbn. unfold TAG_ZERO. lia.
Qed.
Print Assumptions C28_history.

Definition tagged (s : fpu) : Prop := wf s /\ tags_agree s.
Lemma agree_put k s : tags_agree s -> tags_agree (put_qnan k s).
Proof.
  intros H j Hj. cbn [ftag fr put_qnan set_ftag set_fr]. unfold upd. destruct (j =? k); [right; reflexivity | now apply H].
Qed.
Lemma agree_store i v s : 0 <= ftop s < 8 -> tags_agree s -> tags_agree (store_tag i v s).
Proof.
  intros Hs H j Hj. unfold store_tag, update_tag, store_stx. cbn [ftag fr set_ftag set_fr ftop]. rewrite idx_mod. cbn [ftop set_fr]. rewrite stx_mod by exact Hs.
  unfold upd. destruct (j =? (ftop s + i) mod 8); [right; rewrite Z.eqb_refl; apply tag_for_class | now apply H].
Qed.
Lemma agree_core s t : core_eq s t -> tags_agree s -> tags_agree t.
Proof. intros (A & B & C) H k Hk. rewrite A, B. now apply H. Qed.

(** From a state whose tags agree with the registers they describe, no history of the other
    instructions makes them disagree. *)
Theorem C28_tags_agree_partial : forall s, ran keeps_tags fpu_init s -> tags_agree s.
Proof.
  assert (G : forall E i s, keeps_tags i -> tagged s -> okd tagged (fexec E i s)).
  { intros E i s K. apply closed_exec; try exact K; try (intros; assumption).
    - intros a b H [A B]. split; [now apply (core_wf a) | now apply (agree_core a)].
    - intros a [[A _] _]. exact A.
    - intros k a Hk [A B]. split; [apply (wf_set_ftag k TAG_SPECIAL (set_fr (upd (fr a) k QNAN80) a)); [unfold TAG_SPECIAL; lia | exact A] | now apply agree_put].
    - intros k a Hk [[_ A] B]. now split.
    - intros k a Hk [A B]. split; [apply wf_set_ftag; [lia | exact A] |]. intros j Hj. cbn [ftag fr set_ftag]. unfold upd. destruct (j =? k); [now left | now apply B].
    - intros j v a [A B]. split; [unfold store_tag, update_tag; apply wf_set_ftag; [apply tag_for_range | now apply wf_set_fr] |].
      apply agree_store; [apply A | exact B].
    - intros a b u [A B]. split.
      + unfold update_tag at 1. apply wf_set_ftag; [apply tag_for_range |]. unfold update_tag. apply wf_set_ftag; [apply tag_for_range |].
        apply wf_set_fr. split; [apply land7_range | apply A].
      + intros k Hk. assert (HP : 0 <= ftop (fpu_push (store_stx 0 a u)) < 8) by apply land7_range.
        assert (HN : ftop (fpu_push (store_stx 0 a u)) = (ftop u - 1) mod 8) by apply land7.
        unfold update_tag. cbn [ftag fr set_ftag set_fr ftop store_stx]. rewrite !idx_mod. cbn [ftag fr set_ftag set_fr ftop store_stx].
        rewrite stx_mod by exact HP. rewrite HN. change (ftag (fpu_push (store_stx 0 a u))) with (ftag u).
        change (fr (fpu_push (store_stx 0 a u))) with (upd (fr u) (stx u 0) a). rewrite (stx_mod u) by apply A. unfold upd.
        assert (E1 : ((ftop u - 1) mod 8 + 1) mod 8 = (ftop u + 0) mod 8) by (rewrite Z.add_mod_idemp_l by lia; f_equal; lia). rewrite E1.
        destruct (Z.eqb_spec k ((ftop u + 0) mod 8)) as [E2 | E2].
        * right. rewrite tag_for_class. f_equal. subst k. now rewrite Z.eqb_refl.
        * destruct (Z.eqb_spec k (((ftop u - 1) mod 8 + 0) mod 8)) as [E3 | E3].
          -- right. rewrite tag_for_class. f_equal. subst k. now rewrite Z.eqb_refl.
          -- now apply B.
    - intros a b A B _. split; [split; [lia |]; intros k Hk; rewrite B by exact Hk; lia |]. intros k Hk. left. now apply B. }
  assert (R : forall s t, ran keeps_tags s t -> tagged s -> tagged t).
  { intros s t R. induction R; [easy |]. intros H1. apply IHR. exact (okd_ends _ _ _ (G E i s H H1) H0). }
  intros s H. apply (R _ _ H). split; [split; [cbn; lia |]; intros k _; cbn; unfold TAG_ZERO; lia |]. intros k _. right. reflexivity.
Qed.
Print Assumptions C28_tags_agree_partial.

(** a run-time environment with the FPU enabled *)
Definition on_env : fenv := mkfenv false false true 0 0 0 None.
Definition one : Z := 0x3FFF8000000000000000.

Fixpoint runs (l : list finstr) (s : fpu) : option fpu :=
  match l with
  | [] => Some s
  | i :: l => match fexec on_env i s with FDone t _ _ => runs l t | _ => None end
  end.
Lemma runs_ran P l : Forall P l -> forall s t, runs l s = Some t -> ran P s t.
Proof.
  induction 1 as [| i l H _ IH]; intros s t; cbn [runs]; [intros [= ->]; apply ran_nil |].
  destruct (fexec on_env i s) as [u w r | | |] eqn:E; try discriminate. intros R.
  apply (ran_cons P s u t on_env i H); [rewrite E; reflexivity | now apply IH].
Qed.
Lemma runs_test (Q : fpu -> bool) P l : Forall P l -> match runs l fpu_init with Some t => Q t | None => false end = true ->
  exists t, ran P fpu_init t /\ Q t = true.
Proof. intros F H. destruct (runs l fpu_init) as [t |] eqn:E; [| discriminate]. exists t. split; [now apply (runs_ran P l F) | exact H]. Qed.
Definition agrees_at (k : Z) (s : fpu) : bool := (ftag s k =? 3) || (ftag s k =? class (fr s k)).
Lemma disagree k s : 0 <= k < 8 -> negb (agrees_at k s) = true -> ~ tags_agree s.
Proof.
  intros Hk H A. unfold agrees_at in H. destruct (A k Hk) as [B | B]; rewrite B in H; rewrite ?Z.eqb_refl, ?orb_true_r in H; discriminate.
Qed.
Definition oeqb (a : option Z) (v : Z) : bool := match a with Some x => x =? v | None => false end.
Lemma oeqb_eq a v : oeqb a v = true -> a = Some v.
Proof. destruct a; cbn; [intros H; f_equal; lia | discriminate]. Qed.

(** FXCH and FPATAN leave wrong tags, so FXAM-like readers of the tag word see a zero where
    there is a one, and the reverse. *)
Theorem C28_refuted_tags_fxch : exists s,
  ran (fun i => match i with Fninit | FldConst _ | Fxch _ => True | _ => False end) fpu_init s /\ ~ tags_agree s.
Proof.
  destruct (runs_test (fun s => negb (agrees_at 7 s)) (fun i => match i with Fninit | FldConst _ | Fxch _ => True | _ => False end)
    [Fninit; FldConst (fun _ => one); FldConst (fun _ => 0); Fxch 1]) as (s & R & Q); [repeat constructor | vm_compute; reflexivity |].
  exists s. split; [exact R |]. apply (disagree 7); [lia | exact Q].
Qed.
Print Assumptions C28_refuted_tags_fxch.

Theorem C28_refuted_tags_fpatan : exists s,
  ran (fun i => match i with Fninit | FldConst _ | Fpatan _ => True | _ => False end) fpu_init s /\ ~ tags_agree s.
Proof.
  (* a host answer of zero, as atan(0/1) gives *)
  destruct (runs_test (fun s => negb (agrees_at 7 s)) (fun i => match i with Fninit | FldConst _ | Fpatan _ => True | _ => False end)
    [Fninit; FldConst (fun _ => one); FldConst (fun _ => one); Fpatan (fun _ _ _ => (0, 0))]) as (s & R & Q); [repeat constructor | vm_compute; reflexivity |].
  exists s. split; [exact R |]. apply (disagree 7); [lia | exact Q].
Qed.
Print Assumptions C28_refuted_tags_fpatan.

(** a history that loads, computes and pops *)
Example C28_history_example : exists s,
  ran keeps_tags fpu_init s /\ st s 0 = Some one /\ st s 1 = None /\ ftop s = 7.
Proof.
  destruct (runs_test (fun s => oeqb (st s 0) one && match st s 1 with None => true | _ => false end && (ftop s =? 7)) keeps_tags
    [Fninit; FldConst (fun _ => one); FldConst (fun _ => 0); FarithSt ToStiPop 1 (fun a _ _ => (a, 0))]) as (s & R & Q);
    [repeat constructor | vm_compute; reflexivity |].
  exists s. split; [exact R |]. apply andb_prop in Q as [Q Q3]. apply andb_prop in Q as [Q1 Q2].
  split; [now apply oeqb_eq |]. split; [now destruct (st s 1) | lia].
Qed.

(** *** C52: the exception flags are sticky *)
(** flag [b] of the status word is not lost *)
Definition kept (b : Z) (s s' : fpu) : Prop := Z.testbit (fstatus s) b = true -> Z.testbit (fstatus s') b = true.
(** the instructions that clear the flags *)
Definition clears (i : finstr) : bool := match i with Fnclex | Fninit => true | _ => false end.
(** the instructions that take the flags from the host *)
Definition computes (i : finstr) : bool :=
  match i with
  | FldMem false _ _ | FstMem _ _ _ _ _ _ | FcomSt _ _ _ | FcomMem _ _ _ | FarithSt _ _ _ | FarithMem _ _
  | Fsqrt _ | Ftrig _ | Fsincos _ | Fpatan _ => true
  | _ => false
  end.

Section Sticky.
Variables (b : Z) (s0 : fpu).
Hypothesis Hb : 0 <= b < 7.
Let K (s : fpu) : Prop := kept b s0 s.
Lemma b_cases (Q : Z -> Prop) : Q 0 -> Q 1 -> Q 2 -> Q 3 -> Q 4 -> Q 5 -> Q 6 -> Q b.
Proof. intros. assert (b = 0 \/ b = 1 \/ b = 2 \/ b = 3 \/ b = 4 \/ b = 5 \/ b = 6) as R by lia. intuition subst; assumption. Qed.
Lemma k_eq s s' : fstatus s' = fstatus s -> K s -> K s'.
Proof. intros E H T. rewrite E. now apply H. Qed.
Lemma k_or s s' m : fstatus s' = Z.lor (fstatus s) m -> K s -> K s'.
Proof. intros E H T. now rewrite E, Z.lor_spec, (H T). Qed.
Lemma k_and s s' m : Z.testbit m b = true -> fstatus s' = Z.land (fstatus s) m -> K s -> K s'.
Proof. intros M E H T. now rewrite E, Z.land_spec, (H T), M. Qed.
Lemma not_c1 : Z.testbit (not16 SW_C1) b = true. Proof. apply b_cases; reflexivity. Qed.
Lemma k_start E s : K s -> K (clear_c1 (update_ptr E s)).
Proof. apply k_and with (not16 SW_C1); [apply not_c1 | reflexivity]. Qed.
Lemma k_c2 s : K s -> K (clear_c2 s).
Proof. apply k_and with (not16 SW_C2); [apply b_cases; reflexivity | reflexivity]. Qed.
Lemma k_fault e s : K s -> K (stack_fault e s).
Proof.
  intros H T. unfold stack_fault. cbn [fstatus set_fstatus]. specialize (H T).
  assert (A : forall x y, Z.testbit x b = true -> Z.testbit (Z.lor x y) b = true) by (intros x y X; now rewrite Z.lor_spec, X).
  assert (B : forall x, Z.testbit x b = true -> Z.testbit (Z.land x (not16 SW_C1)) b = true) by (intros x X; now rewrite Z.land_spec, X, not_c1).
  destruct (nz (Z.land (Z.land (Z.land e 0x27F) _) _)), (_ && _); auto.
Qed.
Lemma k_iter f n s : (forall s, fstatus (f s) = fstatus s) -> K s -> K (Nat.iter n f s).
Proof. intros F H. induction n; cbn; [exact H |]. exact (k_eq _ _ (F _) IHn). Qed.
Lemma k_over s : K s -> K (snd (stack_overflow s)).
Proof. intros H. unfold stack_overflow. destruct (negb _); [| exact H]. cbn [snd]. apply k_fault. destruct (masked s); exact H. Qed.
Lemma k_under a d c s : K s -> K (snd (stack_underflow_reg a d c s)).
Proof. intros H. unfold stack_underflow_reg. destruct (is_tag_empty s a); [| exact H]. cbn [snd]. apply k_fault. destruct (masked s), c; exact H. Qed.
Lemma k_fcom a d n s : K s -> K (snd (stack_fault_fcom a d n s)).
Proof.
  intros H. unfold stack_fault_fcom. destruct (a || d); [| exact H]. cbn [snd]. apply k_fault.
  assert (K (set_fstatus (Z.lor (fstatus s) 17664) s)) by (revert H; now apply k_or with 17664).
  destruct (masked _); [apply k_iter; [reflexivity |] |]; assumption.
Qed.
Lemma k_sc s : K s -> K (snd (stack_fault_fsincos s)).
Proof. intros H. unfold stack_fault_fsincos. destruct (_ || _); [| exact H]. cbn [snd]. apply k_fault. destruct (masked s); exact H. Qed.
Lemma k_patan s : K s -> K (snd (stack_fault_fpatan s)).
Proof. intros H. unfold stack_fault_fpatan. destruct (_ || _); [| exact H]. cbn [snd]. apply k_fault. destruct (masked s); exact H. Qed.
Lemma k_xch i s : K s -> K (snd (stack_fault_fxch i s)).
Proof.
  intros H. unfold stack_fault_fxch. destruct (_ || _); [| exact H]. cbn [snd]. apply k_fault. destruct (masked s); [| exact H].
  destruct (is_tag_empty s 0), (is_tag_empty s i); exact H.
Qed.
Lemma k_post_sw sw s : b = 6 -> K s -> K (set_fstatus (post_sw sw s) s).
Proof. intros E H T. unfold post_sw. cbn [fstatus set_fstatus]. rewrite Z.lor_spec, Z.land_spec, (H T). subst b. reflexivity. Qed.
Lemma k_post e sw s k : b = 6 -> K s -> (forall s, K s -> okd K (k s)) -> okd K (post_check e sw s k).
Proof.
  intros E H F. unfold post_check. pose proof (k_post_sw sw s E H) as H1. destruct (post_unmasked e sw s); [| now apply F].
  cbn [okd]. revert H1. apply k_or with SW_ES. reflexivity.
Qed.
Lemma k_nm E s k : K s -> okd K k -> okd K (check_nm E s k).
Proof. intros H F. unfold check_nm. destruct (_ || _); [exact H | exact F]. Qed.
Lemma k_un E s k : K s -> okd K k -> okd K (check_unmasked E s k).
Proof. intros H F. unfold check_unmasked. destruct (e_ne E); [destruct (nz _); [exact H | exact F] | exact I]. Qed.
Ltac on t HT tac := cbv beta zeta; match goal with |- okd _ (if fst ?r then _ else _) =>
  let HR := fresh in assert (HR : K (snd r)) by tac; destruct (fst r); [exact HR |];
  revert HR; generalize (snd r); intros t HT; cbv beta zeta end.
Lemma k_tag_pop s : fstatus (tag_pop s) = fstatus s. Proof. reflexivity. Qed.

Lemma sticky_exec E i s : clears i = false -> b = 6 \/ computes i = false -> K s -> okd K (fexec E i s).
Proof.
  intros C D H. pose proof (k_start E s H) as HT.
  destruct i; try discriminate; cbn [fexec];
    try (apply k_nm; [exact H |]); try (apply k_un; [exact H |]); try (destruct src as [m |]; [| exact H]); cbv beta zeta;
    try (destruct D as [D | D]; [| discriminate]).
  - on t HU ltac:(now apply k_over). exact HU.
  - on t HU ltac:(now apply k_over). destruct (h m (frp t)) as [v sw]. destruct int; [exact HU |].
    destruct D as [D | D]; [| discriminate]. apply k_post; [exact D | exact HU |]. intros u HV. exact HV.
  - on t HU ltac:(now apply k_over). on u HV ltac:(now apply k_under). exact HV.
  - on t HU ltac:(now apply k_under). destruct (nz i), pop; exact HU.
  - set (t := clear_c1 _) in *. destruct (is_tag_empty t 0).
    + destruct (masked t); [destruct wok |]; cbn [okd]; [apply k_fault; destruct pop; exact HT | exact HT | apply k_fault; exact HT].
    + destruct (h (load_stx t 0) (frp t)) as [v sw]. pose proof (k_post_sw sw t D HT) as HP.
      destruct (post_unmasked EXP_ALL sw t); [cbn; revert HP; apply k_or with SW_ES; reflexivity |].
      destruct wok; [| exact HT]. destruct pop; exact HP.
  - on t HU ltac:(now apply k_fcom). apply k_post; [exact D | exact HU |]. intros u HV. apply k_iter; [reflexivity | exact HV].
  - on t HU ltac:(now apply k_fcom). apply k_post; [exact D | exact HU |]. intros u HV. apply k_iter; [reflexivity | exact HV].
  - on t HU ltac:(now apply k_under). on u HV ltac:(now apply k_under). destruct (h _ _ _) as [v sw].
    apply k_post; [exact D | exact HV |]. intros w HW. destruct f; exact HW.
  - on t HU ltac:(now apply k_under). destruct (h _ _ _) as [v sw]. apply k_post; [exact D | exact HU |]. intros u HV. exact HV.
  - on t HU ltac:(apply k_under; exact H). revert HU. apply k_and with (not16 SW_C1); [apply not_c1 | reflexivity].
  - on t HU ltac:(now apply k_under). destruct (h _ _) as [v sw]. apply k_post; [exact D | exact HU |]. intros u HV. exact HV.
  - on t HU ltac:(now apply k_under, k_c2). destruct (h _ _) as [v sw]. apply k_post; [exact D | exact HU |]. intros u HV.
    destruct (nz _); exact HV.
  - on t HU ltac:(now apply k_sc, k_c2). destruct (h _ _) as [[v x] sw]. apply k_post; [exact D | exact HU |]. intros u HV.
    destruct (nz _); exact HV.
  - on t HU ltac:(now apply k_patan). destruct (h _ _ _) as [v sw]. apply k_post; [exact D | exact HU |]. intros u HV. exact HV.
  - on t HU ltac:(now apply k_xch). exact HU.
  - destruct (nz _); cbn [okd]; revert H; [apply k_or with SW_ES; reflexivity |].
    apply k_and with (not16 SW_ES); [apply b_cases; reflexivity | reflexivity].
  - unfold check_emms. destruct (_ || _); [exact H |]. apply k_un; [exact H |]. exact H.
  - unfold check_mmx. destruct (_ || _); [exact H |]. apply k_un; [exact H |]. exact H.
Qed.
End Sticky.

(** The stack fault flag SF survives everything but FNCLEX and FNINIT, the six exception
    flags everything that does not take new ones from the host. *)
Theorem C52_partial : forall E i s s' b,
  0 <= b < 7 -> clears i = false -> b = 6 \/ computes i = false ->
  ends (fexec E i s) s' -> Z.testbit (fstatus s) b = true -> Z.testbit (fstatus s') b = true.
Proof. intros E i s s' b Hb C D HE. exact (okd_ends _ _ _ (sticky_exec b s Hb E i s C D (fun T => T)) HE). Qed.
Print Assumptions C52_partial.

(** A computation that raises nothing clears the flags left by the ones before it. *)
Theorem C52_refuted : forall s h,
  ftag s 7 = 0 -> ftag s 6 = 0 -> ftop s = 6 -> Z.testbit (fstatus s) 7 = false -> (forall a b c, snd (h a b c) = 0) ->
  exists s', fexec on_env (FarithSt ToSt0 1 h) s = FDone s' None true /\ forall b, 0 <= b < 6 -> Z.testbit (fstatus s') b = false.
Proof.
  intros s h A B C P H. cbn [fexec]. unfold check_nm, check_unmasked. cbn [e_em e_ts e_ne on_env orb]. fold on_env.
  rewrite pending_es. unfold pending. rewrite P. unfold stack_underflow_reg.
  assert (T1 : is_tag_empty (clear_c1 (update_ptr on_env s)) 1 = false).
  { unfold is_tag_empty. rewrite idx_mod. destruct (start_core on_env s) as (_ & -> & ->). rewrite C. change ((6 + 1) mod 8) with 7. now rewrite A. }
  assert (T0 : is_tag_empty (clear_c1 (update_ptr on_env s)) 0 = false).
  { unfold is_tag_empty. rewrite idx_mod. destruct (start_core on_env s) as (_ & -> & ->). rewrite C. change ((6 + 0) mod 8) with 6. now rewrite B. }
  rewrite T1. cbn [fst snd]. rewrite T0. cbn [fst snd]. set (t := clear_c1 _) in *.
  specialize (H (load_stx t 0) (load_stx t 1) (frp t)). destruct (h _ _ _) as [v sw]. cbn [snd] in H. subst sw.
  unfold post_check, post_unmasked. rewrite Z.land_0_r. change (nz (Z.land 0 EXP_ALL)) with false. cbv iota beta.
  eexists. split; [reflexivity |]. intros b Hb. change (Z.testbit (post_sw 0 t) b = false). unfold post_sw. rewrite Z.land_0_l, Z.lor_0_r, Z.land_spec.
  replace (Z.testbit (not16 0x473F) b) with false; [apply andb_false_r |].
  assert (b = 0 \/ b = 1 \/ b = 2 \/ b = 3 \/ b = 4 \/ b = 5) as Q by lia. destruct Q as [-> | [-> | [-> | [-> | [-> | ->]]]]]; reflexivity.
Qed.
Print Assumptions C52_refuted.

(** an inexact quotient, then an exact sum: the precision flag is gone *)
Definition c52_ops : list finstr :=
  [Fninit; FldConst (fun _ => one); FldConst (fun _ => one); FarithSt ToSt0 1 (fun a _ _ => (a, 0x20))].
Example C52_example :
  (exists s, runs c52_ops fpu_init = Some s /\ Z.testbit (fstatus s) 5 = true) /\
  (exists s, runs (c52_ops ++ [FarithSt ToSt0 1 (fun a _ _ => (a, 0))]) fpu_init = Some s /\ Z.testbit (fstatus s) 5 = false).
Proof.
  split.
  - assert (H : match runs c52_ops fpu_init with Some t => Z.testbit (fstatus t) 5 | None => false end = true) by (vm_compute; reflexivity).
    revert H. destruct (runs c52_ops fpu_init) as [t |]; [intros H; exists t; now split | discriminate].
  - set (l := c52_ops ++ _). assert (H : match runs l fpu_init with Some t => Z.testbit (fstatus t) 5 | None => true end = false) by (vm_compute; reflexivity).
    revert H. destruct (runs l fpu_init) as [t |]; [intros H; exists t; now split | discriminate].
Qed.
