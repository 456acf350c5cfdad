(** * Properties of FNCLEX, FNINIT and FLDCW (C52) *)

From Coq Require Import ZArith Bool List Lia.
From Verif Require Import FpuModel FpuSpec FpuProofs FpuProps FpuProps2 FpuProps3.
Import ListNotations.
Local Open Scope Z_scope.

Lemma bits16 i : 0 <= i < 16 -> In i (map Z.of_nat (seq 0 16)).
Proof. intros H. apply in_map_iff. exists (Z.to_nat i). split; [lia |]. apply in_seq. lia. Qed.
Ltac each16 H := apply bits16 in H; cbn [map seq Z.of_nat Pos.of_succ_nat Pos.succ In] in H; repeat (destruct H as [<- | H]; [| ]); [.. | destruct H].

Definition usable (E : fenv) : Prop := e_em E = false /\ e_ts E = false.

(** FNCLEX clears the eight exception bits and the busy bit of the status word the guest
    reads and nothing else, whether or not an exception is pending *)
Theorem C52_clear : forall E s, usable E -> wf s -> exists s', fexec E Fnclex s = FDone s' None true /\
  (exists w, s' = set_fstatus w s) /\
  (forall i, 0 <= i < 16 -> Z.testbit (read_fstatus s') i = (8 <=? i) && (i <? 15) && Z.testbit (read_fstatus s) i).
Proof.
  intros E s [A B] [W _]. cbn [fexec]. unfold check_nm. rewrite A, B. cbn [orb]. eexists. split; [reflexivity |].
  split; [eexists; reflexivity |]. intros i Hi. unfold read_fstatus. cbn [fstatus ftop set_fstatus].
  rewrite !w16_bit by exact Hi. rewrite !Z.lor_spec, !Z.land_spec, !Z.shiftl_spec by lia.
  each16 Hi; unfold not16, SW_TOP; cbn [Z.sub Z.add Z.opp Z.pos_sub Pos.sub Pos.sub_mask Pos.pred_double Pos.double_mask Pos.succ_double_mask Pos.double_pred_mask Pos.pred_mask Pos.succ];
    rewrite ?(Z.testbit_neg_r (ftop s)) by lia; cbn; rewrite ?andb_true_r, ?andb_false_r, ?orb_false_r; try reflexivity.
  (* bit 15 *)
  destruct (Z.eq_dec (ftop s) 0) as [-> |]; [reflexivity |]. change (Z.testbit (ftop s) 4 = false). apply Z.bits_above_log2; [lia |]. apply Z.log2_lt_pow2; lia.
Qed.
Print Assumptions C52_clear.

(** FNINIT: every register empty, TOP 0, no flag, every exception masked, double extended
    precision, rounding to nearest; the register contents and the SSE state stay *)
Theorem C52_reset : forall E s, usable E -> exists s', fexec E Fninit s = FDone s' None true /\
  read_fstatus s' = 0 /\ fctrl s' = 0x37F /\ read_ftags s' = 0xFFFF /\ (forall i, st s' i = None) /\
  ptr s' = mkptrs 0 0 0 0 0 /\ fr s' = fr s /\ xmm s' = xmm s /\ mxcsr s' = mxcsr s.
Proof.
  intros E s [A B]. cbn [fexec]. unfold check_nm. rewrite A, B. cbn [orb]. eexists. split; [reflexivity |].
  split; [reflexivity |]. split; [reflexivity |]. split; [reflexivity |]. split; [| repeat split].
  intros i. unfold st. cbn [ftop ftag]. change (0 + i) with i. pose proof (Z.mod_pos_bound i 8 ltac:(lia)) as M.
  replace ((0 <=? i mod 8) && (i mod 8 <? 8)) with true by lia. reflexivity.
Qed.
Print Assumptions C52_reset.

(** FLDCW stores the operand with bit 6 set and raises or drops the summary flag as the
    new masks demand; no exception flag changes *)
Theorem C52_control_word : forall E s m, usable E -> e_ne E = true -> pending s = false -> 0 <= m < 2 ^ 16 ->
  exists s', fexec E (Fldcw (Some m)) s = FDone s' None true /\ fctrl s' = Z.setbit m 6 /\
    (forall i, 0 <= i < 16 -> i <> 7 -> Z.testbit (fstatus s') i = Z.testbit (fstatus s) i) /\
    (pending s' = true <-> exists i, 0 <= i < 6 /\ Z.testbit (fstatus s) i = true /\ Z.testbit m i = false) /\
    fr s' = fr s /\ ftag s' = ftag s /\ ftop s' = ftop s.
Proof.
  intros E s m [A B] N P Hm. cbn [fexec]. unfold check_nm, check_unmasked. rewrite A, B, N. cbn [orb]. rewrite pending_es, P.
  set (s1 := set_frp _ _). assert (F : fstatus s1 = fstatus s) by reflexivity. rewrite F.
  assert (X : forall i, 0 <= i < 6 -> Z.testbit (Z.land (Z.land (fstatus s) (not16 (Z.lor m 64))) EXP_ALL) i = Z.testbit (fstatus s) i && negb (Z.testbit m i)).
  { intros i Hi. rewrite !Z.land_spec. unfold not16. rewrite Z.lxor_spec, Z.lor_spec.
    assert (C : i = 0 \/ i = 1 \/ i = 2 \/ i = 3 \/ i = 4 \/ i = 5) by lia.
    destruct C as [-> | [-> | [-> | [-> | [-> | ->]]]]]; unfold EXP_ALL; cbn -[Z.testbit];
      repeat match goal with |- context [Z.testbit (Zpos ?p) ?k] => let v := eval vm_compute in (Z.testbit (Zpos p) k) in change (Z.testbit (Zpos p) k) with v end;
      rewrite ?orb_false_r, ?andb_true_r; now destruct (Z.testbit m _). }
  assert (Y : forall i, 6 <= i -> Z.testbit (Z.land (Z.land (fstatus s) (not16 (Z.lor m 64))) EXP_ALL) i = false).
  { intros i Hi. rewrite (Z.land_spec _ EXP_ALL). replace (Z.testbit EXP_ALL i) with false; [apply andb_false_r |]. symmetry.
    apply Z.bits_above_log2; [discriminate |]. change (Z.log2 EXP_ALL) with 5. lia. }
  assert (Q : nz (Z.land (Z.land (fstatus s) (not16 (Z.lor m 64))) EXP_ALL) = true <-> exists i, 0 <= i < 6 /\ Z.testbit (fstatus s) i = true /\ Z.testbit m i = false).
  { split.
    - intros H. destruct (existsb (fun i => Z.testbit (fstatus s) i && negb (Z.testbit m i)) [0; 1; 2; 3; 4; 5]) eqn:EX.
      + apply existsb_exists in EX. destruct EX as (i & I & T). exists i. apply andb_true_iff in T. destruct T as [T1 T2]. apply negb_true_iff in T2.
        cbn [In] in I. split; [lia |]. now split.
      + exfalso. unfold nz in H. apply negb_true_iff, Z.eqb_neq in H. apply H. apply Z.bits_inj_0. intros i.
        destruct (Z.ltb_spec i 0); [now apply Z.testbit_neg_r |]. destruct (Z.ltb_spec i 6); [| apply Y; lia]. rewrite X by lia.
        assert (C : i = 0 \/ i = 1 \/ i = 2 \/ i = 3 \/ i = 4 \/ i = 5) by lia.
        cbn [existsb] in EX. repeat rewrite orb_false_iff in EX. destruct EX as (E0 & E1 & E2 & E3 & E4 & E5 & _).
        destruct C as [-> | [-> | [-> | [-> | [-> | ->]]]]]; assumption.
    - intros (i & Hi & T1 & T2). unfold nz. apply negb_true_iff, Z.eqb_neq. intros Z0.
      assert (T : Z.testbit (Z.land (Z.land (fstatus s) (not16 (Z.lor m 64))) EXP_ALL) i = false) by (rewrite Z0; apply Z.bits_0).
      rewrite X in T by exact Hi. rewrite T1, T2 in T. discriminate. }
  eexists. split; [reflexivity |].
  destruct (nz (Z.land (Z.land (fstatus s) (not16 (Z.lor m 64))) EXP_ALL)) eqn:K.
  - split; [reflexivity |]. split; [| split; [| now repeat split]].
    + intros i Hi N7. cbn [fstatus set_fstatus]. rewrite Z.lor_spec. replace (Z.testbit SW_ES i) with false; [apply orb_false_r |].
      each16 Hi; try reflexivity. contradiction.
    + split; [intros _; now apply Q |]. intros _. unfold pending. cbn [fstatus set_fstatus]. rewrite Z.lor_spec. apply orb_true_r.
  - split; [reflexivity |]. split; [| split; [| now repeat split]].
    + intros i Hi N7. cbn [fstatus set_fstatus]. rewrite Z.land_spec. replace (Z.testbit (not16 SW_ES) i) with true; [apply andb_true_r |].
      each16 Hi; try reflexivity. contradiction.
    + split; [| intros H; apply Q in H; discriminate]. unfold pending. cbn [fstatus set_fstatus]. rewrite Z.land_spec, andb_false_r. discriminate.
Qed.
Print Assumptions C52_control_word.

(** a divide by zero waits for its mask to go *)
Example C52_words_example :
  let s := set_fstatus 0x3804 fpu_init in
  wf s /\ usable on_env /\ pending s = false /\
  (exists s', fexec on_env (Fldcw (Some 0x37B)) s = FDone s' None true /\ pending s' = true /\ fstatus s' = 0x3884) /\
  (exists s', fexec on_env (Fldcw (Some 0x37F)) s = FDone s' None true /\ pending s' = false) /\
  (exists s', fexec on_env Fnclex (set_ftop 5 (set_fstatus 0xC784 s)) = FDone s' None true /\ read_fstatus s' = 0x6F00).
Proof.
  split; [split; [cbn; lia | intros k _; cbn; unfold TAG_ZERO; lia] |]. split; [now split |]. split; [reflexivity |].
  repeat split; eexists; split; vm_compute; try reflexivity; repeat split; reflexivity.
Qed.
