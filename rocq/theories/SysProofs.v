(** * The system instructions *)

From Coq Require Import ZArith Bool List Lia ZifyBool.
From Verif Require Import HostModel AluModel AluSpec HostProofs LazyFlagsProofs FlagsApiProofs
  FlagArith SymExec EaProofs AluProofs AluForms UnaryProofs XchgProofs CondProofs StackProofs
  SysModel SseSpec SseArith SysSpec.
Import ListNotations.
Local Open Scope Z_scope.

(** ** Running *)

Lemma yhost_app E l r : forall o y, yexec E (yhost l ++ r) o y = yexec E r (exec (y_host E) l o) y.
Proof.
  induction l as [| i l IH]; intros o y; [reflexivity |].
  cbn [yhost map app yexec]. fold (yhost l). rewrite IH. f_equal. now rewrite <- exec_app.
Qed.
Lemma yhost_end E l o y : yexec E (yhost l) o y = (exec (y_host E) l o, y).
Proof. rewrite <- (app_nil_r (yhost l)). now rewrite yhost_app. Qed.
Lemma yhost_run E l r s o y : run (y_host E) l s = o -> yrun E (yhost l ++ r) s y = yexec E r o y.
Proof. intros H. unfold yrun. rewrite yhost_app. unfold run in H. now rewrite H. Qed.

Definition over (o : outcome) : bool := match o with Done _ | Skip _ _ => false | _ => true end.
Lemma over_exec E l : forall o, over o = true -> exec E l o = o.
Proof. induction l as [| i l IH]; intros [] H; try discriminate; reflexivity. Qed.
Lemma over_yexec E l : forall o y, over o = true -> yexec E l o y = (o, y).
Proof.
  induction l as [| i l IH]; intros o y H; [reflexivity |]. cbn [yexec].
  destruct i; try rewrite over_exec by exact H; destruct o; try discriminate; now apply IH.
Qed.

(** ** States *)

Lemma ctx_eq_refl c : ctx_eq c c.
Proof. repeat split. Qed.
Definition shows_at (s s' : hst) : Prop :=
  h_rcx (hr s') = P PCtx /\ ctx s' = ctx s /\ gmem s' = gmem s /\ masked s' = masked s.
Lemma shows_kept s s' y : shows_at s s' -> shows s s' y (guest_view s y).
Proof. intros (A & B & C & D). split; [rewrite B; apply ctx_eq_refl |]. rewrite C. repeat split; auto. Qed.
Lemma shows_trans s1 s2 s3 : shows_at s1 s2 -> shows_at s2 s3 -> shows_at s1 s3.
Proof. intros (A & B & C & D) (A' & B' & C' & D'). repeat split; congruence. Qed.

(** ** Calls *)

Lemma call_step E h s y : h_rcx (hr s) = P PCtx ->
  let a := args E h s in
  let q := y_help E h (fst a) (snd a) (guest_view s y) in
  exists s1, h_rcx (hr s1) = P PCtx /\ ctx s1 = v_ctx (fst q) /\ gmem s1 = v_mem (fst q) /\ masked s1 = masked s /\
    getw W32 (num (y_host E) (h_rax (hr s1))) = snd q mod 2 ^ 32 /\
    forall r, yexec E (YCall h :: r) (Done s) y = yexec E r (Done s1) (v_sys (fst q)).
Proof.
  intros Hcx a q. cbn [yexec]. unfold ystep. rewrite Hcx. fold a. unfold guest_view in q. fold q. cbn [fst snd op_write next].
  eexists. repeat apply conj; [| | | | | intros r; reflexivity].
  all: destruct s as [[q1 q2 q3 q4 q5 q6 q7 q8] w1 w2 w3 w4 w5 w6]; cbn [clobber set_hr set_ncall set_gmem set_ctx rset hr h_rcx h_rax ctx gmem masked]; try reflexivity.
  cbn [num]. rewrite getw_setw. apply getw_mod.
Qed.

Lemma raise_ok E v c s y : h_rcx (hr s) = P PCtx -> meets (yrun E (yhost [IRaise v c]) s y) s (RExc v c (guest_view s y)).
Proof. intros H. exists s, y. split; [reflexivity |]. apply shows_kept. repeat split. exact H. Qed.

Lemma view_eq s s1 y : shows_at s s1 -> guest_view s1 y = guest_view s y.
Proof. intros (A & B & C & D). unfold guest_view. now rewrite B, C. Qed.

(** ** Operands *)

Definition rm_ok16 (o : rm) (c : gctx) : Prop := match o with RmReg g => g_high g = false | RmMem m => memop_ok m c end.

Lemma ea_at E m s : h_rcx (hr s) = P PCtx -> memop_ok m (ctx s) ->
  exists s1, run (y_host E) (emit_ea m) s = Done s1 /\ shows_at s s1 /\ getw W32 (num (y_host E) (h_rdx (hr s1))) = ea m (ctx s).
Proof.
  intros Hcx Hm. destruct (ea_run (y_host E) m s Hcx Hm) as (s1 & HR & f & r10 & r11 & ->).
  eexists. split; [exact HR |]. split; [repeat split | apply getw_ea].
Qed.

Lemma ld16_ok E o s y k kk : h_rcx (hr s) = P PCtx -> rm_ok16 o (ctx s) ->
  (forall s1 v, shows_at s s1 -> getw W16 (num (y_host E) (h_rax (hr s1))) = v -> 0 <= v < 2 ^ 16 ->
    meets (yrun E k s1 y) s (kk v)) ->
  meets (yrun E (yhost (ld16 o) ++ k) s y) s (with_operand (e_fault (y_host E)) o (guest_view s y) kk).
Proof.
  intros Hcx Ho K. unfold with_operand, guest_view. cbn [v_ctx v_mem]. destruct o as [[h r] | m]; cbn [rm_ok16 g_high ld16 g_reg] in *.
  - subst h. pose proof (gget_range W16 false r (gprs (ctx s))) as R. unfold gget in R. rewrite getw_mod in R. change (modulus W16) with (2 ^ 16) in R.
    assert (Q : exists s1, run (y_host E) [MOV AX (g_opnd W16 (mkgop false r))] s = Done s1 /\ shows_at s s1 /\
      getw W16 (num (y_host E) (h_rax (hr s1))) = gprs (ctx s) r mod 2 ^ 16).
    { clear K. start_state s Hcx. unfold run. expand_list. sym'. cbn [exec]. eexists. split; [reflexivity |]. split; [repeat split |].
      cbn [hr h_rax num]. rewrite ?getw_setw. unfold gget. rewrite ?getw_idem, getw_mod. reflexivity. }
    destruct Q as (s1 & Q & S1 & V1). rewrite (yhost_run _ _ _ _ _ _ Q). now apply K.
  - destruct (ea_at E m s Hcx Ho) as (s1 & HR & S1 & D1). set (a := ea m (ctx s)) in *.
    assert (Q : run (y_host E) (emit_ea m ++ [ILoad W16]) s =
      if e_fault (y_host E) false a 2 then Fault false a 2 s1 else Done (loaded (y_host E) W16 a s1)).
    { unfold run in *. rewrite exec_app, HR. now rewrite (load_step _ _ _ a). }
    rewrite (yhost_run _ _ _ _ _ _ Q). clear Q. destruct (e_fault (y_host E) false a 2) eqn:F.
    + rewrite over_yexec by reflexivity. exists s1, y. split; [reflexivity |]. now apply shows_kept.
    + assert (S2 : shows_at s (loaded (y_host E) W16 a s1)) by (destruct S1 as (A & B & C & D); repeat split; assumption).
      apply K; [exact S2 | |].
      * cbn [loaded hr h_rax num]. rewrite getw_setw, getw_mload. destruct S1 as (A & B & C & D). rewrite C. apply mload_value.
      * change (2 ^ 16) with (256 ^ Z.of_nat 2). apply value_range.
Qed.

(** ** Results of calls *)

Lemma view_eta g : mkview (v_ctx g) (v_mem g) (v_sys g) = g.
Proof. now destruct g. Qed.

Lemma reports_ok E h s y : h_rcx (hr s) = P PCtx ->
  meets (yrun E ([YCall h] ++ yhost [TEST hEAX hEAX; IJcc CEQ 0] ++ [YRaise] ++ yhost [ILab 0]) s y) s
    (reports (y_help E h (fst (args E h s)) (snd (args E h s)) (guest_view s y))).
Proof.
  intros Hcx. destruct (call_step E h s y Hcx) as (s1 & C1 & X1 & M1 & K1 & A1 & R1).
  set (q := y_help E h _ _ _) in *. unfold yrun. cbn [app]. rewrite R1. clear R1.
  change (YHost (TEST hEAX hEAX) :: YHost (IJcc CEQ 0) :: YRaise :: yhost [ILab 0]) with (yhost [TEST hEAX hEAX; IJcc CEQ 0] ++ YRaise :: yhost [ILab 0]).
  rewrite yhost_app.
  eassert (Q : exec (y_host E) [TEST hEAX hEAX; IJcc CEQ 0] (Done s1) =
    if snd q mod 2 ^ 32 =? 0 then Skip 0 (set_hf _ s1) else Done (set_hf _ s1)).
  { cbn [exec step op_read bind TEST hEAX]. change (rget RAX (hr s1)) with (h_rax (hr s1)). rewrite A1, Z.land_diag.
    cbn [opw holds hf set_hf logic_flags hzf]. rewrite <- A1, getw_idem. reflexivity. }
  rewrite Q. clear Q. unfold reports. destruct (snd q mod 2 ^ 32 =? 0).
  - eexists _, _. split; [reflexivity |]. unfold shows. cbn [set_hf ctx gmem masked]. rewrite X1, M1. split; [apply ctx_eq_refl | auto].
  - cbn [yexec ystep]. unfold ystep. change (hr (set_hf _ s1)) with (hr s1). rewrite C1. cbn [fst snd]. rewrite yhost_end.
    eexists _, _. split; [reflexivity |]. unfold shows. cbn [set_hf ctx gmem masked]. rewrite X1, M1. split; [apply ctx_eq_refl | auto].
Qed.

(** a refusal, with what follows *)
Lemma refuses_ok E h s y k kk : h_rcx (hr s) = P PCtx ->
  let q := y_help E h (fst (args E h s)) (snd (args E h s)) (guest_view s y) in
  (forall s1, h_rcx (hr s1) = P PCtx -> ctx s1 = v_ctx (fst q) -> gmem s1 = v_mem (fst q) -> masked s1 = masked s ->
     meets (yrun E k s1 (v_sys (fst q))) s (kk (RNext (fst q)))) ->
  (forall v c g, kk (RExc v c g) = RExc v c g) ->
  meets (yrun E ([YCall h] ++ yhost [TEST hEAX hEAX; IJcc CEQ 0; IRaise 13 0; ILab 0] ++ k) s y) s (kk (refuses q)).
Proof.
  intros Hcx q K KX. destruct (call_step E h s y Hcx) as (s1 & C1 & X1 & M1 & K1 & A1 & R1).
  fold q in X1, M1, A1, R1. unfold yrun. cbn [app]. rewrite R1. clear R1.
  change (YHost (TEST hEAX hEAX) :: YHost (IJcc CEQ 0) :: YHost (IRaise 13 0) :: YHost (ILab 0) :: k) with (yhost [TEST hEAX hEAX; IJcc CEQ 0; IRaise 13 0; ILab 0] ++ k).
  rewrite yhost_app.
  eassert (Q : exec (y_host E) [TEST hEAX hEAX; IJcc CEQ 0; IRaise 13 0; ILab 0] (Done s1) =
    if snd q mod 2 ^ 32 =? 0 then Done (set_hf _ s1) else Raise 13 0 (set_hf _ s1)).
  { cbn [exec step op_read bind TEST hEAX]. change (rget RAX (hr s1)) with (h_rax (hr s1)). rewrite A1, Z.land_diag.
    cbn [opw holds hf set_hf logic_flags hzf]. rewrite <- A1, getw_idem. now destruct (getw W32 (num (y_host E) (h_rax (hr s1))) =? 0). }
  rewrite Q. clear Q. unfold refuses. destruct (snd q mod 2 ^ 32 =? 0).
  - apply K; cbn [set_hf hr ctx gmem masked]; assumption.
  - rewrite over_yexec by reflexivity. unfold gp. rewrite KX. eexists _, _. split; [reflexivity |].
    unfold shows. cbn [set_hf ctx gmem masked]. rewrite X1, M1. split; [apply ctx_eq_refl | auto].
Qed.

(** EIP and the end of the block *)
Lemma leave_ok E s s0 y nxt (g : view) : h_rcx (hr s) = P PCtx -> ctx s = v_ctx g -> gmem s = v_mem g -> masked s = masked s0 -> v_sys g = y ->
  0 <= nxt < 2 ^ 32 -> meets (yrun E (yhost [MOV c_eip (i32 nxt); ILink]) s y) s0 (RLeave (at_eip nxt g)).
Proof.
  intros Hcx X M K <- Hn. unfold yrun. rewrite yhost_end.
  assert (Q : exists s1, exec (y_host E) [MOV c_eip (i32 nxt); ILink] (Done s) = Left s1 /\ gmem s1 = gmem s /\ masked s1 = masked s /\
    ctx s1 = set_eip (putw W32 (eip (ctx s)) (getw W32 nxt)) (ctx s)).
  { clear X M K. start_state s Hcx. expand_list. sym'. cbn [exec]. eexists. repeat split. }
  destruct Q as (s1 & Q & M1 & K1 & X1). exists s1, (v_sys g). rewrite Q. split; [reflexivity |].
  split; [| cbn [at_eip v_mem v_sys]; rewrite M1, M; repeat split; congruence].
  rewrite X1, X. cbn [at_eip v_ctx]. repeat split. cbn [set_eip eip]. rewrite <- !(getw_mod W32), getw_putw. now rewrite getw_idem.
Qed.

(** ** Tests of CR4 *)

Lemma cr4_bit c i m : m = 2 ^ i -> 0 <= i < 32 -> (getw W32 (Z.land (getw W32 c) (getw W32 m)) =? 0) = negb (Z.testbit c i).
Proof.
  intros -> Hi. assert (P32 : getw W32 (2 ^ i) = 2 ^ i).
  { apply getw_small. unfold modulus. cbn [wbits]. split; [lia | apply Z.pow_lt_mono_r; lia]. }
  rewrite P32. rewrite <- !Z.land_assoc || idtac.
  assert (Q : Z.land (getw W32 c) (2 ^ i) = if Z.testbit c i then 2 ^ i else 0).
  { apply Z.bits_inj'. intros n Hn. rewrite Z.land_spec, Z.pow2_bits_eqb by lia.
    destruct (Z.eqb_spec i n) as [<- |].
    - rewrite andb_true_r, getw_testbit by lia. replace (i <? wbits W32) with true by (cbn [wbits]; lia). rewrite ?andb_true_r, ?andb_true_l.
      destruct (Z.testbit c i); [now rewrite Z.pow2_bits_true by lia | now rewrite Z.bits_0].
    - rewrite andb_false_r. destruct (Z.testbit c i); [now rewrite Z.pow2_bits_false by lia | now rewrite Z.bits_0]. }
  rewrite Q. destruct (Z.testbit c i); cbn [negb]; [rewrite P32; lia | reflexivity].
Qed.

Lemma umip_ok E u s y k kk : h_rcx (hr s) = P PCtx ->
  (forall s1, shows_at s s1 -> meets (yrun E k s1 y) s kk) ->
  meets (yrun E (yhost (umip u) ++ k) s y) s (prevented u (guest_view s y) kk).
Proof.
  intros Hcx K. unfold prevented. destruct u; cbn [andb guest_view v_ctx].
  - assert (Q : exists s1, shows_at s s1 /\ run (y_host E) (umip true) s = if Z.testbit (cr4 (ctx s)) 11 then Raise 13 0 s1 else Done s1).
    { pose proof (cr4_bit (cr4 (ctx s)) 11 0x800 eq_refl ltac:(lia)) as B. clear K. start_state s Hcx.
      eexists. split; cycle 1.
      - unfold run, umip. cbn [exec step op_read op_write bind next MOV AND TEST hEAX c_cr4 i32 ctx_read cr4 ctx hr h_rcx h_rax rget rset set_hr set_hf bin opw holds hzf hf num logic_flags].
        rewrite ?getw_setw, ?getw_idem. rewrite Z.land_diag, ?getw_idem. rewrite B. destruct (Z.testbit c4 11); cbn [negb Nat.eqb]; reflexivity.
      - repeat split. }
    destruct Q as (s1 & S1 & Q). rewrite (yhost_run _ _ _ _ _ _ Q). destruct (Z.testbit (cr4 (ctx s)) 11); [| now apply K].
    rewrite over_yexec by reflexivity. exists s1, y. split; [reflexivity | now apply shows_kept].
  - cbn [umip yhost map app]. apply K. repeat split. exact Hcx.
Qed.

Lemma tsd_ok E (u : bool) s y k (kk : result) : h_rcx (hr s) = P PCtx ->
  (forall s1, shows_at s s1 -> meets (yrun E k s1 y) s kk) ->
  meets (yrun E (yhost (if u then [MOV hEAX c_cr4; AND hEAX (i32 4); CMP hEAX (i32 0); IJcc CEQ 0; IRaise 13 0; ILab 0] else []) ++ k) s y) s
    (if u && Z.testbit (cr4 (ctx s)) 2 then RExc 13 0 (guest_view s y) else kk).
Proof.
  intros Hcx K. destruct u; cbn [andb].
  - set (l := [MOV hEAX c_cr4; AND hEAX (i32 4); CMP hEAX (i32 0); IJcc CEQ 0; IRaise 13 0; ILab 0]).
    assert (Q : exists s1, shows_at s s1 /\ run (y_host E) l s = if Z.testbit (cr4 (ctx s)) 2 then Raise 13 0 s1 else Done s1).
    { pose proof (cr4_bit (cr4 (ctx s)) 2 4 eq_refl ltac:(lia)) as B. clear K. subst l. start_state s Hcx.
      eexists. split; cycle 1.
      - unfold run. cbn [exec step op_read op_write bind next MOV AND CMP hEAX c_cr4 i32 ctx_read cr4 ctx hr h_rcx h_rax rget rset set_hr set_hf bin opw holds hzf hf num sub_flags].
        rewrite ?getw_setw, ?getw_idem. change (getw W32 0) with 0. rewrite Z.sub_0_r, ?getw_idem. rewrite B. destruct (Z.testbit c4 2); cbn [negb Nat.eqb]; reflexivity.
      - repeat split. }
    destruct Q as (s1 & S1 & Q). rewrite (yhost_run _ _ _ _ _ _ Q). destruct (Z.testbit (cr4 (ctx s)) 2); [| now apply K].
    rewrite over_yexec by reflexivity. exists s1, y. split; [reflexivity | now apply shows_kept].
  - cbn [yhost map app]. apply K. repeat split. exact Hcx.
Qed.

(** ** LGDT, LIDT *)

Lemma land24 v : Z.land v 0x00FFFFFF = v mod 2 ^ 24.
Proof. change 0x00FFFFFF with (Z.ones 24). now rewrite Z.land_ones. Qed.

Lemma put_step E c r l s y : h_rcx (hr s) = P PCtx ->
  yexec E (YPut c r :: l) (Done s) y = yexec E l (Done s) (set_cell c (hval (y_host E) W32 r s) y).
Proof. intros Hcx. cbn [yexec]. unfold ystep. rewrite Hcx. reflexivity. Qed.

Lemma ldt_ok E base limit (op16 : bool) m s y : h_rcx (hr s) = P PCtx -> memop_ok m (ctx s) -> base <> limit ->
  meets (yrun E (yhost (emit_ea m ++ [MOV hEBX hEDX; ILoad W16; ADD hEBX (i32 2); MOV hEDX hEBX; MOVZX hEBX AX; ILoad W32]) ++
    yhost (if op16 then [AND hEAX (i32 0x00FFFFFF)] else []) ++ [YPut base RAX; YPut limit RBX]) s y) s
    (load_table (e_fault (y_host E)) base limit op16 m (guest_view s y)).
Proof.
  intros Hcx Hm Hne. unfold load_table. cbn [guest_view v_ctx v_mem].
  destruct (ea_at E m s Hcx Hm) as (s1 & HR & (C1 & X1 & M1 & K1) & D1). set (a := ea m (ctx s)) in *.
  assert (Ha : 0 <= a < 2 ^ 32) by (subst a; pose proof (getw_ea m (ctx s)) as G; rewrite getw_mod in G; rewrite <- G; now apply Z.mod_pos_bound).
  set (b := (a + 2) mod 2 ^ 32).
  set (l := emit_ea m ++ [MOV hEBX hEDX; ILoad W16; ADD hEBX (i32 2); MOV hEDX hEBX; MOVZX hEBX AX; ILoad W32]).
  assert (Q : if e_fault (y_host E) false a 2 then exists s2, run (y_host E) l s = Fault false a 2 s2 /\ shows_at s s2
       else if e_fault (y_host E) false b 4 then exists s2, run (y_host E) l s = Fault false b 4 s2 /\ shows_at s s2
       else exists s2, run (y_host E) l s = Done s2 /\ shows_at s s2 /\
      getw W32 (num (y_host E) (h_rax (hr s2))) = mload (gmem s) W32 b /\
      getw W32 (num (y_host E) (h_rbx (hr s2))) = mload (gmem s) W16 a).
  { unfold l, run in *. rewrite exec_app, HR. clear HR l. clear Hcx.
    destruct s1 as [[rax rbx rcx rdx r8 r9 r10 r11] hf1 c1 g1 l1 n1 k1].
    cbn [hr h_rcx h_rdx ctx gmem masked] in *. subst rcx c1 g1 k1.
    set (s1 := mkst (mkregs rax (N (getw W32 (num (y_host E) rdx))) (P PCtx) rdx r8 r9 r10 r11) hf1 (ctx s) (gmem s) l1 n1 (masked s)).
    assert (T1 : step (y_host E) (MOV hEBX hEDX) (mkst (mkregs rax rbx (P PCtx) rdx r8 r9 r10 r11) hf1 (ctx s) (gmem s) l1 n1 (masked s)) = Done s1).
    { cbn [step MOV hEBX hEDX op_read bind op_write next rget rset hr h_rdx h_rbx set_hr num]. change (setw W32 ?x ?v) with (getw W32 v). rewrite ?getw_idem. reflexivity. }
    rewrite exec_step, T1. rewrite (load_step _ _ _ a) by exact D1. cbn [wbytes].
    destruct (e_fault (y_host E) false a 2); [exists s1; split; [reflexivity | repeat split] |].
    change [ADD hEBX (i32 2); MOV hEDX hEBX; MOVZX hEBX AX; ILoad W32] with ([ADD hEBX (i32 2); MOV hEDX hEBX; MOVZX hEBX AX] ++ [ILoad W32]).
    rewrite exec_app.
    assert (T2 : exists s2, exec (y_host E) [ADD hEBX (i32 2); MOV hEDX hEBX; MOVZX hEBX AX] (Done (loaded (y_host E) W16 a s1)) = Done s2 /\
      shows_at s s2 /\ getw W32 (num (y_host E) (h_rdx (hr s2))) = b /\ getw W32 (num (y_host E) (h_rbx (hr s2))) = mload (gmem s) W16 a).
    { subst s1. unfold loaded. cbn [hr h_rbx hf ctx gmem loc ncall masked].
      cbn [exec step op_read op_write bind next MOV ADD MOVZX hEBX hEDX AX i32 hr h_rcx h_rax h_rbx h_rdx rget rset set_hr set_hf bin opw num].
      change (setw W32 ?x ?v) with (getw W32 v). rewrite ?getw_setw, ?getw_idem.
      eexists. split; [reflexivity |]. split; [repeat split |]. cbn [set_hr set_hf hr h_rdx h_rbx h_rax rget rset num]. rewrite ?getw_setw. split.
      - change (getw W32 2) with 2. rewrite D1. rewrite ?getw_idem. unfold b. rewrite getw_mod. reflexivity.
      - rewrite ?getw_setw, ?getw_idem, ?getw_mload. pose proof (mload_range (gmem s) W16 a) as R. apply getw_small.
        unfold modulus in *. cbn [wbits] in *. lia. }
    destruct T2 as (s2 & T2 & (C2 & X2 & M2 & K2) & D2 & B2). rewrite T2. rewrite (load_step _ _ _ b) by exact D2. cbn [wbytes exec].
    destruct (e_fault (y_host E) false b 4); [exists s2; split; [reflexivity | repeat split; assumption] |].
    eexists. split; [reflexivity |]. split; [repeat split; assumption |]. cbn [loaded hr h_rax h_rbx num]. split; [| exact B2].
    rewrite getw_setw, getw_mload. now rewrite M2. }
  fold l. clearbody l. destruct (e_fault (y_host E) false a 2).
  { destruct Q as (s2 & Q & S2). rewrite (yhost_run _ _ _ _ _ _ Q), over_yexec by reflexivity.
    exists s2, y. split; [reflexivity | now apply shows_kept]. }
  destruct (e_fault (y_host E) false b 4).
  { destruct Q as (s2 & Q & S2). rewrite (yhost_run _ _ _ _ _ _ Q), over_yexec by reflexivity.
    exists s2, y. split; [reflexivity | now apply shows_kept]. }
  destruct Q as (s2 & Q & S2 & A2 & B2). rewrite (yhost_run _ _ _ _ _ _ Q).
  assert (T : exists s3, exec (y_host E) (if op16 then [AND hEAX (i32 0x00FFFFFF)] else []) (Done s2) = Done s3 /\ shows_at s s3 /\
    getw W32 (num (y_host E) (h_rax (hr s3))) = mload (gmem s) W32 b mod (if op16 then 2 ^ 24 else 2 ^ 32) /\
    getw W32 (num (y_host E) (h_rbx (hr s3))) = mload (gmem s) W16 a).
  { pose proof (mload_range (gmem s) W32 b) as R. change (modulus W32) with (2 ^ 32) in R. destruct op16.
    - destruct S2 as (C2 & X2 & M2 & K2). destruct s2 as [[rax rbx rcx rdx r8 r9 r10 r11] hf1 c1 g1 l1 n1 k1].
      cbn [hr h_rcx h_rax h_rbx ctx gmem masked] in *. subst rcx.
      cbn [exec step op_read op_write bind next AND hEAX i32 hr h_rax rget rset set_hr set_hf bin opw num].
      eexists. split; [reflexivity |]. split; [repeat split; assumption |]. cbn [set_hr set_hf hr h_rax h_rbx rget rset num]. split; [| exact B2].
      rewrite A2. change (getw W32 16777215) with 16777215. rewrite getw_setw, land24. apply getw_small. unfold modulus. cbn [wbits].
      pose proof (Z.mod_pos_bound (mload (gmem s) W32 b) (2 ^ 24) eq_refl). lia.
    - exists s2. split; [reflexivity |]. split; [exact S2 |]. split; [| exact B2]. rewrite A2. symmetry. now apply Z.mod_small. }
  destruct T as (s3 & T & (C3 & X3 & M3 & K3) & A3 & B3). rewrite yhost_app, T.
  rewrite !put_step by exact C3. cbn [yexec]. eexists _, _. split; [reflexivity |].
  unfold shows. cbn [with_cell v_ctx v_mem v_sys guest_view]. rewrite X3, M3. split; [apply ctx_eq_refl |]. split; [reflexivity |].
  split; [| split; [reflexivity | exact K3]]. intros c. unfold hval. change (rget RAX (hr s3)) with (h_rax (hr s3)). change (rget RBX (hr s3)) with (h_rbx (hr s3)).
  rewrite A3, B3, !mload_value. reflexivity.
Qed.

(** ** SGDT, SIDT *)

Lemma get_step E w r c l s y : h_rcx (hr s) = P PCtx ->
  yexec E (YGet w r c :: l) (Done s) y =
  yexec E l (Done (set_hr (rset r (N (setw w (num (y_host E) (rget r (hr s))) (getw w (cell y c)))) (hr s)) s)) y.
Proof. intros Hcx. cbn [yexec]. unfold ystep. rewrite Hcx. reflexivity. Qed.

Lemma put_mod n m a v w x : 0 <= n -> v mod 256 ^ n = w mod 256 ^ n -> put_at n m a v x = put_at n m a w x.
Proof.
  intros Hn H. unfold put_at. destruct ((0 <=? x) && (x <? 2 ^ 32) && ((x - a) mod 2 ^ 32 <? n)) eqn:C; [| reflexivity].
  assert (O : 0 <= (x - a) mod 2 ^ 32 < n) by (pose proof (Z.mod_pos_bound (x - a) (2 ^ 32) eq_refl); lia).
  set (o := (x - a) mod 2 ^ 32) in *. clearbody o.
  assert (G : forall z, (z / 256 ^ o) mod 256 = ((z mod 256 ^ n) / 256 ^ o) mod 256).
  { intros z. replace (256 ^ n) with (256 ^ o * (256 * 256 ^ (n - o - 1))).
    2:{ replace n with (o + (1 + (n - o - 1))) at 2 by lia. rewrite !Z.pow_add_r by lia. reflexivity. }
    rewrite Z.rem_mul_r by lia. rewrite Z.mul_comm, Z.div_add by lia.
    rewrite (Z.div_small (z mod 256 ^ o)) by (apply Z.mod_pos_bound; lia). rewrite Z.add_0_l.
    rewrite Z.rem_mul_r by lia. rewrite (Z.mul_comm 256), Z.mod_add by lia. now rewrite Z.mod_mod by lia. }
  now rewrite (G v), (G w), H.
Qed.
Lemma put_ext n m m' a v x : (forall z, m z = m' z) -> put_at n m a v x = put_at n m' a v x.
Proof. intros H. unfold put_at. destruct (_ && _); [reflexivity | apply H]. Qed.

Lemma sdt_ok E base limit m s y : h_rcx (hr s) = P PCtx -> memop_ok m (ctx s) ->
  meets (yrun E (yhost (emit_ea m ++ [MOV hEBX hEDX]) ++ [YGet W16 R8 limit] ++
    yhost [IStore W16; ADD hEBX (i32 2); MOV hEDX hEBX] ++ [YGet W32 R8 base] ++ yhost [IStore W32]) s y) s
    (store_table (e_fault (y_host E)) base limit m (guest_view s y)).
Proof.
  intros Hcx Hm. unfold store_table. cbn [guest_view v_ctx v_mem v_sys].
  destruct (ea_at E m s Hcx Hm) as (s1 & HR & (C1 & X1 & M1 & K1) & D1). set (a := ea m (ctx s)) in *.
  set (b := (a + 2) mod 2 ^ 32).
  destruct s1 as [[rax rbx rcx rdx r8 r9 r10 r11] hf1 c1 g1 l1 n1 k1].
  cbn [hr h_rcx h_rdx ctx gmem masked] in *. subst rcx c1 g1 k1.
  set (s2 := mkst (mkregs rax (N a) (P PCtx) rdx r8 r9 r10 r11) hf1 (ctx s) (gmem s) l1 n1 (masked s)).
  assert (Q : run (y_host E) (emit_ea m ++ [MOV hEBX hEDX]) s = Done s2).
  { rewrite (run_seq _ _ _ _ _ HR). unfold run.
    cbn [exec step MOV hEBX hEDX op_read bind op_write next rget rset hr h_rdx h_rbx set_hr num]. change (setw W32 ?x ?v) with (getw W32 v). rewrite ?getw_idem, D1. reflexivity. }
  rewrite (yhost_run _ _ _ _ _ _ Q). clear Q HR. cbn [app]. rewrite get_step by reflexivity.
  set (s3 := set_hr _ s2).
  change (YHost (IStore W16) :: YHost (ADD hEBX (i32 2)) :: YHost (MOV hEDX hEBX) :: YGet W32 R8 base :: yhost [IStore W32])
    with (yhost [IStore W16; ADD hEBX (i32 2); MOV hEDX hEBX] ++ YGet W32 R8 base :: yhost [IStore W32]).
  rewrite yhost_app. set (v := getw W16 (cell y limit)).
  rewrite (store_step _ _ _ a v) by (subst s3 s2 v; cbn [set_hr rset hr h_rdx h_r8 num]; rewrite ?getw_setw, ?getw_idem; auto).
  cbn [wbytes]. assert (S3 : shows_at s s3) by repeat split.
  destruct (e_fault (y_host E) true a 2).
  { rewrite over_yexec by reflexivity. exists s3, y. split; [reflexivity | now apply shows_kept]. }
  set (m1 := mstore (gmem s) W16 a v).
  assert (T : exists s4, exec (y_host E) [ADD hEBX (i32 2); MOV hEDX hEBX] (Done (stored (y_host E) W16 a v s3)) = Done s4 /\
    h_rcx (hr s4) = P PCtx /\ ctx s4 = ctx s /\ gmem s4 = m1 /\ masked s4 = masked s /\ getw W32 (num (y_host E) (h_rdx (hr s4))) = b).
  { subst s3 s2. unfold stored. cbn [set_hr rset hr h_rbx hf ctx gmem loc ncall masked].
    cbn [exec step op_read op_write bind next MOV ADD hEBX hEDX i32 hr h_rcx h_rax h_rbx h_rdx rget rset set_hr set_hf bin opw num].
    change (setw W32 ?x ?v) with (getw W32 v). rewrite ?getw_setw, ?getw_idem. change (getw W32 2) with 2.
    assert (A32 : getw W32 a = a) by (rewrite <- D1; apply getw_idem). rewrite A32.
    eexists. split; [reflexivity |]. repeat split. cbn [set_hr set_hf hr h_rdx num]. rewrite ?getw_idem, getw_mod. reflexivity. }
  destruct T as (s4 & T & C4 & X4 & M4 & K4 & D4). rewrite T. rewrite get_step by exact C4.
  set (s5 := set_hr _ s4). rewrite yhost_end. set (v2 := getw W32 (cell y base)).
  assert (F5 : getw W32 (num (y_host E) (h_rdx (hr s5))) = b /\ getw W32 (num (y_host E) (h_r8 (hr s5))) = v2).
  { subst s5 v2. destruct s4 as [[q1 q2 q3 q4 q5 q6 q7 q8] w1 w2 w3 w4 w5 w6]. cbn [set_hr rset hr h_rdx h_r8 num] in *. rewrite ?getw_setw, ?getw_idem. auto. }
  rewrite (store_step _ _ _ b v2) by apply F5. cbn [wbytes exec].
  assert (P1 : forall x, m1 x = put_at 2 (gmem s) a (cell y limit) x).
  { intros x. unfold m1. rewrite mstore_put. cbn [wbytes]. apply put_mod; [lia |]. unfold v. rewrite getw_mod. now rewrite Z.mod_mod. }
  destruct (e_fault (y_host E) true b 4).
  { exists s5, y. split; [reflexivity |]. unfold shows. cbn [with_mem v_ctx v_mem v_sys guest_view s5 set_hr ctx gmem masked].
    rewrite X4, M4. split; [apply ctx_eq_refl |]. split; [exact P1 | repeat split; exact K4]. }
  eexists _, y. split; [reflexivity |]. unfold shows. cbn [with_mem v_ctx v_mem v_sys guest_view s5 stored set_hr ctx gmem masked].
  rewrite X4, M4. split; [apply ctx_eq_refl |]. split; [| repeat split; exact K4].
  intros x. rewrite mstore_put. cbn [wbytes]. rewrite (put_ext _ _ _ _ _ _ P1). apply put_mod; [lia |]. unfold v2. rewrite getw_mod. now rewrite Z.mod_mod.
Qed.

(** ** SLDT, STR: correct for memory and for 32-bit registers *)

Lemma ssel_ok E c (op16 : bool) o s y : h_rcx (hr s) = P PCtx -> rm_ok16 o (ctx s) ->
  (forall g, o = RmReg g -> op16 = false) ->
  meets (yrun E match o with
    | RmReg g => [YGetZ RAX c] ++ yhost [MOV (g_opnd W32 g) hEAX]
    | RmMem m => yhost (emit_ea m) ++ [YGet W16 R8 c] ++ yhost [IStore W16]
    end s y) s (store_sel (e_fault (y_host E)) c op16 o (guest_view s y)).
Proof.
  intros Hcx Ho Hw. unfold store_sel. cbn [guest_view v_ctx v_mem v_sys]. destruct o as [[h r] | m]; cbn [rm_ok16 g_high g_reg] in *.
  - subst h. rewrite (Hw _ eq_refl). clear Hw. unfold yrun. cbn [app yexec]. unfold ystep. rewrite Hcx. cbn [fst snd op_write next].
    rewrite yhost_end. set (v := getw W16 (cell y c)).
    assert (Hv : v = cell y c mod 2 ^ 16) by (unfold v; rewrite getw_mod; reflexivity). rewrite <- Hv.
    assert (Q : exists s1, exec (y_host E) [MOV (g_opnd W32 (mkgop false r)) hEAX] (Done (set_hr (rset RAX (N (setw W32 (num (y_host E) (rget RAX (hr s))) v)) (hr s)) s)) = Done s1 /\
      gmem s1 = gmem s /\ masked s1 = masked s /\ ctx s1 = set_gprs (gput W32 false r (getw W32 v) (gprs (ctx s))) (ctx s)).
    { clear Hv. clearbody v. start_state s Hcx. cbn [exec step MOV g_opnd c_reg hEAX op_read bind op_write next g_high g_reg rget rset hr h_rcx h_rax set_hr num ctx ctx_write].
      rewrite ?getw_setw. eexists. repeat split. }
    destruct Q as (s1 & Q & M1 & K1 & X1). exists s1, y. rewrite Q. split; [reflexivity |].
    unfold shows. cbn [with_reg v_ctx v_mem v_sys]. rewrite M1, X1. split; [| repeat split; exact K1].
    repeat split. intros x. cbn [set_gprs gprs]. unfold gput. destruct (greg_eqb x r); [| reflexivity].
    rewrite <- !(getw_mod W32), getw_putw. now rewrite getw_idem.
  - destruct (ea_at E m s Hcx Ho) as (s1 & HR & S1 & D1). pose proof S1 as (C1 & X1 & M1 & K1). set (a := ea m (ctx s)) in *.
    rewrite (yhost_run _ _ _ _ _ _ HR). cbn [app]. rewrite get_step by exact C1. rewrite yhost_end.
    set (v := getw W16 (cell y c)). set (s2 := set_hr _ s1).
    assert (F : getw W32 (num (y_host E) (h_rdx (hr s2))) = a /\ getw W16 (num (y_host E) (h_r8 (hr s2))) = v).
    { subst s2 v. clear HR S1. destruct s1 as [[q1 q2 q3 q4 q5 q6 q7 q8] w1 w2 w3 w4 w5 w6]. cbn [set_hr rset hr h_rdx h_r8 num] in *. rewrite ?getw_setw, ?getw_idem. auto. }
    rewrite (store_step _ _ _ a v) by apply F. cbn [wbytes exec].
    assert (S2 : shows_at s s2). { subst s2. clear F HR. destruct s1 as [[q1 q2 q3 q4 q5 q6 q7 q8] w1 w2 w3 w4 w5 w6]. exact S1. }
    destruct (e_fault (y_host E) true a 2); [exists s2, y; split; [reflexivity | now apply shows_kept] |].
    eexists _, y. split; [reflexivity |]. destruct S2 as (C2 & X2 & M2 & K2). unfold shows. cbn [with_mem v_ctx v_mem v_sys stored ctx gmem masked].
    rewrite X2, M2. split; [apply ctx_eq_refl |]. split; [| repeat split; exact K2].
    intros x. rewrite mstore_put. cbn [wbytes]. unfold v. now rewrite getw_mod.
Qed.

(** ** Calls with an operand *)

Lemma mov_dx E s : h_rcx (hr s) = P PCtx ->
  exists s1, run (y_host E) [MOV DX AX] s = Done s1 /\ shows_at s s1 /\
    getw W16 (num (y_host E) (h_rdx (hr s1))) = getw W16 (num (y_host E) (h_rax (hr s))).
Proof.
  intros Hcx. start_state s Hcx. unfold run. expand_list. sym'. cbn [exec]. eexists. split; [reflexivity |]. split; [repeat split |].
  cbn [hr h_rdx h_rax num]. now rewrite getw_setw, ?getw_idem.
Qed.

Lemma call_next E h s s0 y : h_rcx (hr s) = P PCtx -> masked s = masked s0 ->
  meets (yrun E [YCall h] s y) s0 (RNext (fst (y_help E h (fst (args E h s)) (snd (args E h s)) (guest_view s y)))).
Proof.
  intros Hcx K. destruct (call_step E h s y Hcx) as (s1 & C1 & X1 & M1 & K1 & A1 & R1).
  unfold yrun. rewrite R1. cbn [yexec]. eexists _, _. split; [reflexivity |]. unfold shows. rewrite X1, M1. split; [apply ctx_eq_refl |]. repeat split. congruence.
Qed.

Lemma meets_same r s s0 x : masked s = masked s0 -> meets r s x -> meets r s0 x.
Proof.
  intros K (s' & y' & M). exists s', y'. unfold shows in *. rewrite <- K. exact M.
Qed.

Definition sel_helper (h : helper) : bool := match h with HLldt | HLtr | HVerr | HVerw => true | _ => false end.
Lemma sel_args E h s : sel_helper h = true -> args E h s = (getw W16 (num (y_host E) (h_rdx (hr s))), 0).
Proof. destruct h; try discriminate; reflexivity. Qed.

Lemma sel_reports E h o s y : sel_helper h = true -> h_rcx (hr s) = P PCtx -> rm_ok16 o (ctx s) ->
  meets (yrun E (yhost (ld16 o) ++ yhost [MOV DX AX] ++ [YCall h] ++
    yhost [TEST hEAX hEAX; IJcc CEQ 0] ++ [YRaise] ++ yhost [ILab 0]) s y) s
    (with_operand (e_fault (y_host E)) o (guest_view s y) (fun v => reports (y_help E h v 0 (guest_view s y)))).
Proof.
  intros Hh Hcx Ho. apply ld16_ok; [assumption.. |]. intros s1 v S1 V1 HV.
  destruct (mov_dx E s1 (proj1 S1)) as (s2 & R2 & S2 & D2). rewrite (yhost_run _ _ _ _ _ _ R2).
  pose proof (shows_trans _ _ _ S1 S2) as S12. apply (meets_same _ s2); [apply S12 |].
  pose proof (reports_ok E h s2 y (proj1 S12)) as R. rewrite (sel_args _ _ _ Hh) in R. cbn [fst snd] in R. rewrite D2, V1 in R.
  now rewrite (view_eq _ _ y S12) in R.
Qed.
Lemma sel_next E h o s y : sel_helper h = true -> h_rcx (hr s) = P PCtx -> rm_ok16 o (ctx s) ->
  meets (yrun E (yhost (ld16 o) ++ yhost [MOV DX AX] ++ [YCall h]) s y) s
    (with_operand (e_fault (y_host E)) o (guest_view s y) (fun v => RNext (fst (y_help E h v 0 (guest_view s y))))).
Proof.
  intros Hh Hcx Ho. apply ld16_ok; [assumption.. |]. intros s1 v S1 V1 HV.
  destruct (mov_dx E s1 (proj1 S1)) as (s2 & R2 & S2 & D2). rewrite (yhost_run _ _ _ _ _ _ R2).
  pose proof (shows_trans _ _ _ S1 S2) as S12.
  pose proof (call_next E h s2 s y (proj1 S12) ltac:(apply S12)) as R. rewrite (sel_args _ _ _ Hh) in R. cbn [fst snd] in R. rewrite D2, V1 in R.
  now rewrite (view_eq _ _ y S12) in R.
Qed.

(** ** LMSW, CLTS and control registers *)

Lemma call_leave E h nxt s s0 y : h_rcx (hr s) = P PCtx -> masked s = masked s0 -> 0 <= nxt < 2 ^ 32 ->
  meets (yrun E ([YCall h] ++ yhost [MOV c_eip (i32 nxt); ILink]) s y) s0
    (RLeave (at_eip nxt (fst (y_help E h (fst (args E h s)) (snd (args E h s)) (guest_view s y))))).
Proof.
  intros Hcx K Hn. destruct (call_step E h s y Hcx) as (s1 & C1 & X1 & M1 & K1 & A1 & R1).
  unfold yrun. cbn [app]. rewrite R1. apply leave_ok; auto; congruence.
Qed.

Lemma set_low_bit v : 0 <= v < 2 ^ 16 -> Z.lor v 1 = if v mod 2 =? 0 then v + 1 else v.
Proof.
  intros H. assert (E2 : v mod 2 = 0 \/ v mod 2 = 1) by (pose proof (Z.mod_pos_bound v 2 eq_refl); lia).
  apply Z.bits_inj'. intros n Hn. rewrite Z.lor_spec.
  destruct E2 as [E2 | E2]; rewrite E2; cbn [Z.eqb].
  - assert (V : v = 2 * (v / 2)) by (pose proof (Z.div_mod v 2); lia). rewrite V.
    destruct (Z.eq_dec n 0) as [-> | N0].
    + rewrite Z.testbit_odd_0. now rewrite orb_true_r.
    + replace n with (Z.succ (n - 1)) by lia. rewrite Z.testbit_even_succ, Z.testbit_odd_succ by lia.
      replace (Z.testbit 1 (Z.succ (n - 1))) with false; [now rewrite orb_false_r |].
      symmetry. apply (Z.bits_above_log2 1); [lia | change (Z.log2 1) with 0; lia].
  - assert (V : v = 2 * (v / 2) + 1) by (pose proof (Z.div_mod v 2); lia). rewrite V.
    destruct (Z.eq_dec n 0) as [-> | N0].
    + rewrite Z.testbit_odd_0. reflexivity.
    + replace (Z.testbit 1 n) with false; [now rewrite orb_false_r |].
      symmetry. apply (Z.bits_above_log2 1); [lia | change (Z.log2 1) with 0; lia].
Qed.

Lemma lmsw_ok E (pe : bool) nxt o s y : h_rcx (hr s) = P PCtx -> rm_ok16 o (ctx s) -> 0 <= nxt < 2 ^ 32 ->
  meets (yrun E (yhost (ld16 o) ++ yhost ((if pe then [OR AX (Im W16 1)] else []) ++ [MOVZX hEDX AX; MOV R8D (i32 0)]) ++
    [YCall (HCr 1)] ++ yhost [MOV c_eip (i32 nxt); ILink]) s y) s
    (with_operand (e_fault (y_host E)) o (guest_view s y) (fun v =>
      RLeave (at_eip nxt (fst (y_help E (HCr 1) (if pe && (v mod 2 =? 0) then v + 1 else v) 0 (guest_view s y)))))).
Proof.
  intros Hcx Ho Hn. apply ld16_ok; [assumption.. |]. intros s1 v S1 V1 HV.
  assert (Q : exists s2, run (y_host E) ((if pe then [OR AX (Im W16 1)] else []) ++ [MOVZX hEDX AX; MOV R8D (i32 0)]) s1 = Done s2 /\
    shows_at s1 s2 /\ args E (HCr 1) s2 = (if pe && (v mod 2 =? 0) then v + 1 else v, 0)).
  { destruct S1 as (C1 & _). start_state s1 C1.
    assert (L : getw W16 (Z.lor v 1) = Z.lor v 1).
    { apply getw_small. rewrite set_low_bit by exact HV. unfold modulus. cbn [wbits].
      pose proof (Z.div_mod v 2 ltac:(lia)). destruct (Z.eqb_spec (v mod 2) 0); [| lia].
      assert (v <> 2 ^ 16 - 1). { intros ->. vm_compute in e. discriminate. } lia. }
    assert (L32 : forall z, 0 <= z < 2 ^ 16 -> getw W32 z = z) by (intros; apply getw_small; unfold modulus; cbn [wbits]; lia).
    assert (LR : 0 <= Z.lor v 1 < 2 ^ 16).
    { rewrite <- L, getw_mod. now apply Z.mod_pos_bound. }
    unfold run. destruct pe; cbn [app andb].
    - cbn [exec step OR AX MOVZX MOV hEDX R8D i32 op_read bind op_write next bin opw rget rset hr h_rax h_rdx h_r8 h_rcx set_hr set_hf num].
      eexists. split; [reflexivity |]. split; [repeat split |]. unfold args, hval. cbn [rget set_hr set_hf hr h_rdx h_r8 num].
      rewrite ?getw_setw, ?getw_idem. rewrite V1. change (getw W16 1) with 1. rewrite ?L, ?L32 by assumption. rewrite set_low_bit by exact HV. reflexivity.
    - cbn [exec step MOVZX MOV AX hEDX R8D i32 op_read bind op_write next rget rset hr h_rax h_rdx h_r8 h_rcx set_hr set_hf num].
      eexists. split; [reflexivity |]. split; [repeat split |]. unfold args, hval. cbn [rget set_hr set_hf hr h_rdx h_r8 num].
      rewrite ?getw_setw, ?getw_idem. rewrite V1. rewrite ?L32 by assumption. reflexivity. }
  destruct Q as (s2 & R2 & S2 & D2). rewrite (yhost_run _ _ _ _ _ _ R2).
  pose proof (shows_trans _ _ _ S1 S2) as S12.
  pose proof (call_leave E (HCr 1) nxt s2 s y (proj1 S12) ltac:(apply S12) Hn) as R. rewrite D2 in R. cbn [fst snd] in R.
  now rewrite (view_eq _ _ y S12) in R.
Qed.

Lemma clts_ok E nxt s y : h_rcx (hr s) = P PCtx -> 0 <= nxt < 2 ^ 32 ->
  meets (yrun E (yhost [MOV hEDX (i32 0); MOV R8D (i32 0)] ++ [YCall (HCr 2)] ++ yhost [MOV c_eip (i32 nxt); ILink]) s y) s
    (RLeave (at_eip nxt (fst (y_help E (HCr 2) 0 0 (guest_view s y))))).
Proof.
  intros Hcx Hn.
  assert (Q : exists s2, run (y_host E) [MOV hEDX (i32 0); MOV R8D (i32 0)] s = Done s2 /\ shows_at s s2 /\ args E (HCr 2) s2 = (0, 0)).
  { start_state s Hcx. unfold run. expand_list. sym'. cbn [exec]. eexists. split; [reflexivity |]. split; [repeat split | reflexivity]. }
  destruct Q as (s2 & R2 & S2 & D2). rewrite (yhost_run _ _ _ _ _ _ R2).
  pose proof (call_leave E (HCr 2) nxt s2 s y (proj1 S2) ltac:(apply S2) Hn) as R. rewrite D2 in R. cbn [fst snd] in R.
  now rewrite (view_eq _ _ y S2) in R.
Qed.

Lemma from_cr_ok E c r s y : h_rcx (hr s) = P PCtx ->
  meets (yrun E (match c with
    | CR0 => [YGet W32 RAX Cr0] | CR2 => [YGet W32 RAX Cr2] | CR3 => [YGet W32 RAX Cr3] | CR4 => yhost [MOV hEAX c_cr4]
    end ++ yhost [MOV (c_reg W32 false r) hEAX]) s y) s (RNext (with_reg r (cr_value c (guest_view s y)) (guest_view s y))).
Proof.
  intros Hcx. set (v := cr_value c (guest_view s y)).
  assert (Q : exists s1, yrun E (match c with
    | CR0 => [YGet W32 RAX Cr0] | CR2 => [YGet W32 RAX Cr2] | CR3 => [YGet W32 RAX Cr3] | CR4 => yhost [MOV hEAX c_cr4]
    end ++ yhost [MOV (c_reg W32 false r) hEAX]) s y = yexec E (yhost [MOV (c_reg W32 false r) hEAX]) (Done s1) y /\
    shows_at s s1 /\ getw W32 (num (y_host E) (h_rax (hr s1))) = getw W32 v).
  { subst v. unfold yrun. destruct c; cbn [app]; try rewrite get_step by exact Hcx.
    4:{ change (YHost (MOV hEAX c_cr4) :: yhost [MOV (c_reg W32 false r) hEAX]) with (yhost [MOV hEAX c_cr4] ++ yhost [MOV (c_reg W32 false r) hEAX]).
        rewrite yhost_app. start_state s Hcx. eexists. split; [f_equal |]. { expand_list. sym'. cbn [exec]. reflexivity. }
        split; [repeat split |]. cbn [hr h_rax num cr_value guest_view v_ctx ctx cr4]. now rewrite ?getw_setw, ?getw_idem. }
    all: eexists; split; [reflexivity |]; start_state s Hcx; split; [repeat split |]; cbn [set_hr rset hr h_rax num rget cr_value guest_view v_sys];
      now rewrite ?getw_setw, ?getw_idem. }
  destruct Q as (s1 & Q & (C1 & X1 & M1 & K1) & A1). rewrite Q. clear Q. rewrite yhost_end.
  assert (Q : exists s2, exec (y_host E) [MOV (c_reg W32 false r) hEAX] (Done s1) = Done s2 /\
    gmem s2 = gmem s1 /\ masked s2 = masked s1 /\ ctx s2 = set_gprs (gput W32 false r (getw W32 v) (gprs (ctx s1))) (ctx s1)).
  { clearbody v. clear Hcx X1 M1 K1. start_state s1 C1. cbn [exec step MOV c_reg hEAX op_read bind op_write next rget rset hr h_rcx h_rax set_hr num ctx ctx_write].
    rewrite A1. eexists. repeat split. }
  destruct Q as (s2 & Q & M2 & K2 & X2). exists s2, y. rewrite Q. split; [reflexivity |].
  unfold shows. cbn [with_reg v_ctx v_mem v_sys guest_view]. rewrite M2, X2, M1, X1. split; [| repeat split; congruence].
  repeat split. intros x. cbn [set_gprs gprs]. unfold gput. destruct (greg_eqb x r); [| reflexivity].
  rewrite <- !(getw_mod W32), getw_putw. now rewrite getw_idem.
Qed.

Lemma to_cr_ok E c r nxt s y : h_rcx (hr s) = P PCtx -> 0 <= nxt < 2 ^ 32 ->
  meets (yrun E (yhost [MOV hEDX (c_reg W32 false r)] ++
  match c with
  | CR2 => [YPut Cr2 RDX]
  | _ =>
      yhost [MOV R8D (i32 (cr_num c))] ++ [YCall (HCr 0)] ++
      yhost [TEST hEAX hEAX; IJcc CEQ 0; IRaise 13 0; ILab 0] ++
      match c with CR3 => [] | _ => yhost [MOV c_eip (i32 nxt); ILink] end
  end) s y) s
  (let v := gprs (ctx s) r mod 2 ^ 32 in
   match c with
        | CR2 => RNext (with_cell Cr2 v (guest_view s y))
        | CR3 => refuses (y_help E (HCr 0) v 3 (guest_view s y))
        | CR0 => then_leave nxt (refuses (y_help E (HCr 0) v 0 (guest_view s y)))
        | CR4 => then_leave nxt (refuses (y_help E (HCr 0) v 4 (guest_view s y)))
        end).
Proof.
  intros Hcx Hn. set (v := gprs (ctx s) r mod 2 ^ 32). cbv zeta.
  assert (Q : exists s1, run (y_host E) [MOV hEDX (c_reg W32 false r)] s = Done s1 /\ shows_at s s1 /\ getw W32 (num (y_host E) (h_rdx (hr s1))) = v).
  { start_state s Hcx. unfold run. expand_list. sym'. cbn [exec]. eexists. split; [reflexivity |]. split; [repeat split |].
    cbn [hr h_rdx num]. rewrite ?getw_setw. unfold gget. rewrite ?getw_idem. rewrite getw_mod. reflexivity. }
  destruct Q as (s1 & Q & S1 & D1). rewrite (yhost_run _ _ _ _ _ _ Q).
  assert (Q8 : forall k, 0 <= k < 2 ^ 32 -> exists s2, run (y_host E) [MOV R8D (i32 k)] s1 = Done s2 /\ shows_at s s2 /\ args E (HCr 0) s2 = (v, k)).
  { intros k Hk. clear Q. clearbody v. destruct S1 as (C1 & X1 & M1 & K1). clear Hcx. start_state s1 C1. unfold run. expand_list. sym'. cbn [exec]. eexists. split; [reflexivity |].
    split; [repeat split; assumption |]. unfold args, hval. cbn [rget hr h_rdx h_r8 num]. rewrite ?getw_setw, ?getw_idem. rewrite D1.
    rewrite (getw_small W32 k) by (unfold modulus; cbn [wbits]; lia). reflexivity. }
  assert (G : forall k l kk, 0 <= k < 2 ^ 32 ->
    let q := y_help E (HCr 0) v k (guest_view s y) in
    (forall s1, h_rcx (hr s1) = P PCtx -> ctx s1 = v_ctx (fst q) -> gmem s1 = v_mem (fst q) -> masked s1 = masked s ->
      meets (yrun E l s1 (v_sys (fst q))) s (kk (RNext (fst q)))) ->
    (forall v c g, kk (RExc v c g) = RExc v c g) ->
    meets (yexec E (yhost [MOV R8D (i32 k)] ++ [YCall (HCr 0)] ++ yhost [TEST hEAX hEAX; IJcc CEQ 0; IRaise 13 0; ILab 0] ++ l) (Done s1) y) s
      (kk (refuses q))).
  { intros k l kk Hk q K KX. destruct (Q8 k Hk) as (s2 & R2 & S2 & A2). fold (yrun E (yhost [MOV R8D (i32 k)] ++ [YCall (HCr 0)] ++ yhost [TEST hEAX hEAX; IJcc CEQ 0; IRaise 13 0; ILab 0] ++ l) s1 y).
    rewrite (yhost_run _ _ _ _ _ _ R2). pose proof (refuses_ok E (HCr 0) s2 y l kk (proj1 S2)) as R. rewrite A2 in R. cbn [fst snd] in R.
    rewrite (view_eq _ _ y S2) in R. fold q in R. apply (meets_same _ s2); [apply S2 |]. apply R; [| exact KX].
    intros s3 H1 H2 H3 H4. apply (meets_same _ s); [symmetry; apply S2 |]. apply K; auto. rewrite H4. apply S2. }
  destruct c; cbn [cr_num].
  - apply (G 0 _ (then_leave nxt)); [lia | | reflexivity]. intros. cbn [then_leave]. now apply leave_ok.
  - cbn [yexec app]. unfold ystep. destruct S1 as (C1 & X1 & M1 & K1). rewrite C1. cbn [fst snd].
    eexists _, _. split; [reflexivity |]. unfold shows. cbn [with_cell v_ctx v_mem v_sys guest_view]. rewrite X1, M1. split; [apply ctx_eq_refl |].
    repeat split; [| exact K1]. intros k. unfold hval. change (rget RDX (hr s1)) with (h_rdx (hr s1)). now rewrite D1.
  - apply (G 3 _ (fun r => r)); [lia | | reflexivity]. intros s2 H1 H2 H3 H4. eexists _, _. split; [reflexivity |]. unfold shows. rewrite H2, H3. split; [apply ctx_eq_refl | auto].
  - apply (G 4 _ (then_leave nxt)); [lia | | reflexivity]. intros. cbn [then_leave]. now apply leave_ok.
Qed.

(** ** The others *)

Lemma msr_ok E h s y : h_rcx (hr s) = P PCtx -> h = HRdmsr \/ h = HWrmsr ->
  meets (yrun E ([YCall h] ++ yhost [TEST hEAX hEAX; IJcc CEQ 0; IRaise 13 0; ILab 0]) s y) s (refuses (y_help E h 0 0 (guest_view s y))).
Proof.
  intros Hcx Hh. rewrite <- (app_nil_r (yhost _)).
  replace (y_help E h 0 0 (guest_view s y)) with (y_help E h (fst (args E h s)) (snd (args E h s)) (guest_view s y)) by (destruct Hh; subst h; reflexivity).
  apply (refuses_ok E h s y [] (fun r => r)); [exact Hcx | | reflexivity].
  intros s2 H1 H2 H3 H4. eexists _, _. split; [reflexivity |]. unfold shows. rewrite H2, H3. split; [apply ctx_eq_refl | auto].
Qed.

Lemma invlpg_ok E m s y : h_rcx (hr s) = P PCtx -> memop_ok m (ctx s) ->
  meets (yrun E (yhost (emit_ea m) ++ [YCall HInvlpg]) s y) s (RNext (fst (y_help E HInvlpg (ea m (ctx s)) 0 (guest_view s y)))).
Proof.
  intros Hcx Hm. destruct (ea_at E m s Hcx Hm) as (s1 & HR & S1 & D1). rewrite (yhost_run _ _ _ _ _ _ HR).
  pose proof (call_next E HInvlpg s1 s y (proj1 S1) ltac:(apply S1)) as R. cbn [args fst snd] in R. unfold hval in R.
  change (rget RDX (hr s1)) with (h_rdx (hr s1)) in R. rewrite D1 in R. now rewrite (view_eq _ _ y S1) in R.
Qed.

Lemma hlt_ok E nxt s y : h_rcx (hr s) = P PCtx -> 0 <= nxt < 2 ^ 32 -> 0 <= eip (ctx s) < 2 ^ 32 ->
  meets (yrun E (yhost [MOV c_eip (i32 nxt)] ++ [YCall HHlt] ++ yhost [ILink]) s y) s (RLeave (fst (y_help E HHlt 0 0 (at_eip nxt (guest_view s y))))).
Proof.
  intros Hcx Hn He.
  assert (Q : exists s1, run (y_host E) [MOV c_eip (i32 nxt)] s = Done s1 /\ h_rcx (hr s1) = P PCtx /\ guest_view s1 y = at_eip nxt (guest_view s y) /\ masked s1 = masked s).
  { assert (PE : putw W32 (eip (ctx s)) (getw W32 nxt) = nxt).
    { apply Z.bits_inj'. intros n Hnn. rewrite putw_testbit by lia. destruct (n <? wbits W32) eqn:L.
      - rewrite getw_testbit by lia. rewrite L. now rewrite ?andb_true_r, ?andb_true_l.
      - assert (HI : forall z, 0 <= z < 2 ^ 32 -> Z.testbit z n = false).
        { intros z Hz. rewrite <- (Z.mod_small z (2 ^ 32)) by lia. apply Z.mod_pow2_bits_high. cbn [wbits] in L. lia. }
        now rewrite !HI. }
    start_state s Hcx. unfold run. expand_list. sym'. cbn [exec]. eexists. split; [reflexivity |]. split; [reflexivity |]. split; [| reflexivity].
    unfold guest_view, at_eip. cbn [ctx gmem v_ctx v_mem v_sys set_eip gprs segb eflags res aux cr4 gsel]. now rewrite PE. }
  destruct Q as (s1 & Q & C1 & V1 & K1). rewrite (yhost_run _ _ _ _ _ _ Q).
  destruct (call_step E HHlt s1 y C1) as (s2 & C2 & X2 & M2 & K2 & A2 & R2). cbn [args fst snd] in *. rewrite V1 in *.
  cbn [app]. rewrite R2. cbn [yhost map yexec exec step]. eexists _, _. split; [reflexivity |]. unfold shows. rewrite X2, M2. split; [apply ctx_eq_refl |]. repeat split. congruence.
Qed.
