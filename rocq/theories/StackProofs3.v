From Coq Require Import ZArith Bool List Lia ZifyBool.
From Verif Require Import HostModel AluModel AluSpec StackModel StackSpec HostProofs LazyFlagsProofs FlagsApiProofs
  FlagArith SymExec EaProofs AluProofs AluForms UnaryProofs XchgProofs CondProofs FlagInstrProofs LahfProofs StackProofs.
From Verif Require Import StackProofs2.
Import ListNotations.
Local Open Scope Z_scope.

(** ** POPF *)

Lemma popf_tail_run E mask nxt s v :
  h_rcx (hr s) = P PCtx -> getw W32 (num E (h_rbx (hr s))) = v ->
  exists s' e r a i, run E (emit_popf_tail mask nxt) s = Left s' /\ gmem s' = gmem s /\ masked s' = masked s /\
    ctx s' = mkg (gprs (ctx s)) (segb (ctx s)) e i r a (cr4 (ctx s)) (gsel (ctx s)) /\ w32 i = w32 nxt /\
    w32 e = Z.lor (Z.lor (Z.land (w32 (eflags (ctx s))) (w32 (Z.lnot mask))) (Z.land v (w32 mask))) 2 /\
    lazy_flags r a = flags_of_eflags v.
Proof.
  intros Hcx Hv. start_state s Hcx. unfold emit_popf_tail, run. expand_list. sym.
  do 5 eexists. split; [reflexivity |]. split; [reflexivity |]. split; [reflexivity |]. split; [reflexivity |].
  rewrite Hv. split; [rewrite w32_putw; apply w32_getw |]. split.
  - rewrite w32_putw, w32_getw, <- Hv. change w32 with (getw W32).
    apply Z.bits_inj'. intros n Hn.
    repeat (first [rewrite getw_testbit by exact Hn | rewrite Z.lor_spec | rewrite Z.land_spec]).
    change (getw W32 2) with 2. cbn [wbits]. destruct (Z.ltb_spec n 32) as [L | L].
    + now rewrite !andb_true_r.
    + rewrite !andb_false_r. change 2 with (w32 2). now rewrite w32_hi by exact L.
  - assert (HV : forall i, 0 <= i < 32 -> Z.testbit (num E rbx) i = Z.testbit v i).
    { intros i Hi. rewrite <- Hv, getw_testbit by lia. cbn [wbits]. replace (i <? 32) with true by lia. now rewrite andb_true_r. }
    assert (HR : getw W32 (Z.land (getw W32 (Z.lnot (getw W32 (0 + Z.shiftl (num E rbx) 2 + 0)))) (getw W32 256))
      = if Z.testbit v 6 then 0 else 256).
    { rewrite Z.add_0_r, Z.add_0_l. change (getw W32 256) with (2 ^ 8). rewrite one_bit by lia.
      match goal with |- getw _ (if ?b then _ else _) = _ => replace b with (negb (Z.testbit v 6)) end.
      - destruct (Z.testbit v 6); reflexivity.
      - hbits. rewrite HV by lia. reflexivity. }
    rewrite HR. clear HR HV. clear Hv.
    unfold lazy_flags, flags_of_eflags. f_equal.
    + hbits. reflexivity.
    + rewrite <- (negb_involutive (Z.testbit v 2)); f_equal. unfold odd_ones. destruct (Z.testbit v 6) eqn:A6; hbits; reflexivity.
    + hbits. reflexivity.
    + rewrite w32_putw. destruct (Z.testbit v 6); reflexivity.
    + destruct (Z.testbit v 6) eqn:A6; hbits; reflexivity.
    + hbits. destruct (Z.testbit v 0); destruct (Z.testbit v 11); reflexivity.
Qed.

Lemma land_status e : Z.land e STATUS = status_word (flags_of_eflags e).
Proof.
  change STATUS with (Z.lor 0xD5 (2 ^ 11)). rewrite Z.land_lor_distr_r, land_flags, one_bit by lia.
  unfold status_word, flags_of_eflags, flag_byte. cbn [f_cf f_pf f_af f_zf f_sf f_of].
  destruct (Z.testbit e 0), (Z.testbit e 2), (Z.testbit e 4), (Z.testbit e 6), (Z.testbit e 7), (Z.testbit e 11); reflexivity.
Qed.

(** reading the flags back *)
Lemma popf_read c e i r a v mask :
  ctx_ok c -> 0 <= mask < 2 ^ 32 -> Z.land mask STATUS = 0 ->
  w32 e = Z.lor (Z.lor (Z.land (w32 (eflags c)) (w32 (Z.lnot mask))) (Z.land v (w32 mask))) 2 ->
  lazy_flags r a = flags_of_eflags v ->
  let c' := mkg (gprs c) (segb c) e i r a (cr4 c) (gsel c) in
  ctx_ok c' /\
  read_eflags c' = Z.lor (Z.lor (Z.land (read_eflags c) (w32 (Z.lnot (Z.lor mask STATUS)))) (Z.land v (Z.lor mask STATUS))) 2.
Proof.
  intros Hok Hm Hs He Hl c'.
  assert (W : forall x, Z.land (w32 x) STATUS = Z.land x STATUS) by (intros; apply w32_land_const; unfold STATUS; lia).
  assert (Mw : w32 mask = mask) by (apply getw32_small; exact Hm).
  assert (K : ctx_ok c').
  { unfold ctx_ok, c'; cbn [eflags]. rewrite <- W, He, !Z.land_lor_distr_l, Mw.
    rewrite <- !Z.land_assoc, Hs. rewrite (Z.land_comm (w32 (Z.lnot mask))), Z.land_assoc, W.
    unfold ctx_ok in Hok. rewrite Hok, Z.land_0_l, Z.land_0_r. reflexivity. }
  split; [exact K |].
  rewrite (read_parts c' K), (read_flags c' K). unfold c'; cbn [eflags res aux]. rewrite Hl, He, <- land_status, Mw.
  rewrite (read_parts c Hok) at 1. rewrite <- land_status.
  apply Z.bits_inj'. intros n Hn. rewrite !Z.lor_spec, !Z.land_spec, !Z.lor_spec, !Z.land_spec.
  destruct (Z.ltb_spec n 32) as [L | L].
  - rewrite !w32_bit, !Z.lnot_spec, !Z.lor_spec by lia.
    pose proof (f_equal (fun z => Z.testbit z n) Hok) as Q. cbn beta in Q. rewrite Z.land_spec, Z.bits_0 in Q.
    destruct (Z.testbit (eflags c) n), (Z.testbit mask n), (Z.testbit v n), (Z.testbit STATUS n), (Z.testbit 2 n),
      (Z.testbit (read_eflags c) n); cbn in *; congruence.
  - rewrite !w32_hi by exact L. cbn [andb orb].
    replace (Z.testbit STATUS n) with false by (symmetry; change STATUS with (w32 STATUS); now apply w32_hi).
    rewrite !andb_false_r, !orb_false_r. reflexivity.
Qed.

Lemma load_ebx E k s : k_w k = W16 \/ k_w k = W32 -> h_rcx (hr s) = P PCtx ->
  exists s1, run E [ebx_of_r8 k] s = Done s1 /\ scratch s s1 /\
    getw W32 (num E (h_rbx (hr s1))) = getw (k_w k) (num E (h_r8 (hr s))).
Proof.
  intros Hw Hcx. unfold ebx_of_r8. start_state s Hcx. destruct Hw as [-> | ->]; unfold run; expand_list; sym.
  - eexists. split; [reflexivity |]. split; [repeat split |]. cbn [h_rbx hr num setw]. change (Z.land (getw W16 (num E r8)) 4294967295) with (getw W32 (getw W16 (num E r8))).
    apply Z.bits_inj'. intros n Hn.
    repeat (first [rewrite getw_testbit by exact Hn | rewrite Z.lor_spec | rewrite Z.land_spec]); cbn [wbits].
    destruct (Z.ltb_spec n 16); [replace (n <? 32) with true by lia |]; rewrite ?andb_true_r, ?andb_false_r, ?orb_false_r; reflexivity.
  - eexists. split; [reflexivity |]. split; [repeat split |]. cbn [h_rbx hr num]. first [exact (w32_getw _) | etransitivity; [exact (w32_getw _) | exact (w32_getw _)] ].
Qed.

Definition popf_hard (f : fmode) (w : width) : Z :=
  let m1 := if fm_vm86 f then Z.lor popf_base IF_MASK
            else if fm_cpl f =? 0 then Z.lor popf_base (Z.lor IOPL_MASK IF_MASK)
            else if fm_cpl f <=? fm_iopl f then Z.lor popf_base IF_MASK else popf_base in
  match w with W32 => Z.lor m1 (Z.lor ID_MASK AC_MASK) | _ => m1 end.

Lemma popf_hard_ok f w : 0 <= fm_cpl f -> 0 <= fm_iopl f -> (fm_vm86 f = true -> fm_cpl f = 3 /\ fm_iopl f = 3) ->
  w = W16 \/ w = W32 ->
  0 <= popf_hard f w < 2 ^ 32 /\ Z.land (popf_hard f w) STATUS = 0 /\ Z.lor (popf_hard f w) STATUS = popf_mask f w.
Proof.
  intros H0 H1 Hv Hw. unfold popf_hard, popf_mask. destruct (fm_vm86 f).
  - destruct (Hv eq_refl) as [-> ->]. destruct Hw as [-> | ->]; cbn; repeat split; reflexivity || discriminate.
  - destruct (Z.eqb_spec (fm_cpl f) 0) as [-> | N].
    + replace (0 <=? fm_iopl f) with true by lia. destruct Hw as [-> | ->]; cbn; repeat split; reflexivity || discriminate.
    + destruct (fm_cpl f <=? fm_iopl f); destruct Hw as [-> | ->]; cbn; repeat split; reflexivity || discriminate.
Qed.

Lemma popf_emit f k nxt : (fm_vm86 f = true -> fm_cpl f = 3 /\ fm_iopl f = 3) -> k_w k = W16 \/ k_w k = W32 ->
  emit_popf f k nxt = emit_pop true k ++ [ebx_of_r8 k] ++ emit_popf_tail (popf_hard f (k_w k)) nxt.
Proof.
  intros Hv Hw. unfold emit_popf, popf_hard. destruct (fm_vm86 f).
  - destruct (Hv eq_refl) as [_ ->]. cbn [Z.eqb Pos.eqb]. destruct Hw as [-> | ->]; reflexivity.
  - destruct Hw as [-> | ->]; reflexivity.
Qed.


Lemma POPF_ok E f k nxt s :
  h_rcx (hr s) = P PCtx -> ctx_ok (ctx s) -> stk_ok k (ctx s) ->
  0 <= fm_cpl f -> 0 <= fm_iopl f -> (fm_vm86 f = true -> fm_cpl f = 3 /\ fm_iopl f = 3) ->
  if e_fault E false (slot k 0 (ctx s)) (k_n k)
  then exists s', run E (emit_popf f k nxt) s = Fault false (slot k 0 (ctx s)) (k_n k) s' /\ untouched s s'
  else exists s', run E (emit_popf f k nxt) s = Left s' /\ popf_done f k nxt s s'.
Proof.
  intros Hcx Hok Hk H0 H1 Hv. rewrite (popf_emit f k nxt Hv (proj1 Hk)).
  pose proof (pop_run E k true s Hcx Hk) as P. cbv zeta in P.
  destruct (e_fault E false _ _).
  - destruct P as (s1 & R & U). exists s1. split; [now apply run_fault | exact U].
  - destruct P as (s1 & R & P1 & P2 & P3 & P4 & P5 & P6 & P7). rewrite (run_seq _ _ _ _ _ R).
    destruct (load_ebx E k s1 (proj1 Hk) P1) as (s2 & R2 & (A1 & A2 & A3 & A4) & V2).
    rewrite (run_seq _ _ _ _ _ R2).
    destruct (popf_hard_ok f (k_w k) H0 H1 Hv (proj1 Hk)) as (M1 & M2 & M3).
    destruct (popf_tail_run E (popf_hard f (k_w k)) nxt s2 _ A1 V2) as (s3 & e & r & a & i & R3 & G1 & G2 & G3 & G4 & G5 & G6).
    exists s3. split; [exact R3 |].
    rewrite A2, P7 in G3, G5. unfold set_gprs in G3, G5. cbn [gprs segb eflags cr4 eip res aux] in G3, G5.
    rewrite P5 in G5, G6.
    destruct (popf_read (set_gprs (set_sp k (sp_off k (k_n k) (ctx s)) (gprs (ctx s))) (ctx s)) e i r a _ _ Hok M1 M2 G5 G6) as [K1 K2].
    unfold popf_done. rewrite G3, M3 in *. unfold set_gprs in K1, K2. cbn [gprs segb eflags cr4 eip res aux] in *.
    split; [exact K1 |]. split; [exact K2 |]. repeat split; congruence.
Qed.

Lemma POPF_trap E f k nxt s :
  (k_w k = W16 \/ k_w k = W32) -> fm_vm86 f = true -> fm_iopl f < 3 -> (k_w k = W32 \/ fm_vme f = false) ->
  gp_fault E (emit_popf f k nxt) s.
Proof.
  intros Hw Hv Hi Hm. unfold gp_fault, emit_popf. rewrite Hv. replace (fm_iopl f =? 3) with false by lia.
  destruct Hw as [Hw | Hw]; rewrite Hw in *.
  - destruct Hm as [Hm | Hm]; [discriminate | rewrite Hm]. eexists. split; [reflexivity | repeat split].
  - eexists. split; [reflexivity | repeat split].
Qed.

(** ** CLI and STI *)

Lemma eflags_change c c' n b :
  ctx_ok c -> n = 9 \/ n = 19 -> res c' = res c -> aux c' = aux c ->
  w32 (eflags c') = (if b : bool then Z.lor (w32 (eflags c)) (2 ^ n) else Z.land (w32 (eflags c)) (w32 (Z.lnot (2 ^ n)))) ->
  ctx_ok c' /\ read_eflags c' = if b then Z.lor (read_eflags c) (2 ^ n) else Z.land (read_eflags c) (w32 (Z.lnot (2 ^ n))).
Proof.
  intros Hok Hn Hr Ha He.
  assert (W : forall x, Z.land (w32 x) STATUS = Z.land x STATUS) by (intros; apply w32_land_const; unfold STATUS; lia).
  assert (K : ctx_ok c').
  { unfold ctx_ok in *. rewrite <- W, He. destruct b.
    - rewrite Z.land_lor_distr_l, W, Hok. destruct Hn as [-> | ->]; reflexivity.
    - rewrite <- Z.land_assoc, (Z.land_comm (w32 (Z.lnot _))), Z.land_assoc, W, Hok. apply Z.land_0_l. }
  split; [exact K |].
  rewrite (read_parts c' K), (read_parts c Hok), (read_flags c' K), (read_flags c Hok), Hr, Ha, He.
  set (st := lazy_flags _ _). destruct b.
  - now rewrite <- !Z.lor_assoc, (Z.lor_comm (2 ^ n)).
  - rewrite Z.land_lor_distr_l. f_equal. destruct st as [f1 f2 f3 f4 f5 f6].
    unfold status_word, flag_byte; cbn [f_cf f_pf f_af f_zf f_sf f_of].
    destruct Hn as [-> | ->]; destruct f1, f2, f3, f4, f5, f6; reflexivity.
Qed.

Lemma cli_go E s n : h_rcx (hr s) = P PCtx -> ctx_ok (ctx s) -> n = 9 \/ n = 19 ->
  exists s', run E [MOV hEDX c_eflags; AND hEDX (i32 (Z.lnot (2 ^ n))); MOV c_eflags hEDX] s = Done s' /\
    flag_set_to n false s s' (masked s).
Proof.
  intros Hcx Hok Hn. unfold flag_set_to. start_state s Hcx.
  destruct Hn as [-> | ->]; unfold run; expand_list; sym; eexists; (split; [reflexivity |]);
    do 8 (split; [reflexivity |]); cbn [ctx].
  - apply (eflags_change _ _ 9 false Hok); auto. cbn [eflags]. rewrite w32_putw, w32_getw. apply getw_land.
  - apply (eflags_change _ _ 19 false Hok); auto. cbn [eflags]. rewrite w32_putw, w32_getw. apply getw_land.
Qed.

Lemma CLI_ok E f s : h_rcx (hr s) = P PCtx -> ctx_ok (ctx s) ->
  if negb (fm_pe f) || (fm_cpl f <=? fm_iopl f) then
    exists s', run E (emit_cli f) s = Done s' /\ flag_set_to 9 false s s' (masked s)
  else if fm_vme f || fm_pvi f then
    exists s', run E (emit_cli f) s = Done s' /\ flag_set_to 19 false s s' (masked s)
  else gp_fault E (emit_cli f) s.
Proof.
  intros Hcx Hok. unfold emit_cli, IF_MASK, VIF_MASK. rewrite ?Z.shiftl_1_l.
  destruct (fm_pe f); cbn [negb orb]; [destruct (fm_cpl f <=? fm_iopl f); [| destruct (fm_vme f || fm_pvi f)] |].
  - apply (cli_go E s 9); auto.
  - apply (cli_go E s 19); auto.
  - eexists. split; [reflexivity | repeat split].
  - apply (cli_go E s 9); auto.
Qed.

Lemma sti_head E s : h_rcx (hr s) = P PCtx ->
  exists s1, run E [MOV hEAX c_eflags; MOV hEDX hEAX] s = Done s1 /\ scratch s s1 /\
    getw W32 (num E (h_rax (hr s1))) = w32 (eflags (ctx s)) /\ getw W32 (num E (h_rdx (hr s1))) = w32 (eflags (ctx s)).
Proof.
  intros Hcx. start_state s Hcx. unfold run; expand_list; sym. eexists. split; [reflexivity |].
  split; [repeat split |]. cbn [h_rax h_rdx hr num ctx eflags]. rewrite ?setw_getw32, ?twice. split; exact (w32_getw _).
Qed.

Lemma sti_tail E s0 s n : h_rcx (hr s) = P PCtx -> ctx_ok (ctx s) -> n = 9 \/ n = 19 ->
  getw W32 (num E (h_rax (hr s))) = w32 (eflags (ctx s)) -> getw W32 (num E (h_rdx (hr s))) = w32 (eflags (ctx s)) ->
  scratch s0 s ->
  exists s', run E ([OR hEAX (i32 (2 ^ n)); MOV c_eflags hEAX] ++ [TEST hEDX (i32 IF_MASK); IJcc CNE 3; IMask; ILab 3]) s = Done s' /\
    flag_set_to n true s0 s' (masked s0 || negb (Z.testbit (eflags (ctx s0)) 9)).
Proof.
  intros Hcx Hok Hn Ha Hd (_ & S1 & S2 & S3). unfold flag_set_to. rewrite <- S1, <- S2, <- S3. clear S1 S2 S3 s0.
  assert (B : Z.land (w32 (eflags (ctx s))) 512 = if Z.testbit (eflags (ctx s)) 9 then 512 else 0).
  { change 512 with (2 ^ 9). rewrite one_bit, w32_bit by lia. reflexivity. }
  start_state s Hcx. cbn [hr h_rax h_rdx ctx eflags] in *.
  destruct Hn as [-> | ->]; unfold run; expand_list; sym'; rewrite ?Hd, ?Ha; change (getw W32 512) with 512; rewrite ?B;
    destruct (Z.testbit ef 9) eqn:F; sym'; eexists; (split; [reflexivity |]); cbn [masked negb orb]; rewrite ?orb_true_r, ?orb_false_r;
    do 8 (split; [reflexivity |]); 
    (apply (eflags_change _ _ 9 true Hok) || apply (eflags_change _ _ 19 true Hok)); auto; cbn [ctx set_masked eflags];
    rewrite w32_putw, w32_getw; first [exact (getw_lor W32 ef 512) | exact (getw_lor W32 ef 524288)].
Qed.

Lemma STI_ok E f s : h_rcx (hr s) = P PCtx -> ctx_ok (ctx s) ->
  let shadow := masked s || negb (Z.testbit (eflags (ctx s)) 9) in
  if negb (fm_pe f) || (fm_cpl f <=? fm_iopl f) then
    exists s', run E (emit_sti f) s = Done s' /\ flag_set_to 9 true s s' shadow
  else if fm_vme f || fm_pvi f then
    if Z.testbit (eflags (ctx s)) 20 then gp_fault E (emit_sti f) s
    else exists s', run E (emit_sti f) s = Done s' /\ flag_set_to 19 true s s' shadow
  else gp_fault E (emit_sti f) s.
Proof.
  intros Hcx Hok shadow. subst shadow. unfold emit_sti. destruct (sti_head E s Hcx) as (s1 & R1 & S1 & A & D).
  rewrite <- (proj1 (proj2 S1)) in A, D. pose proof (proj1 S1) as Hcx1.
  assert (Hok1 : ctx_ok (ctx s1)) by (rewrite (proj1 (proj2 S1)); exact Hok).
  destruct (fm_pe f); cbn [negb orb]; [destruct (fm_cpl f <=? fm_iopl f); [| destruct (fm_vme f || fm_pvi f)] |].
  - rewrite (run_seq _ _ _ _ _ R1). apply (sti_tail E s s1 9); auto.
  - rewrite <- (proj1 (proj2 S1)).
    assert (B : Z.land (w32 (eflags (ctx s1))) 1048576 = if Z.testbit (eflags (ctx s1)) 20 then 1048576 else 0).
    { change 1048576 with (2 ^ 20). rewrite one_bit, w32_bit by lia. reflexivity. }
    destruct (Z.testbit (eflags (ctx s1)) 20) eqn:F.
    + unfold gp_fault, untouched. rewrite (run_seq _ _ _ _ _ R1). destruct S1 as (_ & S1 & S2 & S3). rewrite <- S1, <- S2, <- S3.
      clear - Hcx1 A B. start_state s1 Hcx1. cbn [hr h_rax ctx eflags] in *.
      unfold run; expand_list; sym'. rewrite A. change (getw W32 1048576) with 1048576. rewrite B. sym'.
      eexists. split; [reflexivity | repeat split].
    + rewrite (run_seq _ _ _ _ _ R1).
      assert (G : exists s2, run E [TEST hEAX (i32 VIP_MASK); IJcc CEQ 1; IRaise 13 0; ILab 1] s1 = Done s2 /\ hr s2 = hr s1 /\
        ctx s2 = ctx s1 /\ gmem s2 = gmem s1 /\ masked s2 = masked s1).
      { clear - Hcx1 A B. start_state s1 Hcx1. cbn [hr h_rax ctx eflags] in *.
        unfold run; expand_list; sym'. rewrite A. change (getw W32 1048576) with 1048576. rewrite B. sym'.
        eexists. repeat split. }
      destruct G as (s2 & R2 & G1 & G2 & G3 & G4).
      match goal with |- context [run E ?l s1] =>
        change l with ([TEST hEAX (i32 VIP_MASK); IJcc CEQ 1; IRaise 13 0; ILab 1] ++
          ([OR hEAX (i32 (2 ^ 19)); MOV c_eflags hEAX] ++ [TEST hEDX (i32 IF_MASK); IJcc CNE 3; IMask; ILab 3])) end.
      rewrite (run_seq _ _ _ _ _ R2), (proj1 (proj2 S1)). destruct S1 as (S0 & S1 & S2 & S3).
      apply (sti_tail E s s2 19); rewrite ?G1, ?G2; auto. unfold scratch. rewrite G1, G2, G3, G4. auto.
  - unfold gp_fault. rewrite (run_seq _ _ _ _ _ R1). eexists. split; [reflexivity |].
    destruct S1 as (_ & S1 & S2 & S3). repeat split; assumption.
  - rewrite (run_seq _ _ _ _ _ R1). apply (sti_tail E s s1 9); auto.
Qed.
