(** * Returns and far transfers *)

From Coq Require Import ZArith Bool List Lia ZifyBool.
From Verif Require Import HostModel AluModel AluSpec StackModel StackSpec MoveModel MoveSpec HostProofs LazyFlagsProofs
  FlagsApiProofs FlagArith SymExec EaProofs AluProofs AluForms UnaryProofs XchgProofs CondProofs FlagInstrProofs
  LahfProofs StackProofs StackProofs2 MoveProofs MoveProofs2 MoveProofs3.
Import ListNotations.
Local Open Scope Z_scope.

Lemma first_bad_app E l1 l2 :
  first_bad E (l1 ++ l2) = match first_bad E l1 with Some x => Some x | None => first_bad E l2 end.
Proof. induction l1 as [| [[? ?] ?] l1 IH]; cbn; [reflexivity |]. destruct (e_fault E _ _ _); auto. Qed.

(** ** Two pushes *)

Definition two_pushes (k : stk) (cs ret : Z) : list instr := emit_push true (Some cs) k ++ emit_push true (Some ret) k.

Lemma set_gprs_twice a b c : set_gprs a (set_gprs b c) = set_gprs a c.
Proof. reflexivity. Qed.

Lemma two_pushes_ok E k cs ret s :
  h_rcx (hr s) = P PCtx -> stk_ok k (ctx s) ->
  e_fault E true (slot k (- k_n k) (ctx s)) (k_n k) = false ->
  e_fault E true (slot k (-2 * k_n k) (ctx s)) (k_n k) = false ->
  exists s', run E (two_pushes k cs ret) s = Done s' /\ h_rcx (hr s') = P PCtx /\ gmem s' = far_frame k cs ret s /\
    masked s' = masked s /\ loc s' = loc s /\
    exists g, ctx s' = set_gprs g (ctx s) /\ (forall r, g r = moved k (-2 * k_n k) (ctx s) r).
Proof.
  intros Hcx Hk F1 F2. unfold two_pushes.
  pose proof (push_run E k (Some cs) s _ Hcx Hk eq_refl) as P. cbv zeta in P. rewrite F1 in P.
  destruct P as (s1 & R & P1 & P2 & P3 & P4 & P5). rewrite (run_seq _ _ _ _ _ R). clear R.
  fold (moved k (- k_n k) (ctx s)) in P4.
  assert (Hk1 : stk_ok k (ctx s1)) by (rewrite P4; exact Hk).
  pose proof (push_run E k (Some ret) s1 _ P1 Hk1 eq_refl) as P. cbv zeta in P.
  fold (moved k (- k_n k) (ctx s1)) in P. rewrite P4, slot_moved, set_gprs_twice in P.
  replace (- k_n k + - k_n k) with (-2 * k_n k) in P by lia. rewrite F2 in P.
  destruct P as (s2 & R & Q1 & Q2 & Q3 & Q4 & Q5). exists s2. split; [exact R |]. split; [exact Q1 |].
  split; [rewrite Q2, P2; unfold far_frame; now rewrite !getw_mod |]. split; [congruence |]. split; [congruence |].
  eexists. split; [exact Q4 |]. intros r. rewrite moved_moved. f_equal. lia.
Qed.

(** after the pushes *)
Lemma lands_far s s1 s' g m sel ip :
  (exists g0, ctx s1 = set_gprs g0 (ctx s) /\ (forall r, g0 r = g r)) -> masked s1 = masked s -> gmem s1 = m ->
  lands s1 s' (far s1 (gprs (ctx s1)) (gmem s1) sel ip) -> lands s s' (far s g m sel ip).
Proof.
  intros (g0 & Hc & Hg) Hm Hmem Q. apply (lands_from s s1); try (rewrite Hc; reflexivity).
  destruct Q as (A & B & C & D & F & G & H & I & J).
  unfold far in *. cbn [l_regs l_mem l_ip l_base l_sel l_shadow] in *. rewrite Hc in *. cbn [gprs segb gsel set_gprs] in *.
  unfold lands. cbn [l_regs l_mem l_ip l_base l_sel l_shadow].
  split; [intros r; now rewrite A, Hg |]. split; [intros x; now rewrite B, Hmem |]. rewrite Hc, G, Hm. auto 10.
Qed.

Lemma callf_ok E k cs ret sel off s :
  h_rcx (hr s) = P PCtx -> ctx_ok (ctx s) -> stk_ok k (ctx s) -> frame_whole E k (ctx s) ->
  transfers E (emit_callf k cs ret sel off) s (call_acc k (ctx s))
    (far s (moved k (-2 * k_n k) (ctx s)) (far_frame k cs ret s) (sel mod 2 ^ 16) (off mod modulus (k_w k))).
Proof.
  intros Hcx Hok Hk Hf. unfold emit_callf. destruct (e_fault E true (slot k (- k_n k) (ctx s)) (k_n k)) eqn:F1.
  - pose proof (push_run E k (Some cs) s _ Hcx Hk eq_refl) as P. cbv zeta in P. rewrite F1 in P.
    destruct P as (s1 & R & U). eapply transfers_fault; [exact R | exact U |]. unfold call_acc. cbn [first_bad]. now rewrite F1.
  - destruct Hf as [Hf | F2]; [congruence |]. rewrite app_assoc. fold (two_pushes k cs ret).
    destruct (two_pushes_ok E k cs ret s Hcx Hk F1 F2) as (s1 & R & P1 & P2 & P3 & P4 & P5).
    unfold transfers, call_acc. cbn [first_bad]. rewrite F1, F2, (run_seq _ _ _ _ _ R).
    assert (Hok1 : ctx_ok (ctx s1)) by (destruct P5 as (g & -> & _); exact Hok).
    pose proof (jmpf_ok E (k_w k) sel off s1 P1 Hok1 (proj1 Hk)) as J. unfold transfers in J. cbn [first_bad] in J.
    destruct J as (s2 & R2 & Q). exists s2. split; [exact R2 |]. exact (lands_far s s1 s2 _ _ _ _ P5 P3 P2 Q).
Qed.

Lemma callf_tail E s cs0 ip0 :
  h_rcx (hr s) = P PCtx -> ctx_ok (ctx s) -> getw W16 (loc s 0%nat) = cs0 -> getw W32 (loc s 1%nat) = ip0 ->
  exists s', run E [MOV AX (local W16 0); MOV hEDX (local W32 1); MOV (c_sel CS) AX; MOV c_eip hEDX; MOVZX hEAX AX;
      SHL hEAX 4; MOV (c_segb CS) hEAX; ILink] s = Left s' /\
    lands s s' (far s (gprs (ctx s)) (gmem s) cs0 ip0).
Proof.
  intros Hcx Hok Ha Hb. start_state s Hcx. unfold run; expand_list; sym'. landed Hok; rewrite ?Ha, ?Hb.
  - apply putw32_mod.
  - intros x; unfold put_seg; destruct (sreg_eqb x CS) eqn:Q; destruct x; try discriminate Q; try reflexivity.
    rewrite putw32_mod, ?getw32_mod, shl4.
    rewrite <- Ha, get16_32. reflexivity.
  - intros x; unfold put_seg; destruct (sreg_eqb x CS) eqn:Q; destruct x; try discriminate Q; try reflexivity.
    apply putw16_mod.
Qed.

Lemma callf_m_ok E m k cs ret s :
  h_rcx (hr s) = P PCtx -> ctx_ok (ctx s) -> stk_ok k (ctx s) -> memop_ok m (ctx s) -> frame_whole E k (ctx s) ->
  let a := ea m (ctx s) in
  transfers E (emit_callf_m m k cs ret) s (far_acc (k_w k) a ++ call_acc k (ctx s))
    (far s (moved k (-2 * k_n k) (ctx s)) (far_frame k cs ret s) (far_sel (k_w k) a s) (far_off (k_w k) a s)).
Proof.
  intros Hcx Hok Hk Hm Hf a. pose proof (farptr_run E m (k_w k) s Hcx Hm (proj1 Hk)) as S. cbv zeta in S. fold a in S.
  unfold emit_callf_m.
  destruct (first_bad E (far_acc (k_w k) a)) as [[[wr a'] n] |] eqn:F.
  - destruct S as (s1 & R & U). eapply transfers_fault; [exact R | exact U |]. now rewrite first_bad_app, F.
  - destruct S as (s1 & R & S & V1 & V2). eapply transfers_scratch; [exact R | exact S |].
    assert (R2 : exists s2, run E [MOV (local W16 0) AX; MOV (local W32 1) hEBX] s1 = Done s2 /\ scratch s1 s2 /\
      getw W16 (loc s2 0%nat) = getw W16 (num E (h_rax (hr s1))) /\ getw W32 (loc s2 1%nat) = getw W32 (num E (h_rbx (hr s1)))).
    { pose proof S as (S1 & _). clear - S1. start_state s1 S1. unfold run; expand_list; sym'. eexists.
      split; [reflexivity |]. split; [repeat split |]. cbn [loc Nat.eqb hr h_rax h_rbx num].
      rewrite !getw_putw, !getw_idem. split; reflexivity. }
    destruct R2 as (s2 & R2 & S2 & L1 & L2). rewrite V2 in L1. rewrite V1 in L2.
    eapply transfers_scratch; [exact R2 | exact S2 |].
    assert (S' : scratch s s2).
    { destruct S as (A & B & C & D), S2 as (A2 & B2 & C2 & D2). repeat split; congruence. }
    destruct S' as (A & B & C & D). clear R R2 S S2 V1 V2.
    assert (Hk2 : stk_ok k (ctx s2)) by (now rewrite B).
    assert (Hmv : far_frame k cs ret s2 = far_frame k cs ret s) by (unfold far_frame; now rewrite B, C).
    destruct (e_fault E true (slot k (- k_n k) (ctx s)) (k_n k)) eqn:F1.
    + pose proof (push_run E k (Some cs) s2 _ A Hk2 eq_refl) as P. cbv zeta in P. rewrite B, F1 in P.
      destruct P as (s3 & R & U). eapply transfers_fault; [exact R | exact U |].
      rewrite first_bad_app, F. unfold call_acc. cbn [first_bad]. now rewrite F1.
    + destruct Hf as [Hf | F2]; [congruence |]. rewrite app_assoc. fold (two_pushes k cs ret).
      rewrite <- B in F1, F2.
      destruct (two_pushes_ok E k cs ret s2 A Hk2 F1 F2) as (s3 & R & P1 & P2 & P3 & P4 & P5).
      unfold transfers, call_acc. rewrite B in F1, F2. rewrite first_bad_app, F. cbn [first_bad]. rewrite F1, F2, (run_seq _ _ _ _ _ R).
      assert (Hok1 : ctx_ok (ctx s3)) by (destruct P5 as (g & -> & _); rewrite B; exact Hok).
      rewrite <- P4 in L1, L2.
      destruct (callf_tail E s3 _ _ P1 Hok1 L1 L2) as (s4 & R2 & Q). exists s4. split; [exact R2 |].
      pose proof (lands_far s2 s3 s4 _ _ _ _ P5 P3 P2 Q) as Q'. rewrite Hmv in Q'.
      unfold far in *. rewrite B, D in Q'. exact Q'.
Qed.

(** ** Returns *)

Lemma release_ok E k imm s d c :
  h_rcx (hr s) = P PCtx -> (exists c1, ctx s = set_gprs (moved k d c) c1) -> ctx_ok (ctx s) ->
  exists s', run E (emit_release k imm ++ [ILink]) s = Left s' /\ (forall r, gprs (ctx s') r = moved k (d + released imm) c r) /\
    gmem s' = gmem s /\ masked s' = masked s /\
    exists g, ctx s' = set_gprs g (ctx s).
Proof.
  intros Hcx (c1 & Hc) Hok. destruct imm as [n |]; cbn [emit_release released app].
  2:{ exists s. split; [reflexivity |]. rewrite Hc, Z.add_0_r. repeat split. exists (moved k d c). reflexivity. }
  assert (R : exists s1, run E [MOV (Rg (k_sp k) RAX) (k_esp k); ADD (Rg (k_sp k) RAX) (Im (k_sp k) n);
     MOV (k_esp k) (Rg (k_sp k) RAX)] s = Done s1 /\ gmem s1 = gmem s /\ masked s1 = masked s /\
     ctx s1 = set_gprs (set_sp k (sp_off k n (ctx s)) (gprs (ctx s))) (ctx s)).
  { clear - Hcx. unfold sp_off. rewrite <- (sp_word k (gprs (ctx s)) n). start_state s Hcx. unfold k_esp, set_sp.
    destruct k as [w [|] z]; cbn [k_sp k_ss32]; unfold run; expand_list; sym'; eexists;
    (split; [reflexivity |]); cbn [ctx gmem masked gprs]; repeat split. }
  destruct R as (s1 & R & A & B & C).
  change ([MOV (Rg (k_sp k) RAX) (k_esp k); ADD (Rg (k_sp k) RAX) (Im (k_sp k) n); MOV (k_esp k) (Rg (k_sp k) RAX); ILink])
    with ([MOV (Rg (k_sp k) RAX) (k_esp k); ADD (Rg (k_sp k) RAX) (Im (k_sp k) n); MOV (k_esp k) (Rg (k_sp k) RAX)] ++ [ILink]).
  rewrite (run_seq _ _ _ _ _ R). exists s1. split; [reflexivity |].
  split; [| split; [exact A | split; [exact B | eexists; exact C]]].
  intros r. rewrite C. cbn [gprs set_gprs]. rewrite Hc.
  change (sp_off k n (set_gprs (moved k d c) c1)) with (sp_off k n (set_gprs (moved k d c) c)).
  fold (moved k n (set_gprs (moved k d c) c)).
  change (gprs (set_gprs (moved k d c) c1)) with (gprs (set_gprs (moved k d c) c)).
  apply moved_moved.
Qed.

Lemma ret_ok E k imm s :
  h_rcx (hr s) = P PCtx -> ctx_ok (ctx s) -> stk_ok k (ctx s) ->
  transfers E (emit_ret k imm) s [(false, slot k 0 (ctx s), k_n k)]
    (near s (moved k (k_n k + released imm) (ctx s)) (gmem s) (top_of k 0 s)).
Proof.
  intros Hcx Hok Hk. pose proof (pop_run E k true s Hcx Hk) as P. cbv zeta in P. unfold emit_ret.
  destruct (e_fault E false _ _) eqn:F.
  - destruct P as (s1 & R & U). eapply transfers_fault; [exact R | exact U | cbn [first_bad]; now rewrite F].
  - destruct P as (s1 & R & P1 & P2 & P3 & P4 & P5 & P6 & P7). fold (moved k (k_n k) (ctx s)) in P7.
    unfold transfers. cbn [first_bad]. rewrite F, (run_seq _ _ _ _ _ R). clear R F.
    assert (R2 : exists s2 ip, run E ((match k_w k with W16 => [MOVZX R8D R8W] | _ => [] end) ++ [MOV c_eip R8D]) s1 = Done s2 /\
      h_rcx (hr s2) = P PCtx /\ ctx s2 = set_eip ip (ctx s1) /\ ip mod 2 ^ 32 = top_of k 0 s mod 2 ^ 32 /\
      gmem s2 = gmem s1 /\ masked s2 = masked s1).
    { unfold top_of. rewrite <- P5. clear - P1 Hk. destruct Hk as [Hw _]. start_state s1 P1. destruct Hw as [-> | ->]; unfold run; expand_list; sym';
      do 2 eexists; (split; [reflexivity |]); split; [reflexivity | split; [reflexivity |] | reflexivity | split; [reflexivity |]];
      (split; [| split; reflexivity]); rewrite putw32_mod, ?getw32_mod; reflexivity. }
    destruct R2 as (s2 & ip & R2 & A & B & C & D & G). rewrite app_assoc, (run_seq _ _ _ _ _ R2).
    assert (Hok2 : ctx_ok (ctx s2)) by (rewrite B, P7; exact Hok).
    destruct (release_ok E k imm s2 (k_n k) (ctx s) A ltac:(eexists (set_eip ip (ctx s)); rewrite B, P7; reflexivity) Hok2)
      as (s3 & R3 & H1 & H2 & H3 & g & H4).
    exists s3. split; [exact R3 |]. rewrite B, P7 in H4.
    apply lands_intro; cbn [near l_regs l_mem l_ip l_base l_sel l_shadow]; rewrite ?H4, ?H2, ?D, ?P2; try reflexivity;
      try assumption; try congruence.
Qed.

Lemma pop2_run E k s :
  h_rcx (hr s) = P PCtx -> stk_ok k (ctx s) ->
  match first_bad E [(false, slot k 0 (ctx s), k_n k); (false, slot k (k_n k) (ctx s), k_n k)] with
  | Some (wr, a, n) => exists s', run E (emit_pop2 k) s = Fault wr a n s' /\ untouched s s'
  | None => exists s', run E (emit_pop2 k) s = Done s' /\ h_rcx (hr s') = P PCtx /\ gmem s' = gmem s /\ masked s' = masked s /\
      getw (k_w k) (loc s' 0%nat) = top_of k 0 s /\ getw (k_w k) (loc s' 1%nat) = top_of k (k_n k) s /\
      ctx s' = set_gprs (moved k (2 * k_n k) (ctx s)) (ctx s)
  end.
Proof.
  intros Hcx Hk. unfold emit_pop2. cbn [first_bad].
  destruct (load_sp E k s Hcx) as (s1 & R1 & (A1 & B1 & C1 & D1) & Hb). rewrite (run_seq _ _ _ _ _ R1). clear R1.
  assert (Hk1 : stk_ok k (ctx s1)) by (now rewrite B1). rewrite <- B1 in Hb.
  (* one load to a local *)
  assert (ONE : forall i s d, h_rcx (hr s) = P PCtx -> stk_ok k (ctx s) ->
    getw (k_sp k) (num E (h_rbx (hr s))) = sp_off k d (ctx s) ->
    let l := emit_slot k ++ [ILoad (k_w k); MOV (local (k_w k) i) (Rg (k_w k) RAX); ADD (k_bx k) (Im (k_sp k) (k_n k))] in
    if e_fault E false (slot k d (ctx s)) (k_n k) then
      exists s', run E l s = Fault false (slot k d (ctx s)) (k_n k) s' /\ untouched s s'
    else exists s', run E l s = Done s' /\ scratch s s' /\ getw (k_w k) (loc s' i) = top_of k d s /\
      (forall j, j <> i -> loc s' j = loc s j) /\ getw (k_sp k) (num E (h_rbx (hr s'))) = sp_off k (d + k_n k) (ctx s)).
  { clear - E k. intros i s d Hcx Hk Hb l. unfold l, top_of. clear l.
    destruct (slot_run E k s _ Hcx (proj2 Hk) Hb) as [f R]. rewrite (run_seq _ _ _ _ _ R). clear R.
    fold (slot k d (ctx s)). rewrite <- (sp_off_step k d (k_n k) _ _ Hb).
    pose proof (slot32 k d (ctx s)) as Ha. set (a := slot k d (ctx s)) in *. clearbody a. clear Hb. destruct Hk as [Hw _].
    start_state s Hcx.
    destruct (e_fault E false a (k_n k)) eqn:F; destruct k as [w [|] z]; unfold k_n, k_sp in *; cbn [k_w k_ss32] in *;
    destruct Hw as [-> | ->]; unfold run; expand_list; sym'; access_at Ha; sym'; cbn [exec];
    (eexists; split; [reflexivity |]); try (repeat split; fail); (split; [repeat split |]); cbn [loc hr h_rbx num];
    rewrite Nat.eqb_refl, ?getw_putw, ?getw_setw, ?getw_idem, ?getw_mload; (split; [reflexivity |]); split; try reflexivity;
    intros j Hj; apply Nat.eqb_neq in Hj; cbv [Nat.eqb] in Hj; now rewrite Hj. }
  pose proof (ONE 0%nat s1 0 A1 Hk1 Hb) as P. cbv zeta in P.
  destruct (e_fault E false (slot k 0 (ctx s)) (k_n k)) eqn:F1; rewrite B1, F1 in P.
  - destruct P as (s2 & R & U1 & U2 & U3). exists s2. rewrite app_assoc. split; [now apply run_fault |]. repeat split; congruence.
  - destruct P as (s2 & R & (A2 & B2 & C2 & D2) & L2 & _ & Hb2). rewrite (app_assoc (emit_slot k)), (run_seq _ _ _ _ _ R). clear R.
    assert (Hk2 : stk_ok k (ctx s2)) by (now rewrite B2). rewrite <- B1, <- B2, Z.add_0_l in Hb2.
    pose proof (ONE 1%nat s2 (k_n k) A2 Hk2 Hb2) as P. cbv zeta in P. clear ONE.
    destruct (e_fault E false (slot k (k_n k) (ctx s)) (k_n k)) eqn:F2; rewrite B2, B1, F2 in P.
    + destruct P as (s3 & R & U1 & U2 & U3). exists s3. rewrite app_assoc. split; [now apply run_fault |]. repeat split; congruence.
    + destruct P as (s3 & R & (A3 & B3 & C3 & D3) & L3 & Lj & Hb3). rewrite (app_assoc (emit_slot k)), (run_seq _ _ _ _ _ R). clear R.
      assert (Hsp : k_sp k = W16 \/ k_sp k = W32) by (unfold k_sp; destruct (k_ss32 k); auto).
      destruct (put_reg E (k_sp k) false ESP RBX s3 Hsp (or_intror (or_introl eq_refl)) A3) as (s4 & R4 & A4 & B4 & C4 & D4 & F4 & G4).
      exists s4. split; [exact R4 |]. split; [exact A4 |]. split; [congruence |]. split; [congruence |].
      rewrite F4. split; [rewrite (Lj 0%nat) by discriminate; rewrite L2; unfold top_of; now rewrite B1, C1 |].
      split; [rewrite L3; unfold top_of; now rewrite B2, B1, C2, C1 |].
      rewrite G4. cbn [rget]. rewrite Hb3, B3, B2, B1. unfold moved, set_sp. replace (k_n k + k_n k) with (2 * k_n k) by lia. reflexivity.
Qed.

Lemma retf_ok E k imm s :
  h_rcx (hr s) = P PCtx -> ctx_ok (ctx s) -> stk_ok k (ctx s) ->
  transfers E (emit_retf k imm) s [(false, slot k 0 (ctx s), k_n k); (false, slot k (k_n k) (ctx s), k_n k)]
    (far s (moved k (2 * k_n k + released imm) (ctx s)) (gmem s) (top_of k (k_n k) s mod 2 ^ 16) (top_of k 0 s)).
Proof.
  intros Hcx Hok Hk. pose proof (pop2_run E k s Hcx Hk) as P. unfold emit_retf.
  destruct (first_bad E _) as [[[wr a] n] |] eqn:F.
  - destruct P as (s1 & R & U). eapply transfers_fault; [exact R | exact U | exact F].
  - destruct P as (s1 & R & P1 & P2 & P3 & P4 & P5 & P6).
    unfold transfers. rewrite F, (run_seq _ _ _ _ _ R). clear R F.
    assert (R2 : exists s2, run E
       [match k_w k with W16 => MOVZX R11D (local W16 0) | _ => MOV R11D (local W32 0) end;
        MOV R10W (local W16 1); MOV c_eip R11D; MOV (c_sel CS) R10W; MOVZX hEAX R10W; SHL hEAX 4; MOV (c_segb CS) hEAX] s1 = Done s2 /\
      h_rcx (hr s2) = P PCtx /\ ctx s2 = set_segb (segb (ctx s2)) (set_gsel (gsel (ctx s2)) (set_eip (eip (ctx s2)) (ctx s1))) /\
      eip (ctx s2) mod 2 ^ 32 = getw (k_w k) (loc s1 0%nat) mod 2 ^ 32 /\
      (forall r, segb (ctx s2) r mod 2 ^ 32 = put_seg CS (16 * getw W16 (loc s1 1%nat)) (segb (ctx s1)) r mod 2 ^ 32) /\
      (forall r, gsel (ctx s2) r mod 2 ^ 16 = put_seg CS (getw W16 (loc s1 1%nat)) (gsel (ctx s1)) r mod 2 ^ 16) /\
      gmem s2 = gmem s1 /\ masked s2 = masked s1).
    { clear - P1 Hk. destruct Hk as [Hw _]. start_state s1 P1. destruct Hw as [-> | ->]; unfold run; expand_list; sym';
      (eexists; split; [reflexivity |]; split; [reflexivity |]; split; [reflexivity |]); cbn [ctx eip segb gsel gmem masked];
      (split; [rewrite putw32_mod, ?getw32_mod, ?get16_32; reflexivity |]);
      (split; [| split; [| split; reflexivity]]);
      intros x; unfold put_seg; destruct (sreg_eqb x CS) eqn:Q; destruct x; try discriminate Q; try reflexivity;
      rewrite ?putw32_mod, ?putw16_mod, ?getw32_mod, ?shl4, ?get16_32; reflexivity. }
    destruct R2 as (s2 & R2 & A & B & C & C2 & C3 & D & G). rewrite (run_seq _ _ _ _ _ R2).
    set (ip := eip (ctx s2)) in *. set (b := segb (ctx s2)) in *. set (sl := gsel (ctx s2)) in *. clearbody ip b sl.
    assert (Hok2 : ctx_ok (ctx s2)) by (rewrite B, P6; exact Hok).
    destruct (release_ok E k imm s2 (2 * k_n k) (ctx s) A
      ltac:(eexists (set_segb b (set_gsel sl (set_eip ip (ctx s)))); rewrite B, P6; reflexivity) Hok2)
      as (s3 & R3 & H1 & H2 & H3 & g & H4).
    exists s3. split; [exact R3 |]. rewrite B, P6 in H4. rewrite P6 in C2, C3. rewrite P4 in C.
    assert (V : getw W16 (loc s1 1%nat) = top_of k (k_n k) s mod 2 ^ 16).
    { rewrite <- P5, <- (getw_mod W16). destruct Hk as [[-> | ->] _]; unfold getw; cbn [wmask]; now rewrite <- ?Z.land_assoc. }
    rewrite V in C2, C3.
    apply lands_intro; cbn [far l_regs l_mem l_ip l_base l_sel l_shadow]; rewrite ?H4, ?H2, ?D, ?P2; try reflexivity;
      try assumption; try congruence.
Qed.
