(** * ENTER *)

From Coq Require Import ZArith Bool List Lia ZifyBool.
From Verif Require Import HostModel AluModel AluSpec StackModel StackSpec MoveModel MoveSpec HostProofs LazyFlagsProofs
  FlagsApiProofs FlagArith SymExec EaProofs AluProofs AluForms UnaryProofs XchgProofs CondProofs FlagInstrProofs
  LahfProofs StackProofs StackProofs2 MoveProofs MoveProofs2 MoveProofs3 MoveProofs4.
Import ListNotations.
Local Open Scope Z_scope.

Lemma probe_step E w s a tl : getw W32 (num E (h_rdx (hr s))) = a ->
  exec E (IProbe w :: tl) (Done s) =
  if e_fault E true a (wbytes w) then Fault true a (wbytes w) s else exec E tl (Done (clobber E s)).
Proof.
  intros <-. rewrite exec_step. cbn [step]. unfold hval. cbn [rget].
  destruct (e_fault E true _ _); [destruct tl; reflexivity | reflexivity].
Qed.

(** a push through (E)BX *)
Lemma push_bx E k s d v :
  h_rcx (hr s) = P PCtx -> stk_ok k (ctx s) -> getw (k_sp k) (num E (h_rbx (hr s))) = sp_off k d (ctx s) ->
  getw (k_w k) (num E (h_r8 (hr s))) = v ->
  let a := slot k (d - k_n k) (ctx s) in
  if e_fault E true a (k_n k) then
    exists s', run E (emit_push false None k) s = Fault true a (k_n k) s' /\ untouched s s'
  else exists s', run E (emit_push false None k) s = Done s' /\ h_rcx (hr s') = P PCtx /\ ctx s' = ctx s /\ masked s' = masked s /\
    loc s' = loc s /\ gmem s' = mstore (gmem s) (k_w k) a v /\
    getw (k_sp k) (num E (h_rbx (hr s'))) = sp_off k (d - k_n k) (ctx s).
Proof.
  intros Hcx Hk Hb Hv a. unfold emit_push. cbn [app].
  change (SUB (k_bx k) (Im (k_sp k) (k_n k)) :: emit_slot k ++ [IStore (k_w k)]) with
    ([SUB (k_bx k) (Im (k_sp k) (k_n k))] ++ emit_slot k ++ [IStore (k_w k)]).
  assert (R1 : exists s1, run E [SUB (k_bx k) (Im (k_sp k) (k_n k))] s = Done s1 /\ scratch s s1 /\ loc s1 = loc s /\
    h_r8 (hr s1) = h_r8 (hr s)).
  { clear - Hcx. start_state s Hcx. unfold k_bx; destruct k as [w [|] z]; unfold k_n; cbn [k_sp k_ss32 k_w]; destruct w;
    unfold run; expand_list; sym; eexists; repeat split. }
  destruct (sub_bx E k s d Hcx Hb) as (s1' & R1' & _ & _ & Hb1).
  destruct R1 as (s1 & R1 & (A1 & B1 & C1 & D1) & L1 & Q1). rewrite R1 in R1'. injection R1' as <-.
  rewrite (run_seq _ _ _ _ _ R1). clear R1. rewrite <- B1 in Hk, Hb1.
  destruct (slot_run E k s1 _ A1 (proj2 Hk) Hb1) as [f R2]. rewrite (run_seq _ _ _ _ _ R2). clear R2. rewrite B1 in *.
  fold (slot k (d - k_n k) (ctx s)). fold a.
  unfold run. erewrite store_step; [| cbn [hr h_rdx num]; apply slot32 | reflexivity]. fold (k_n k). fold a.
  destruct (e_fault E true a (k_n k)).
  - eexists. split; [reflexivity |]. repeat split; assumption.
  - eexists. split; [reflexivity |]. unfold stored; cbn [hr h_rcx ctx masked gmem h_rbx loc h_r8].
    rewrite Q1, Hv, C1. repeat split; assumption.
Qed.

(** ** The first push and the new frame pointer *)

Lemma zero_ext_sub o g n :
  getw W32 (setw W16 (setw W32 o (getw W16 g)) n) = getw W16 n.
Proof.
  apply Z.bits_inj'. intros i Hi. rewrite !getw_testbit, !setw_testbit, !getw_testbit by assumption. cbn [wbits].
  destruct (Z.ltb_spec i 16); [replace (i <? 32) with true by lia; reflexivity |].
  rewrite !andb_false_r. destruct (i <? 32); now rewrite ?andb_false_r.
Qed.

Lemma join_high v g : getw W16 v = v ->
  getw W32 (Z.lor v (getw W32 (Z.land (getw W32 g) (getw W32 4294901760)))) = getw W32 (putw W16 g v).
Proof.
  intros Hv. apply Z.bits_inj'. intros i Hi.
  rewrite !getw_testbit, Z.lor_spec, getw_testbit, Z.land_spec, getw_testbit, putw_testbit by assumption.
  replace (getw W32 4294901760) with (Z.shiftl (Z.ones 16) 16) by reflexivity.
  rewrite <- Hv at 1. rewrite getw_testbit by assumption. cbn [wbits].
  rewrite Z.shiftl_spec by assumption.
  destruct (Z.ltb_spec i 32); [| now rewrite !andb_false_r]. rewrite !andb_true_r.
  destruct (Z.ltb_spec i 16).
  - rewrite (Z.testbit_neg_r (Z.ones 16)) by lia. now rewrite andb_false_r, orb_false_r, andb_true_r.
  - rewrite Z.ones_spec_low by lia. now rewrite andb_false_r, andb_true_r.
Qed.

Lemma enter_first_run E k s :
  h_rcx (hr s) = P PCtx -> stk_ok k (ctx s) ->
  let a := slot k (- k_n k) (ctx s) in
  if e_fault E true a (k_n k) then
    exists s', run E (emit_enter_first k) s = Fault true a (k_n k) s' /\ untouched s s'
  else exists s', run E (emit_enter_first k) s = Done s' /\ h_rcx (hr s') = P PCtx /\ ctx s' = ctx s /\ masked s' = masked s /\
    gmem s' = mstore (gmem s) (k_w k) a (gget (k_w k) false EBP (gprs (ctx s))) /\
    getw (k_w k) (loc s' 0%nat) = frame_ptr k (ctx s) /\
    getw (k_sp k) (num E (h_rbx (hr s'))) = sp_off k (- k_n k) (ctx s).
Proof.
  intros Hcx [Hw Hz] a. unfold emit_enter_first, emit_push.
  set (L1 := [MOV (Rg (k_w k) R8) (c_reg (k_w k) false EBP);
    if k_ss32 k then MOV hEBX (c_reg W32 false ESP) else MOVZX hEBX (c_reg W16 false ESP)]).
  set (L2 := [SUB (k_bx k) (Im (k_sp k) (k_n k))]).
  assert (R1 : exists b r8' f, run E (L1 ++ L2) s =
     Done (mkst (mkregs (h_rax (hr s)) (N b) (P PCtx) (h_rdx (hr s)) r8' (h_r9 (hr s)) (h_r10 (hr s)) (h_r11 (hr s)))
             f (ctx s) (gmem s) (loc s) (ncall s) (masked s))
     /\ getw W32 b = sp_off k (- k_n k) (ctx s) /\ getw (k_w k) (num E r8') = gget (k_w k) false EBP (gprs (ctx s))).
  { subst L1 L2. unfold sp_off. rewrite <- sp_word'. clear Hz. start_state s Hcx.
    destruct k as [w [|] z]; cbn [k_bx k_sp k_ss32 k_w] in *; unfold k_n; cbn [k_w]; destruct Hw as [-> | ->];
    unfold run; expand_list; sym; eexists _, _, _; (split; [reflexivity |]); (split; [| cbn [num]; now rewrite getw_setw, getw_gget]).
    1, 2: rewrite ?getw_setw, ?getw_idem; change (setw W32 ?o ?v) with (getw W32 v); rewrite ?getw_idem; reflexivity.
    all: unfold gget; rewrite zero_ext_sub; rewrite ?getw_idem; f_equal; f_equal.
    all: change (setw W32 ?o ?v) with (getw W32 v); unfold getw; cbn [wmask]; now rewrite <- !Z.land_assoc. }
  destruct R1 as (b & r8' & f & R1 & Hb & Hv).
  set (T := match k_w k with W32 => _ | _ => _ end).
  match goal with |- context [run E ?l s] =>
    replace l with ((L1 ++ L2) ++ emit_slot k ++ (IStore (k_w k) :: T)) by (cbn [app]; rewrite <- ?app_assoc; reflexivity) end.
  rewrite (run_seq _ _ _ _ _ R1). clear R1.
  assert (Hb' : getw (k_sp k) b = sp_off k (- k_n k) (ctx s)).
  { destruct k as [w [|] z]; cbn [k_sp k_ss32] in *; [exact Hb |].
    assert (H : getw W16 (getw W32 b) = getw W32 b).
    { rewrite Hb. unfold sp_off. cbn [k_ss32]. rewrite getw_mod. apply Z.mod_mod. discriminate. }
    rewrite <- Hb, <- H. unfold getw. cbn [wmask]. now rewrite <- Z.land_assoc. }
  match goal with |- context [run E _ ?st] => destruct (slot_run E k st _ eq_refl Hz eq_refl) as [f2 R2] end.
  cbn [hr h_rax h_rbx h_rcx h_rdx h_r8 h_r9 h_r10 h_r11 ctx gmem loc ncall masked num] in R2.
  rewrite (run_seq _ _ _ _ _ R2). clear R2. rewrite Hb'. fold (slot k (- k_n k) (ctx s)). fold a.
  unfold run. erewrite store_step; [| cbn [hr h_rdx num]; apply slot32 | cbn [hr h_r8]; exact Hv]. fold (k_n k). fold a.
  assert (Hfp : exists v, frame_ptr k (ctx s) = v /\
     v = match k_w k, k_ss32 k with
         | W32, false => getw W32 (putw W16 (gprs (ctx s) ESP) (sp_off k (- k_n k) (ctx s)))
         | _, _ => getw (k_w k) (sp_off k (- k_n k) (ctx s)) end).
  { eexists. split; [reflexivity |]. unfold frame_ptr. rewrite <- getw_mod. unfold moved, set_sp, gput. cbn [greg_eqb].
    destruct k as [w [|] z]; cbn [k_sp k_ss32 k_w] in *; destruct Hw as [-> | ->]; try reflexivity.
    - apply Z.bits_inj'. intros i Hi. rewrite !getw_testbit, putw_testbit by assumption. cbn [wbits].
      destruct (Z.ltb_spec i 16); [replace (i <? 32) with true by lia; reflexivity | now rewrite !andb_false_r].
    - now rewrite getw_putw. 
    - now rewrite getw_putw. }
  destruct Hfp as (fp & Hfp & Hfv). rewrite Hfp.
  destruct (e_fault E true a (k_n k)).
  { eexists. split; [reflexivity |]. repeat split. }
  unfold stored. cbn [hr h_rax h_rbx h_rcx h_rdx h_r8 h_r9 h_r10 h_r11 ctx gmem loc ncall masked].
  revert Hb Hb' Hfv. generalize (sp_off k (- k_n k) (ctx s)) as so. intros so Hb Hb' Hfv. clear Hfp. clearbody a. clear Hv.
  subst T. start_state s Hcx.
  destruct k as [w [|] z]; cbn [k_sp k_ss32 k_w] in *; destruct Hw as [-> | ->]; expand_list; sym';
  (eexists; split; [reflexivity |]); cbn [hr h_rcx ctx masked gmem loc h_rbx num Nat.eqb];
  (split; [reflexivity |]); (split; [reflexivity |]); (split; [reflexivity |]); (split; [reflexivity |]);
  rewrite ?getw_putw, ?getw_setw, ?getw_idem, ?Hb; (split; [| assumption || idtac]).
  - rewrite Hfv, <- Hb. unfold getw. cbn [wmask]. now rewrite <- Z.land_assoc.
  - reflexivity.
  - rewrite Hfv, <- Hb, getw_idem. reflexivity.
  - reflexivity.
  - rewrite Hfv, <- Hb'. now rewrite getw_idem.
  - rewrite Hfv. apply join_high. rewrite <- Hb'. apply getw_idem.
  - unfold gget. change (setw W32 b ?v) with (getw W32 v). rewrite join_high by (rewrite <- Hb'; apply getw_idem).
    transitivity (getw W16 (putw W16 (gp ESP) so)).
    + unfold getw. cbn [wmask]. rewrite <- Z.land_assoc. reflexivity.
    + rewrite getw_putw, <- Hb'. apply getw_idem.
Qed.


Lemma cg_opp n a b : cg n a b -> cg n (- a) (- b).
Proof. intros [q H]. exists (- q). lia. Qed.
Ltac strip_opp := repeat first [ apply cg_mod_l; [reflexivity |] | apply cg_add | apply cg_opp ]; try apply cg_refl.

Lemma display_addr E k i s :
  h_rcx (hr s) = P PCtx -> stk_ok k (ctx s) -> 0 <= i -> display_reach k i (ctx s) ->
  exists s1, run E ([if k_ss32 k then MOV hEDX (c_reg W32 false EBP) else MOVZX hEDX (c_reg W16 false EBP);
     SUB hEDX (i32 (k_n k * i))] ++ (if k_zero k then [] else [ADD hEDX (c_segb SS)])) s = Done s1 /\
    scratch s s1 /\ loc s1 = loc s /\ h_rbx (hr s1) = h_rbx (hr s) /\
    getw W32 (num E (h_rdx (hr s1))) = display_slot k i (ctx s).
Proof.
  intros Hcx [Hw Hz] Hi Hr. unfold display_slot. unfold display_reach in Hr.
  assert (0 <= k_n k * i) by (unfold k_n; destruct Hw as [-> | ->]; cbn [wbytes]; lia). set (x := k_n k * i) in *. clearbody x.
  assert (Hx : (gprs (ctx s) EBP - x) mod (if k_ss32 k then 2 ^ 32 else 2 ^ 16)
     = (if k_ss32 k then gprs (ctx s) EBP - x else gprs (ctx s) EBP mod 2 ^ 16 - x) mod 2 ^ 32).
  { destruct (k_ss32 k); [reflexivity |]. destruct Hr as [Hr | Hr]; [discriminate |].
    pose proof (Z.mod_pos_bound (gprs (ctx s) EBP) (2 ^ 16) eq_refl).
    rewrite (Z.mod_small (_ mod 2 ^ 16 - x)) by lia.
    rewrite <- (Z.mod_small (gprs (ctx s) EBP mod 2 ^ 16 - x) (2 ^ 16)) by lia.
    now rewrite Zminus_mod_idemp_l. }
  rewrite Hx. clear Hx Hr. rewrite Zplus_mod_idemp_r. start_state s Hcx. clear Hw.
  destruct k as [w [|] [|]]; cbn [k_ss32 k_zero] in *; unfold run; expand_list; sym;
  (eexists; split; [reflexivity |]; split; [repeat split |]; split; [reflexivity |]; split; [reflexivity |]);
  cbn [hr h_rdx num]; try rewrite (Hz eq_refl); unfold gget; rewrite ?getw_setw, ?getw_idem, ?get16_32.
  all: rewrite ?getw32, ?getw16; change (2 ^ 32) with 4294967296; change (2 ^ 16) with 65536.
  all: unfold Z.sub; (eapply cg_canon; [reflexivity | strip_opp | strip_opp | ring]).
Qed.

Lemma display_one E k i s d :
  h_rcx (hr s) = P PCtx -> stk_ok k (ctx s) -> 0 <= i -> display_reach k i (ctx s) ->
  getw (k_sp k) (num E (h_rbx (hr s))) = sp_off k d (ctx s) ->
  match first_bad E [(false, display_slot k i (ctx s), k_n k); (true, slot k (d - k_n k) (ctx s), k_n k)] with
  | Some (wr, a, n) => exists s', run E (emit_display k i) s = Fault wr a n s' /\ untouched s s'
  | None => exists s', run E (emit_display k i) s = Done s' /\ h_rcx (hr s') = P PCtx /\ ctx s' = ctx s /\ masked s' = masked s /\
    loc s' = loc s /\
    gmem s' = mstore (gmem s) (k_w k) (slot k (d - k_n k) (ctx s)) (mload (gmem s) (k_w k) (display_slot k i (ctx s))) /\
    getw (k_sp k) (num E (h_rbx (hr s'))) = sp_off k (d - k_n k) (ctx s)
  end.
Proof.
  intros Hcx Hk Hi Hr Hb. cbn [first_bad]. unfold emit_display.
  destruct (display_addr E k i s Hcx Hk Hi Hr) as (s1 & R1 & (A1 & B1 & C1 & D1) & L1 & X1 & Y1).
  rewrite (app_assoc [_; _]), (run_seq _ _ _ _ _ R1). clear R1.
  set (a := display_slot k i (ctx s)) in *.
  assert (R2 : if e_fault E false a (k_n k) then run E [ILoad (k_w k); MOV (Rg (k_w k) R8) (Rg (k_w k) RAX)] s1 = Fault false a (k_n k) s1
    else exists s2, run E [ILoad (k_w k); MOV (Rg (k_w k) R8) (Rg (k_w k) RAX)] s1 = Done s2 /\ scratch s1 s2 /\ loc s2 = loc s1 /\
      h_rbx (hr s2) = h_rbx (hr s1) /\ getw (k_w k) (num E (h_r8 (hr s2))) = mload (gmem s1) (k_w k) a).
  { clear - A1 Y1 Hk. destruct Hk as [Hw _]. unfold k_n, run. clearbody a. rewrite (load_step E (k_w k) s1 a _ Y1).
    destruct (e_fault E false a (wbytes (k_w k))); [reflexivity |]. unfold loaded. start_state s1 A1. clear Y1.
    destruct Hw as [-> | ->]; expand_list; sym'; (eexists; split; [reflexivity |]; split; [repeat split |]; split; [reflexivity |];
      split; [reflexivity |]); cbn [hr h_r8 num gmem]; now rewrite ?getw_setw, ?getw_idem, ?getw_mload. }
  destruct (e_fault E false a (k_n k)).
  - exists s1. split; [now apply run_fault |]. repeat split; assumption.
  - destruct R2 as (s2 & R2 & (A2 & B2 & C2 & D2) & L2 & X2 & Y2). rewrite (run_seq _ _ _ _ _ R2). clear R2.
    rewrite C1 in Y2. rewrite <- X1, <- X2 in Hb.
    assert (B : ctx s2 = ctx s) by congruence. rewrite <- B in Hb, Hk.
    pose proof (push_bx E k s2 d _ A2 Hk Hb Y2) as P. cbv zeta in P. rewrite B in P.
    destruct (e_fault E true _ _).
    + destruct P as (s3 & R3 & U1 & U2 & U3). exists s3. split; [exact R3 |]. repeat split; congruence.
    + destruct P as (s3 & R3 & A3 & B3 & C3 & L3 & M3 & H3). exists s3. split; [exact R3 |].
      rewrite M3, C2, C1. repeat split; congruence.
Qed.

Lemma display_loop E k : forall n s i d,
  h_rcx (hr s) = P PCtx -> stk_ok k (ctx s) -> 0 <= i -> display_reach k (i + Z.of_nat n - 1) (ctx s) ->
  getw (k_sp k) (num E (h_rbx (hr s))) = sp_off k d (ctx s) ->
  match first_bad E (display_acc k n i d (ctx s)) with
  | Some (wr, a, m) => exists s', run E (emit_displays k n i) s = Fault wr a m s' /\ ctx s' = ctx s /\ masked s' = masked s
  | None => exists s', run E (emit_displays k n i) s = Done s' /\ h_rcx (hr s') = P PCtx /\ ctx s' = ctx s /\ masked s' = masked s /\
    loc s' = loc s /\ gmem s' = display_mem k n i d (ctx s) (gmem s) /\
    getw (k_sp k) (num E (h_rbx (hr s'))) = sp_off k (d - k_n k * Z.of_nat n) (ctx s)
  end.
Proof.
  induction n as [| n IH]; intros s i d Hcx Hk Hi Hr Hb.
  - cbn. exists s. split; [reflexivity |]. rewrite Hb. repeat split; try assumption. f_equal. lia.
  - cbn [emit_displays display_acc display_mem].
    assert (Hn : 0 < k_n k) by (unfold k_n; destruct Hk as [[-> | ->] _]; reflexivity).
    assert (Hr1 : display_reach k i (ctx s)) by (destruct Hr as [Hr | Hr]; [now left | right; nia]).
    pose proof (display_one E k i s d Hcx Hk Hi Hr1 Hb) as P.
    change ((false, display_slot k i (ctx s), k_n k) :: (true, slot k (d - k_n k) (ctx s), k_n k) :: ?l) with
      ([(false, display_slot k i (ctx s), k_n k); (true, slot k (d - k_n k) (ctx s), k_n k)] ++ l).
    rewrite first_bad_app. destruct (first_bad E [_; _]) as [[[wr a] m] |].
    + destruct P as (s1 & R & U1 & U2 & U3). exists s1. split; [now apply run_fault | split; assumption].
    + destruct P as (s1 & R & A & B & C & L & D & F). rewrite (run_seq _ _ _ _ _ R).
      rewrite <- B in Hk, F, Hr.
      specialize (IH s1 (i + 1) (d - k_n k) A Hk ltac:(lia)). rewrite <- !(Z.add_assoc i 1) in IH.
      replace (1 + Z.of_nat n) with (Z.of_nat (S n)) in IH by lia.
      specialize (IH Hr F). rewrite B in IH.
      destruct (first_bad _ _) as [[[wr a] m] |].
      * destruct IH as (s2 & R2 & U1 & U2). exists s2. split; [exact R2 | split; congruence].
      * destruct IH as (s2 & R2 & A2 & B2 & C2 & L2 & D2 & F2). exists s2. rewrite D2, D, F2.
        split; [exact R2 |]. repeat split; try congruence. f_equal. lia.
Qed.

(** ** The end *)

Lemma enter_last_run E k size s d fp :
  h_rcx (hr s) = P PCtx -> stk_ok k (ctx s) -> getw (k_sp k) (num E (h_rbx (hr s))) = sp_off k d (ctx s) ->
  getw (k_w k) (loc s 0%nat) = fp ->
  let a := slot k (d - size) (ctx s) in
  if e_fault E true a (k_n k) then
    exists s', run E (emit_enter_last k size) s = Fault true a (k_n k) s' /\ untouched s s'
  else exists s', run E (emit_enter_last k size) s = Done s' /\ h_rcx (hr s') = P PCtx /\ masked s' = masked s /\ gmem s' = gmem s /\
    ctx s' = set_gprs (gput (k_w k) false EBP fp (moved k (d - size) (ctx s))) (ctx s).
Proof.
  intros Hcx Hk Hb Hl a. unfold emit_enter_last.
  assert (R1 : exists s1, run E [SUB (k_bx k) (Im (k_sp k) size); MOV hR8 (Im W64 0)] s = Done s1 /\ scratch s s1 /\ loc s1 = loc s /\
    getw (k_sp k) (num E (h_rbx (hr s1))) = sp_off k (d - size) (ctx s)).
  { apply (sp_off_step k d (- size)) in Hb. replace (d - size) with (d + - size) by lia. rewrite <- Hb. clear - Hcx.
    start_state s Hcx. unfold k_bx; destruct k as [w [|] z]; cbn [k_sp k_ss32]; unfold run; expand_list; sym;
    (eexists; split; [reflexivity |]; split; [repeat split |]; split; [reflexivity |]);
    cbn [hr h_rbx num]; rewrite ?getw_setw, ?getw_idem; rewrite !getw_mod, <- Zminus_mod, <- Zplus_mod; f_equal; lia. }
  destruct R1 as (s1 & R1 & (A1 & B1 & C1 & D1) & L1 & Hb1). rewrite (run_seq _ _ _ _ _ R1). clear R1 Hb.
  rewrite <- B1 in Hk, Hb1.
  destruct (slot_run E k s1 _ A1 (proj2 Hk) Hb1) as [f R2]. rewrite (run_seq _ _ _ _ _ R2). clear R2. rewrite B1 in *.
  fold (slot k (d - size) (ctx s)). fold a.
  unfold run. erewrite probe_step by (cbn [hr h_rdx num]; apply slot32). fold (k_n k). fold a.
  destruct (e_fault E true a (k_n k)).
  - eexists. split; [reflexivity |]. repeat split; assumption.
  - clearbody a. rewrite <- L1 in Hl. rewrite <- D1, <- C1. unfold moved, set_sp. rewrite <- Hb1. clear - Hl Hk.
    destruct Hk as [Hw _]. set (c := ctx s). clearbody c. rewrite <- Hl. clear Hl.
    destruct s1 as [[rax rbx rcx rdx r8 r9 r10 r11] hf1 c1 gm lc nc mk]. destruct c as [gp sb ef ip rs ax c4 sl].
    unfold clobber. cbn [hr h_rax h_rbx h_rcx h_rdx h_r8 h_r9 h_r10 h_r11 ctx gmem loc ncall masked set_ncall set_hr].
    destruct k as [w [|] z]; unfold k_sp; cbn [k_w k_ss32] in *; destruct Hw as [-> | ->]; expand_list; sym';
    (eexists; split; [reflexivity |]); repeat split.
Qed.

(** ** All of it *)

Lemma enter_ok E k size level s :
  h_rcx (hr s) = P PCtx -> ctx_ok (ctx s) -> stk_ok k (ctx s) -> display_reach k (level_of level - 1) (ctx s) ->
  match first_bad E (enter_acc k size level (ctx s)) with
  | Some (wr, a, n) => exists s', run E (emit_enter k size level) s = Fault wr a n s' /\ ctx s' = ctx s /\ masked s' = masked s
  | None => exists s', run E (emit_enter k size level) s = Done s' /\
      becomes s s' (enter_regs k size level (ctx s)) (enter_mem k level s) (flags_now s)
  end.
Proof.
  intros Hcx Hok Hk Hr. unfold emit_enter, enter_acc, enter_mem, enter_regs.
  assert (Hlv : Z.land level 31 = level_of level) by (change 31 with (Z.ones 5); now rewrite Z.land_ones).
  rewrite Hlv. assert (Hl0 : 0 <= level_of level) by (apply Z.mod_pos_bound; reflexivity).
  set (lv := level_of level) in *. clearbody lv. clear Hlv.
  pose proof (enter_first_run E k s Hcx Hk) as P. cbv zeta in P. rewrite first_bad_app. cbn [first_bad].
  destruct (e_fault E true _ _).
  { destruct P as (s1 & R & U1 & U2 & U3). exists s1. split; [now apply run_fault | split; assumption]. }
  destruct P as (s1 & R1 & A1 & B1 & C1 & M1 & L1 & Hb1). rewrite (run_seq _ _ _ _ _ R1). clear R1.
  rewrite first_bad_app. set (fp := frame_ptr k (ctx s)) in *.
  set (m1 := mstore _ _ _ _) in *.
  assert (MID : match first_bad E (if lv =? 0 then [] else display_acc k (Z.to_nat (lv - 1)) 1 (- k_n k) (ctx s) ++
       [(true, slot k (- k_n k * (lv + 1)) (ctx s), k_n k)]) with
    | Some (wr, a, n) => exists s', run E (if 0 <? lv then emit_displays k (Z.to_nat (lv - 1)) 1 ++
         [MOV (Rg (k_w k) R8) (local (k_w k) 0)] ++ emit_push false None k else []) s1 = Fault wr a n s' /\
         ctx s' = ctx s /\ masked s' = masked s
    | None => exists s', run E (if 0 <? lv then emit_displays k (Z.to_nat (lv - 1)) 1 ++
         [MOV (Rg (k_w k) R8) (local (k_w k) 0)] ++ emit_push false None k else []) s1 = Done s' /\
         h_rcx (hr s') = P PCtx /\ ctx s' = ctx s /\ masked s' = masked s /\ getw (k_w k) (loc s' 0%nat) = fp /\
         gmem s' = (if lv =? 0 then m1 else mstore (display_mem k (Z.to_nat (lv - 1)) 1 (- k_n k) (ctx s) m1) (k_w k)
           (slot k (- k_n k * (lv + 1)) (ctx s)) fp) /\
         getw (k_sp k) (num E (h_rbx (hr s'))) = sp_off k (- k_n k * (lv + 1)) (ctx s)
    end).
  { destruct (Z.eqb_spec lv 0) as [-> | N0].
    { cbn. exists s1. replace (- k_n k * 1) with (- k_n k) by lia. repeat split; assumption. }
    replace (0 <? lv) with true by lia.
    rewrite first_bad_app. rewrite <- B1 in Hk, Hr, Hb1.
    assert (Hr1 : display_reach k (1 + Z.of_nat (Z.to_nat (lv - 1)) - 1) (ctx s1)).
    { replace (1 + Z.of_nat (Z.to_nat (lv - 1)) - 1) with (lv - 1) by lia. exact Hr. }
    pose proof (display_loop E k (Z.to_nat (lv - 1)) s1 1 (- k_n k) A1 Hk ltac:(lia) Hr1 Hb1) as P. rewrite B1 in *.
    destruct (first_bad E (display_acc _ _ _ _ _)) as [[[wr a] n] |].
    { destruct P as (s2 & R2 & U1 & U2). exists s2. split; [now apply run_fault | split; congruence]. }
    destruct P as (s2 & R2 & A2 & B2 & C2 & L2 & M2 & Hb2). rewrite (run_seq _ _ _ _ _ R2). clear R2.
    replace (- k_n k - k_n k * Z.of_nat (Z.to_nat (lv - 1))) with (- k_n k * lv) in Hb2 by (rewrite Z2Nat.id by lia; ring).
    assert (R3 : exists s3, run E [MOV (Rg (k_w k) R8) (local (k_w k) 0)] s2 = Done s3 /\ scratch s2 s3 /\ loc s3 = loc s2 /\
      h_rbx (hr s3) = h_rbx (hr s2) /\ getw (k_w k) (num E (h_r8 (hr s3))) = getw (k_w k) (loc s2 0%nat)).
    { clear - A2 Hk. destruct Hk as [Hw _]. start_state s2 A2. destruct Hw as [-> | ->]; unfold run; expand_list; sym;
      (eexists; split; [reflexivity |]; split; [repeat split |]; split; [reflexivity |]; split; [reflexivity |]);
      cbn [hr h_r8 num loc]; now rewrite getw_setw, getw_idem. }
    destruct R3 as (s3 & R3 & (A3 & B3 & C3 & D3) & L3 & X3 & V3). rewrite (run_seq _ _ _ _ _ R3). clear R3.
    rewrite L2, L1 in V3. rewrite <- X3 in Hb2.
    assert (B : ctx s3 = ctx s) by congruence. rewrite <- B in Hb2, Hk.
    pose proof (push_bx E k s3 _ _ A3 Hk Hb2 V3) as P. cbv zeta in P. rewrite B in P.
    replace (- k_n k * lv - k_n k) with (- k_n k * (lv + 1)) in P by lia. cbn [first_bad].
    destruct (e_fault E true _ _).
    - destruct P as (s4 & R4 & U1 & U2 & U3). exists s4. split; [exact R4 | split; congruence].
    - destruct P as (s4 & R4 & A4 & B4 & C4 & L4 & M4 & Hb4). exists s4. split; [exact R4 |].
      rewrite M4, C3, M2, M1, L4, L3, L2. repeat split; congruence. }
  destruct (first_bad E (if lv =? 0 then _ else _)) as [[[wr a] n] |].
  - destruct MID as (s2 & R2 & U1 & U2). exists s2. split; [now apply run_fault | split; assumption].
  - destruct MID as (s2 & R2 & A2 & B2 & C2 & L2 & M2 & Hb2). rewrite (run_seq _ _ _ _ _ R2). clear R2.
    rewrite <- B2 in Hb2, Hk. pose proof (enter_last_run E k size s2 _ fp A2 Hk Hb2 L2) as P. cbv zeta in P. rewrite B2 in P.
    cbn [first_bad]. destruct (e_fault E true _ _).
    + destruct P as (s3 & R3 & U1 & U2 & U3). exists s3. split; [exact R3 | split; congruence].
    + destruct P as (s3 & R3 & A3 & C3 & M3 & B3). exists s3. split; [exact R3 |].
      apply becomes_same_flags; [exact Hok | exact A3 | exact B3 | congruence | congruence].
Qed.
