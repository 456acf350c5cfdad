(** * Stack instructions *)

From Coq Require Import ZArith Bool List Lia ZifyBool.
From Verif Require Import HostModel AluModel AluSpec StackModel StackSpec HostProofs LazyFlagsProofs FlagsApiProofs
  FlagArith SymExec EaProofs AluProofs AluForms UnaryProofs XchgProofs CondProofs FlagInstrProofs LahfProofs.
Import ListNotations.
Local Open Scope Z_scope.

Lemma slot_run E k s v :
  h_rcx (hr s) = P PCtx -> (k_zero k = true -> segb (ctx s) SS = 0) ->
  getw (k_sp k) (num E (h_rbx (hr s))) = v ->
  exists f, run E (emit_slot k) s =
    Done (mkst (mkregs (h_rax (hr s)) (h_rbx (hr s)) (P PCtx) (N ((segb (ctx s) SS + v) mod 2 ^ 32))
                  (h_r8 (hr s)) (h_r9 (hr s)) (h_r10 (hr s)) (h_r11 (hr s)))
            f (ctx s) (gmem s) (loc s) (ncall s) (masked s)).
Proof.
  intros Hcx Hz <-. start_state s Hcx. destruct k as [w [|] [|]]; cbn [k_ss32 k_zero k_sp] in *;
  unfold emit_slot, run; cbn [k_ss32 k_zero]; expand_list; sym; eexists;
  match goal with |- Done (mkst (mkregs _ _ _ (N ?v) _ _ _ _) _ _ _ _ _ _) = Done (mkst (mkregs _ _ _ (N ?u) _ _ _ _) _ _ _ _ _ _) =>
    let H := fresh in enough (H : v = u) by (rewrite H; reflexivity) end;
  rewrite ?(Hz eq_refl), ?setw32, ?getw32, ?getw16; change (2 ^ 32) with 4294967296;
  rewrite ?m16_32; try solve_cong.
  rewrite Z.add_0_l. now rewrite m16_32.
Qed.

Lemma sp_word k g d : getw (k_sp k) (gget (k_sp k) false ESP g + getw (k_sp k) d)
  = (g ESP + d) mod (if k_ss32 k then 2 ^ 32 else 2 ^ 16).
Proof.
  destruct k as [w [|] z]; cbn [k_sp k_ss32]; unfold gget; rewrite !getw_mod, <- Z.add_mod by discriminate; reflexivity.
Qed.

Lemma sp_word' k g d : getw (k_sp k) (getw (k_sp k) (gget (k_sp k) false ESP g) - getw (k_sp k) d)
  = (g ESP + - d) mod (if k_ss32 k then 2 ^ 32 else 2 ^ 16).
Proof.
  destruct k as [w [|] z]; cbn [k_sp k_ss32]; unfold gget; rewrite !getw_idem, !getw_mod, <- Zminus_mod; reflexivity.
Qed.

Ltac access_at Ha :=
  lazymatch goal with
  | |- context [exec _ (ILoad ?w :: _) (Done _)] =>
      erewrite load_step by (cbn [hr h_rdx num]; rewrite ?getw_setw, ?getw_idem; exact Ha)
  | |- context [exec _ (IStore ?w :: _) (Done _)] =>
      erewrite store_step by (cbn [hr h_rdx h_r8 num]; rewrite ?getw_setw, ?getw_idem; first [exact Ha | reflexivity])
  end;
  match goal with F : e_fault _ _ _ _ = _ |- _ => rewrite F end;
  unfold loaded, stored;
  cbn [hr h_rax h_rbx h_rcx h_rdx h_r8 h_r9 h_r10 h_r11 ctx gmem loc ncall masked].

Lemma getw_w64 w o v : w = W16 \/ w = W32 -> getw w (setw W64 o (getw W64 v)) = getw w v.
Proof.
  intros H. apply Z.bits_inj'. intros i Hi. rewrite !getw_testbit, setw_testbit, getw_testbit by assumption.
  destruct H as [-> | ->]; cbn [wbits]; [destruct (Z.ltb_spec i 16) | destruct (Z.ltb_spec i 32)];
  rewrite ?andb_true_r, ?andb_false_r; try reflexivity; replace (i <? 64) with true by lia; now rewrite ?andb_true_r.
Qed.

Lemma push_run E k imm s v :
  h_rcx (hr s) = P PCtx -> stk_ok k (ctx s) ->
  v = (match imm with Some z => getw (k_w k) z | None => getw (k_w k) (num E (h_r8 (hr s))) end) ->
  let a := slot k (- k_n k) (ctx s) in
  if e_fault E true a (k_n k) then
    exists s', run E (emit_push true imm k) s = Fault true a (k_n k) s' /\ untouched s s'
  else exists s', run E (emit_push true imm k) s = Done s' /\ h_rcx (hr s') = P PCtx /\
    gmem s' = mstore (gmem s) (k_w k) a v /\ masked s' = masked s /\
    ctx s' = set_gprs (set_sp k (sp_off k (- k_n k) (ctx s)) (gprs (ctx s))) (ctx s) /\ loc s' = loc s.
Proof.
  intros Hcx [Hw Hz] Hv a. unfold emit_push.
  start_state s Hcx.
  set (L1 := [MOV (k_bx k) (k_esp k)]). set (L2 := [SUB (k_bx k) (Im (k_sp k) (k_n k))]).
  set (s0 := mkst _ _ _ _ _ _ _).
  assert (R1 : exists b f, run E (L1 ++ L2) s0 =
     Done (mkst (mkregs rax (N b) (P PCtx) rdx r8 r9 r10 r11) f (ctx s0) (gmem s0) lc nc mk)
     /\ getw (k_sp k) b = sp_off k (- k_n k) (ctx s0)).
  { subst s0 L1 L2. unfold sp_off. rewrite <- sp_word'.
    destruct k as [w [|] z]; cbn [k_bx k_esp k_sp]; unfold run; expand_list; sym; do 2 eexists;
    (split; [reflexivity | ]); rewrite ?getw_setw, ?getw_idem; reflexivity. }
  destruct R1 as (b & f & R1 & Hb).
  rewrite app_assoc, (run_seq _ _ _ _ _ R1). clear R1.
  subst s0. cbn [ctx gmem hr h_r8] in *.
  match goal with |- context [run E _ ?st] =>
    destruct (slot_run E k st _ eq_refl Hz eq_refl) as [f2 R2] end.
  cbn [hr h_rax h_rbx h_rcx h_rdx h_r8 h_r9 h_r10 h_r11 ctx gmem loc ncall masked num] in R2.
  rewrite (run_seq _ _ _ _ _ R2). clear R2. rewrite Hb.
  match goal with |- context [N ?x] => lazymatch x with (_ mod _) => change x with a end end.
  assert (Ha : getw W32 a = a).
  { rewrite getw32. apply Z.mod_small. apply Z.mod_pos_bound. reflexivity. }
  clearbody a.
  destruct (e_fault E true a (k_n k)) eqn:F;
  destruct k as [w [|] z]; unfold k_n, k_sp, set_sp in *; cbn [k_w k_sp k_ss32] in *;
  destruct Hw as [-> | ->]; destruct imm as [i |]; subst v;
  unfold run; expand_list; sym'; access_at Ha; sym'; cbn [exec].
  all: try (eexists; split; [reflexivity |]; repeat split; fail).
  all: eexists; split; [reflexivity |]; cbn [hr h_rcx ctx gmem masked loc]; repeat split.
  all: rewrite ?Hb; try reflexivity.
  all: rewrite getw_w64 by auto; reflexivity.
Qed.

Lemma pop_run E k wr s :
  h_rcx (hr s) = P PCtx -> stk_ok k (ctx s) ->
  let a := slot k 0 (ctx s) in
  if e_fault E false a (k_n k) then
    exists s', run E (emit_pop wr k) s = Fault false a (k_n k) s' /\ untouched s s'
  else exists s', run E (emit_pop wr k) s = Done s' /\ h_rcx (hr s') = P PCtx /\
    gmem s' = gmem s /\ masked s' = masked s /\ loc s' = loc s /\
    getw (k_w k) (num E (h_r8 (hr s'))) = mload (gmem s) (k_w k) a /\
    getw (k_sp k) (num E (h_rbx (hr s'))) = sp_off k (k_n k) (ctx s) /\
    ctx s' = if wr then set_gprs (set_sp k (sp_off k (k_n k) (ctx s)) (gprs (ctx s))) (ctx s) else ctx s.
Proof.
  intros Hcx [Hw Hz] a. unfold emit_pop.
  start_state s Hcx.
  set (L1 := [MOV (k_bx k) (k_esp k)]).
  set (s0 := mkst _ _ _ _ _ _ _).
  assert (R1 : exists b f, run E L1 s0 =
     Done (mkst (mkregs rax (N b) (P PCtx) rdx r8 r9 r10 r11) f (ctx s0) (gmem s0) lc nc mk)
     /\ getw (k_sp k) b = sp_off k 0 (ctx s0)).
  { subst s0 L1. unfold sp_off. rewrite Z.add_0_r.
    destruct k as [w [|] z]; cbn [k_bx k_esp k_sp]; unfold run; expand_list; sym; do 2 eexists;
    (split; [reflexivity | ]); cbn [k_sp k_ss32]; unfold gget; rewrite ?getw_setw, ?getw_idem, getw_mod; reflexivity. }
  destruct R1 as (b & f & R1 & Hb).
  rewrite (run_seq _ _ _ _ _ R1). clear R1.
  subst s0. cbn [ctx gmem hr h_r8] in *.
  match goal with |- context [run E _ ?st] =>
    destruct (slot_run E k st _ eq_refl Hz eq_refl) as [f2 R2] end.
  cbn [hr h_rax h_rbx h_rcx h_rdx h_r8 h_r9 h_r10 h_r11 ctx gmem loc ncall masked num] in R2.
  rewrite (run_seq _ _ _ _ _ R2). clear R2. rewrite Hb.
  match goal with |- context [N ?x] => lazymatch x with (_ mod _) => change x with a end end.
  assert (Ha : getw W32 a = a).
  { rewrite getw32. apply Z.mod_small. apply Z.mod_pos_bound. reflexivity. }
  clearbody a. unfold sp_off in *. cbn [gprs] in *. rewrite Z.add_0_r in Hb.
  assert (Hs : getw (k_sp k) (getw (k_sp k) b + getw (k_sp k) (k_n k))
    = (gp ESP + k_n k) mod (if k_ss32 k then 2 ^ 32 else 2 ^ 16)).
  { rewrite Hb. destruct k as [w [|] z]; cbn [k_sp k_ss32]; rewrite !getw_mod; symmetry; apply Zplus_mod. }
  rewrite <- Hs. clear Hs Hb.
  destruct (e_fault E false a (k_n k)) eqn:F;
  destruct k as [w [|] z]; unfold k_n, k_sp, set_sp in *; cbn [k_w k_sp k_ss32] in *;
  destruct Hw as [-> | ->]; destruct wr;
  unfold run; expand_list; sym'; access_at Ha; sym'; cbn [exec].
  all: try (eexists; split; [reflexivity |]; repeat split; fail).
  all: eexists; split; [reflexivity |]; cbn [hr h_rcx ctx gmem masked loc h_r8 h_rbx num]; repeat split.
  all: rewrite ?getw_setw, ?getw_idem, ?getw_mload; try reflexivity.
Qed.

Lemma run_fault' E l1 l2 s wr a n s1 : run E l1 s = Fault wr a n s1 -> run E (l1 ++ l2) s = Fault wr a n s1.
Proof. apply run_fault. Qed.

Lemma stk_ok_set k g c : stk_ok k c -> stk_ok k (set_gprs g c).
Proof. intros H; exact H. Qed.

(** finish an instruction by a push *)
Lemma end_push E l k imm s s1 v :
  ctx_ok (ctx s) -> stk_ok k (ctx s) -> run E l s = Done s1 -> scratch s s1 ->
  v = (match imm with Some z => getw (k_w k) z | None => getw (k_w k) (num E (h_r8 (hr s1))) end) ->
  does E (l ++ emit_push true imm k) s [(true, slot k (- k_n k) (ctx s), k_n k)]
    (set_sp k (sp_off k (- k_n k) (ctx s)) (gprs (ctx s)))
    (mstore (gmem s) (k_w k) (slot k (- k_n k) (ctx s)) v) (flags_now s).
Proof.
  intros Hok Hk R (S1 & S2 & S3 & S4) Hv. unfold does, first_bad.
  rewrite <- S2 in Hk. pose proof (push_run E k imm s1 v S1 Hk Hv) as P. rewrite S2 in P. cbv zeta in P.
  destruct (e_fault E true _ _).
  - destruct P as (s' & P1 & P2). exists s'. rewrite (run_seq _ _ _ _ _ R). split; [exact P1|].
    destruct P2 as (A & B & C). repeat split; congruence.
  - destruct P as (s' & P1 & P2 & P3 & P4 & P5 & _). exists s'. rewrite (run_seq _ _ _ _ _ R).
    split; [exact P1|]. rewrite <- S3.
    apply becomes_same_flags; [exact Hok | exact P2 | exact P5 | exact P3 | congruence].
Qed.

Lemma scratch_refl s : h_rcx (hr s) = P PCtx -> scratch s s.
Proof. intros H. repeat split. exact H. Qed.

Lemma mov_r8 E w h r s : w = W16 \/ w = W32 -> h_rcx (hr s) = P PCtx ->
  exists s1, run E [MOV (Rg w R8) (c_reg w h r)] s = Done s1 /\ scratch s s1 /\
    gget w h r (gprs (ctx s)) = getw w (num E (h_r8 (hr s1))).
Proof.
  intros Hw Hcx. start_state s Hcx. destruct Hw as [-> | ->]; unfold run; expand_list; sym;
  (eexists; split; [reflexivity |]; split; [repeat split |]); cbn [hr h_r8 num];
  now rewrite getw_setw, getw_gget.
Qed.

Lemma load_r8 E w m s : w = W16 \/ w = W32 -> h_rcx (hr s) = P PCtx -> memop_ok m (ctx s) ->
  let l := emit_ea m ++ [ILoad w; MOV (Rg w R8) (Rg w RAX)] in
  if e_fault E false (ea m (ctx s)) (wbytes w) then
    exists s1, run E l s = Fault false (ea m (ctx s)) (wbytes w) s1 /\ untouched s s1
  else exists s1, run E l s = Done s1 /\ scratch s s1 /\
    mload (gmem s) w (ea m (ctx s)) = getw w (num E (h_r8 (hr s1))).
Proof.
  intros Hw Hcx Hm l. unfold l. start_state s Hcx. run_ea m Hm.
  destruct Hw as [-> | ->]; destruct (e_fault E false _ _) eqn:F; unfold run; expand_list; sym'; access; sym'; cbn [exec];
  (eexists; split; [reflexivity |]); try (repeat split; fail); (split; [repeat split |]); cbn [hr h_r8 num];
  now rewrite getw_setw, getw_mload.
Qed.

Lemma PUSH_ok E src k s :
  h_rcx (hr s) = P PCtx -> ctx_ok (ctx s) -> stk_ok k (ctx s) -> push_ok src (ctx s) ->
  does E (emit_PUSH src k) s (push_acc src k (ctx s))
    (set_sp k (sp_off k (- k_n k) (ctx s)) (gprs (ctx s)))
    (mstore (gmem s) (k_w k) (slot k (- k_n k) (ctx s)) (push_value src k s)) (flags_now s).
Proof.
  intros Hcx Hok Hk Hp. destruct src as [r | v | v | [[h r] | m]];
  cbn [emit_PUSH push_acc push_value rm_acc read_rm push_ok rm_ok] in *; unfold read_gop; cbn [g_high g_reg app].
  - destruct (mov_r8 E (k_w k) false r s (proj1 Hk) Hcx) as (s1 & R & S & V).
    exact (end_push _ _ k None s s1 _ Hok Hk R S V).
  - apply (end_push E [] k (Some v) s s _ Hok Hk eq_refl (scratch_refl s Hcx)). symmetry. apply getw_mod.
  - apply (end_push E [] k (Some (sext W8 v)) s s _ Hok Hk eq_refl (scratch_refl s Hcx)).
    rewrite sext8, getw_mod. reflexivity.
  - destruct (mov_r8 E (k_w k) h r s (proj1 Hk) Hcx) as (s1 & R & S & V).
    exact (end_push _ _ k None s s1 _ Hok Hk R S V).
  - pose proof (load_r8 E (k_w k) m s (proj1 Hk) Hcx Hp) as L. cbv zeta in L.
    replace (emit_ea m ++ ILoad (k_w k) :: MOV (Rg (k_w k) R8) (Rg (k_w k) RAX) :: emit_push true None k)
      with ((emit_ea m ++ [ILoad (k_w k); MOV (Rg (k_w k) R8) (Rg (k_w k) RAX)]) ++ emit_push true None k)
      by (rewrite <- app_assoc; reflexivity).
    unfold does, push_acc, rm_acc; cbn [app first_bad]. destruct (e_fault E false _ _).
    + destruct L as (s1 & L & U). exists s1. split; [now apply run_fault | exact U].
    + destruct L as (s1 & R & S & V). exact (end_push _ _ k None s s1 _ Hok Hk R S V).
Qed.

(** ** POP *)

Lemma put_reg E w h r x s : w = W16 \/ w = W32 -> (x = R8 \/ x = RBX \/ x = RAX \/ x = RDX) -> h_rcx (hr s) = P PCtx ->
  exists s1, run E [MOV (c_reg w h r) (Rg w x)] s = Done s1 /\ h_rcx (hr s1) = P PCtx /\ gmem s1 = gmem s /\
    masked s1 = masked s /\ hr s1 = hr s /\ loc s1 = loc s /\
    ctx s1 = set_gprs (gput w h r (getw w (num E (rget x (hr s)))) (gprs (ctx s))) (ctx s).
Proof.
  intros Hw Hx Hcx. start_state s Hcx.
  destruct Hw as [-> | ->]; destruct Hx as [-> | [-> | [-> | ->]]]; unfold run; expand_list; sym; eexists; repeat split.
Qed.

Lemma put_sp E k s : h_rcx (hr s) = P PCtx ->
  exists s1, run E [MOV (k_esp k) (k_bx k)] s = Done s1 /\ h_rcx (hr s1) = P PCtx /\ gmem s1 = gmem s /\
    masked s1 = masked s /\
    ctx s1 = set_gprs (set_sp k (getw (k_sp k) (num E (h_rbx (hr s)))) (gprs (ctx s))) (ctx s).
Proof.
  intros Hcx. assert (k_sp k = W16 \/ k_sp k = W32) as Hw by (unfold k_sp; destruct (k_ss32 k); auto).
  destruct (put_reg E (k_sp k) false ESP RBX s Hw (or_intror (or_introl eq_refl)) Hcx) as (s1 & R & A & B & C & D & F & G).
  exists s1. auto.
Qed.

Lemma POP_reg_ok E g k s :
  h_rcx (hr s) = P PCtx -> ctx_ok (ctx s) -> stk_ok k (ctx s) ->
  does E (emit_POP (RmReg g) k) s [(false, slot k 0 (ctx s), k_n k)]
    (gput (k_w k) (g_high g) (g_reg g) (mload (gmem s) (k_w k) (slot k 0 (ctx s))) (gprs (popped k (ctx s))))
    (gmem s) (flags_now s).
Proof.
  intros Hcx Hok Hk. pose proof (pop_run E k true s Hcx Hk) as P. cbv zeta in P.
  unfold does; cbn [first_bad emit_POP]. destruct (e_fault E false _ _).
  - destruct P as (s1 & R & U). exists s1. split; [now apply run_fault | exact U].
  - destruct P as (s1 & R & P1 & P2 & P3 & P4 & P5 & P6 & P7). rewrite (run_seq _ _ _ _ _ R).
    destruct (put_reg E (k_w k) (g_high g) (g_reg g) R8 s1 (proj1 Hk) (or_introl eq_refl) P1)
      as (s2 & R2 & A & B & C & D & F & G). cbn [rget] in G.
    exists s2. split; [exact R2 |].
    apply becomes_same_flags; [exact Hok | exact A | | congruence | congruence].
    rewrite G, P5, P7. reflexivity.
Qed.

Lemma POP_mem_ok E m k s :
  h_rcx (hr s) = P PCtx -> ctx_ok (ctx s) -> stk_ok k (ctx s) -> memop_ok m (ctx s) ->
  does E (emit_POP (RmMem m) k) s [(false, slot k 0 (ctx s), k_n k); (true, ea m (ctx s), k_n k)]
    (gprs (popped k (ctx s)))
    (mstore (gmem s) (k_w k) (ea m (ctx s)) (mload (gmem s) (k_w k) (slot k 0 (ctx s)))) (flags_now s).
Proof.
  intros Hcx Hok Hk Hm. unfold does, emit_POP.
  destruct (ea_run E m s Hcx Hm) as (s0 & R0 & f0 & x0 & x1 & HS0).
  rewrite (run_seq _ _ _ _ _ R0).
  assert (R1 : exists s1, run E [MOV (local W32 0) hEDX] s0 = Done s1 /\ h_rcx (hr s1) = P PCtx /\ ctx s1 = ctx s
     /\ gmem s1 = gmem s /\ masked s1 = masked s /\ getw W32 (loc s1 0%nat) = ea m (ctx s)).
  { rewrite HS0. pose proof (getw_ea m (ctx s)) as Q. revert Q. generalize (ea m (ctx s)). intros a Q. clear - Q.
    destruct s as [[y1 y2 y3 y4 y5 y6 y7 y8] z1 z2 z3 z4 z5 z6]. cbn [hr h_rax h_rbx h_r8 h_r9 ctx gmem loc ncall masked].
    unfold run; expand_list; sym. eexists; repeat split. cbn [loc Nat.eqb].
    rewrite getw_putw, ?getw_idem. exact Q. }
  destruct R1 as (s1 & R1 & A1 & B1 & C1 & D1 & E1). rewrite (run_seq _ _ _ _ _ R1). clear R1 R0 HS0.
  rewrite <- B1 in Hk. pose proof (pop_run E k false s1 A1 Hk) as P. cbv zeta in P. rewrite B1 in P. cbn [first_bad].
  destruct (e_fault E false _ _).
  - destruct P as (s2 & R & U1 & U2 & U3). exists s2. split; [now apply run_fault | repeat split; congruence].
  - destruct P as (s2 & R & P1 & P2 & P3 & P4 & P5 & P6 & P7). rewrite (run_seq _ _ _ _ _ R).
    assert (R3 : exists s3, run E [MOV hEDX (local W32 0)] s2 = Done s3 /\ h_rcx (hr s3) = P PCtx /\ ctx s3 = ctx s
       /\ gmem s3 = gmem s /\ masked s3 = masked s /\ getw W32 (num E (h_rdx (hr s3))) = ea m (ctx s) /\
       h_rbx (hr s3) = h_rbx (hr s2) /\ h_r8 (hr s3) = h_r8 (hr s2)).
    { rewrite <- P4 in E1. clear R P5 P6 P4. start_state s2 P1. unfold run; expand_list; sym. eexists; repeat split; try congruence.
      all: cbn [hr h_rdx num ctx gmem masked] in *; try congruence. rewrite ?getw_setw, ?getw_idem. exact E1. }
    destruct R3 as (s3 & R3 & A3 & B3 & C3 & D3 & E3 & F3 & G3).
    change ([MOV hEDX (local W32 0); IStore (k_w k); MOV (k_esp k) (k_bx k)]) with
      ([MOV hEDX (local W32 0)] ++ [IStore (k_w k)] ++ [MOV (k_esp k) (k_bx k)]).
    rewrite (run_seq _ _ _ _ _ R3). clear R3 R.
    assert (St : run E [IStore (k_w k)] s3 =
       if e_fault E true (ea m (ctx s)) (k_n k) then Fault true (ea m (ctx s)) (k_n k) s3
       else Done (stored E (k_w k) (ea m (ctx s)) (getw (k_w k) (num E (h_r8 (hr s3)))) s3)).
    { unfold run. rewrite (store_step E (k_w k) s3 _ _ [] E3 eq_refl). reflexivity. }
    destruct (e_fault E true _ _).
    + exists s3. split; [now apply run_fault | repeat split; congruence].
    + rewrite (run_seq _ _ _ _ _ St). destruct (put_sp E k (stored E (k_w k) (ea m (ctx s)) (getw (k_w k) (num E (h_r8 (hr s3)))) s3))
        as (s4 & R4 & A4 & B4 & C4 & D4); [reflexivity|].
      exists s4. split; [exact R4|]. unfold stored in *; cbn [ctx gmem masked hr h_rbx] in *.
      apply becomes_same_flags; [exact Hok | exact A4 | | | congruence].
      * rewrite D4, F3, P6, B3. reflexivity.
      * rewrite B4, C3, G3, P5, C1. reflexivity.
Qed.
