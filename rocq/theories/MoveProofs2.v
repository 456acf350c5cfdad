(** * Segment registers and near transfers *)

From Coq Require Import ZArith Bool List Lia ZifyBool.
From Verif Require Import HostModel AluModel AluSpec StackModel StackSpec MoveModel MoveSpec HostProofs LazyFlagsProofs
  FlagsApiProofs FlagArith SymExec EaProofs AluProofs AluForms UnaryProofs XchgProofs CondProofs FlagInstrProofs
  LahfProofs StackProofs StackProofs2 MoveProofs.
Import ListNotations.
Local Open Scope Z_scope.

(** ** Reading the selector *)

Lemma mov_from_sreg_ok E dst r s :
  h_rcx (hr s) = P PCtx -> ctx_ok (ctx s) -> rm_ok dst (ctx s) ->
  does E (emit_mov_from_sreg dst r) s (rm_acc true W16 dst (ctx s))
    (match dst with RmReg g => gput W32 false (g_reg g) (selector (ctx s) r) (gprs (ctx s)) | RmMem _ => gprs (ctx s) end)
    (mem_after W16 dst (selector (ctx s) r) s) (flags_now s).
Proof.
  intros Hcx Hok Hm. unfold does, selector.
  assert (Hs : gsel (ctx s) r mod 2 ^ 16 = getw W16 (gsel (ctx s) r)) by (symmetry; apply getw_mod).
  assert (Hs2 : getw W32 (getw W16 (gsel (ctx s) r)) = getw W16 (gsel (ctx s) r))
    by (unfold getw; cbn [wmask]; now rewrite <- Z.land_assoc).
  assert (Hs3 : getw W16 (setw W32 (num E (h_r8 (hr s))) (getw W16 (gsel (ctx s) r))) = getw W16 (gsel (ctx s) r))
    by (change (setw W32 (num E (h_r8 (hr s))) ?x) with (getw W32 x); now rewrite Hs2, getw_idem).
  rewrite Hs. clear Hs.
  destruct dst as [[h g] | m]; cbn [rm_ok rm_acc first_bad mem_after g_reg] in *; start_state s Hcx.
  - unfold run; expand_list; sym'; rewrite ?Hs2. same Hok; reflexivity.
  - unfold emit_mov_from_sreg.
    destruct (e_fault E true _ _) eqn:F;
    (erewrite run_seq; [| unfold run; expand_list; sym'; reflexivity]); run_ea m Hm;
    unfold run; expand_list; sym'; access; sym'; cbn [exec]; rewrite ?Hs3;
    try (eexists; split; [reflexivity | repeat split]; fail); same Hok; reflexivity.
Qed.

Lemma push_sreg_ok E r k s :
  h_rcx (hr s) = P PCtx -> ctx_ok (ctx s) -> stk_ok k (ctx s) ->
  does E (emit_push_sreg r k) s [(true, slot k (- k_n k) (ctx s), k_n k)]
    (moved k (- k_n k) (ctx s)) (mstore (gmem s) (k_w k) (slot k (- k_n k) (ctx s)) (selector (ctx s) r)) (flags_now s).
Proof.
  intros Hcx Hok Hk. unfold emit_push_sreg.
  assert (R : exists s1, run E [match k_w k with W32 => MOVZX R8D (c_sel r) | _ => MOV R8W (c_sel r) end] s = Done s1 /\
    scratch s s1 /\ selector (ctx s) r = getw (k_w k) (num E (h_r8 (hr s1)))).
  { destruct Hk as [Hw _]. unfold selector. rewrite <- (getw_mod W16). start_state s Hcx.
    destruct Hw as [-> | ->]; unfold run; expand_list; sym; (eexists; split; [reflexivity |]; split; [repeat split |]);
    cbn [hr h_r8 num].
    - now rewrite getw_setw, getw_idem.
    - rewrite getw_setw. unfold getw; cbn [wmask]; now rewrite <- Z.land_assoc. }
  destruct R as (s1 & R & S & V). exact (end_push _ _ k None s s1 _ Hok Hk R S V).
Qed.

(** ** Leaving the block *)

Lemma lands_intro s s' L :
  ctx_ok (ctx s) -> eflags (ctx s') = eflags (ctx s) -> res (ctx s') = res (ctx s) -> aux (ctx s') = aux (ctx s) ->
  cr4 (ctx s') = cr4 (ctx s) -> masked s' = l_shadow L ->
  (forall r, gprs (ctx s') r = l_regs L r) -> (forall x, gmem s' x = l_mem L x) ->
  eip (ctx s') mod 2 ^ 32 = l_ip L mod 2 ^ 32 ->
  (forall r, segb (ctx s') r mod 2 ^ 32 = l_base L r mod 2 ^ 32) ->
  (forall r, gsel (ctx s') r mod 2 ^ 16 = l_sel L r mod 2 ^ 16) -> lands s s' L.
Proof.
  intros Hok He Hr Ha Hc Hm. unfold lands. intros. repeat split; try assumption.
  - unfold ctx_ok. now rewrite He.
  - unfold read_eflags. now rewrite He, Hr, Ha.
Qed.

Lemma shl4 v : Z.shiftl v 4 = 16 * v.
Proof. rewrite Z.shiftl_mul_pow2 by lia. lia. Qed.

Lemma putw32_mod o v : putw W32 o v mod 2 ^ 32 = v mod 2 ^ 32.
Proof. change (2 ^ 32) with (modulus W32). rewrite <- !getw_mod. apply getw_putw. Qed.
Lemma putw16_mod o v : putw W16 o v mod 2 ^ 16 = v mod 2 ^ 16.
Proof. change (2 ^ 16) with (modulus W16). rewrite <- !getw_mod. apply getw_putw. Qed.
Lemma getw32_mod v : getw W32 v mod 2 ^ 32 = v mod 2 ^ 32.
Proof. change (2 ^ 32) with (modulus W32). rewrite <- !getw_mod. apply getw_idem. Qed.

(** the tail of a segment load, from a state with the selector in DX and, for
    POP, the new stack pointer in (E)BX *)
Lemma sel_tail_ok E r nxt s v :
  h_rcx (hr s) = P PCtx -> getw W16 (num E (h_rdx (hr s))) = v -> ctx_ok (ctx s) ->
  exists s', run E (emit_sel_tail r [] nxt) s = Left s' /\
    lands s s' (loads s r v (gprs (ctx s)) nxt (match r with SS => true | _ => false end)).
Proof.
  intros Hcx Hv Hok. unfold emit_sel_tail. start_state s Hcx.
  destruct r; unfold run; expand_list; sym; (eexists; split; [reflexivity |]);
  (apply lands_intro; cbn [ctx gprs segb eflags eip res aux cr4 gsel loads l_regs l_mem l_ip l_base l_sel l_shadow
     masked gmem]; try reflexivity; try exact Hok; rewrite ?orb_true_r, ?orb_false_r; try reflexivity;
   [rewrite putw32_mod, getw32_mod; reflexivity | |]);
  intros x; unfold put_seg; destruct x; cbn [sreg_eqb]; rewrite ?Hv, ?shl4; reflexivity.
Qed.

Lemma sel_tail_sp_ok E k r nxt s v :
  h_rcx (hr s) = P PCtx -> getw W16 (num E (h_rdx (hr s))) = v -> ctx_ok (ctx s) ->
  exists s', run E (emit_sel_tail r [MOV (k_esp k) (k_bx k)] nxt) s = Left s' /\
    lands s s' (loads s r v (set_sp k (getw (k_sp k) (num E (h_rbx (hr s)))) (gprs (ctx s))) nxt
      (match r with SS => true | _ => false end)).
Proof.
  intros Hcx Hv Hok. unfold emit_sel_tail. start_state s Hcx. unfold k_esp, k_bx, set_sp.
  destruct k as [w [|] z]; cbn [k_sp k_ss32];
  destruct r; unfold run; expand_list; sym; (eexists; split; [reflexivity |]);
  (apply lands_intro; cbn [ctx gprs segb eflags eip res aux cr4 gsel loads l_regs l_mem l_ip l_base l_sel l_shadow
     masked gmem]; try reflexivity; try exact Hok; rewrite ?orb_true_r, ?orb_false_r; try reflexivity;
   [rewrite putw32_mod, getw32_mod; reflexivity | |]);
  intros x; unfold put_seg; destruct x; cbn [sreg_eqb]; rewrite ?Hv, ?shl4; reflexivity.
Qed.

(** a prefix that leaves the guest alone *)
Lemma transfers_scratch E l s s1 l1 acc L : run E l1 s = Done s1 -> scratch s s1 ->
  transfers E l s1 acc L -> transfers E (l1 ++ l) s acc L.
Proof.
  intros R (S1 & S2 & S3 & S4) T. unfold transfers in *. rewrite (run_seq _ _ _ _ _ R).
  destruct (first_bad E acc) as [[[wr a] n] |].
  - destruct T as (s' & T & U1 & U2 & U3). exists s'. split; [exact T | repeat split; congruence].
  - destruct T as (s' & T & Q). exists s'. split; [exact T |]. unfold lands in *. now rewrite S2 in Q.
Qed.

Lemma transfers_fault E l1 l s s1 wr a n acc L : run E l1 s = Fault wr a n s1 -> untouched s s1 ->
  first_bad E acc = Some (wr, a, n) -> transfers E (l1 ++ l) s acc L.
Proof. intros R U F. unfold transfers. rewrite F. exists s1. split; [now apply run_fault | exact U]. Qed.

(** loading the selector into DX *)
Lemma sel_src E src w s :
  h_rcx (hr s) = P PCtx -> (w = W16 \/ w = W32) -> rm_ok src (ctx s) -> (w = W32 -> exists g, src = RmReg g) ->
  let l := (match src with
     | RmReg g => [MOV (Rg w RAX) (g_opnd w g)]
     | RmMem m => emit_ea m ++ [ILoad w]
     end) ++ [MOV DX AX] in
  match first_bad E (rm_acc false W16 src (ctx s)) with
  | Some (wr, a, n) => exists s', run E l s = Fault wr a n s' /\ untouched s s'
  | None => exists s', run E l s = Done s' /\ scratch s s' /\ getw W16 (num E (h_rdx (hr s'))) = read_rm W16 src s
  end.
Proof.
  intros Hcx Hw Hm H32 l. unfold l. clear l.
  destruct src as [[h g] | m]; cbn [rm_ok rm_acc first_bad read_rm] in *; unfold read_gop; cbn [g_high g_reg]; start_state s Hcx.
  - destruct Hw as [-> | ->]; unfold run; expand_list; sym; (eexists; split; [reflexivity |]; split; [repeat split |]);
    cbn [hr h_rdx num]; rewrite !getw_setw, ?getw_idem, ?getw_gget; try reflexivity.
    unfold gget, getw, setw; cbn [wmask]. rewrite <- !Z.land_assoc. reflexivity.
  - destruct Hw as [-> | ->]; [| destruct (H32 eq_refl); discriminate].
    rewrite <- app_assoc. destruct (e_fault E false _ _) eqn:F; run_ea m Hm; unfold run; expand_list; sym'; access; sym'; cbn [exec];
    (eexists; split; [reflexivity |]); try (repeat split; fail). split; [repeat split |].
    cbn [hr h_rdx num]; rewrite ?getw_setw, ?getw_idem, ?getw_mload; reflexivity.
Qed.

Lemma loads_eq s s1 r v g nxt b : scratch s s1 -> loads s1 r v g nxt b = loads s r v g nxt b.
Proof. intros (A & B & C & D). unfold loads. now rewrite B, C, D. Qed.

Lemma mov_to_sreg_ok E r src w nxt s :
  h_rcx (hr s) = P PCtx -> ctx_ok (ctx s) -> rm_ok src (ctx s) -> (w = W16 \/ w = W32) ->
  (w = W32 -> exists g, src = RmReg g) ->
  transfers E (emit_mov_to_sreg r src w nxt) s (rm_acc false W16 src (ctx s))
    (loads s r (read_rm W16 src s) (gprs (ctx s)) nxt (match r with SS => true | _ => false end)).
Proof.
  intros Hcx Hok Hm Hw H32. pose proof (sel_src E src w s Hcx Hw Hm H32) as S. cbv zeta in S.
  unfold emit_mov_to_sreg. rewrite app_assoc.
  destruct (first_bad E (rm_acc false W16 src (ctx s))) as [[[wr a] n] |] eqn:F.
  - destruct S as (s1 & R & U). eapply transfers_fault; eassumption.
  - destruct S as (s1 & R & S & V). eapply transfers_scratch; [exact R | exact S |].
    unfold transfers. rewrite F. pose proof S as (S1 & S2 & S3 & S4).
    assert (Hok1 : ctx_ok (ctx s1)) by (now rewrite S2).
    destruct (sel_tail_ok E r nxt s1 _ S1 V Hok1) as (s2 & R2 & Q). exists s2. split; [exact R2 |].
    rewrite S2 in Q. rewrite <- (loads_eq s s1) by exact S. exact Q.
Qed.

Lemma pop_sreg_ok E r k nxt s :
  h_rcx (hr s) = P PCtx -> ctx_ok (ctx s) -> stk_ok k (ctx s) ->
  transfers E (emit_pop_sreg r k nxt) s [(false, slot k 0 (ctx s), k_n k)]
    (loads s r (top_of k 0 s mod 2 ^ 16) (moved k (k_n k) (ctx s)) nxt (match r with SS => true | _ => false end)).
Proof.
  intros Hcx Hok Hk. pose proof (pop_run E k false s Hcx Hk) as P. cbv zeta in P. unfold emit_pop_sreg.
  destruct (e_fault E false _ _) eqn:F.
  - destruct P as (s1 & R & U). eapply transfers_fault; [exact R | exact U | cbn [first_bad]; now rewrite F].
  - destruct P as (s1 & R & P1 & P2 & P3 & P4 & P5 & P6 & P7).
    assert (S : scratch s s1) by (repeat split; assumption).
    eapply transfers_scratch; [exact R | exact S |].
    assert (R2 : exists s2, run E [MOV DX R8W] s1 = Done s2 /\ scratch s1 s2 /\ h_rbx (hr s2) = h_rbx (hr s1) /\
      getw W16 (num E (h_rdx (hr s2))) = getw W16 (num E (h_r8 (hr s1)))).
    { clear - P1. start_state s1 P1. unfold run; expand_list; sym. eexists. split; [reflexivity |].
      split; [repeat split |]. split; [reflexivity |]. cbn [hr h_rdx h_r8 num]. now rewrite getw_setw, getw_idem. }
    destruct R2 as (s2 & R2 & S2 & B2 & V2). eapply transfers_scratch; [exact R2 | exact S2 |].
    unfold transfers. cbn [first_bad]. rewrite F. pose proof S2 as (A2 & C2 & D2 & E2).
    assert (Hok2 : ctx_ok (ctx s2)) by (now rewrite C2, P7).
    destruct (sel_tail_sp_ok E k r nxt s2 _ A2 V2 Hok2) as (s3 & R3 & Q). exists s3. split; [exact R3 |].
    rewrite B2, P6, C2, P7, (loads_eq s1 s2 _ _ _ _ _ S2), (loads_eq s s1 _ _ _ _ _ S) in Q.
    replace (top_of k 0 s mod 2 ^ 16) with (getw W16 (num E (h_r8 (hr s1)))); [exact Q |].
    unfold top_of. rewrite <- P5, <- (getw_mod W16). destruct Hk as [[-> | ->] _]; unfold getw; cbn [wmask];
    now rewrite <- ?Z.land_assoc.
Qed.
