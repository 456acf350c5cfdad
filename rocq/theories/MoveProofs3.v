(** * Far pointers, near and far transfers *)

From Coq Require Import ZArith Bool List Lia ZifyBool.
From Verif Require Import HostModel AluModel AluSpec StackModel StackSpec MoveModel MoveSpec HostProofs LazyFlagsProofs
  FlagsApiProofs FlagArith SymExec EaProofs AluProofs AluForms UnaryProofs XchgProofs CondProofs FlagInstrProofs
  LahfProofs StackProofs StackProofs2 MoveProofs MoveProofs2.
Import ListNotations.
Local Open Scope Z_scope.

Lemma far_addr w a : getw W32 (a + getw W32 (wbytes w)) = (a + wbytes w) mod 2 ^ 32.
Proof. rewrite !getw32. change (2 ^ 32) with 4294967296. apply Zplus_mod_idemp_r. Qed.

Ltac far_access w :=
  match goal with |- context [exec ?E (ILoad W16 :: ?tl) (Done ?s)] =>
    lazymatch goal with F2 : e_fault _ _ ?a2 2 = _ |- _ =>
      rewrite (load_step E W16 s a2 tl) by
        (cbn [hr h_rdx num]; rewrite ?getw_setw, ?getw_idem; exact (far_addr w _));
      change (e_fault E false a2 (wbytes W16)) with (e_fault E false a2 2); rewrite F2 end end;
  unfold loaded; cbn [hr h_rax h_rbx h_rcx h_rdx h_r8 h_r9 h_r10 h_r11 ctx gmem loc ncall masked].

Ltac landed Hok :=
  eexists; split; [reflexivity |]; apply lands_intro;
  cbn [ctx gprs segb eflags eip res aux cr4 gsel loads near far l_regs l_mem l_ip l_base l_sel l_shadow masked gmem];
  try reflexivity; try exact Hok; rewrite ?orb_false_r; try reflexivity.

Lemma lxs_ok E r dst m w nxt s :
  h_rcx (hr s) = P PCtx -> ctx_ok (ctx s) -> memop_ok m (ctx s) -> (w = W16 \/ w = W32) ->
  let a := ea m (ctx s) in
  transfers E (emit_lxs r dst m w nxt) s (far_acc w a)
    (loads s r (far_sel w a s) (regs_after w (RmReg dst) (far_off w a s) s) nxt false).
Proof.
  intros Hcx Hok Hm Hw a. unfold a, transfers, far_acc, far_sel, far_off, emit_lxs. cbn [first_bad regs_after].
  clear a. start_state s Hcx. destruct dst as [h g]. cbn [g_high g_reg].
  destruct (e_fault E false (ea m _) (wbytes w)) eqn:F.
  { destruct Hw as [-> | ->]; run_ea m Hm; unfold run; expand_list; sym'; access; sym'; cbn [exec];
    (eexists; split; [reflexivity |]; repeat split). }
  destruct (e_fault E false ((ea m _ + wbytes w) mod 2 ^ 32) 2) eqn:F2;
  (destruct Hw as [-> | ->]; run_ea m Hm; unfold run; expand_list; sym'; access; sym';
   [far_access W16 | far_access W32]; sym'; cbn [exec]).
  1, 2: eexists; split; [reflexivity |]; repeat split.
  all: landed Hok.
  all: try (rewrite putw32_mod, getw32_mod; reflexivity).
  all: intros y; rewrite ?getw_setw, ?getw_idem, ?getw_mload; try reflexivity.
  all: unfold put_seg; destruct (sreg_eqb y r) eqn:Q; destruct y; destruct r; try discriminate Q; try reflexivity; rewrite ?getw_setw, ?getw_idem, ?getw_mload, ?shl4;
    reflexivity.
Qed.

Lemma get16_32 v : getw W32 (getw W16 v) = getw W16 v.
Proof. unfold getw; cbn [wmask]. now rewrite <- Z.land_assoc. Qed.
Lemma load16_32 m a : getw W32 (mload m W16 a) = mload m W16 a.
Proof. now rewrite <- (getw_mload m W16), get16_32, getw_mload. Qed.

Lemma farptr_run E m w s :
  h_rcx (hr s) = P PCtx -> memop_ok m (ctx s) -> (w = W16 \/ w = W32) ->
  let a := ea m (ctx s) in
  match first_bad E (far_acc w a) with
  | Some (wr, a, n) => exists s', run E (emit_farptr m w) s = Fault wr a n s' /\ untouched s s'
  | None => exists s', run E (emit_farptr m w) s = Done s' /\ scratch s s' /\
      getw W32 (num E (h_rbx (hr s'))) = far_off w a s /\ getw W16 (num E (h_rax (hr s'))) = far_sel w a s
  end.
Proof.
  intros Hcx Hm Hw a. unfold a, far_acc, far_sel, far_off, emit_farptr. cbn [first_bad].
  clear a. start_state s Hcx.
  destruct (e_fault E false (ea m _) (wbytes w)) eqn:F.
  { destruct Hw as [-> | ->]; run_ea m Hm; unfold run; expand_list; sym'; access; sym'; cbn [exec];
    (eexists; split; [reflexivity |]; repeat split). }
  destruct (e_fault E false ((ea m _ + wbytes w) mod 2 ^ 32) 2) eqn:F2;
  (destruct Hw as [-> | ->]; run_ea m Hm; unfold run; expand_list; sym'; access; sym';
   [far_access W16 | far_access W32]; sym'; cbn [exec]).
  1, 2: eexists; split; [reflexivity |]; repeat split.
  all: eexists; split; [reflexivity |]; split; [repeat split |]; cbn [hr h_rax h_rbx num];
    rewrite ?getw_setw, ?getw_idem, ?getw_mload; split; try reflexivity.
  apply load16_32.
Qed.

Lemma far_tail E s cs0 ip0 :
  h_rcx (hr s) = P PCtx -> ctx_ok (ctx s) -> getw W16 (num E (h_rax (hr s))) = cs0 -> getw W32 (num E (h_rbx (hr s))) = ip0 ->
  exists s', run E [MOV (c_sel CS) AX; MOV c_eip hEBX; MOVZX hEAX AX; SHL hEAX 4; MOV (c_segb CS) hEAX; ILink] s = Left s' /\
    lands s s' (far s (gprs (ctx s)) (gmem s) cs0 ip0).
Proof.
  intros Hcx Hok Ha Hb. start_state s Hcx. unfold run; expand_list; sym'. landed Hok; rewrite ?Ha, ?Hb.
  - apply putw32_mod.
  - intros x; unfold put_seg; destruct (sreg_eqb x CS) eqn:Q; destruct x; try discriminate Q; try reflexivity.
    rewrite putw32_mod, ?getw32_mod, shl4.
    rewrite <- Ha, get16_32. reflexivity.
  - intros x; unfold put_seg; destruct (sreg_eqb x CS) eqn:Q; destruct x; try discriminate Q; try reflexivity.
    apply putw16_mod.
Qed.

(** ** Jumps *)

Lemma rel_target_ok w next disp : w = W16 \/ w = W32 ->
  rel_target w next disp = branch_target (match w with W16 => true | _ => false end) next disp.
Proof.
  intros Hw. unfold rel_target, branch_target. change w32 with (getw W32).
  destruct Hw as [-> | ->].
  - change (Z.land (getw W32 (next + disp)) 65535) with (getw W16 (getw W32 (next + disp))).
    replace (getw W16 (getw W32 (next + disp))) with (getw W16 (next + disp)).
    + apply getw_mod.
    + unfold getw; cbn [wmask]. now rewrite <- Z.land_assoc.
  - apply getw_mod.
Qed.

Lemma jmp_rel_ok E w nxt disp s :
  h_rcx (hr s) = P PCtx -> ctx_ok (ctx s) -> w = W16 \/ w = W32 ->
  transfers E (emit_jmp_rel w nxt disp) s []
    (near s (gprs (ctx s)) (gmem s) (branch_target (match w with W16 => true | _ => false end) nxt disp)).
Proof.
  intros Hcx Hok Hw. unfold transfers, emit_jmp_rel; cbn [first_bad]. rewrite (rel_target_ok w nxt disp Hw).
  set (t := branch_target _ _ _). clearbody t. start_state s Hcx. unfold run; expand_list; sym'. landed Hok.
  rewrite putw32_mod. apply getw32_mod.
Qed.

(** loading the target of an indirect near transfer *)
Lemma target_src E o w s :
  h_rcx (hr s) = P PCtx -> (w = W16 \/ w = W32) -> rm_ok o (ctx s) ->
  let l := match o with
     | RmReg g => [MOV (Rg w RAX) (g_opnd w g)]
     | RmMem m => emit_ea m ++ [ILoad w]
     end in
  match first_bad E (rm_acc false w o (ctx s)) with
  | Some (wr, a, n) => exists s', run E l s = Fault wr a n s' /\ untouched s s'
  | None => exists s', run E l s = Done s' /\ scratch s s' /\ getw w (num E (h_rax (hr s'))) = read_rm w o s
  end.
Proof.
  intros Hcx Hw Hm l. unfold l. clear l.
  destruct o as [[h g] | m]; cbn [rm_ok rm_acc first_bad read_rm] in *; unfold read_gop; cbn [g_high g_reg]; start_state s Hcx.
  - destruct Hw as [-> | ->]; unfold run; expand_list; sym; (eexists; split; [reflexivity |]; split; [repeat split |]);
    cbn [hr h_rax num]; rewrite !getw_setw, ?getw_idem, ?getw_gget; reflexivity.
  - destruct (e_fault E false _ _) eqn:F; destruct Hw as [-> | ->]; run_ea m Hm; unfold run; expand_list; sym'; access; sym'; cbn [exec];
    (eexists; split; [reflexivity |]); try (repeat split; fail); (split; [repeat split |]);
    cbn [hr h_rax num]; rewrite ?getw_setw, ?getw_idem, ?getw_mload; reflexivity.
Qed.

(** the end of an indirect near transfer: target in (E)AX *)
Lemma near_tail E w s v :
  h_rcx (hr s) = P PCtx -> ctx_ok (ctx s) -> w = W16 \/ w = W32 -> getw w (num E (h_rax (hr s))) = v ->
  exists s', run E ((match w with W16 => [MOVZX hEAX AX] | _ => [] end) ++ [MOV c_eip hEAX; ILink]) s = Left s' /\
    lands s s' (near s (gprs (ctx s)) (gmem s) v).
Proof.
  intros Hcx Hok Hw Hv. start_state s Hcx. destruct Hw as [-> | ->]; unfold run; expand_list; sym'; landed Hok;
  rewrite <- Hv, putw32_mod, ?getw32_mod; reflexivity.
Qed.

Lemma near_eq s s1 g m t : scratch s s1 -> near s1 g m t = near s g m t.
Proof. intros (A & B & C & D). unfold near. now rewrite B, D. Qed.
Lemma far_eq s s1 g m c t : scratch s s1 -> far s1 g m c t = far s g m c t.
Proof. intros (A & B & C & D). unfold far. now rewrite B, D. Qed.

Lemma jmp_rm_ok E o w s :
  h_rcx (hr s) = P PCtx -> ctx_ok (ctx s) -> rm_ok o (ctx s) -> w = W16 \/ w = W32 ->
  transfers E (emit_jmp_rm o w) s (rm_acc false w o (ctx s)) (near s (gprs (ctx s)) (gmem s) (read_rm w o s)).
Proof.
  intros Hcx Hok Hm Hw. pose proof (target_src E o w s Hcx Hw Hm) as S. cbv zeta in S. unfold emit_jmp_rm.
  destruct (first_bad E (rm_acc false w o (ctx s))) as [[[wr a] n] |] eqn:F.
  - destruct S as (s1 & R & U). eapply transfers_fault; eassumption.
  - destruct S as (s1 & R & S & V). eapply transfers_scratch; [exact R | exact S |]. pose proof S as (S1 & S2 & S3 & S4).
    assert (Hok1 : ctx_ok (ctx s1)) by (now rewrite S2).
    destruct (near_tail E w s1 _ S1 Hok1 Hw V) as (s2 & R2 & Q).
    unfold transfers. rewrite F. exists s2. split; [exact R2 |].
    rewrite (near_eq s s1 _ _ _ S), S2, S3 in Q. exact Q.
Qed.

Lemma jmpf_ok E w sel off s :
  h_rcx (hr s) = P PCtx -> ctx_ok (ctx s) -> w = W16 \/ w = W32 ->
  transfers E (emit_jmpf w sel off) s [] (far s (gprs (ctx s)) (gmem s) (sel mod 2 ^ 16) (off mod modulus w)).
Proof.
  intros Hcx Hok Hw. unfold transfers, emit_jmpf; cbn [first_bad]. start_state s Hcx.
  remember (Z.shiftl (getw W16 sel) 4) as b eqn:Hb.
  destruct Hw as [-> | ->]; unfold run; expand_list; sym'; landed Hok.
  1: { rewrite putw32_mod, getw32_mod. change (Z.land off 65535) with (getw W16 off). now rewrite getw_mod. }
  3: { rewrite putw32_mod, getw32_mod. symmetry. apply Z.mod_mod. discriminate. }
  all: intros x; unfold put_seg; destruct (sreg_eqb x CS) eqn:Q; destruct x; try discriminate Q; try reflexivity.
  1, 3: rewrite putw32_mod, getw32_mod, Hb, shl4, getw_mod; reflexivity.
  all: rewrite putw16_mod, (getw_mod W16); reflexivity.
Qed.

Lemma jmpf_m_ok E m w s :
  h_rcx (hr s) = P PCtx -> ctx_ok (ctx s) -> memop_ok m (ctx s) -> w = W16 \/ w = W32 ->
  let a := ea m (ctx s) in
  transfers E (emit_jmpf_m m w) s (far_acc w a) (far s (gprs (ctx s)) (gmem s) (far_sel w a s) (far_off w a s)).
Proof.
  intros Hcx Hok Hm Hw a. pose proof (farptr_run E m w s Hcx Hm Hw) as S. cbv zeta in S. fold a in S. unfold emit_jmpf_m.
  destruct (first_bad E (far_acc w a)) as [[[wr a'] n] |] eqn:F.
  - destruct S as (s1 & R & U). eapply transfers_fault; eassumption.
  - destruct S as (s1 & R & S & V1 & V2). eapply transfers_scratch; [exact R | exact S |]. pose proof S as (S1 & S2 & S3 & S4).
    assert (Hok1 : ctx_ok (ctx s1)) by (now rewrite S2).
    destruct (far_tail E s1 _ _ S1 Hok1 V2 V1) as (s2 & R2 & Q).
    unfold transfers. rewrite F. exists s2. split; [exact R2 |].
    rewrite (far_eq s s1 _ _ _ _ S), S2, S3 in Q. exact Q.
Qed.

(** ** Moving the stack pointer *)

Lemma putw_mod w o v : putw w o v mod modulus w = v mod modulus w.
Proof. rewrite <- !getw_mod. apply getw_putw. Qed.
Lemma putw_twice w o u v : putw w (putw w o u) v = putw w o v.
Proof.
  apply Z.bits_inj'. intros i Hi. rewrite !putw_testbit by assumption.
  destruct (i <? wbits w); reflexivity.
Qed.
Lemma sp_mod k : modulus (k_sp k) = if k_ss32 k then 2 ^ 32 else 2 ^ 16.
Proof. unfold k_sp. now destruct (k_ss32 k). Qed.

Lemma sp_off_moved k d e c : sp_off k d (set_gprs (moved k e c) c) = sp_off k (e + d) c.
Proof.
  unfold sp_off, moved, set_sp, gput. cbn [gprs set_gprs greg_eqb]. rewrite <- sp_mod.
  rewrite Zplus_mod, putw_mod. unfold sp_off. rewrite <- sp_mod.
  rewrite Z.mod_mod by (pose proof (modulus_pos (k_sp k)); lia). rewrite <- Zplus_mod. f_equal. lia.
Qed.
Lemma slot_moved k d e c : slot k d (set_gprs (moved k e c) c) = slot k (e + d) c.
Proof. unfold slot. rewrite sp_off_moved. reflexivity. Qed.
Lemma moved_moved k d e c r : moved k d (set_gprs (moved k e c) c) r = moved k (e + d) c r.
Proof.
  unfold moved at 1. rewrite sp_off_moved. unfold moved, set_sp, gput. cbn [gprs set_gprs].
  destruct (greg_eqb r ESP); [| reflexivity]. cbn [greg_eqb]. apply putw_twice.
Qed.

(** ** Calls *)

Lemma call_tail E t s : h_rcx (hr s) = P PCtx -> ctx_ok (ctx s) ->
  exists s', run E [MOV c_eip (i32 t); ILink] s = Left s' /\ lands s s' (near s (gprs (ctx s)) (gmem s) t).
Proof.
  intros Hcx Hok. start_state s Hcx. unfold run; expand_list; sym'. landed Hok. rewrite putw32_mod. apply getw32_mod.
Qed.

Lemma lands_from s s1 s' L :
  eflags (ctx s1) = eflags (ctx s) -> res (ctx s1) = res (ctx s) -> aux (ctx s1) = aux (ctx s) ->
  cr4 (ctx s1) = cr4 (ctx s) -> lands s1 s' L -> lands s s' L.
Proof.
  intros He Hr Ha Hc (A & B & C & D & F & G & H & I & J). repeat split; try assumption; try congruence.
  rewrite J. unfold read_eflags. now rewrite He, Hr, Ha.
Qed.

Lemma call_rel_ok E k ret disp s :
  h_rcx (hr s) = P PCtx -> ctx_ok (ctx s) -> stk_ok k (ctx s) ->
  transfers E (emit_call_rel k ret disp) s [(true, slot k (- k_n k) (ctx s), k_n k)]
    (near s (moved k (- k_n k) (ctx s))
       (mstore (gmem s) (k_w k) (slot k (- k_n k) (ctx s)) (ret mod modulus (k_w k)))
       (branch_target (match k_w k with W16 => true | _ => false end) ret disp)).
Proof.
  intros Hcx Hok Hk. pose proof (push_run E k (Some ret) s _ Hcx Hk eq_refl) as P. cbv zeta in P. unfold emit_call_rel.
  destruct (e_fault E true _ _) eqn:F.
  - destruct P as (s1 & R & U). eapply transfers_fault; [exact R | exact U | cbn [first_bad]; now rewrite F].
  - destruct P as (s1 & R & P1 & P2 & P3 & P4 & P5). unfold transfers. cbn [first_bad]. rewrite F, (run_seq _ _ _ _ _ R).
    assert (Hok1 : ctx_ok (ctx s1)) by (now rewrite P4).
    destruct (call_tail E (rel_target (k_w k) ret disp) s1 P1 Hok1) as (s2 & R2 & Q). exists s2. split; [exact R2 |].
    apply (lands_from s s1); try (rewrite P4; reflexivity).
    rewrite (rel_target_ok _ _ _ (proj1 Hk)) in Q. unfold near in *. rewrite P2, P3, P4, getw_mod in Q. exact Q.
Qed.

Lemma call_rm_ok E o k ret s :
  h_rcx (hr s) = P PCtx -> ctx_ok (ctx s) -> stk_ok k (ctx s) -> rm_ok o (ctx s) ->
  transfers E (emit_call_rm o k ret) s (rm_acc false (k_w k) o (ctx s) ++ [(true, slot k (- k_n k) (ctx s), k_n k)])
    (near s (moved k (- k_n k) (ctx s))
       (mstore (gmem s) (k_w k) (slot k (- k_n k) (ctx s)) (ret mod modulus (k_w k))) (read_rm (k_w k) o s)).
Proof.
  intros Hcx Hok Hk Hm. pose proof (target_src E o (k_w k) s Hcx (proj1 Hk) Hm) as S. cbv zeta in S. unfold emit_call_rm.
  assert (FB : forall l1 l2, first_bad E (l1 ++ l2) = match first_bad E l1 with Some x => Some x | None => first_bad E l2 end).
  { induction l1 as [| [[? ?] ?] l1 IH]; intros l2; cbn; [reflexivity |]. destruct (e_fault E _ _ _); auto. }
  destruct (first_bad E (rm_acc false (k_w k) o (ctx s))) as [[[wr a] n] |] eqn:F.
  - destruct S as (s1 & R & U). eapply transfers_fault; [exact R | exact U |]. rewrite FB, F. reflexivity.
  - destruct S as (s1 & R & S & V). eapply transfers_scratch; [exact R | exact S |].
    assert (R2 : exists s2, run E [MOV (local W32 0) hEAX] s1 = Done s2 /\ scratch s1 s2 /\
      getw (k_w k) (loc s2 0%nat) = getw (k_w k) (num E (h_rax (hr s1)))).
    { pose proof S as (S1 & _). clear - S1 Hk. destruct Hk as [Hw _]. start_state s1 S1. unfold run; expand_list; sym'. eexists.
      split; [reflexivity |]. split; [repeat split |]. cbn [loc Nat.eqb hr h_rax num].
      destruct Hw as [-> | ->]; [| rewrite getw_putw; apply getw_idem].
      apply Z.bits_inj'. intros i Hi. rewrite !getw_testbit, putw_testbit, getw_testbit by assumption. cbn [wbits].
      destruct (Z.ltb_spec i 16); [| now rewrite !andb_false_r]. replace (i <? 32) with true by lia. now rewrite !andb_true_r. }
    destruct R2 as (s2 & R2 & S2 & L2). eapply transfers_scratch; [exact R2 | exact S2 |].
    assert (S' : scratch s s2).
    { destruct S as (A & B & C & D), S2 as (A2 & B2 & C2 & D2). repeat split; congruence. }
    destruct S' as (A & B & C & D). rewrite V in L2. clear R R2 S S2 V.
    assert (Hk2 : stk_ok k (ctx s2)) by (now rewrite B).
    pose proof (push_run E k (Some ret) s2 _ A Hk2 eq_refl) as P. cbv zeta in P. rewrite B, C in P.
    destruct (e_fault E true _ _) eqn:F2.
    + destruct P as (s3 & R & U). eapply transfers_fault; [exact R | exact U |]. rewrite FB, F. cbn [first_bad]. now rewrite F2.
    + destruct P as (s3 & R & P1 & P2 & P3 & P4 & P5). unfold transfers. rewrite FB, F. cbn [first_bad].
      rewrite F2, (run_seq _ _ _ _ _ R).
      assert (R4 : exists s4, run E [MOV hEAX (local W32 0)] s3 = Done s4 /\ scratch s3 s4 /\
         getw (k_w k) (num E (h_rax (hr s4))) = getw (k_w k) (loc s3 0%nat)).
      { clear - P1 Hk. destruct Hk as [Hw _]. start_state s3 P1. unfold run; expand_list; sym'. eexists.
        split; [reflexivity |]. split; [repeat split |]. cbn [loc hr h_rax num]. change (setw W32 ?o ?v) with (getw W32 v).
        rewrite getw_idem. destruct Hw as [-> | ->]; unfold getw; cbn [wmask]; now rewrite <- Z.land_assoc. }
      destruct R4 as (s4 & R4 & (A4 & B4 & C4 & D4) & L4). rewrite (run_seq _ _ _ _ _ R4).
      assert (Hok4 : ctx_ok (ctx s4)) by (rewrite B4, P4; exact Hok).
      rewrite P5, L2 in L4.
      destruct (near_tail E (k_w k) s4 _ A4 Hok4 (proj1 Hk) L4) as (s5 & R5 & Q). exists s5. split; [exact R5 |].
      apply (lands_from s2 s4); try (rewrite B4, P4, B; reflexivity).
      unfold near in *. rewrite B4, P4, C4, P2, D4, P3, D, getw_mod in Q. exact Q.
Qed.
