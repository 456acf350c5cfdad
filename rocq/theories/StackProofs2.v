(** * LEAVE, PUSHA, POPA and the flag pushes *)

From Coq Require Import ZArith Bool List Lia ZifyBool.
From Verif Require Import HostModel AluModel AluSpec StackModel StackSpec HostProofs LazyFlagsProofs FlagsApiProofs
  FlagArith SymExec EaProofs AluProofs AluForms UnaryProofs XchgProofs CondProofs FlagInstrProofs LahfProofs StackProofs.
Import ListNotations.
Local Open Scope Z_scope.

(** ** LEAVE *)


Lemma LEAVE_ok E k s :
  h_rcx (hr s) = P PCtx -> ctx_ok (ctx s) -> stk_ok k (ctx s) ->
  let c1 := leave_ctx k (ctx s) in
  if e_fault E false (slot k 0 c1) (k_n k) then
    exists s', run E (emit_leave k) s = Fault false (slot k 0 c1) (k_n k) s' /\ ctx s' = c1 /\ gmem s' = gmem s
  else exists s', run E (emit_leave k) s = Done s' /\
    becomes s s' (gput (k_w k) false EBP (mload (gmem s) (k_w k) (slot k 0 c1)) (gprs (popped k c1)))
      (gmem s) (flags_now s).
Proof.
  intros Hcx Hok Hk c1. unfold emit_leave.
  assert (R1 : exists s1, run E [MOV (Rg (k_sp k) RAX) (c_reg (k_sp k) false EBP); MOV (k_esp k) (Rg (k_sp k) RAX)] s = Done s1
    /\ h_rcx (hr s1) = P PCtx /\ ctx s1 = c1 /\ gmem s1 = gmem s /\ masked s1 = masked s).
  { subst c1. unfold leave_ctx, set_sp. start_state s Hcx. unfold k_esp. destruct k as [w [|] z]; cbn [k_sp k_ss32]; unfold run; expand_list; sym;
    eexists; repeat split; cbn [ctx]; rewrite ?getw_setw, ?getw_gget; reflexivity. }
  destruct R1 as (s1 & R1 & A1 & B1 & C1 & D1).
  rewrite (run_seq _ _ _ _ _ R1). clear R1.
  assert (Hk1 : stk_ok k (ctx s1)) by (rewrite B1; exact Hk).
  pose proof (pop_run E k true s1 A1 Hk1) as P. cbv zeta in P. rewrite B1 in P.
  destruct (e_fault E false _ _).
  - destruct P as (s2 & R & U1 & U2 & U3). exists s2. split; [now apply run_fault | split; congruence].
  - destruct P as (s2 & R & P1 & P2 & P3 & P4 & P5 & P6 & P7). rewrite (run_seq _ _ _ _ _ R).
    destruct (put_reg E (k_w k) false EBP R8 s2 (proj1 Hk) (or_introl eq_refl) P1)
      as (s3 & R2 & A & B & C & D & F & G). cbn [rget] in G.
    exists s3. split; [exact R2 |].
    apply becomes_same_flags; [exact Hok | exact A | | congruence | congruence].
    rewrite G, P5, P7, C1. reflexivity.
Qed.

(** ** PUSHA *)

Lemma sp_off_step k d e b c : getw (k_sp k) b = sp_off k d c ->
  getw (k_sp k) (getw (k_sp k) b + getw (k_sp k) e) = sp_off k (d + e) c.
Proof.
  intros H. rewrite H. unfold sp_off. destruct k as [w [|] z]; cbn [k_sp k_ss32]; rewrite !getw_mod;
  change (modulus W32) with (2 ^ 32); change (modulus W16) with (2 ^ 16);
  rewrite <- Zplus_mod; f_equal; lia.
Qed.

Lemma sub_bx E k s d : h_rcx (hr s) = P PCtx -> getw (k_sp k) (num E (h_rbx (hr s))) = sp_off k d (ctx s) ->
  exists s1, run E [SUB (k_bx k) (Im (k_sp k) (k_n k))] s = Done s1 /\ scratch s s1 /\ loc s1 = loc s /\
    getw (k_sp k) (num E (h_rbx (hr s1))) = sp_off k (d - k_n k) (ctx s).
Proof.
  intros Hcx H. apply (sp_off_step k d (- k_n k)) in H.
  replace (d - k_n k) with (d + - k_n k) by lia. rewrite <- H. clear H. start_state s Hcx.
  unfold k_bx; destruct k as [w [|] z]; unfold k_n; cbn [k_sp k_ss32 k_w]; destruct w; unfold run; expand_list; sym;
  (eexists; split; [reflexivity |]; split; [repeat split |]; split; [reflexivity |]);
  cbn [hr h_rbx num]; rewrite ?getw_setw, ?getw_idem; rewrite !getw_mod, <- Zminus_mod, <- Zplus_mod; f_equal; lia.
Qed.

Lemma add_bx E k s d c : h_rcx (hr s) = P PCtx -> getw (k_sp k) (num E (h_rbx (hr s))) = sp_off k d c ->
  exists s1, run E [ADD (k_bx k) (Im (k_sp k) (k_n k))] s = Done s1 /\ scratch s s1 /\
    getw (k_sp k) (num E (h_rbx (hr s1))) = sp_off k (d + k_n k) c.
Proof.
  intros Hcx H. apply (sp_off_step k d (k_n k)) in H. rewrite <- H. clear H. start_state s Hcx.
  unfold k_bx; destruct k as [w [|] z]; unfold k_n; cbn [k_sp k_ss32 k_w]; destruct w; unfold run; expand_list; sym;
  (eexists; split; [reflexivity |]; split; [repeat split |]);
  cbn [hr h_rbx num]; rewrite ?getw_setw, ?getw_idem; rewrite ?getw_mod; reflexivity.
Qed.

Lemma at_slot E k s d : h_rcx (hr s) = P PCtx -> stk_ok k (ctx s) ->
  getw (k_sp k) (num E (h_rbx (hr s))) = sp_off k d (ctx s) ->
  exists s1, run E (emit_slot k) s = Done s1 /\ scratch s s1 /\ h_rbx (hr s1) = h_rbx (hr s) /\
    h_rdx (hr s1) = N (slot k d (ctx s)).
Proof.
  intros Hcx [Hw Hz] H. destruct (slot_run E k s _ Hcx Hz H) as [f R]. eexists. split; [exact R|].
  repeat split.
Qed.

Lemma slot32 k d c : getw W32 (slot k d c) = slot k d c.
Proof. rewrite getw32. apply Z.mod_small. apply Z.mod_pos_bound. reflexivity. Qed.

Lemma pusha_one E k r s d :
  h_rcx (hr s) = P PCtx -> stk_ok k (ctx s) -> getw (k_sp k) (num E (h_rbx (hr s))) = sp_off k d (ctx s) ->
  let l := [SUB (k_bx k) (Im (k_sp k) (k_n k))] ++ emit_slot k ++
           [MOV (Rg (k_w k) R8) (c_reg (k_w k) false r); IStore (k_w k)] in
  let a := slot k (d - k_n k) (ctx s) in
  if e_fault E true a (k_n k) then
    exists s', run E l s = Fault true a (k_n k) s' /\ untouched s s'
  else exists s', run E l s = Done s' /\ h_rcx (hr s') = P PCtx /\ ctx s' = ctx s /\ masked s' = masked s /\
    gmem s' = mstore (gmem s) (k_w k) a (gget (k_w k) false r (gprs (ctx s))) /\
    getw (k_sp k) (num E (h_rbx (hr s'))) = sp_off k (d - k_n k) (ctx s).
Proof.
  intros Hcx Hk Hb l a. unfold l.
  destruct (sub_bx E k s d Hcx Hb) as (s1 & R1 & (A1 & B1 & C1 & D1) & L1 & Hb1). rewrite (run_seq _ _ _ _ _ R1).
  rewrite <- B1 in Hk, Hb1.
  destruct (at_slot E k s1 _ A1 Hk Hb1) as (s2 & R2 & (A2 & B2 & C2 & D2) & X2 & Y2). rewrite (run_seq _ _ _ _ _ R2).
  destruct (mov_r8 E (k_w k) false r s2 (proj1 Hk) A2) as (s3 & R3 & (A3 & B3 & C3 & D3) & V3).
  change ([MOV (Rg (k_w k) R8) (c_reg (k_w k) false r); IStore (k_w k)]) with
    ([MOV (Rg (k_w k) R8) (c_reg (k_w k) false r)] ++ [IStore (k_w k)]).
  assert (Z3 : h_rdx (hr s3) = h_rdx (hr s2) /\ h_rbx (hr s3) = h_rbx (hr s2)).
  { clear - R3 A2 Hk. destruct Hk as [Hw _]. start_state s2 A2. revert R3. destruct Hw as [-> | ->]; unfold run; expand_list; sym;
    intros R3; injection R3 as <-; split; reflexivity. }
  destruct Z3 as [Z3 Z3']. rewrite (run_seq _ _ _ _ _ R3).
  assert (E3 : getw W32 (num E (h_rdx (hr s3))) = a).
  { rewrite Z3, Y2, B1. apply slot32. }
  unfold run. rewrite (store_step E (k_w k) s3 _ _ [] E3 eq_refl). fold (k_n k).
  destruct (e_fault E true a (k_n k)).
  - exists s3. split; [reflexivity | repeat split; congruence].
  - eexists. split; [reflexivity |]. unfold stored; cbn [hr h_rcx ctx masked gmem h_rbx].
    split; [reflexivity |]. split; [congruence |]. split; [congruence |].
    rewrite <- V3, B2, B1, C3, C2, C1. split; [reflexivity |].
    rewrite Z3', X2, Hb1, B1. reflexivity.
Qed.

Lemma pusha_loop E k : forall l s d,
  h_rcx (hr s) = P PCtx -> stk_ok k (ctx s) -> getw (k_sp k) (num E (h_rbx (hr s))) = sp_off k d (ctx s) ->
  let p := flat_map (fun r => [SUB (k_bx k) (Im (k_sp k) (k_n k))] ++ emit_slot k ++
                     [MOV (Rg (k_w k) R8) (c_reg (k_w k) false r); IStore (k_w k)]) l in
  match first_bad E (pusha_acc k l d (ctx s)) with
  | Some (wr, a, n) => exists s', run E p s = Fault wr a n s' /\ ctx s' = ctx s /\ masked s' = masked s
  | None => exists s', run E p s = Done s' /\ h_rcx (hr s') = P PCtx /\ ctx s' = ctx s /\ masked s' = masked s /\
    gmem s' = pusha_mem k l d (ctx s) (gmem s) /\
    getw (k_sp k) (num E (h_rbx (hr s'))) = sp_off k (d - k_n k * Z.of_nat (length l)) (ctx s)
  end.
Proof.
  induction l as [| r l IH]; intros s d Hcx Hk Hb; cbv zeta.
  - cbn. eexists. split; [reflexivity |]. rewrite Hb. repeat split; try assumption. f_equal. lia.
  - cbn [flat_map pusha_acc first_bad pusha_mem]. pose proof (pusha_one E k r s d Hcx Hk Hb) as P. cbv zeta in P.
    destruct (e_fault E true _ _).
    + destruct P as (s1 & R & U1 & U2 & U3). exists s1. split; [now apply run_fault | split; assumption].
    + destruct P as (s1 & R & A & B & C & D & F). rewrite (run_seq _ _ _ _ _ R).
      rewrite <- B in Hk, F. specialize (IH s1 (d - k_n k) A Hk F). cbv zeta in IH. rewrite B in IH.
      destruct (first_bad _ _) as [[[wr a] n] |].
      * destruct IH as (s2 & R2 & U1 & U2). exists s2. split; [exact R2 | split; congruence].
      * destruct IH as (s2 & R2 & A2 & B2 & C2 & D2 & F2). exists s2. rewrite D2, D, F2.
        split; [exact R2 |]. repeat split; try congruence. f_equal. cbn [length]. lia.
Qed.

Lemma load_sp E k s : h_rcx (hr s) = P PCtx ->
  exists s1, run E [MOV (k_bx k) (k_esp k)] s = Done s1 /\ scratch s s1 /\
    getw (k_sp k) (num E (h_rbx (hr s1))) = sp_off k 0 (ctx s).
Proof.
  intros Hcx. start_state s Hcx. unfold sp_off, k_bx, k_esp. rewrite Z.add_0_r.
  destruct k as [w [|] z]; cbn [k_sp k_ss32]; unfold run; expand_list; sym;
  (eexists; split; [reflexivity |]; split; [repeat split |]); cbn [hr h_rbx num ctx gprs]; unfold gget;
  rewrite ?getw_setw, ?getw_idem, getw_mod; reflexivity.
Qed.

Lemma PUSHA_ok E k s :
  h_rcx (hr s) = P PCtx -> ctx_ok (ctx s) -> stk_ok k (ctx s) ->
  match first_bad E (pusha_acc k pusha_regs 0 (ctx s)) with
  | Some (wr, a, n) => exists s', run E (emit_pusha k) s = Fault wr a n s' /\ ctx s' = ctx s /\ masked s' = masked s
  | None => exists s', run E (emit_pusha k) s = Done s' /\
      becomes s s' (set_sp k (sp_off k (-8 * k_n k) (ctx s)) (gprs (ctx s)))
        (pusha_mem k pusha_regs 0 (ctx s) (gmem s)) (flags_now s)
  end.
Proof.
  intros Hcx Hok Hk. unfold emit_pusha.
  destruct (load_sp E k s Hcx) as (s1 & R1 & (A1 & B1 & C1 & D1) & Hb).
  rewrite <- B1 in Hk, Hb. pose proof (pusha_loop E k pusha_regs s1 0 A1 Hk Hb) as P. cbv zeta in P. rewrite B1 in P.
  rewrite (run_seq _ _ _ _ _ R1).
  destruct (first_bad _ _) as [[[wr a] n] |].
  - destruct P as (s2 & R2 & U1 & U2). exists s2. split; [now apply run_fault | split; congruence].
  - destruct P as (s2 & R2 & A2 & B2 & C2 & D2 & F2). rewrite (run_seq _ _ _ _ _ R2).
    destruct (put_sp E k s2 A2) as (s3 & R3 & A3 & B3 & C3 & D3). exists s3. split; [exact R3 |].
    apply becomes_same_flags; [exact Hok | exact A3 | | congruence | congruence].
    rewrite D3, F2, B2. replace (0 - k_n k * Z.of_nat (length pusha_regs)) with (-8 * k_n k) by (cbn [pusha_regs length]; lia).
    reflexivity.
Qed.

(** ** POPA *)

Definition popa_one (k : stk) (r : greg) : list instr :=
  emit_slot k ++ [ILoad (k_w k); MOV (c_reg (k_w k) false r) (Rg (k_w k) RAX); ADD (k_bx k) (Im (k_sp k) (k_n k))].

(** the stack pointer the slots are computed from is the one on entry *)
Lemma popa_step E k r s c d :
  h_rcx (hr s) = P PCtx -> stk_ok k c -> segb (ctx s) = segb c -> getw (k_sp k) (num E (h_rbx (hr s))) = sp_off k d c ->
  let a := slot k d c in
  if e_fault E false a (k_n k) then
    exists s', run E (popa_one k r) s = Fault false a (k_n k) s' /\ untouched s s'
  else exists s', run E (popa_one k r) s = Done s' /\ h_rcx (hr s') = P PCtx /\ masked s' = masked s /\ gmem s' = gmem s /\
    ctx s' = set_gprs (gput (k_w k) false r (mload (gmem s) (k_w k) a) (gprs (ctx s))) (ctx s) /\
    getw (k_sp k) (num E (h_rbx (hr s'))) = sp_off k (d + k_n k) c.
Proof.
  intros Hcx [Hw Hz] Hs Hb a. unfold popa_one. rewrite <- Hs in Hz.
  destruct (slot_run E k s _ Hcx Hz Hb) as [f R]. rewrite (run_seq _ _ _ _ _ R). clear R.
  rewrite Hs. match goal with |- context [N ?x] => change x with a end.
  assert (Ha : getw W32 a = a) by apply slot32. clearbody a.
  rewrite <- (sp_off_step k d (k_n k) _ c Hb). clear Hb Hs. start_state s Hcx.
  destruct (e_fault E false a (k_n k)) eqn:F;
  destruct k as [w [|] z]; unfold k_n, k_sp, set_sp in *; cbn [k_w k_sp k_ss32] in *;
  destruct Hw as [-> | ->];
  unfold run; expand_list; sym'; access_at Ha; sym'; cbn [exec];
  (eexists; split; [reflexivity |]); try (repeat split; fail);
  cbn [hr h_rcx ctx gmem masked h_rbx num gprs]; repeat split; rewrite ?getw_setw, ?getw_idem, ?getw_mload; reflexivity.
Qed.

Definition popa_list (k : stk) : list greg -> list instr := flat_map (popa_one k).

Fixpoint popa_put (k : stk) (l : list greg) (d : Z) (c : gctx) (m : Z -> Z) (g : greg -> Z) : greg -> Z :=
  match l with
  | [] => g
  | r :: tl => popa_put k tl (d + k_n k) c m (gput (k_w k) false r (mload m (k_w k) (slot k d c)) g)
  end.
Fixpoint popa_slots (k : stk) (l : list greg) (d : Z) (c : gctx) : list (bool * Z * Z) :=
  match l with
  | [] => []
  | _ :: tl => (false, slot k d c, k_n k) :: popa_slots k tl (d + k_n k) c
  end.


Lemma popa_loop E k c : stk_ok k c -> forall l s d,
  ~ In ESP l -> h_rcx (hr s) = P PCtx -> segb (ctx s) = segb c ->
  getw (k_sp k) (num E (h_rbx (hr s))) = sp_off k d c ->
  match first_bad E (popa_slots k l d c) with
  | Some (wr, a, n) => exists s', run E (popa_list k l) s = Fault wr a n s' /\ only_regs s s'
  | None => exists s', run E (popa_list k l) s = Done s' /\ h_rcx (hr s') = P PCtx /\ masked s' = masked s /\
    gmem s' = gmem s /\ ctx s' = set_gprs (popa_put k l d c (gmem s) (gprs (ctx s))) (ctx s) /\
    popa_put k l d c (gmem s) (gprs (ctx s)) ESP = gprs (ctx s) ESP /\
    getw (k_sp k) (num E (h_rbx (hr s'))) = sp_off k (d + k_n k * Z.of_nat (length l)) c
  end.
Proof.
  intros Hk. induction l as [| r l IH]; intros s d Hn Hcx Hs Hb.
  - cbn [popa_slots first_bad popa_list flat_map popa_put]. exists s. split; [reflexivity |].
    repeat split; try assumption. + now destruct s as [? ? [? ? ? ? ? ? ?] ? ? ? ?]. + rewrite Hb. f_equal. cbn. lia.
  - unfold popa_list in *. cbn [flat_map popa_slots first_bad popa_put].
    pose proof (popa_step E k r s c d Hcx Hk Hs Hb) as P. cbv zeta in P.
    destruct (e_fault E false _ _).
    + destruct P as (s1 & R & U1 & U2 & U3). exists s1. split; [now apply run_fault |].
      split; [exact U2 |]. split; [exact U3 |]. exists (gprs (ctx s)). split; [| reflexivity].
      rewrite U1. now destruct s as [? ? [? ? ? ? ? ? ?] ? ? ? ?].
    + destruct P as (s1 & R & A & B & C & D & F). rewrite (run_seq _ _ _ _ _ R).
      assert (Hs1 : segb (ctx s1) = segb c) by (rewrite D; exact Hs).
      assert (Hn1 : ~ In ESP l) by (intros X; apply Hn; now right).
      assert (G : gprs (ctx s1) ESP = gprs (ctx s) ESP).
      { rewrite D. cbn [gprs set_gprs]. unfold gput. replace (greg_eqb ESP r) with false; [reflexivity |].
        destruct r; try reflexivity. elim Hn. now left. }
      specialize (IH s1 (d + k_n k) Hn1 A Hs1 F).
      destruct (first_bad _ _) as [[[wr a] n] |].
      * destruct IH as (s2 & R2 & U1 & U2 & g & U3 & U4). exists s2. split; [exact R2 |].
        split; [congruence |]. split; [congruence |]. exists g. split; [| congruence].
        rewrite U3, D. reflexivity.
      * destruct IH as (s2 & R2 & A2 & B2 & C2 & D2 & G2 & F2). exists s2. rewrite C, D in *. cbn [gprs set_gprs] in *.
        split; [exact R2 |]. split; [exact A2 |]. split; [congruence |]. split; [congruence |].
        split; [exact D2 |]. split; [rewrite G2; exact G |]. rewrite F2. f_equal. cbn [length]. lia.
Qed.

Lemma mul_next a n : a * n + n = (a + 1) * n. Proof. lia. Qed.
Ltac slots :=
  rewrite ?Z.add_0_l, ?Z.mul_0_l;
  repeat match goal with
  | |- context [slot ?k (k_n ?k) _] => replace (slot k (k_n k)) with (slot k (1 * k_n k)) by (now rewrite Z.mul_1_l)
  | |- context [slot ?k (k_n ?k + k_n ?k) _] => replace (k_n k + k_n k) with (2 * k_n k) by lia
  end;
  rewrite ?mul_next; cbn [Z.add Pos.add Pos.succ].

Lemma POPA_ok E k s :
  h_rcx (hr s) = P PCtx -> ctx_ok (ctx s) -> stk_ok k (ctx s) ->
  match first_bad E (popa_acc k (ctx s)) with
  | Some (wr, a, n) => exists s', run E (emit_popa k) s = Fault wr a n s' /\ only_regs s s'
  | None => exists s', run E (emit_popa k) s = Done s' /\ becomes s s' (popa_regs k s) (gmem s) (flags_now s)
  end.
Proof.
  intros Hcx Hok Hk. pose (c := ctx s).
  change (emit_popa k) with ([MOV (k_bx k) (k_esp k)] ++ popa_list k [EDI; ESI; EBP] ++
    [ADD (k_bx k) (Im (k_sp k) (k_n k))] ++ popa_list k [EBX; EDX; ECX; EAX] ++ [MOV (k_esp k) (k_bx k)]).
  destruct (load_sp E k s Hcx) as (s1 & R1 & (A1 & B1 & C1 & D1) & Hb).
  rewrite (run_seq _ _ _ _ _ R1). clear R1.
  assert (Hs1 : segb (ctx s1) = segb c) by now rewrite B1.
  pose proof (popa_loop E k c Hk [EDI; ESI; EBP] s1 0 ltac:(cbn; intuition discriminate) A1 Hs1 Hb) as P.
  assert (Q : popa_acc k (ctx s) = popa_slots k [EDI; ESI; EBP] 0 c ++ popa_slots k [EBX; EDX; ECX; EAX] (4 * k_n k) c).
  { unfold popa_acc, c. cbn [map popa_slots app]. slots. reflexivity. }
  rewrite Q. clear Q.
  assert (FB : forall l1 l2, first_bad E (l1 ++ l2) = match first_bad E l1 with Some x => Some x | None => first_bad E l2 end).
  { induction l1 as [| [[? ?] ?] l1 IH]; intros l2; cbn; [reflexivity |]. destruct (e_fault E _ _ _); auto. }
  rewrite FB. clear FB.
  destruct (first_bad E (popa_slots k [EDI; ESI; EBP] 0 c)) as [[[wr a] n] |].
  - destruct P as (s2 & R2 & U1 & U2 & g & U3 & U4). exists s2. split; [now apply run_fault |].
    split; [congruence |]. split; [congruence |]. exists g. rewrite B1 in *. now split.
  - destruct P as (s2 & R2 & A2 & B2 & C2 & D2 & G2 & F2). rewrite (run_seq _ _ _ _ _ R2). clear R2.
    replace (0 + k_n k * Z.of_nat (length [EDI; ESI; EBP])) with (3 * k_n k) in F2 by (cbn [length]; lia).
    destruct (add_bx E k s2 _ c A2 F2) as (s3 & R3 & (A3 & B3 & C3 & D3) & F3).
    replace (3 * k_n k + k_n k) with (4 * k_n k) in F3 by lia.
    rewrite (run_seq _ _ _ _ _ R3). clear R3.
    assert (Hs3 : segb (ctx s3) = segb c) by (rewrite B3, D2; exact Hs1).
    pose proof (popa_loop E k c Hk [EBX; EDX; ECX; EAX] s3 (4 * k_n k) ltac:(cbn; intuition discriminate) A3 Hs3 F3) as P.
    destruct (first_bad E (popa_slots k [EBX; EDX; ECX; EAX] (4 * k_n k) c)) as [[[wr a] n] |].
    + destruct P as (s4 & R4 & U1 & U2 & g & U3 & U4). exists s4. split; [now apply run_fault |].
      split; [congruence |]. split; [congruence |]. exists g.
      split; [rewrite U3, B3, D2, B1; reflexivity |]. rewrite U4, B3, D2. cbn [gprs set_gprs]. congruence.
    + destruct P as (s4 & R4 & A4 & B4 & C4 & D4 & G4 & F4). rewrite (run_seq _ _ _ _ _ R4). clear R4.
      replace (4 * k_n k + k_n k * Z.of_nat (length [EBX; EDX; ECX; EAX])) with (8 * k_n k) in F4 by (cbn [length]; lia).
      destruct (put_sp E k s4 A4) as (s5 & R5 & A5 & B5 & C5 & D5). exists s5. split; [exact R5 |].
      apply becomes_same_flags; [exact Hok | exact A5 | | congruence | congruence].
      rewrite D5, F4, D4, B3, C3, C2, D2, C1, B1. unfold popa_regs, c. cbn [gprs set_gprs popa_put]. slots. reflexivity.
Qed.

(** ** The status flags as PUSHF assembles them *)

Definition status_word (f : aflags) : Z := flag_byte f + 2048 * b2z (f_of f).

Lemma getw_shiftr w a n : 0 <= n -> getw w (Z.shiftr (getw w a) n) = Z.shiftr (getw w a) n.
Proof.
  intros Hn. apply Z.bits_inj'. intros i Hi. rewrite getw_testbit, Z.shiftr_spec, getw_testbit by lia.
  destruct (Z.ltb_spec i (wbits w)); [apply andb_true_r |].
  replace (i + n <? wbits w) with false by lia. now rewrite !andb_false_r.
Qed.

Lemma w_cfof ax :
  getw W32 (Z.shiftr (getw W32 (Z.lor (getw W32 (Z.shiftr (getw W32 ax) 12))
      (getw W32 (Z.land (getw W32 (Z.lxor (getw W32 (Z.shiftr (getw W32 ax) 1)) (getw W32 ax)))
         (getw W32 1073741824))))) 19)
  = Z.lor (b2z (Z.testbit ax 31)) (if xorb (Z.testbit ax 31) (Z.testbit ax 30) then 2048 else 0).
Proof.
  change (getw W32 1073741824) with (2 ^ 30). rewrite one_bit by lia.
  match goal with |- context [Z.testbit ?x 30] =>
    replace (Z.testbit x 30) with (xorb (Z.testbit ax 31) (Z.testbit ax 30)) by (hbits; reflexivity) end.
  set (b := xorb _ _). rewrite (getw_shiftr W32 ax 12) by lia.
  replace (getw W32 (if b then 2 ^ 30 else 0)) with (if b then 2 ^ 30 else 0) by (now destruct b).
  rewrite getw_shiftr by lia.
  replace (getw W32 (Z.lor (Z.shiftr (getw W32 ax) 12) (if b then 2 ^ 30 else 0)))
    with (Z.lor (Z.shiftr (getw W32 ax) 12) (if b then 2 ^ 30 else 0)).
  2:{ rewrite <- (getw_shiftr W32 ax 12) by lia. destruct b;
      [change (2 ^ 30) with (getw W32 (2 ^ 30)) | change 0 with (getw W32 0)]; symmetry; apply getw_lor. }
  rewrite Z.shiftr_lor, Z.shiftr_shiftr by lia. change (12 + 19) with 31.
  rewrite <- (getw_shiftr W32 ax 31), top_word by lia. now destruct b.
Qed.

Lemma w_sf7' rs ax :
  Z.land (getw W32 (Z.lxor (getw W32 (Z.shiftl (getw W32 ax) 7))
     (getw W32 (getw W8 (if 3 =? 0 then rs else Z.shiftr rs (8 * 3)))))) (getw W32 128)
  = if xorb (Z.testbit rs 31) (Z.testbit ax 0) then 128 else 0.
Proof. rewrite Z.lxor_comm. apply w_sf7. Qed.

Lemma status_run E s : h_rcx (hr s) = P PCtx -> ctx_ok (ctx s) ->
  exists s1, run E emit_status s = Done s1 /\ scratch s s1 /\
    getw W32 (num E (h_rax (hr s1))) = status_word (flags_now s).
Proof.
  intros Hcx Hok. unfold flags_now. rewrite read_flags by exact Hok. start_state s Hcx. unfold emit_status, run. expand_list; sym.
  rewrite ?if00, ?setw_getw32, ?twice.
  eexists. split; [reflexivity |]. split; [repeat split|]. cbn [hr h_rax num].
  rewrite ?getw_idem, ?getw_setw, ?Z.lxor_nilpotent, w_cfof, w_sf7', w_af.
  cbv [holds logic_flags hzf]. rewrite Z.land_diag, getw_idem. change (getw W32 rs) with (w32 rs).
  rewrite !w_pf'. unfold lazy_flags, status_word, flag_byte. cbn [f_cf f_pf f_af f_zf f_sf f_of].
  destruct (Z.testbit rs 31), (Z.testbit ax 0), (Z.testbit ax 3), (Z.testbit ax 31), (Z.testbit ax 30), (odd_ones _), (w32 rs =? 0);
      vm_compute; reflexivity.
Qed.

Lemma read_parts c : ctx_ok c -> read_eflags c = Z.lor (w32 (eflags c)) (status_word (flags_of_eflags (read_eflags c))).
Proof.
  intros Hok. apply eflags_by_parts.
  - set (f := flags_of_eflags (read_eflags c)). unfold flags_of_eflags. rewrite !Z.lor_spec.
    assert (K : forall i, Z.testbit STATUS i = true -> 0 <= i < 32 -> Z.testbit (w32 (eflags c)) i = false).
    { intros i Hi Hr. rewrite w32_bit by exact Hr. now apply status_bit. }
    rewrite !K by (reflexivity || lia). cbn [orb].
    destruct f as [f1 f2 f3 f4 f5 f6]. unfold status_word, flag_byte. cbn [f_cf f_pf f_af f_zf f_sf f_of].
    destruct f1, f2, f3, f4, f5, f6; reflexivity.
  - rewrite control_lor, control_read. set (f := flags_of_eflags (read_eflags c)).
    replace (control_bits (status_word f)) with 0; [now rewrite Z.lor_0_r |].
    destruct f as [f1 f2 f3 f4 f5 f6]; destruct f1, f2, f3, f4, f5, f6; reflexivity.
Qed.

(** ** PUSHF *)


Lemma getw32_small v : 0 <= v < 2 ^ 32 -> getw W32 v = v.
Proof. intros H. rewrite getw32. now apply Z.mod_small. Qed.

Lemma status_range f : 0 <= status_word f < 2 ^ 16.
Proof. destruct f as [f1 f2 f3 f4 f5 f6]; destruct f1, f2, f3, f4, f5, f6; unfold status_word, flag_byte; cbn; lia. Qed.

Lemma scratch_trans a b c : scratch a b -> scratch b c -> scratch a c.
Proof. intros (A1 & A2 & A3 & A4) (B1 & B2 & B3 & B4). repeat split; congruence. Qed.

Lemma pushf_tail16 E s1 : h_rcx (hr s1) = P PCtx ->
  exists s2, run E [MOV R8W (Mm W16 (MCtx RCX CEflags)); OR R8W AX] s1 = Done s2 /\ scratch s1 s2 /\
    getw W16 (num E (h_r8 (hr s2))) = getw W16 (Z.lor (eflags (ctx s1)) (getw W32 (num E (h_rax (hr s1))))).
Proof.
  intros A. start_state s1 A. unfold run; expand_list; sym. eexists. split; [reflexivity |]. split; [repeat split |].
  cbn [hr h_r8 num h_rax ctx eflags]. rewrite ?getw_setw, ?getw_idem.
  apply Z.bits_inj'. intros i Hi. rewrite ?getw_testbit, !Z.lor_spec, ?getw_testbit by lia. cbn [wbits].
  destruct (Z.ltb_spec i 16).
  - replace (i <? 32) with true by lia. now rewrite !andb_true_r.
  - now rewrite !andb_false_r.
Qed.

Lemma pushf_tail32 E s1 : h_rcx (hr s1) = P PCtx ->
  exists s2, run E [MOV R8D c_eflags; OR R8D hEAX; AND R8D (i32 0xFCFFFF)] s1 = Done s2 /\ scratch s1 s2 /\
    getw W32 (num E (h_r8 (hr s2))) = Z.land (Z.lor (eflags (ctx s1)) (getw W32 (num E (h_rax (hr s1))))) 0xFCFFFF.
Proof.
  intros A. start_state s1 A. unfold run; expand_list; sym. eexists. split; [reflexivity |]. split; [repeat split |].
  cbn [hr h_r8 num h_rax ctx eflags]. rewrite ?getw_setw, ?getw_idem.
  change (getw W32 0xFCFFFF) with 0xFCFFFF.
  apply Z.bits_inj'. intros i Hi. rewrite ?getw_testbit, !Z.land_spec, ?getw_testbit, !Z.lor_spec, ?getw_testbit by lia. cbn [wbits].
  destruct (Z.ltb_spec i 32).
  - now rewrite !andb_true_r.
  - rewrite !andb_false_r. change 0xFCFFFF with (getw W32 0xFCFFFF). rewrite getw_testbit by lia. cbn [wbits].
    replace (i <? 32) with false by lia. now rewrite !andb_false_r.
Qed.

Lemma PUSHF_ok E f k s :
  h_rcx (hr s) = P PCtx -> ctx_ok (ctx s) -> stk_ok k (ctx s) -> fm_vm86 f && (fm_iopl f <? 3) = false ->
  does E (emit_pushf f k) s [(true, slot k (- k_n k) (ctx s), k_n k)]
    (set_sp k (sp_off k (- k_n k) (ctx s)) (gprs (ctx s)))
    (mstore (gmem s) (k_w k) (slot k (- k_n k) (ctx s)) (pushed_flags (k_w k) (ctx s))) (flags_now s).
Proof.
  intros Hcx Hok Hk Hr. unfold emit_pushf. rewrite Hr.
  destruct (status_run E s Hcx Hok) as (s1 & R1 & S1 & V1). pose proof (read_parts (ctx s) Hok) as RP.
  unfold flags_now in V1. set (st := status_word _) in *. clearbody st. pose proof (proj1 S1) as A1. pose proof (proj1 (proj2 S1)) as B1.
  assert (Hw := proj1 Hk).
  destruct Hw as [Hw | Hw]; rewrite Hw; rewrite app_assoc.
  - destruct (pushf_tail16 E s1 A1) as (s2 & R2 & S2 & V2).
    assert (G : does E ((emit_status ++ [MOV R8W (Mm W16 (MCtx RCX CEflags)); OR R8W AX]) ++ emit_push true None k) s
       [(true, slot k (- k_n k) (ctx s), k_n k)]
       (set_sp k (sp_off k (- k_n k) (ctx s)) (gprs (ctx s)))
       (mstore (gmem s) (k_w k) (slot k (- k_n k) (ctx s)) (pushed_flags (k_w k) (ctx s))) (flags_now s)).
    2:{ rewrite Hw in G. exact G. }
    eapply end_push; [exact Hok | exact Hk | rewrite (run_seq _ _ _ _ _ R1); exact R2 |
      exact (scratch_trans _ _ _ S1 S2) |].
    cbv iota. rewrite Hw, V2, V1, B1. unfold pushed_flags. rewrite RP. unfold getw. cbn [wmask].
    apply Z.bits_inj'. intros i Hi. rewrite !Z.land_spec, !Z.lor_spec. unfold w32. rewrite Z.land_spec.
    destruct (Z.ltb_spec i 32).
    + replace (Z.testbit 0xFFFFFFFF i) with true; [now rewrite andb_true_r |]. symmetry.
      change 0xFFFFFFFF with (Z.ones 32). now apply Z.ones_spec_low.
    + replace (Z.testbit 0xFFFF i) with false; [now rewrite !andb_false_r |]. symmetry.
      change 0xFFFF with (Z.ones 16). apply Z.ones_spec_high. lia.
  - destruct (pushf_tail32 E s1 A1) as (s2 & R2 & S2 & V2).
    assert (G : does E ((emit_status ++ [MOV R8D c_eflags; OR R8D hEAX; AND R8D (i32 0xFCFFFF)]) ++ emit_push true None k) s
       [(true, slot k (- k_n k) (ctx s), k_n k)]
       (set_sp k (sp_off k (- k_n k) (ctx s)) (gprs (ctx s)))
       (mstore (gmem s) (k_w k) (slot k (- k_n k) (ctx s)) (pushed_flags (k_w k) (ctx s))) (flags_now s)).
    { eapply end_push; [exact Hok | exact Hk | rewrite (run_seq _ _ _ _ _ R1); exact R2 |
        exact (scratch_trans _ _ _ S1 S2) |].
      cbv iota. rewrite Hw, V2, V1, B1. unfold pushed_flags. rewrite RP.
      rewrite !Z.land_lor_distr_l. f_equal. unfold w32. rewrite <- Z.land_assoc. reflexivity. }
    rewrite Hw in G. destruct (fm_vme f); exact G.
Qed.

(** in virtual-8086 mode with IOPL < 3 and no mode extensions (or a 32-bit
    operand) PUSHF and POPF are trapped *)
Lemma PUSHF_trap E f k s :
  h_rcx (hr s) = P PCtx -> (k_w k = W16 \/ k_w k = W32) ->
  fm_vm86 f = true -> fm_iopl f < 3 -> (k_w k = W32 \/ fm_vme f = false) ->
  gp_fault E (emit_pushf f k) s.
Proof.
  intros Hcx Hw Hv Hi Hm. unfold gp_fault, emit_pushf. rewrite Hv. replace (fm_iopl f <? 3) with true by lia. cbn [andb].
  destruct Hw as [Hw | Hw]; rewrite Hw in *.
  - destruct Hm as [Hm | Hm]; [discriminate | rewrite Hm]. eexists. split; [reflexivity | repeat split].
  - eexists. split; [reflexivity | repeat split].
Qed.
