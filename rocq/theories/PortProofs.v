(** * The port instructions *)

From Coq Require Import ZArith Bool List Lia ZifyBool.
From Verif Require Import HostModel AluModel AluSpec HostProofs LazyFlagsProofs FlagsApiProofs
  FlagArith SymExec EaProofs AluProofs AluForms UnaryProofs XchgProofs CondProofs ShiftModel ShiftSpec
  ShiftProofs ShiftForms RotateProofs BitProofs MulProofs BcdProofs BranchProofs StringModel StringSpec
  StringProofs StringRep PortModel PortSpec.
From Verif Require IoPrivModel.
Import ListNotations.
Local Open Scope Z_scope.

(** ** Running *)

Lemma phost E l r : forall o t, pexec E (host l ++ r) o t = pexec E r (exec (p_host E) l o) t.
Proof.
  induction l as [| i l IH]; intros o t; [reflexivity |].
  cbn [host map app pexec]. fold (host l). rewrite IH. f_equal. now rewrite <- exec_app.
Qed.
Lemma phost_end E l o t : pexec E (host l) o t = (exec (p_host E) l o, t).
Proof. rewrite <- (app_nil_r (host l)). now rewrite phost. Qed.
Lemma phost_run E l r s s' t : run (p_host E) l s = Done s' -> prun E (host l ++ r) s t = prun E r s' t.
Proof. intros H. unfold prun. rewrite phost. unfold run in H. now rewrite H. Qed.

Definition over (o : outcome) : bool := match o with Done _ | Skip _ _ => false | _ => true end.
Lemma over_exec E l : forall o, over o = true -> exec E l o = o.
Proof. induction l as [| i l IH]; intros [] H; try discriminate; reflexivity. Qed.
Lemma over_pexec E l : forall o t, over o = true -> pexec E l o t = (o, t).
Proof.
  induction l as [| i l IH]; intros o t H; [reflexivity |]. cbn [pexec].
  destruct i; try rewrite over_exec by exact H; destruct o; try discriminate; now apply IH.
Qed.
Lemma phost_over E l r s o t : run (p_host E) l s = o -> over o = true -> prun E (host l ++ r) s t = (o, t).
Proof. intros H K. unfold prun. rewrite phost. unfold run in H. rewrite H. now apply over_pexec. Qed.

(** ** The port number and the check *)

(** nothing but scratch registers and local 0 has changed *)
Definition keeps (s s' : hst) : Prop :=
  same s s' /\ gs s' = gs s /\ h_rbx (hr s') = h_rbx (hr s) /\ loc s' 1%nat = loc s 1%nat.

Lemma unchecked E g : checked E = false -> forall imm port w r10 r11, IoPrivModel.check (priv_env E g) imm port w r10 r11 = true.
Proof.
  intros H. intros. unfold IoPrivModel.check. unfold checked in H.
  change (IoPrivModel.restricted (priv_env E g)) with (IoPrivModel.restricted (priv_env E (fun _ => 0))). now rewrite H.
Qed.

Lemma dx_ok E w s t : h_rcx (hr s) = P PCtx ->
  exists ok s1, permission E false (dx (gs s)) w (gmem s) ok /\ keeps s s1 /\
    (ok = true -> getw W32 (num (p_host E) (h_rdx (hr s1))) = dx (gs s)) /\
    forall r, prun E (ld_port ++ check_dx (checked E) w ++ r) s t =
      if ok then prun E r s1 t else (Raise 13 0 s1, t).
Proof.
  intros Hcx. pose proof (gget_range W16 false EDX (gprs (ctx s))) as HR. unfold dx, gs. cbn [g_regs].
  set (p := gget W16 false EDX (gprs (ctx s))) in *. change (modulus W16) with 65536 in HR.
  assert (P32 : getw W32 p = p) by (apply getw_small; unfold modulus; cbn [wbits]; lia).
  set (s0 := set_hr (rset RDX (N p) (hr s)) s).
  assert (R0 : run (p_host E) [MOVZX hEDX (c_reg W16 false EDX)] s = Done s0).
  { start_state s Hcx. subst s0 p. unfold run. expand_list. sym'. cbn [exec]. repeat f_equal. rewrite ?set32, ?getw_idem. unfold set_hr. cbn [rset hr hf ctx gmem loc ncall masked]. repeat f_equal. exact P32. }
  assert (K0 : h_rcx (hr s0) = P PCtx) by (start_state s Hcx; reflexivity).
  clearbody p. unfold permission, check_dx. destruct (checked E) eqn:C.
  - set (s1 := set_loc (fun k => if Nat.eqb k 0 then putw W32 (loc s 0%nat) p else loc s k) s0).
    assert (R1 : run (p_host E) [MOV (local W32 0) hEDX] s0 = Done s1).
    { start_state s Hcx. subst s1 s0. unfold run. expand_list. sym'. cbn [exec]. unfold set_hr, set_loc. cbn [rset hr hf ctx gmem loc ncall masked num]. now rewrite ?P32. }
    set (s2 := clobber (p_host E) (clobber (p_host E) s1)).
    set (ok := IoPrivModel.check (priv_env E (gmem s)) false p (wbytes w)
                 (getw W32 (e_clob (p_host E) (ncall s) R10)) (getw W32 (e_clob (p_host E) (ncall s) R11))).
    assert (PC : pstep E (PCheck None w) s1 t = (if ok then Done s2 else Raise 13 0 s2, t)).
    { unfold pstep. change (gmem s1) with (gmem s). change (ncall s1) with (ncall s).
      replace (getw W32 (loc s1 0%nat)) with p; [fold s2; fold ok; now destruct ok |].
      subst s1. cbn [set_loc loc Nat.eqb]. now rewrite getw_putw. }
    assert (RA : forall r, prun E (ld_port ++ (host [MOV (local W32 0) hEDX] ++ [PCheck None w] ++ host [MOV hEDX (local W32 0)]) ++ r) s t =
      pexec E (host [MOV hEDX (local W32 0)] ++ r) (if ok then Done s2 else Raise 13 0 s2) t).
    { intros r. unfold ld_port. rewrite (phost_run _ _ _ _ _ _ R0). rewrite <- !app_assoc. rewrite (phost_run _ _ _ _ _ _ R1).
      unfold prun. cbn [app pexec]. rewrite PC. reflexivity. }
    exists ok. assert (OK := eq_refl ok : ok = IoPrivModel.check _ _ _ _ _ _). destruct ok.
    + exists (set_hr (rset RDX (N p) (hr s2)) s2). split; [do 2 eexists; symmetry; exact OK |]. split; [| split].
      * subst s2 s1 s0. start_state s Hcx. repeat split.
      * intros _. subst s2 s1 s0. start_state s Hcx. exact P32.
      * intros r. rewrite RA. fold (prun E (host [MOV hEDX (local W32 0)] ++ r) s2 t). apply phost_run.
        subst s2 s1 s0. start_state s Hcx. unfold clobber. cbn [set_hr set_ncall set_loc rset hr hf ctx gmem loc ncall masked h_rbx].
        unfold run. expand_list. sym'. cbn [exec]. unfold set_hr, set_ncall. cbn [rset hr hf ctx gmem loc ncall masked Nat.eqb].
        repeat f_equal. rewrite ?set32, ?getw_idem, ?getw_putw. exact P32.
    + exists s2. split; [do 2 eexists; symmetry; exact OK |]. split; [subst s2 s1 s0; start_state s Hcx; repeat split |].
      split; [discriminate | intros r; rewrite RA; apply over_pexec; reflexivity].
  - exists true, s0. split; [exists 0, 0; now apply unchecked |]. split; [subst s0; start_state s Hcx; repeat split |].
    split; [intros _; subst s0; start_state s Hcx; exact P32 |]. intros r. cbn [app]. unfold ld_port. exact (phost_run _ _ _ _ _ _ R0).
Qed.


Lemma keeps_trans a b c : keeps a b -> keeps b c -> keeps a c.
Proof. intros (A1 & A2 & A3 & A4) (B1 & B2 & B3 & B4). split; [eauto using same_trans |]. repeat split; congruence. Qed.

(** an immediate port *)
Lemma imm_ok E port w s t : h_rcx (hr s) = P PCtx ->
  exists ok s1, permission E true port w (gmem s) ok /\ keeps s s1 /\
    forall r, prun E (check_imm (checked E) port w ++ r) s t = if ok then prun E r s1 t else (Raise 13 0 s1, t).
Proof.
  intros Hcx. unfold permission, check_imm. destruct (checked E) eqn:C.
  - set (s2 := clobber (p_host E) (clobber (p_host E) s)).
    set (ok := IoPrivModel.check (priv_env E (gmem s)) true port (wbytes w)
                 (getw W32 (e_clob (p_host E) (ncall s) R10)) (getw W32 (e_clob (p_host E) (ncall s) R11))).
    assert (PC : pstep E (PCheck (Some port) w) s t = (if ok then Done s2 else Raise 13 0 s2, t)).
    { unfold pstep. fold s2. fold ok. now destruct ok. }
    exists ok, s2. split; [do 2 eexists; reflexivity |]. split; [subst s2; start_state s Hcx; repeat split |].
    intros r. unfold prun. cbn [app pexec]. rewrite PC. cbn [fst snd]. destruct ok; [reflexivity | now apply over_pexec].
  - exists true, s. split; [exists 0, 0; now apply unchecked |]. split; [split; [now apply same_refl | auto] |]. reflexivity.
Qed.

(** ** The accesses *)

(** the state after a read: the value is in RAX *)
Lemma in_step E w s t : h_rcx (hr s) = P PCtx -> arith_w w ->
  let port := getw W16 (num (p_host E) (h_rdx (hr s))) in let v := p_dev E t w port mod modulus w in
  exists s1, keeps s s1 /\ getw w (num (p_host E) (h_rax (hr s1))) = v /\
    forall r, prun E (PIn w :: r) s t = prun E r s1 (t ++ [ERead w port v]).
Proof.
  intros Hcx Hw port v. unfold prun. cbn [pexec pstep fst snd]. unfold hval.
  change (rget RDX (hr s)) with (h_rdx (hr s)). fold port. rewrite getw_mod. fold v. cbn [op_write next].
  eexists. split; [| split; [| reflexivity]].
  - start_state s Hcx. repeat split.
  - start_state s Hcx. cbn [clobber set_ncall set_hr rset hr h_rax num rget].
    rewrite getw_setw. apply getw_small. apply Z.mod_pos_bound, modulus_pos.
Qed.

Lemma out_step E w s t :  h_rcx (hr s) = P PCtx ->
  exists s1, keeps s s1 /\ forall r, prun E (POut w :: r) s t =
    prun E r s1 (t ++ [EWrite w (getw W16 (num (p_host E) (h_rdx (hr s)))) (getw w (num (p_host E) (h_r8 (hr s))))]).
Proof. intros Hcx. eexists. split; [| intros r; reflexivity]. start_state s Hcx. repeat split. Qed.

Lemma low16 v : 0 <= v < 65536 -> forall x, getw W32 x = v -> getw W16 x = v.
Proof. intros H x Hx. rewrite <- getw_16_32, Hx. now apply getw_small. Qed.

Lemma store_acc E w s : h_rcx (hr s) = P PCtx -> arith_w w ->
  exists s', run E [MOV (c_reg w false EAX) (Rg w RAX)] s = Done s' /\ same s s' /\
    gs s' = mkgst (gput w false EAX (getw w (num E (h_rax (hr s)))) (gprs (ctx s))) (gmem s) (g_fl (gs s)).
Proof.
  intros Hcx Hw. start_state s Hcx. destruct w; try (now elim Hw);
  (unfold run; expand_list; sym'; cbn [exec]; eexists; split; [reflexivity |]; split; [repeat split | reflexivity]).
Qed.
Lemma load_acc E w s : h_rcx (hr s) = P PCtx -> arith_w w ->
  exists s', run E [MOV (Rg w R8) (c_reg w false EAX)] s = Done s' /\ keeps s s' /\ h_rdx (hr s') = h_rdx (hr s) /\
    getw w (num E (h_r8 (hr s'))) = gget w false EAX (gprs (ctx s)).
Proof.
  intros Hcx Hw. start_state s Hcx. destruct w; try (now elim Hw);
  (unfold run; expand_list; sym'; cbn [exec]; eexists; split; [reflexivity |]; split; [repeat split | split; [reflexivity |]];
   cbn [hr h_r8 num ctx gprs]; rewrite ?set32, ?getw_setw, ?getw_idem, ?getw_gget; reflexivity).
Qed.

(** ** IN and OUT *)

Lemma dx_range g : 0 <= dx g < 65536.
Proof. apply (gget_range W16). Qed.

Lemma in_tail E w s t p : h_rcx (hr s) = P PCtx -> arith_w w -> getw W32 (num (p_host E) (h_rdx (hr s))) = p -> 0 <= p < 65536 ->
  exists s1, prun E ([PIn w] ++ host [MOV (c_reg w false EAX) (Rg w RAX)]) s t =
      (Done s1, snd (spec_in (p_dev E) w p (gs s) t)) /\
    same s s1 /\ gs s1 = fst (spec_in (p_dev E) w p (gs s) t).
Proof.
  intros Hcx Hw Hp Rp. destruct (in_step E w s t Hcx Hw) as (s1 & (K1 & K2 & _) & K3 & R1). cbv zeta in *.
  rewrite (low16 p Rp _ Hp) in *. cbn [app]. rewrite R1.
  destruct (store_acc (p_host E) w s1 (same_rcx _ _ K1) Hw) as (s2 & R2 & S2 & G2). exists s2.
  unfold prun. rewrite phost_end. unfold run in R2. rewrite R2. split; [reflexivity |]. split; [eauto using same_trans |].
  rewrite G2, K3. unfold spec_in, read_port. cbn [fst]. rewrite <- K2. reflexivity.
Qed.

Lemma out_tail E w s t p : h_rcx (hr s) = P PCtx -> arith_w w -> getw W32 (num (p_host E) (h_rdx (hr s))) = p -> 0 <= p < 65536 ->
  exists s1, prun E (host [MOV (Rg w R8) (c_reg w false EAX)] ++ [POut w]) s t =
      (Done s1, spec_out w p (gs s) t) /\ same s s1 /\ gs s1 = gs s.
Proof.
  intros Hcx Hw Hp Rp. destruct (load_acc (p_host E) w s Hcx Hw) as (s1 & R1 & (K1 & K2 & _) & D & V).
  rewrite (phost_run _ _ _ _ _ _ R1). destruct (out_step E w s1 t (same_rcx _ _ K1)) as (s2 & (L1 & L2 & _) & R2). rewrite R2.
  rewrite D, (low16 p Rp _ Hp), V. exists s2. split; [reflexivity |]. split; [eauto using same_trans | congruence].
Qed.

Lemma mov_port E port s : h_rcx (hr s) = P PCtx -> 0 <= port < 65536 ->
  exists s', run E [MOV hEDX (i32 port)] s = Done s' /\ keeps s s' /\ getw W32 (num E (h_rdx (hr s'))) = port.
Proof.
  intros Hcx Hp. start_state s Hcx. unfold run. expand_list. sym'. cbn [exec].
  eexists. split; [reflexivity |]. split; [repeat split |]. cbn [hr h_rdx num].
  rewrite ?set32, ?getw_setw, ?getw_idem. apply getw_small. unfold modulus. cbn [wbits]. lia.
Qed.

(** ** INS and OUTS *)

(** an element without the index moves *)
Definition port_accessed (E : penv) (base : sreg -> Z) (w : width) (a32 : bool) (seg : sreg) (k : portop) (ok : bool)
    (g : gst) (t : list ioev) : (gst + cause) * list ioev :=
  let fault := fault_of (p_host E) w in
  match k with
  | PIns =>
      if ok then
        let v := read_port (p_dev E) w t (dx g) in let b := dest base a32 g in let t' := t ++ [ERead w (dx g) v] in
        if fault true b then (inr (CFault true b), t')
        else (inl (mkgst (g_regs g) (mstore (g_mem g) w b v) (g_fl g)), t')
      else (inr CGp, t)
  | POuts =>
      let a := source base a32 seg g in
      if fault false a then (inr (CFault false a), t)
      else if ok then (inl g, t ++ [EWrite w (dx g) (mload (g_mem g) w a)])
      else (inr CGp, t)
  end.

Lemma port_split E base w a32 seg df k ok g t :
  port_element (p_dev E) (fault_of (p_host E) w) base w a32 seg df k ok g t =
  match port_accessed E base w a32 seg k ok g t with
  | (inl g1, t1) => (inl (moves w a32 df (like k) g1), t1)
  | (inr x, t1) => (inr x, t1)
  end.
Proof.
  unfold port_element, port_accessed. cbv zeta. destruct k; repeat match goal with |- context [if ?b then _ else _] => destruct b end; reflexivity.
Qed.

Definition caused (w : width) (x : cause) (s : hst) : outcome :=
  match x with CFault wr a => Fault wr a (wbytes w) s | CGp => Raise 13 0 s end.

Lemma to_r8 E w s : h_rcx (hr s) = P PCtx -> arith_w w ->
  exists s', run E [MOV (Rg w R8) (Rg w RAX)] s = Done s' /\ keeps s s' /\
    getw w (num E (h_r8 (hr s'))) = getw w (num E (h_rax (hr s))).
Proof.
  intros Hcx Hw. start_state s Hcx. destruct w; try (now elim Hw);
  (unfold run; expand_list; sym'; cbn [exec]; eexists; split; [reflexivity |]; split; [repeat split |];
   cbn [hr h_r8 h_rax num]; rewrite ?set32, ?getw_setw, ?getw_idem; reflexivity).
Qed.
Lemma from_loc E w s : h_rcx (hr s) = P PCtx -> arith_w w ->
  exists s', run E [MOV (Rg w R8) (local w 1)] s = Done s' /\ keeps s s' /\ h_rdx (hr s') = h_rdx (hr s) /\
    getw w (num E (h_r8 (hr s'))) = getw w (loc s 1%nat).
Proof.
  intros Hcx Hw. start_state s Hcx. destruct w; try (now elim Hw);
  (unfold run; expand_list; sym'; cbn [exec]; eexists; split; [reflexivity |]; split; [repeat split | split; [reflexivity |]];
   cbn [hr h_r8 h_rax num loc]; rewrite ?set32, ?getw_setw, ?getw_idem; reflexivity).
Qed.

Lemma in_indices E a32 (k : strop) r s i : st_moves k = [(r, RBX)] ->
  num E (h_rbx (hr s)) = i -> i = gget (if a32 : bool then W32 else W16) false r (gprs (ctx s)) -> indices E a32 k s.
Proof.
  intros Hk H1 H2. unfold indices. rewrite Hk. apply Forall_cons; [| apply Forall_nil]. cbn [snd fst rget].
  rewrite H1, H2. apply wide_idx.
Qed.

Lemma ins_access E w a32 seg z ze s t :
  arith_w w -> h_rcx (hr s) = P PCtx -> (ze = true -> segb (ctx s) ES = 0) ->
  exists ok, permission E false (dx (gs s)) w (gmem s) ok /\
  match port_accessed E (segb (ctx s)) w a32 seg PIns ok (gs s) t with
  | (inl g1, t1) => exists s', (forall r, prun E (port_access PIns (checked E) w a32 seg z ze ++ r) s t = prun E r s' t1) /\
      same s s' /\ gs s' = g1 /\ indices (p_host E) a32 (like PIns) s'
  | (inr x, t1) => exists s', (forall r, prun E (port_access PIns (checked E) w a32 seg z ze ++ r) s t = (caused w x s', t1)) /\
      same s s' /\ gs s' = gs s
  end.
Proof.
  intros Hw Hcx Hze. destruct (dx_ok E w s t Hcx) as (ok & s1 & PM & (K1 & K2 & _) & D1 & R1).
  exists ok. split; [exact PM |]. unfold port_accessed, port_access. destruct ok.
  2:{ exists s1. split; [| auto]. intros r. rewrite <- !app_assoc. rewrite R1. reflexivity. }
  specialize (D1 eq_refl). cbv zeta.
  destruct (in_step E w s1 t (same_rcx _ _ K1) Hw) as (s2 & (L1 & L2 & _) & V2 & R2). cbv zeta in *.
  rewrite (low16 _ (dx_range (gs s)) _ D1) in V2, R2. fold (read_port (p_dev E) w t (dx (gs s))) in V2, R2.
  set (v := read_port (p_dev E) w t (dx (gs s))) in *. set (t' := t ++ [ERead w (dx (gs s)) v]) in *.
  destruct (to_r8 (p_host E) w s2 (same_rcx _ _ L1) Hw) as (s3 & R3 & (M1 & M2 & _) & V3).
  rewrite V2 in V3.
  assert (S3 : same s s3) by eauto using same_trans. assert (G3 : gs s3 = gs s) by congruence.
  destruct (pre_rbx (p_host E) a32 EDI ES ze s3 (same_rcx _ _ M1)) as (f & R4).
  { rewrite (same_seg _ _ S3). exact Hze. }
  assert (RG : gprs (ctx s3) = gprs (ctx s)) by exact (f_equal g_regs G3). rewrite RG, (same_seg _ _ S3) in R4.
  set (i := gget (if a32 then W32 else W16) false EDI (gprs (ctx s))) in *.
  change ((segb (ctx s) ES + i) mod 2 ^ 32) with (dest (segb (ctx s)) a32 (gs s)) in R4.
  set (b := dest (segb (ctx s)) a32 (gs s)) in *.
  assert (Rb : getw W32 b = b) by (apply getw_small; apply Z.mod_pos_bound; reflexivity).
  match type of R4 with _ = Done ?x => set (s4 := x) in * end.
  assert (RR : forall r, prun E ((ld_port ++ check_dx (checked E) w ++ [PIn w] ++ host [MOV (Rg w R8) (Rg w RAX)] ++
      host (([ld_index a32 EDI; MOV hEBX hEDX] ++ add_base ES ze) ++ [IStore w])) ++ r) s t =
      pexec E r (run (p_host E) [IStore w] s4) t').
  { intros r. rewrite <- !app_assoc. rewrite R1. cbn [app]. rewrite R2. rewrite (phost_run _ _ _ _ _ _ R3).
    assert (X : run (p_host E) ([ld_index a32 EDI; MOV hEBX hEDX] ++ add_base ES ze ++ [IStore w]) s3 = run (p_host E) [IStore w] s4)
      by now rewrite app_assoc, (run_seq _ _ _ _ _ R4).
    unfold prun. rewrite phost. unfold run in X |- *. cbn [app] in X |- *. now rewrite X. }
  assert (D4 : getw W32 (num (p_host E) (h_rdx (hr s4))) = b) by (subst s4; destruct (hr s3); exact Rb).
  assert (V4 : getw w (num (p_host E) (h_r8 (hr s4))) = v) by (subst s4; destruct (hr s3); exact V3).
  assert (B4 : num (p_host E) (h_rbx (hr s4)) = i) by (subst s4; destruct (hr s3); reflexivity).
  assert (C4 : same s s4 /\ gs s4 = gs s).
  { split; [| exact G3]. eapply same_trans; [exact S3 |]. pose proof (same_rcx _ _ M1) as X. subst s4. clear - X. start_state s3 X. repeat split. }
  destruct C4 as (S4 & G4).
  rewrite (run_store (p_host E) w s4 b v [] D4 V4) in RR. unfold fault_of at 1.
  destruct (e_fault (p_host E) true b (wbytes w)).
  - exists s4. split; [| auto]. intros r. rewrite RR. now apply over_pexec.
  - eexists. split; [intros r; rewrite RR; reflexivity |].
    assert (X : h_rcx (hr s4) = P PCtx) by exact (same_rcx _ _ S4).
    split; [eapply same_trans; [exact S4 |]; clear - X; start_state s4 X; repeat split |]. split.
    + rewrite <- G4. reflexivity.
    + eapply (in_indices _ a32 SStos EDI _ i eq_refl); [exact B4 |]. subst i. rewrite <- RG. reflexivity.
Qed.

Lemma outs_access E w a32 seg z ze s t :
  arith_w w -> h_rcx (hr s) = P PCtx -> (z = true -> segb (ctx s) seg = 0) ->
  exists ok, permission E false (dx (gs s)) w (gmem s) ok /\
  match port_accessed E (segb (ctx s)) w a32 seg POuts ok (gs s) t with
  | (inl g1, t1) => exists s', (forall r, prun E (port_access POuts (checked E) w a32 seg z ze ++ r) s t = prun E r s' t1) /\
      same s s' /\ gs s' = g1 /\ indices (p_host E) a32 (like POuts) s'
  | (inr x, t1) => exists s', (forall r, prun E (port_access POuts (checked E) w a32 seg z ze ++ r) s t = (caused w x s', t1)) /\
      same s s' /\ gs s' = gs s
  end.
Proof.
  intros Hw Hcx Hz. unfold port_accessed, port_access. cbv zeta.
  destruct (pre_rbx (p_host E) a32 ESI seg z s Hcx Hz) as (f & R1).
  set (i := gget (if a32 then W32 else W16) false ESI (gprs (ctx s))) in *.
  change ((segb (ctx s) seg + i) mod 2 ^ 32) with (source (segb (ctx s)) a32 seg (gs s)) in R1.
  set (a := source (segb (ctx s)) a32 seg (gs s)) in *.
  assert (Ra : getw W32 a = a) by (apply getw_small; apply Z.mod_pos_bound; reflexivity).
  match type of R1 with _ = Done ?x => set (s1 := x) in * end.
  assert (D1 : getw W32 (num (p_host E) (h_rdx (hr s1))) = a) by (subst s1; destruct (hr s); exact Ra).
  assert (B1 : num (p_host E) (h_rbx (hr s1)) = i) by (subst s1; destruct (hr s); reflexivity).
  assert (C1 : same s s1 /\ gs s1 = gs s) by (split; [subst s1; clear - Hcx; start_state s Hcx; repeat split | reflexivity]).
  destruct C1 as (S1 & G1).
  assert (X : run (p_host E) (([ld_index a32 ESI; MOV hEBX hEDX] ++ add_base seg z) ++ [ILoad w; MOV (local w 1) (Rg w RAX)]) s =
    run (p_host E) [ILoad w; MOV (local w 1) (Rg w RAX)] s1) by now rewrite (run_seq _ _ _ _ _ R1).
  rewrite (run_load (p_host E) w s1 a _ D1) in X. unfold fault_of at 1.
  destruct (e_fault (p_host E) false a (wbytes w)) eqn:F.
  { destruct (dx_ok E w s t Hcx) as (ok & s0 & PM & _). exists ok. split; [exact PM |].
    unfold fault_of; rewrite ?F. exists s1. split; [| auto]. intros r. rewrite <- app_assoc. now apply (phost_over _ _ _ _ _ _ X). }
  set (v := mload (gmem s) w a) in *.
  assert (Y : exists s2, run (p_host E) [MOV (local w 1) (Rg w RAX)] (loaded (p_host E) w a s1) = Done s2 /\
    same s1 s2 /\ gs s2 = gs s1 /\ h_rbx (hr s2) = h_rbx (hr s1) /\ getw w (loc s2 1%nat) = v).
  { pose proof (same_rcx _ _ S1) as Hc. change (gmem s) with (gmem s1) in v. clearbody s1 a. clear - Hc Hw. start_state s1 Hc. unfold loaded.
    cbn [hr hf ctx gmem loc ncall masked h_rbx]. cbn [gmem] in v. subst v.
    destruct w; try (now elim Hw); (unfold run; expand_list; sym'; cbn [exec]; eexists; split; [reflexivity |]; split; [repeat split |];
    split; [reflexivity |]; split; [reflexivity |]; cbn [loc Nat.eqb]; rewrite ?getw_putw, ?getw_setw, ?getw_idem, ?getw_mload; reflexivity). }
  destruct Y as (s2 & R2 & S2 & G2 & B2 & V2). rewrite R2 in X.
  destruct (dx_ok E w s2 t (same_rcx _ _ S2)) as (ok & s3 & PM & (K1 & K2 & K3 & K4) & D3 & R3).
  assert (GG : gs s2 = gs s) by congruence. rewrite GG in PM, D3. change (gmem s2) with (g_mem (gs s2)) in PM. rewrite GG in PM.
  exists ok. split; [exact PM |]. unfold fault_of; rewrite ?F.
  assert (RR : forall r, prun E ((host (([ld_index a32 ESI; MOV hEBX hEDX] ++ add_base seg z) ++ [ILoad w; MOV (local w 1) (Rg w RAX)]) ++
      ld_port ++ check_dx (checked E) w ++ host [MOV (Rg w R8) (local w 1)] ++ [POut w]) ++ r) s t =
      if ok then prun E (host [MOV (Rg w R8) (local w 1)] ++ [POut w] ++ r) s3 t else (Raise 13 0 s3, t)).
  { intros r. rewrite <- app_assoc. rewrite (phost_run _ _ _ _ _ _ X). rewrite <- !app_assoc. apply R3. }
  destruct ok.
  2:{ exists s3. split; [intros r; apply RR |]. split; [eauto using same_trans | congruence]. }
  specialize (D3 eq_refl).
  destruct (from_loc (p_host E) w s3 (same_rcx _ _ K1) Hw) as (s4 & R4 & (L1 & L2 & L3 & L4) & D4 & V4).
  destruct (out_step E w s4 t (same_rcx _ _ L1)) as (s5 & (M1 & M2 & M3 & M4) & R5).
  rewrite D4, (low16 _ (dx_range (gs s)) _ D3), V4, K4, V2 in R5.
  exists s5. split; [intros r; rewrite RR, (phost_run _ _ _ _ _ _ R4); cbn [app]; apply R5 |].
  split; [eauto using same_trans |]. assert (G5 : gs s5 = gs s) by congruence. split; [exact G5 |].
  eapply (in_indices _ a32 SLods ESI _ i eq_refl); [rewrite M3, L3, K3, B2; exact B1 |].
  subst i. pose proof (f_equal g_regs G5) as H. cbn [gs g_regs] in H. now rewrite H.
Qed.

(** ** One pass *)

Lemma ptail_ok E (k : strop) (rep : bool) w a32 s : arith_w w -> h_rcx (hr s) = P PCtx -> indices E a32 k s ->
  let g1 := moves w a32 (Z.testbit (eflags (ctx s)) 10) k (gs s) in
  let g2 := set_index a32 ECX (index a32 ECX g1 - 1) g1 in
  exists s', run E (port_tail k rep w a32) s = (if rep then if index a32 ECX g2 =? 0 then Done s' else Skip 2 s' else Done s') /\
    same s s' /\ gs s' = if rep then g2 else g1.
Proof.
  intros Hw Hcx HI. unfold port_tail, run.
  set (df := Z.testbit (eflags (ctx s)) 10).
  match goal with |- context [exec E (df_test k ++ ?l) _] => destruct (df_ok E k s l Hcx) as (f & v & HD) end.
  fold df in HD. clearbody df. cbv zeta in HD.
  destruct (df_same E k f v s a32 Hcx) as (HS2 & HG2 & HI2). specialize (HI2 HI). cbv zeta in *.
  set (s2 := set_hf f (set_hr (rset (df_reg k) (N v) (hr s)) s)) in *. clearbody s2.
  assert (HD' : forall l, (if df then exec E l (Skip 1 s2) else exec E l (Done s2)) =
                          exec E l (if df then Skip 1 s2 else Done s2)) by (intros; now destruct df).
  rewrite HD' in HD. clear HD'. pose proof (same_rcx _ _ HS2) as Hcx2.
  destruct (move_ok E k df w a32 s2 Hw Hcx2 HI2) as (s3 & HM & HS3 & HG3). unfold run in HM. rewrite HG2 in HG3.
  destruct rep.
  - set (g2 := set_index a32 ECX (index a32 ECX (moves w a32 df k (gs s)) - 1) (moves w a32 df k (gs s))).
    destruct (tail_ok E KRep a32 s3 (same_rcx _ _ HS3)) as (s4 & HS4 & HG4 & HT). cbv zeta in HT, HG4.
    rewrite HG3 in HT, HG4. fold g2 in HT, HG4. cbn [stops] in HT. rewrite orb_false_r in HT.
    unfold run in HT. exists s4. split; [| split; [eauto using same_trans | assumption]].
    rewrite HD. clear HD. destruct df.
    + rewrite exec_app, skip_over by apply move_labels. rewrite exec_app, skip_over by apply tail_labels.
      cbn [app]. rewrite skip_lab. cbn [Nat.eqb]. rewrite exec_app, HM, exec_app, HT. now destruct (_ =? 0).
    + rewrite exec_app, HM, exec_app, HT. destruct (_ =? 0); cbn [app]; rewrite skip_lab; cbn [Nat.eqb];
      rewrite exec_app, skip_over by apply move_labels; rewrite exec_app, skip_over by apply tail_labels; reflexivity.
  - exists s3. split; [| split; [eauto using same_trans | exact HG3]].
    rewrite HD. clear HD. destruct df.
    + rewrite exec_app, skip_over by apply move_labels. rewrite exec_app, skip_over by reflexivity.
      cbn [app]. rewrite skip_lab. cbn [Nat.eqb]. rewrite exec_app, HM. reflexivity.
    + rewrite exec_app, HM. cbn [app]. rewrite jmp_step, skip_lab. cbn [Nat.eqb].
      rewrite exec_app, skip_over by apply move_labels. reflexivity.
Qed.

Section Rep.
Variables (E : penv) (k : portop) (w : width) (a32 : bool) (seg : sreg) (z ze : bool).
Hypothesis Hw : arith_w w.
Let el (base : sreg -> Z) (df : bool) := port_element (p_dev E) (fault_of (p_host E) w) base w a32 seg df k.
Let perm (g : gst) := permission E false (dx g) w (g_mem g).

Lemma port_pass rep s t : h_rcx (hr s) = P PCtx ->
  (z = true -> segb (ctx s) seg = 0) -> (ze = true -> segb (ctx s) ES = 0) ->
  exists ok, perm (gs s) ok /\
  match el (segb (ctx s)) (Z.testbit (eflags (ctx s)) 10) ok (gs s) t with
  | (inr x, t1) => exists s', prun E (port_body k rep (checked E) w a32 seg z ze) s t = (caused w x s', t1) /\
                              same s s' /\ gs s' = gs s
  | (inl g1, t1) =>
      let g2 := set_index a32 ECX (index a32 ECX g1 - 1) g1 in
      exists s', prun E (port_body k rep (checked E) w a32 seg z ze) s t =
                   (if rep then if index a32 ECX g2 =? 0 then Done s' else Skip 2 s' else Done s', t1) /\
                 same s s' /\ gs s' = if rep then g2 else g1
  end.
Proof.
  intros Hcx Hz Hze. unfold el, perm, port_body.
  assert (A : exists ok, permission E false (dx (gs s)) w (gmem s) ok /\
  match port_accessed E (segb (ctx s)) w a32 seg k ok (gs s) t with
  | (inl g1, t1) => exists s', (forall r, prun E (port_access k (checked E) w a32 seg z ze ++ r) s t = prun E r s' t1) /\
      same s s' /\ gs s' = g1 /\ indices (p_host E) a32 (like k) s'
  | (inr x, t1) => exists s', (forall r, prun E (port_access k (checked E) w a32 seg z ze ++ r) s t = (caused w x s', t1)) /\
      same s s' /\ gs s' = gs s
  end) by (destruct k; [now apply ins_access | now apply outs_access]).
  destruct A as (ok & PM & A). exists ok. split; [exact PM |]. rewrite port_split.
  destruct (port_accessed E (segb (ctx s)) w a32 seg k ok (gs s) t) as [[g1 | x] t1].
  - destruct A as (s1 & R & S1 & G1 & I1). cbv zeta.
    destruct (ptail_ok (p_host E) (like k) rep w a32 s1 Hw (same_rcx _ _ S1) I1) as (s2 & R2 & S2 & G2). cbv zeta in *.
    rewrite (same_df _ _ S1), G1 in R2, G2. exists s2. rewrite R. unfold prun. rewrite phost_end. unfold run in R2. rewrite R2.
    split; [reflexivity |]. split; [eauto using same_trans | exact G2].
  - destruct A as (s1 & R & S1 & G1). exists s1. rewrite R. auto.
Qed.

Lemma port_count base df ok g t g1 t1 : el base df ok g t = (inl g1, t1) -> index a32 ECX g1 = index a32 ECX g.
Proof.
  unfold el. rewrite port_split. destruct (port_accessed E base w a32 seg k ok g t) as [[g0 | x] t0] eqn:A; [| discriminate].
  intros H. inversion H. subst. unfold index, gget. rewrite moves_count. replace (g_regs g0) with (g_regs g); [reflexivity |].
  unfold port_accessed in A. cbv zeta in A. destruct k;
  repeat match type of A with context [if ?b then _ else _] => destruct b end; inversion A; reflexivity.
Qed.

Lemma port_loop : forall n s t, h_rcx (hr s) = P PCtx ->
  (z = true -> segb (ctx s) seg = 0) -> (ze = true -> segb (ctx s) ES = 0) ->
  index a32 ECX (gs s) = Z.of_nat (S n) ->
  exists g' t' x s',
    port_elements (p_dev E) (fault_of (p_host E) w) (segb (ctx s)) w a32 seg (Z.testbit (eflags (ctx s)) 10)
      perm k (S n) (gs s) t g' t' x /\
    port_runs E (port_body k true (checked E) w a32 seg z ze) s t
      (match x with None => Done s' | Some x => caused w x s' end) t' /\
    same s s' /\ gs s' = g'.
Proof.
  induction n as [| n IH]; intros s t Hcx Hz Hze HN;
  destruct (port_pass true s t Hcx Hz Hze) as (ok & PM & HP);
  destruct (el (segb (ctx s)) (Z.testbit (eflags (ctx s)) 10) ok (gs s) t) as [[g1 | x] t1] eqn:EL.
  2,4: destruct HP as (s' & HR & HS & HG); exists (gs s), t1, (Some x), s';
       (split; [eapply pe_stop; eassumption |]); (split; [apply pr_last; [exact HR | destruct x; discriminate] | auto]).
  - cbv zeta in HP. destruct HP as (s' & HR & HS & HG).
    set (g2 := set_index a32 ECX (index a32 ECX g1 - 1) g1) in *.
    assert (C : index a32 ECX g2 = 0).
    { unfold g2, set_index, index at 1. cbn [g_regs]. rewrite gget_new, getw_mod, Zmod_mod.
      rewrite (port_count _ _ _ _ _ _ _ EL), HN. reflexivity. }
    rewrite C in HR. cbn [Z.eqb] in HR. exists g2, t1, None, s'. split; [eapply pe_next; [exact PM | exact EL | apply pe_done] |].
    split; [apply pr_last; [exact HR | discriminate] | auto].
  - cbv zeta in HP. destruct HP as (s' & HR & HS & HG).
    set (g2 := set_index a32 ECX (index a32 ECX g1 - 1) g1) in *.
    assert (C : index a32 ECX g2 = Z.of_nat (S n)).
    { unfold g2, set_index, index at 1. cbn [g_regs]. rewrite gget_new, getw_mod, Zmod_mod.
      rewrite (port_count _ _ _ _ _ _ _ EL). pose proof (index_range a32 ECX (gs s)).
      rewrite count_step by lia. lia. }
    replace (index a32 ECX g2 =? 0) with false in HR by lia.
    rewrite <- HG in C. rewrite <- (same_seg _ _ HS) in Hz, Hze.
    destruct (IH s' t1 (same_rcx _ _ HS) Hz Hze C) as (g' & t' & x & s'' & PE & PR & S2 & G2).
    rewrite (same_seg _ _ HS), (same_df _ _ HS), HG in PE. exists g', t', x, s''.
    split; [eapply pe_next; [exact PM | exact EL | exact PE] |]. split; [eapply pr_again; eassumption |].
    split; [eauto using same_trans | exact G2].
Qed.

Lemma port_rep_ok s t : h_rcx (hr s) = P PCtx ->
  (z = true -> segb (ctx s) seg = 0) -> (ze = true -> segb (ctx s) ES = 0) ->
  exists g' t' x s',
    port_elements (p_dev E) (fault_of (p_host E) w) (segb (ctx s)) w a32 seg (Z.testbit (eflags (ctx s)) 10)
      perm k (Z.to_nat (index a32 ECX (gs s))) (gs s) t g' t' x /\
    port_rep E k w a32 seg z ze s t (match x with None => Done s' | Some x => caused w x s' end) t' /\
    same s s' /\ gs s' = g'.
Proof.
  intros Hcx Hz Hze. destruct (start_ok (p_host E) a32 s Hcx) as (s1 & HS & HG & HR).
  unfold port_rep. rewrite HR. pose proof (index_range a32 ECX (gs s)).
  destruct (Z.eqb_spec (index a32 ECX (gs s)) 0) as [E0 | N0].
  - rewrite E0. exists (gs s), t, None, s1. split; [apply pe_done | auto].
  - destruct (Z.to_nat (index a32 ECX (gs s))) as [| n] eqn:EN; [lia |].
    rewrite <- (same_seg _ _ HS) in Hz, Hze.
    destruct (port_loop n s1 t (same_rcx _ _ HS) Hz Hze) as (g' & t' & x & s' & PE & PR & S2 & G2); [rewrite HG; lia |].
    rewrite (same_seg _ _ HS), (same_df _ _ HS), HG in PE. exists g', t', x, s'. eauto using same_trans.
Qed.
End Rep.

Lemma port_runs_fun E b s t o t' : port_runs E b s t o t' -> forall o2 t2, port_runs E b s t o2 t2 -> o2 = o /\ t2 = t'.
Proof.
  induction 1 as [s t o t' H N | s t s1 t1 o t' H R IH]; intros o2 t2 K; inversion K; subst.
  - rewrite H in H0. inversion H0. auto.
  - rewrite H in H0. inversion H0. subst. destruct (N _ eq_refl).
  - rewrite H in H0. inversion H0. subst. destruct (H1 _ eq_refl).
  - rewrite H in H0. inversion H0. subst. now apply IH.
Qed.
Lemma port_rep_fun E k w a32 seg z ze s t o t' o2 t2 :
  port_rep E k w a32 seg z ze s t o t' -> port_rep E k w a32 seg z ze s t o2 t2 -> o2 = o /\ t2 = t'.
Proof.
  unfold port_rep. destruct (run _ _ _) as [? | [|] ? | | | |]; try contradiction.
  - intros A B. exact (port_runs_fun _ _ _ _ _ _ A _ _ B).
  - intros (-> & ->) (-> & ->). auto.
Qed.
