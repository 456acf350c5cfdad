(** * The SSE instructions: MOVSS, shuffles and XORPS *)

From Coq Require Import ZArith Bool List Lia ZifyBool.
From Verif Require Import HostModel AluModel AluSpec HostProofs LazyFlagsProofs FlagsApiProofs FlagArith SymExec
  EaProofs AluProofs AluForms UnaryProofs SseModel SseSpec SseArith SseProofs.
Import ListNotations.
Local Open Scope Z_scope.

(** an aligned 16-byte operand *)
Lemma mem128_ok E al m s x : h_rcx (hr s) = P PCtx -> memop_ok m (ctx s) ->
  let a := ea m (ctx s) in let l r := checked_addr al m ++ SLd128 :: r in
  if al && negb (a mod 16 =? 0) then forall r, raises E (l r) s x 13 0
  else if e_fault (s_host E) false a 16 then forall r, faults E (l r) s x false a 16
  else exists s2 x2, h_rcx (hr s2) = P PCtx /\ untouched s s2 /\ xkept x x2 /\
    xread XBuf s2 x2 = Some (value_at 16 (gmem s) a) /\ xp x2 RAX = Some PBuf /\
    forall r, srun E (l r) s x = srun E r s2 x2.
Proof.
  intros Hcx Hm a l. pose proof (addr_ok E al m s x Hcx Hm) as A. cbv zeta in A. fold a in A. destruct (al && negb (a mod 16 =? 0)).
  - destruct A as (s1 & U & R). intros r. destruct (R (SLd128 :: r)) as (x1 & K & R1). exists s1, x1. auto.
  - destruct A as (s1 & x1 & A & K & R). pose proof (ld128_ok E _ _ _ x1 A) as L.
    destruct (e_fault (s_host E) false a 16).
    + intros r. destruct (L r) as (x2 & K2 & R2). exists s1, x2.
      unfold l. rewrite R. destruct A as (? & ? & ? & ? & ?). split; [exact R2 |]. split; [repeat split; assumption | eapply xkept_trans; eassumption].
    + destruct L as (s2 & x2 & C2 & X2 & G2 & M2 & K2 & V2 & P2 & R2). exists s2, x2. split; [exact C2 |]. split; [repeat split; assumption |].
      split; [eapply xkept_trans; eassumption |]. split; [exact V2 |]. split; [exact P2 |]. intros r. unfold l. rewrite R. apply R2.
Qed.

(** reading the buffer does not depend on the host's XMM registers *)
Lemma buf_set_xh s x v : xread XBuf s (set_xh v x) = xread XBuf s x.
Proof. reflexivity. Qed.

Ltac regs Hcx := repeat (sx; rewrite ?(has_ctx_ok _ Hcx)); sx.
Ltac done_regs := eexists _, _; split; [reflexivity |]; repeat split; try assumption.

Lemma shufps_ok E imm dst src s x : h_rcx (hr s) = P PCtx -> xrm_ok src (ctx s) ->
  accesses E (emit_shufps dst src imm) s x false true 16 src (with_x x dst (shufps imm (xg x dst) (src128 src s x))) (gmem s).
Proof.
  intros Hcx Hm. destruct src as [g | m]; cbn [accesses src128].
  - unfold emit_shufps, gives, srun. cbn [app]. regs Hcx. rewrite shuf_eq. done_regs.
  - cbv zeta. pose proof (mem128_ok E true m s x Hcx Hm) as A. cbv zeta in A. unfold emit_shufps. rewrite <- app_assoc. cbn [app].
    destruct (true && _); [exact (A _) |]. destruct (e_fault _ _ _ _); [exact (A _) |].
    destruct A as (s2 & x2 & C & (X & G & M) & K & V & _ & R).
    eapply kept_gives with (x1 := x2) (s' := s2); [rewrite R; unfold srun; cbn [sexec sstep]; rewrite V; regs C; reflexivity |
      exact K | exact C | exact X | exact M | intros; now rewrite G | | reflexivity .. ].
    intros k. sx. rewrite shuf_eq, (proj1 K). now apply upd_kept.
Qed.

Definition unpck_spec (op : xalu) (a b : Z) : Z := match op with AUnpckH => unpckhps a b | _ => unpcklps a b end.
Lemma unpck_eq op a b : op = AUnpckH \/ op = AUnpckL -> alu128 op a b = unpck_spec op a b.
Proof. intros [-> | ->]; [apply unpckh_eq | apply unpckl_eq]. Qed.

Lemma unpck_ok E op dst src s x : op = AUnpckH \/ op = AUnpckL -> h_rcx (hr s) = P PCtx -> xrm_ok src (ctx s) ->
  accesses E (emit_unpck op dst src) s x false true 16 src (with_x x dst (unpck_spec op (xg x dst) (src128 src s x))) (gmem s).
Proof.
  intros Hop Hcx Hm. destruct src as [g | m]; cbn [accesses src128].
  - unfold emit_unpck, gives, srun. cbn [app]. regs Hcx. rewrite (unpck_eq _ _ _ Hop). done_regs.
  - cbv zeta. pose proof (mem128_ok E true m s x Hcx Hm) as A. cbv zeta in A. unfold emit_unpck. rewrite <- app_assoc. cbn [app].
    destruct (true && _); [exact (A _) |]. destruct (e_fault _ _ _ _); [exact (A _) |].
    destruct A as (s2 & x2 & C & (X & G & M) & K & V & _ & R).
    eapply kept_gives with (x1 := x2) (s' := s2); [rewrite R; unfold srun; cbn [sexec sstep]; change (xread (XG dst) s2 x2) with (if has_ctx s2 then Some (xg x2 dst) else None);
        rewrite (has_ctx_ok _ C); cbn [xwrite fst snd]; rewrite buf_set_xh, V; regs C; reflexivity |
      exact K | exact C | exact X | exact M | intros; now rewrite G | | reflexivity .. ].
    intros k. sx. rewrite (unpck_eq _ _ _ Hop), (proj1 K). now apply upd_kept.
Qed.

Lemma xorps_ok E dst src s x : h_rcx (hr s) = P PCtx -> xrm_ok src (ctx s) ->
  accesses E (emit_xorps dst src) s x false true 16 src (with_x x dst (Z.lxor (xg x dst) (src128 src s x))) (gmem s).
Proof.
  intros Hcx Hm. destruct src as [g | m]; cbn [accesses src128].
  - unfold emit_xorps, gives, srun. cbn [app]. regs Hcx. done_regs.
  - cbv zeta. pose proof (mem128_ok E true m s x Hcx Hm) as A. cbv zeta in A. unfold emit_xorps.
    destruct (true && _); [exact (A _) |]. destruct (e_fault _ _ _ _); [exact (A _) |].
    destruct A as (s2 & x2 & C & (X & G & M) & K & V & _ & R).
    eapply kept_gives with (x1 := x2) (s' := s2); [rewrite R; unfold srun; cbn [sexec sstep]; change (xread (XG dst) s2 x2) with (if has_ctx s2 then Some (xg x2 dst) else None);
        rewrite (has_ctx_ok _ C); cbn [xwrite fst snd]; rewrite buf_set_xh, V; regs C; reflexivity |
      exact K | exact C | exact X | exact M | intros; now rewrite G | | reflexivity .. ].
    intros k. sx. cbn [alu128]. rewrite (proj1 K). now apply upd_kept.
Qed.

(** MOVSS: a register source leaves the upper lanes, a memory source clears them *)
Definition movss_spec (src : xrm) (s : hst) (x : xst) (old : Z) : Z :=
  match src with
  | XReg _ => pack (src32 src s x) (lane 1 old) (lane 2 old) (lane 3 old)
  | XMem _ => src32 src s x
  end.
Lemma movss_load E dst src s x : h_rcx (hr s) = P PCtx -> xrm_ok src (ctx s) -> regs128 (xg x) ->
  accesses E (emit_movss_load dst src) s x false false 4 src (with_x x dst (movss_spec src s x (xg x dst))) (gmem s).
Proof.
  intros Hcx Hm Hr. destruct src as [g | m]; cbn [accesses movss_spec src32].
  - unfold emit_movss_load, gives, srun. cbn [app]. regs Hcx. rewrite movss_eq by apply Hr. done_regs.
  - cbv zeta. cbn [andb]. unfold emit_movss_load.
    set (x0 := set_xh (fun k => if Nat.eqb k 0 then xg x dst else xh x k) x).
    assert (R0 : forall r, srun E ([SMov (XH 0) (XG dst)] ++ r) s x = srun E r s x0) by (intros r; unfold srun; cbn [app]; regs Hcx; reflexivity).
    pose proof (ld_ok E W32 m s x0 Hcx Hm) as A. cbv zeta in A. change (wbytes W32) with 4 in A.
    destruct (e_fault (s_host E) false (ea m (ctx s)) 4).
    + destruct A as (s1 & U & R). destruct (R [MOV (local W32 0) hEAX] ([SMovssLoc 0] ++ [SMov (XG dst) (XH 0)])) as (x1 & K & R1).
      exists s1, x1. rewrite R0. rewrite <- app_assoc. split; [exact R1 |]. auto.
    + destruct A as (s1 & x1 & C & (X & G & M) & K & V & R). change (Z.to_nat 4) with 4%nat in V.
      set (v := value_at 4 (gmem s) (ea m (ctx s))) in *.
      set (s2 := set_loc (fun k => if Nat.eqb k 0 then putw W32 (loc s1 0%nat) v else loc s1 k) s1).
      assert (R1 : run (s_host E) [MOV (local W32 0) hEAX] s1 = Done s2).
      { unfold run. expand_list. cbn [exec step bind op_read op_write next local hEAX rget]. rewrite V. reflexivity. }
      destruct (shost_run E _ _ _ x1 R1) as (x2 & K2 & _ & R2).
      assert (RR : forall r, srun E (shost (emit_ea m ++ [ILoad W32; MOV (local W32 0) hEAX]) ++ r) s x0 = srun E r s2 x2).
      { intros r. change [ILoad W32; MOV (local W32 0) hEAX] with ([ILoad W32] ++ [MOV (local W32 0) hEAX]). rewrite app_assoc.
        unfold shost. rewrite map_app, <- app_assoc. fold (shost (emit_ea m ++ [ILoad W32])). fold (shost [MOV (local W32 0) hEAX]).
        rewrite R. apply R2. }
      assert (C2 : h_rcx (hr s2) = P PCtx) by exact C.
      assert (K3 : xkept x x2) by (eapply xkept_trans; [| exact K2]; eapply xkept_trans; [| exact K]; repeat split).
      eapply kept_gives with (x1 := x2) (s' := s2); [rewrite R0, <- app_assoc, RR; unfold srun; cbn [app]; regs C2; reflexivity |
        exact K3 | exact C2 | exact X | exact M | intros; change (gmem s2) with (gmem s1); now rewrite G | | reflexivity .. ].
      intros k. sx. rewrite (upd_kept _ _ _ _ _ K3). unfold with_x. destruct (k =? dst); [| reflexivity].
      subst s2. cbn [set_loc loc Nat.eqb]. rewrite getw_putw. apply getw_small. exact (value_range 4 _ _).
Qed.

Lemma movss_store E dst src s x : h_rcx (hr s) = P PCtx -> xrm_ok dst (ctx s) -> regs128 (xg x) ->
  accesses E (emit_movss_store dst src) s x true false 4 dst
    (match dst with XReg g => with_x x g (movss_spec (XReg src) s x (xg x g)) | XMem _ => xg x end)
    (match dst with XReg _ => gmem s | XMem m => put_at 4 (gmem s) (ea m (ctx s)) (lane 0 (xg x src)) end).
Proof.
  intros Hcx Hm Hr. assert (V0 : forall v, xpart W32 0 v = lane 0 v) by (intros v; rewrite xpart_eq by lia; reflexivity).
  destruct dst as [g | m]; cbn [accesses emit_movss_store].
  - unfold gives, srun. cbn [sexec sstep]. rewrite (has_ctx_ok _ Hcx). cbn [op_write next fst snd].
    set (s2 := set_hr _ s). assert (C2 : h_rcx (hr s2) = P PCtx) by (destruct s as [[q1 q2 q3 q4 q5 q6 q7 q8] w1 w2 w3 w4 w5 w6]; exact Hcx).
    rewrite (has_ctx_ok _ C2). cbn [fst snd]. eexists s2, _. split; [reflexivity |]. split; [exact C2 |].
    split; [reflexivity |]. split; [reflexivity |]. split; [reflexivity |]. split; [| repeat split].
    intros k. cbn [forget set_xg set_xp xg]. unfold upd, with_x. destruct (k =? g); [| reflexivity].
    assert (HV : hval (s_host E) W32 RAX s2 = lane 0 (xg x src)).
    { subst s2. destruct s as [[q1 q2 q3 q4 q5 q6 q7 q8] w1 w2 w3 w4 w5 w6]. unfold hval. cbn [set_hr rset hr rget h_rax num].
      rewrite getw_setw, V0. apply getw_small. apply lane_range. }
    rewrite HV, insert_low by (auto || apply Hr). change (modulus W32) with (2 ^ 32). rewrite (Z.mod_small (lane 0 _)) by apply lane_range.
    cbn [movss_spec src32]. set (old := xg x g). rewrite <- (pack_lanes old (Hr g)) at 1. unfold pack at 1.
    replace (lane 0 old + lane 1 old * 2 ^ 32 + lane 2 old * 2 ^ 64 + lane 3 old * 2 ^ 96) with (lane 0 old + (lane 1 old + lane 2 old * 2 ^ 32 + lane 3 old * 2 ^ 64) * 2 ^ 32) by lia.
    rewrite Z.div_add, Z.div_small by (lia || apply lane_range). unfold pack. lia.
  - cbn [andb]. cbv zeta. destruct (ea_addr E m s x Hcx Hm) as (s1 & x1 & (C & A & X & G & M) & K & R).
    set (v := lane 0 (xg x src)).
    set (s2 := set_hr (rset R8 (N (setw W32 (num (s_host E) (rget R8 (hr s1))) v)) (hr s1)) s1).
    assert (S2 : exists x2, xkept x x2 /\ forall r, srun E ([SGetC W32 R8 src] ++ r) s1 x1 = srun E r s2 x2).
    { eexists. split; [| intros r; unfold srun; cbn [app]; sx; rewrite (has_ctx_ok _ C); sx; cbn [op_write next]; rewrite (proj1 K), V0; reflexivity].
      destruct K as (K & K1 & K2 & K3). repeat split; assumption. }
    destruct S2 as (x2 & K2 & R2).
    assert (C2 : h_rcx (hr s2) = P PCtx) by (destruct s1 as [[q1 q2 q3 q4 q5 q6 q7 q8] w1 w2 w3 w4 w5 w6]; exact C).
    assert (A2 : hval (s_host E) W32 RDX s2 = ea m (ctx s)) by (destruct s1 as [[q1 q2 q3 q4 q5 q6 q7 q8] w1 w2 w3 w4 w5 w6]; exact A).
    assert (V2 : hval (s_host E) W32 R8 s2 = v).
    { destruct s1 as [[q1 q2 q3 q4 q5 q6 q7 q8] w1 w2 w3 w4 w5 w6]; unfold hval; subst s2; cbn [set_hr rset hr rget h_r8 num].
      rewrite getw_setw. apply getw_small. apply lane_range. }
    pose proof (st_ok E W32 _ _ s2 x2 C2 A2 V2) as L. change (wbytes W32) with 4 in L.
    destruct (e_fault (s_host E) true (ea m (ctx s)) 4).
    + destruct L as (x3 & K3 & R3). exists s2, x3. rewrite R, R2. split; [exact R3 |]. split; [repeat split; assumption | eapply xkept_trans; eassumption].
    + destruct L as (s3 & x3 & C3 & X3 & M3 & K3 & G3 & R3). exists s3, x3. rewrite R, R2.
      destruct (xkept_trans _ _ _ K2 K3) as (Q & Q1 & Q2 & Q3). split; [exact R3 |]. repeat split; try assumption.
      * rewrite X3. exact X.
      * rewrite M3. exact M.
      * intros z. rewrite G3. change (gmem s2) with (gmem s1). now rewrite G.
Qed.
