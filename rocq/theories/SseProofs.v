(** * The SSE instructions: moves and shuffles *)

From Coq Require Import ZArith Bool List Lia ZifyBool.
From Verif Require Import HostModel AluModel AluSpec HostProofs LazyFlagsProofs FlagsApiProofs FlagArith SymExec
  EaProofs AluProofs AluForms UnaryProofs SseModel SseSpec SseArith.
Import ListNotations.
Local Open Scope Z_scope.

(** ** Running *)

Definition over (o : outcome) : bool := match o with Done _ | Skip _ _ => false | _ => true end.
Lemma over_exec E l : forall o, over o = true -> exec E l o = o.
Proof. induction l as [| i l IH]; intros [] H; try discriminate; reflexivity. Qed.

Lemma xkept_refl x : xkept x x.
Proof. repeat split. Qed.
Lemma xkept_trans a b c : xkept a b -> xkept b c -> xkept a c.
Proof. intros (A & A1 & A2 & A3) (B & B1 & B2 & B3). repeat split; congruence. Qed.
Lemma after_kept E i o x : xkept x (after E i o x).
Proof. unfold after. destruct o; try destruct (calls i); repeat split. Qed.
Lemma after_ptr E i o x : xp (after E i o x) = no_ptr.
Proof. reflexivity. Qed.

Lemma over_sexec E l : forall o x, over o = true -> exists x', sexec E l o x = (o, x') /\ xkept x x'.
Proof.
  induction l as [| i l IH]; intros o x H; [exists x; split; [reflexivity | apply xkept_refl] |].
  destruct i as [i | | | | | | | | | | | | | | | | | |]; try (cbn [sexec]; destruct o; try discriminate; now apply IH).
  cbn [sexec]. rewrite over_exec by exact H. destruct (IH o (after E i o x) H) as (x' & R & K).
  exists x'. split; [exact R | eapply xkept_trans; [apply after_kept | exact K]].
Qed.

(** a piece of host code *)
Lemma shost_any E l : forall o x, exists x', xkept x x' /\
  (forallb (fun i => negb (calls i)) l = true -> xh x' = xh x) /\
  forall r, sexec E (shost l ++ r) o x = sexec E r (exec (s_host E) l o) x'.
Proof.
  induction l as [| i l IH]; intros o x.
  - exists x. split; [apply xkept_refl |]. split; auto.
  - destruct (IH (exec (s_host E) [i] o) (after E i o x)) as (x' & K & C & R). exists x'.
    split; [eapply xkept_trans; [apply after_kept | exact K] |]. split.
    + cbn [forallb]. intros H. apply andb_prop in H as [H1 H2]. rewrite C by exact H2. unfold after.
      destruct o; try reflexivity. destruct (calls i); [discriminate | reflexivity].
    + intros r. cbn [shost map app sexec]. fold (shost l). rewrite R. f_equal. now rewrite <- exec_app.
Qed.
Lemma shost_run E l s s' x : run (s_host E) l s = Done s' ->
  exists x', xkept x x' /\ (forallb (fun i => negb (calls i)) l = true -> xh x' = xh x) /\
    forall r, srun E (shost l ++ r) s x = srun E r s' x'.
Proof.
  intros H. destruct (shost_any E l (Done s) x) as (x' & K & C & R). exists x'. split; [exact K |]. split; [exact C |].
  intros r. unfold srun. rewrite R. unfold run in H. now rewrite H.
Qed.
Lemma shost_over E l s o x : run (s_host E) l s = o -> over o = true ->
  forall r, exists x', xkept x x' /\ srun E (shost l ++ r) s x = (o, x').
Proof.
  intros H V r. destruct (shost_any E l (Done s) x) as (x1 & K & _ & R). unfold srun. rewrite R. unfold run in H. rewrite H.
  destruct (over_sexec E r o x1 V) as (x' & R' & K'). exists x'. split; [eapply xkept_trans; eassumption | exact R'].
Qed.

(** ** Addresses *)

Definition at_addr (E : senv) (a : Z) (s s1 : hst) : Prop :=
  h_rcx (hr s1) = P PCtx /\ hval (s_host E) W32 RDX s1 = a /\ ctx s1 = ctx s /\ gmem s1 = gmem s /\ masked s1 = masked s.

Lemma ea_addr E m s x : h_rcx (hr s) = P PCtx -> memop_ok m (ctx s) ->
  exists s1 x1, at_addr E (ea m (ctx s)) s s1 /\ xkept x x1 /\ forall r, srun E (shost (emit_ea m) ++ r) s x = srun E r s1 x1.
Proof.
  intros Hcx Hm. destruct (ea_run (s_host E) m s Hcx Hm) as (s1 & HR & f & q1 & q2 & ->).
  destruct (shost_run E _ _ _ x HR) as (x1 & K & _ & R). eexists _, x1. split; [| split; [exact K | exact R]].
  split; [reflexivity |]. split; [| auto]. unfold hval. cbn [rget hr h_rdx num]. apply getw_ea.
Qed.

Lemma align_run E s a : h_rcx (hr s) = P PCtx -> hval E W32 RDX s = a ->
  exists s1, untouched s s1 /\ h_rcx (hr s1) = P PCtx /\ hval E W32 RDX s1 = a /\
    run E align_check s = if a mod 16 =? 0 then Done s1 else Raise 13 0 s1.
Proof.
  intros Hcx Ha.
  assert (T : (getw W32 (Z.land a (getw W32 15)) =? 0) = (a mod 16 =? 0)).
  { change (getw W32 15) with (Z.ones 4). rewrite Z.land_ones by lia. rewrite getw_small; [reflexivity |].
    pose proof (Z.mod_pos_bound a (2 ^ 4) eq_refl). change (modulus W32) with (2 ^ 32). lia. }
  unfold align_check, run. expand_list. cbn [exec step bind op_read opw i32 hEDX]. change (getw W32 (num E (rget RDX (hr s)))) with (hval E W32 RDX s).
  rewrite Ha. unfold logic_flags. rewrite T. cbn [holds hf set_hf hzf].
  destruct (a mod 16 =? 0); (eexists; split; [| split; [| split]]; [..| reflexivity]; try assumption; repeat split).
Qed.

Lemma addr_ok E c m s x : h_rcx (hr s) = P PCtx -> memop_ok m (ctx s) ->
  let a := ea m (ctx s) in
  if c && negb (a mod 16 =? 0)
  then exists s1, untouched s s1 /\ forall r, exists x1, xkept x x1 /\ srun E (checked_addr c m ++ r) s x = (Raise 13 0 s1, x1)
  else exists s1 x1, at_addr E a s s1 /\ xkept x x1 /\ forall r, srun E (checked_addr c m ++ r) s x = srun E r s1 x1.
Proof.
  intros Hcx Hm a. destruct (ea_run (s_host E) m s Hcx Hm) as (s1 & HR & f & q1 & q2 & S1). fold a in S1.
  assert (A1 : hval (s_host E) W32 RDX s1 = a) by (subst s1; unfold hval; cbn [rget hr h_rdx num]; apply getw_ea).
  assert (C1 : h_rcx (hr s1) = P PCtx) by (subst s1; reflexivity).
  assert (U1 : untouched s s1) by (subst s1; repeat split).
  destruct c; cbn [andb].
  - destruct (align_run (s_host E) s1 a C1 A1) as (s2 & U2 & C2 & A2 & R2).
    assert (U : untouched s s2) by (destruct U1 as (? & ? & ?), U2 as (? & ? & ?); repeat split; congruence).
    assert (RR : run (s_host E) (emit_ea m ++ align_check) s = if a mod 16 =? 0 then Done s2 else Raise 13 0 s2) by (rewrite (run_seq _ _ _ _ _ HR); exact R2).
    unfold checked_addr. destruct (a mod 16 =? 0); cbn [negb].
    + destruct (shost_run E _ _ _ x RR) as (x1 & K & _ & R). exists s2, x1. destruct U as (? & ? & ?).
      split; [repeat split; assumption |]. split; [exact K | exact R].
    + exists s2. split; [exact U |]. intros r. exact (shost_over E _ _ _ x RR eq_refl r).
  - unfold checked_addr. rewrite app_nil_r. destruct (shost_run E _ _ _ x HR) as (x1 & K & _ & R). exists s1, x1. destruct U1 as (? & ? & ?).
    split; [repeat split; assumption |]. split; [exact K | exact R].
Qed.

(** ** Accesses *)

Lemma has_ctx_ok s : h_rcx (hr s) = P PCtx -> has_ctx s = true.
Proof. unfold has_ctx. now intros ->. Qed.

(** a 16-byte load: the value is where RAX points *)
Lemma ld128_ok E a s s1 x : at_addr E a s s1 ->
  if e_fault (s_host E) false a 16
  then forall r, exists x1, xkept x x1 /\ srun E (SLd128 :: r) s1 x = (Fault false a 16 s1, x1)
  else exists s2 x2, h_rcx (hr s2) = P PCtx /\ ctx s2 = ctx s /\ gmem s2 = gmem s /\ masked s2 = masked s /\ xkept x x2 /\
    xread XBuf s2 x2 = Some (value_at 16 (gmem s) a) /\
    xp x2 RAX = Some PBuf /\ forall r, srun E (SLd128 :: r) s1 x = srun E r s2 x2.
Proof.
  intros (C & A & X & G & M). destruct (e_fault (s_host E) false a 16) eqn:F.
  - intros r. unfold srun. cbn [sexec sstep]. rewrite A, F. cbn [fst snd].
    destruct (over_sexec E r (Fault false a 16 s1) x eq_refl) as (x' & R & K). eauto.
  - eexists _, _. split; [| split; [| split; [| split; [| split; [| split; [| split]]]]]].
    8:{ intros r. unfold srun. cbn [sexec sstep]. rewrite A, F. cbn [fst snd]. reflexivity. }
    all: try reflexivity; try assumption.
    + repeat split.
    + cbn [xread set_xp xp hreg_eqb]. cbn [clobber set_ncall set_hr set_loc loc Nat.eqb]. rewrite <- G. f_equal. apply load16.
Qed.
Lemma st128_ok E a g s s1 x : at_addr E a s s1 -> 0 <= a < 2 ^ 32 ->
  if e_fault (s_host E) true a 16
  then exists x1, xkept x x1 /\ srun E [SLea R8 g; SSt128] s1 x = (Fault true a 16 s1, x1)
  else exists s2 x2, h_rcx (hr s2) = P PCtx /\ ctx s2 = ctx s /\ masked s2 = masked s /\ xkept x x2 /\
    (forall z, gmem s2 z = put_at 16 (gmem s) a (xg x g) z) /\ srun E [SLea R8 g; SSt128] s1 x = (Done s2, x2).
Proof.
  intros (C & A & X & G & M) Ha. unfold srun. cbn [sexec sstep]. rewrite (has_ctx_ok _ C). cbn [fst snd set_xp xp hreg_eqb].
  rewrite A. destruct (e_fault (s_host E) true a 16) eqn:F; cbn [fst snd].
  - eexists. split; [| reflexivity]. repeat split.
  - eexists _, _. split; [| split; [| split; [| split; [| split; [| reflexivity]]]]]; try reflexivity; try assumption.
    + repeat split.
    + intros z. cbn [clobber set_ncall set_hr set_gmem gmem]. rewrite G. now apply store16.
Qed.

Lemma run_snoc E l i s s1 : run E l s = Done s1 -> run E (l ++ [i]) s = run E [i] s1.
Proof. intros H. now rewrite (run_seq _ _ _ _ _ H). Qed.

(** a load of four or eight bytes by host code *)
Lemma ld_ok E w m s x : h_rcx (hr s) = P PCtx -> memop_ok m (ctx s) ->
  let a := ea m (ctx s) in
  if e_fault (s_host E) false a (wbytes w)
  then exists s1, untouched s s1 /\ forall tl r, exists x1, xkept x x1 /\ srun E (shost (emit_ea m ++ ILoad w :: tl) ++ r) s x = (Fault false a (wbytes w) s1, x1)
  else exists s1 x1, h_rcx (hr s1) = P PCtx /\ untouched s s1 /\ xkept x x1 /\
    getw w (num (s_host E) (h_rax (hr s1))) = value_at (Z.to_nat (wbytes w)) (gmem s) a /\
    forall r, srun E (shost (emit_ea m ++ [ILoad w]) ++ r) s x = srun E r s1 x1.
Proof.
  intros Hcx Hm a. destruct (ea_run (s_host E) m s Hcx Hm) as (s1 & HR & f & q1 & q2 & S1). fold a in S1.
  assert (A1 : getw W32 (num (s_host E) (h_rdx (hr s1))) = a) by (subst s1; cbn [hr h_rdx num]; apply getw_ea).
  assert (L : forall tl, run (s_host E) (ILoad w :: tl) s1 = if e_fault (s_host E) false a (wbytes w) then Fault false a (wbytes w) s1
                            else run (s_host E) tl (loaded (s_host E) w a s1)) by (intros tl; exact (load_step _ w s1 a tl A1)).
  destruct (e_fault (s_host E) false a (wbytes w)) eqn:F.
  - exists s1. split; [subst s1; repeat split |]. intros tl r.
    assert (RR : run (s_host E) (emit_ea m ++ ILoad w :: tl) s = Fault false a (wbytes w) s1) by (rewrite (run_seq _ _ _ _ _ HR); apply L).
    exact (shost_over E _ _ _ x RR eq_refl r).
  - assert (RR : run (s_host E) (emit_ea m ++ [ILoad w]) s = Done (loaded (s_host E) w a s1)) by (rewrite (run_seq _ _ _ _ _ HR); apply L).
    destruct (shost_run E _ _ _ x RR) as (x1 & K & _ & R). exists (loaded (s_host E) w a s1), x1.
    split; [reflexivity |]. split; [subst s1; repeat split |]. split; [exact K |]. split; [| exact R].
    cbn [loaded hr h_rax num]. rewrite getw_setw, getw_mload, mload_value. subst s1. reflexivity.
Qed.
(** a store of four or eight bytes *)
Lemma st_ok E w a v s1 x : h_rcx (hr s1) = P PCtx -> hval (s_host E) W32 RDX s1 = a -> hval (s_host E) w R8 s1 = v ->
  if e_fault (s_host E) true a (wbytes w)
  then exists x1, xkept x x1 /\ srun E (shost [IStore w]) s1 x = (Fault true a (wbytes w) s1, x1)
  else exists s2 x2, h_rcx (hr s2) = P PCtx /\ ctx s2 = ctx s1 /\ masked s2 = masked s1 /\ xkept x x2 /\
    (forall z, gmem s2 z = put_at (wbytes w) (gmem s1) a v z) /\ srun E (shost [IStore w]) s1 x = (Done s2, x2).
Proof.
  intros C A V. 
  assert (L : run (s_host E) [IStore w] s1 = if e_fault (s_host E) true a (wbytes w) then Fault true a (wbytes w) s1
                else Done (stored (s_host E) w a v s1)) by exact (store_step (s_host E) w s1 a v [] A V).
  rewrite <- (app_nil_r (shost [IStore w])). destruct (e_fault (s_host E) true a (wbytes w)) eqn:F.
  - exact (shost_over E _ _ _ x L eq_refl []).
  - destruct (shost_run E _ _ _ x L) as (x1 & K & _ & R). exists (stored (s_host E) w a v s1), x1.
    split; [reflexivity |]. split; [reflexivity |]. split; [reflexivity |]. split; [exact K |]. split; [| rewrite R; reflexivity].
    intros z. cbn [stored gmem]. apply mstore_put.
Qed.

(** ** Register code: [sym_x] runs actions on guest and host XMM registers *)

Lemma ea_bound m c : 0 <= ea m c < 2 ^ 32.
Proof. destruct m; apply Z.mod_pos_bound; reflexivity. Qed.

Lemma kept_gives E l s s' x x1 x' g' m' :
  srun E l s x = (Done s', x') -> xkept x x1 ->
  h_rcx (hr s') = P PCtx -> ctx s' = ctx s -> masked s' = masked s -> (forall a, gmem s' a = m' a) ->
  (forall g, xg x' g = g' g) -> xmx x' = xmx x1 -> xsh x' = xsh x1 -> xhost x' = xhost x1 -> gives E l s x g' m'.
Proof. intros R (K & K1 & K2 & K3) C X M G X1 X2 X3 X4. exists s', x'. repeat split; try assumption; congruence. Qed.

Lemma upd_with x g v k : upd (xg x) g v k = with_x x g v k.
Proof. reflexivity. Qed.
Lemma upd_kept x x1 g v k : xkept x x1 -> upd (xg x1) g v k = with_x x g v k.
Proof. intros (K & _). unfold upd, with_x. destruct (k =? g); [reflexivity | apply K]. Qed.

Ltac sx := cbn [sexec sstep xread xwrite fst snd set_xp set_xh set_xg set_xmx set_xhost xp xh xg xmx xsh xhost hreg_eqb Nat.eqb].

(** MOVAPS and MOVUPS, load form *)
Lemma movaps_load E al dst src s x : h_rcx (hr s) = P PCtx -> xrm_ok src (ctx s) ->
  accesses E (emit_movaps_load al dst src) s x false al 16 src (with_x x dst (src128 src s x)) (gmem s).
Proof.
  intros Hcx Hm. destruct src as [g | m]; cbn [accesses emit_movaps_load src128].
  - unfold gives, srun. sx. rewrite (has_ctx_ok _ Hcx). sx. rewrite (has_ctx_ok _ Hcx). sx.
    eexists _, _. split; [reflexivity |]. repeat split; assumption.
  - cbv zeta. pose proof (addr_ok E al m s x Hcx Hm) as A. cbv zeta in A. destruct (al && negb (ea m (ctx s) mod 16 =? 0)).
    + destruct A as (s1 & U & R). destruct (R [SLd128; SMov (XH 0) XBuf; SMov (XG dst) (XH 0)]) as (x1 & K & R1). exists s1, x1. auto.
    + destruct A as (s1 & x1 & A & K & R). pose proof (ld128_ok E _ _ _ x1 A) as L.
      destruct (e_fault (s_host E) false (ea m (ctx s)) 16).
      * destruct (L [SMov (XH 0) XBuf; SMov (XG dst) (XH 0)]) as (x2 & K2 & R2). exists s1, x2.
        rewrite R. destruct A as (? & ? & ? & ? & ?). split; [exact R2 |]. split; [repeat split; assumption | eapply xkept_trans; eassumption].
      * destruct L as (s2 & x2 & C2 & X2 & G2 & M2 & K2 & V2 & _ & R2).
        eapply kept_gives with (x1 := x2) (s' := s2); [rewrite R, R2; unfold srun; cbn [sexec sstep]; rewrite V2; sx; rewrite (has_ctx_ok _ C2); sx; reflexivity |
          eapply xkept_trans; eassumption | exact C2 | exact X2 | exact M2 | intros; now rewrite G2 | | reflexivity .. ].
        intros k. sx. apply upd_kept. eapply xkept_trans; eassumption.
Qed.

Lemma movaps_store E al dst src s x : h_rcx (hr s) = P PCtx -> xrm_ok dst (ctx s) ->
  accesses E (emit_movaps_store al dst src) s x true al 16 dst
    (match dst with XReg g => with_x x g (xg x src) | XMem _ => xg x end)
    (match dst with XReg _ => gmem s | XMem m => put_at 16 (gmem s) (ea m (ctx s)) (xg x src) end).
Proof.
  intros Hcx Hm. destruct dst as [g | m]; cbn [accesses emit_movaps_store].
  - unfold gives, srun. sx. rewrite (has_ctx_ok _ Hcx). sx. rewrite (has_ctx_ok _ Hcx). sx.
    eexists _, _. split; [reflexivity |]. repeat split; assumption.
  - cbv zeta. pose proof (addr_ok E al m s x Hcx Hm) as A. cbv zeta in A. destruct (al && negb (ea m (ctx s) mod 16 =? 0)).
    + destruct A as (s1 & U & R). destruct (R [SLea R8 src; SSt128]) as (x1 & K & R1). exists s1, x1. auto.
    + destruct A as (s1 & x1 & A & K & R). pose proof (st128_ok E _ src _ _ x1 A (ea_bound _ _)) as L.
      destruct (e_fault (s_host E) true (ea m (ctx s)) 16).
      * destruct L as (x2 & K2 & R2). exists s1, x2. rewrite R. destruct A as (? & ? & ? & ? & ?).
        split; [exact R2 |]. split; [repeat split; assumption | eapply xkept_trans; eassumption].
      * destruct L as (s2 & x2 & C2 & X2 & M2 & K2 & G2 & R2). exists s2, x2. rewrite R.
        destruct (xkept_trans _ _ _ K K2) as (Q & Q1 & Q2 & Q3). destruct K as (K & _).
        split; [exact R2 |]. repeat split; try assumption. intros z. rewrite G2. unfold put_at. now rewrite K.
Qed.

(** MOVLPS and MOVHPS *)
Lemma insert_half off old v : off = 0 \/ off = 8 -> 0 <= old < 2 ^ 128 -> 0 <= v < 2 ^ 64 -> xinsert W64 off old v = with_half off old v.
Proof.
  intros [-> | ->] Ho Hv; unfold with_half; cbn [Z.eqb].
  - rewrite insert_low by auto. change (modulus W64) with (2 ^ 64). now rewrite (Z.mod_small v).
  - rewrite insert_high by exact Ho. now rewrite (Z.mod_small v).
Qed.

Lemma movlps_load E off dst m s x : h_rcx (hr s) = P PCtx -> memop_ok m (ctx s) -> off = 0 \/ off = 8 -> regs128 (xg x) ->
  accesses E (emit_movlps_load off dst m) s x false false 8 (XMem m)
    (with_x x dst (with_half off (xg x dst) (value_at 8 (gmem s) (ea m (ctx s))))) (gmem s).
Proof.
  intros Hcx Hm Ho Hr. cbn [accesses andb]. cbv zeta. unfold emit_movlps_load. pose proof (ld_ok E W64 m s x Hcx Hm) as A. cbv zeta in A. change (wbytes W64) with 8 in A.
  destruct (e_fault (s_host E) false (ea m (ctx s)) 8).
  - destruct A as (s1 & U & R). destruct (R [] [SLea RDX dst; SPut W64 RDX off RAX]) as (x1 & K & R1). exists s1, x1. auto.
  - destruct A as (s1 & x1 & C & (X & G & M) & K & V & R). change (Z.to_nat 8) with 8%nat in V.
    eapply kept_gives with (x1 := x1) (s' := s1); [rewrite R; unfold srun; sx; rewrite (has_ctx_ok _ C); sx; reflexivity |
      exact K | exact C | exact X | exact M | intros; now rewrite G | | reflexivity .. ].
    intros k. sx. unfold hval. change (rget RAX (hr s1)) with (h_rax (hr s1)). rewrite V. rewrite (upd_kept x x1) by exact K.
    unfold with_x. destruct (k =? dst); [| reflexivity]. rewrite (proj1 K). apply insert_half; [exact Ho | apply Hr |].
    exact (value_range 8 _ _).
Qed.

Lemma movlps_store E off src m s x : h_rcx (hr s) = P PCtx -> memop_ok m (ctx s) -> off = 0 \/ off = 8 ->
  accesses E (emit_movlps_store off m src) s x true false 8 (XMem m) (xg x) (put_at 8 (gmem s) (ea m (ctx s)) (half off (xg x src))).
Proof.
  intros Hcx Hm Ho. cbn [accesses andb]. cbv zeta. unfold emit_movlps_store. destruct (ea_addr E m s x Hcx Hm) as (s1 & x1 & (C & A & X & G & M) & K & R).
  set (v := xpart W64 off (xg x src)).
  set (s2 := set_hr (rset R8 (N (setw W64 (num (s_host E) (rget R8 (hr s1))) v)) (hr s1)) s1).
  assert (S2 : exists x2, xkept x x2 /\ forall r, srun E ([SLea RBX src; SGet W64 R8 RBX off] ++ r) s1 x1 = srun E r s2 x2).
  { eexists. split; [| intros r; unfold srun; cbn [app]; sx; rewrite (has_ctx_ok _ C); sx; cbn [op_write next]; rewrite (proj1 K); reflexivity].
    destruct K as (K & K1 & K2 & K3). repeat split; assumption. }
  destruct S2 as (x2 & K2 & R2).
  assert (C2 : h_rcx (hr s2) = P PCtx) by (destruct s1 as [[q1 q2 q3 q4 q5 q6 q7 q8] w1 w2 w3 w4 w5 w6]; exact C).
  assert (A2 : hval (s_host E) W32 RDX s2 = ea m (ctx s)) by (destruct s1 as [[q1 q2 q3 q4 q5 q6 q7 q8] w1 w2 w3 w4 w5 w6]; exact A).
  assert (V2 : hval (s_host E) W64 R8 s2 = v) by (destruct s1 as [[q1 q2 q3 q4 q5 q6 q7 q8] w1 w2 w3 w4 w5 w6]; unfold hval; subst s2; cbn [set_hr rset hr rget h_r8 num]; rewrite getw_setw; unfold v, xpart; apply getw_idem).
  pose proof (st_ok E W64 _ _ s2 x2 C2 A2 V2) as L. change (wbytes W64) with 8 in L.
  assert (V : v = half off (xg x src)) by (unfold v, half; rewrite xpart_eq by (destruct Ho; lia); reflexivity).
  destruct (e_fault (s_host E) true (ea m (ctx s)) 8).
  - destruct L as (x3 & K3 & R3). exists s2, x3. rewrite R, R2. split; [exact R3 |]. split; [repeat split; assumption | eapply xkept_trans; eassumption].
  - destruct L as (s3 & x3 & C3 & X3 & M3 & K3 & G3 & R3). exists s3, x3. rewrite R, R2.
    destruct (xkept_trans _ _ _ K2 K3) as (Q & Q1 & Q2 & Q3). split; [exact R3 |]. repeat split; try assumption.
    + rewrite X3. exact X.
    + rewrite M3. exact M.
    + intros z. rewrite G3. change (gmem s2) with (gmem s1). now rewrite G, V.
Qed.
