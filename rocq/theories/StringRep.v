(** * Moving the indices and repeating *)

From Coq Require Import ZArith Bool List Lia ZifyBool.
From Verif Require Import HostModel AluModel AluSpec HostProofs LazyFlagsProofs FlagsApiProofs
  FlagArith SymExec EaProofs AluProofs AluForms UnaryProofs XchgProofs CondProofs ShiftModel ShiftSpec
  ShiftProofs ShiftForms RotateProofs BitProofs MulProofs BcdProofs BranchProofs StringModel StringSpec
  StringProofs.
Import ListNotations.
Local Open Scope Z_scope.

Definition no_labels (l : list instr) : bool := forallb (fun i => negb (is_lab i)) l.

Lemma skip_over E l k s : no_labels l = true -> exec E l (Skip k s) = Skip k s.
Proof.
  induction l as [| i l IH]; intros H; [reflexivity |].
  cbn [no_labels forallb] in H. apply andb_true_iff in H as [H1 H2].
  rewrite skip_step by (now destruct (is_lab i)). now apply IH.
Qed.

Lemma move_labels op k w a32 : no_labels (str_move op k w a32) = true.
Proof. destruct k, a32; reflexivity. Qed.
Lemma tail_labels p a32 : no_labels (rep_tail p a32) = true.
Proof. destruct p, a32; reflexivity. Qed.

(** ** The direction flag *)

Lemma df_bit e : (getw W32 (Z.land (getw W32 e) 1024) =? 0) = negb (Z.testbit e 10).
Proof.
  replace (getw W32 (Z.land (getw W32 e) 1024)) with (Z.land e 1024).
  2:{ unfold getw. rewrite <- !Z.land_assoc. reflexivity. }
  change 1024 with (2 ^ 10). rewrite land_pow2 by lia. now destruct (Z.testbit e 10).
Qed.

Lemma df_ok E k s tl : h_rcx (hr s) = P PCtx ->
  exists f v, exec E (df_test k ++ tl) (Done s) =
    let s' := set_hf f (set_hr (rset (df_reg k) (N v) (hr s)) s) in
    if Z.testbit (eflags (ctx s)) 10 then exec E tl (Skip 1 s') else exec E tl (Done s').
Proof.
  intros Hcx. start_state s Hcx. rewrite exec_app.
  destruct k; cbv [df_test df_reg]; cbv zeta;
  repeat (rewrite exec_step;
    match goal with |- context [step ?E ?i ?s] => 
      lazymatch i with IJcc _ _ => fail | _ =>
      let t := norm_term (step E i s) in change (step E i s) with t; rewrite ?getw_setw, ?getw_idem end end).
  all: rewrite jcc_exec; cbn [hf]; cbv [holds logic_flags hzf]; rewrite Z.land_diag, ?getw_idem;
  change (getw W32 1024) with 1024; rewrite df_bit, negb_involutive;
  destruct (Z.testbit ef 10); cbn [exec]; do 2 eexists; reflexivity.
Qed.

Lemma df_indices E a32 k f v s :
  indices E a32 k s -> indices E a32 k (set_hf f (set_hr (rset (df_reg k) (N v) (hr s)) s)).
Proof.
  unfold indices, gs. destruct s as [[rax rbx rcx rdx r8 r9 r10 r11] hf0 c gm lc nc mk].
  destruct k; cbn [st_moves]; intros H;
  repeat match goal with H : Forall _ (_ :: _) |- _ => apply Forall_cons_iff in H as [? H] end;
  repeat (apply Forall_cons; [assumption |]); apply Forall_nil.
Qed.

(** ** Moving the indices *)

Lemma index_range a32 r g : 0 <= index a32 r g < modulus (index_w a32).
Proof. apply gget_range. Qed.

Lemma wbytes_range w : arith_w w -> 0 < wbytes w <= 4.
Proof. destruct w; cbn [wbytes]; intros H; try lia. now elim H. Qed.

Lemma gst_one w r v v' g m f : v = v' -> mkgst (gput w false r v g) m f = mkgst (gput w false r v' g) m f.
Proof. now intros ->. Qed.
Lemma gst_two w r1 r2 v1 v1' v2 v2' g m f : v1 = v1' -> v2 = v2' ->
  mkgst (gput w false r2 v2 (gput w false r1 v1 g)) m f = mkgst (gput w false r2 v2' (gput w false r1 v1' g)) m f.
Proof. now intros -> ->. Qed.

Lemma move_ok E k (df : bool) w a32 s : arith_w w -> h_rcx (hr s) = P PCtx -> indices E a32 k s ->
  exists s', run E (str_move (if df then BSub else BAdd) k w a32) s = Done s' /\ same s s' /\
             gs s' = moves w a32 df k (gs s).
Proof.
  intros Hw Hcx HI. pose proof (wbytes_range w Hw) as Hb.
  unfold indices in HI. pose proof (index_range a32 ESI (gs s)) as HS. pose proof (index_range a32 EDI (gs s)) as HD.
  unfold str_move. remember (wbytes w) as n eqn:En.
  assert (M : forall r g, move w a32 df r g = set_index a32 r (if df then index a32 r g - n else index a32 r g + n) g)
    by (intros; subst n; reflexivity).
  start_state s Hcx. unfold moves. unfold gs, index, index_w in *. cbn [g_regs g_mem g_fl ctx gprs gmem res aux] in *.
  assert (Nn : getw W32 n = n) by (apply getw_small; unfold modulus; cbn [wbits]; lia). clear En Hb.
  destruct k; cbn [st_moves map app fst snd fold_left] in *;
  repeat match goal with H : Forall _ (_ :: _) |- _ => apply Forall_cons_iff in H as [? H] end; clear HI;
  cbn [fst snd rget hr h_rax h_rbx h_rdx] in *; rewrite !M.
  all: destruct a32, df; unfold run; expand_list; sym'; cbn [exec];
    (eexists; split; [reflexivity |]; split; [repeat split |]);
    unfold set_index, index, index_w; cbn [g_regs g_mem g_fl ctx gprs gmem res aux].
  all: first [apply gst_two | apply gst_one];
    rewrite ?getw_low16, ?getw_16_32, ?getw_setw, ?getw_idem, Nn, getw_mod;
    match goal with H : getw W32 ?x = _ |- context [getw W32 ?x] => rewrite H end; reflexivity.
Qed.

(** ** The end of a pass *)

Lemma gget_new w r v g : gget w false r (gput w false r v g) = getw w v.
Proof. unfold gget, gput. replace (greg_eqb r r) with true by (now destruct r). apply getw_putw. Qed.

Lemma count_w16 o c : 0 <= c < 65536 ->
  getw W32 (setw W16 (setw W32 o c) (getw W16 (setw W32 o c) - getw W16 1)) = (c - 1) mod modulus W16.
Proof.
  intros H. change (getw W16 1) with 1. rewrite getw_low16. rewrite BcdProofs.setw32, BcdProofs.setw16, !getw_mod.
  change (modulus W32) with 4294967296. change (modulus W16) with 65536.
  Z.div_mod_to_equations. lia.
Qed.

Lemma count_w32 c : getw W32 (c - getw W32 1) = (c - 1) mod modulus W32.
Proof. rewrite getw_mod. reflexivity. Qed.
Lemma count_v16 o c : 0 <= c < 65536 ->
  getw W16 (setw W16 (setw W32 o c) (getw W16 (setw W32 o c) - getw W16 1)) = (c - 1) mod modulus W16.
Proof. intros H. rewrite getw_setw, getw_low16, getw_mod, (getw_small W16 c) by exact H. reflexivity. Qed.
Lemma count_v16' o c : 0 <= c < 65536 ->
  getw W16 (getw W16 (setw W32 o c) - getw W16 1) = (c - 1) mod modulus W16.
Proof. intros H. rewrite getw_low16, getw_mod, (getw_small W16 c) by exact H. reflexivity. Qed.

Ltac tail_done :=
  cbn [exec]; eexists; split; [| split; [| reflexivity]]; [repeat split |];
  cbn [ctx gprs gmem res aux]; subst; apply gst_one;
  first [ reflexivity | apply count_w32 | apply count_v16; assumption | apply count_v16'; assumption ].

Lemma tail_ok E p a32 s : h_rcx (hr s) = P PCtx ->
  let g2 := set_index a32 ECX (index a32 ECX (gs s) - 1) (gs s) in
  exists s', same s s' /\ gs s' = g2 /\
    run E (rep_tail p a32) s = Skip (if (index a32 ECX g2 =? 0) || stops p (g_fl g2) then 0 else 2) s'.
Proof.
  intros Hcx. start_state s Hcx. cbv zeta.
  pose proof (gget_range (if a32 then W32 else W16) false ECX gp) as HR.
  unfold gs, index, index_w, set_index, stops. cbn [g_regs g_mem g_fl ctx gprs gmem res aux].
  unfold index_w. rewrite gget_new.
  rewrite (getw_small _ ((_ - _) mod _)) by (apply Z.mod_pos_bound, modulus_pos).
  assert (Hz : f_zf (lazy_flags rs ax) = (w32 rs =? 0)) by reflexivity. rewrite Hz. clear Hz.
  remember (lazy_flags rs ax) as fl eqn:Hfl.
  destruct a32, p; unfold run; expand_list; symj; rewrite jcc_exec; cbn [hf]; cbv [holds logic_flags hzf];
  rewrite Z.land_diag, ?getw_idem, ?count_w32, ?count_w16 by exact HR;
  match goal with |- context [if ?b then exec _ _ _ else _] => destruct b end; cbn [orb];
  try (rewrite skip_over by reflexivity; tail_done);
  symj; try (rewrite jcc_exec; cbn [hf]; cbv [holds logic_flags hzf];
    rewrite ?if00, Z.land_diag, ?getw_idem; change (getw W32 rs) with (w32 rs));
  try (destruct (w32 rs =? 0); cbn [negb orb]; try rewrite skip_over by reflexivity); symj; tail_done.
Qed.

(** ** One pass *)

Lemma access_run E l1 l2 s s' : run E l1 s = Done s' -> exec E (l1 ++ l2) (Done s) = exec E l2 (Done s').
Proof. intros H. rewrite exec_app. unfold run in H. now rewrite H. Qed.

Lemma moves_count w a32 df k g : g_regs (moves w a32 df k g) ECX = g_regs g ECX.
Proof. destruct k; reflexivity. Qed.
Lemma accessed_count E base w a32 seg k g g1 : accessed E base w a32 seg k g = inl g1 -> g_regs g1 ECX = g_regs g ECX.
Proof.
  unfold accessed. cbv zeta. destruct k;
  repeat match goal with |- context [if ?b then _ else _] => destruct b end; intros H; inversion H; reflexivity.
Qed.

Lemma same_df s s' : same s s' -> eflags (ctx s') = eflags (ctx s).
Proof. now intros (_ & _ & H & _). Qed.
Lemma same_rcx s s' : same s s' -> h_rcx (hr s') = P PCtx.
Proof. now intros (H & _). Qed.
Lemma same_seg s s' : same s s' -> segb (ctx s') = segb (ctx s).
Proof. now intros (_ & H & _). Qed.

(** the state of the guest when the direction flag has been fetched *)
Lemma df_same E k f v s a32 : h_rcx (hr s) = P PCtx ->
  let s' := set_hf f (set_hr (rset (df_reg k) (N v) (hr s)) s) in
  same s s' /\ gs s' = gs s /\ (indices E a32 k s -> indices E a32 k s').
Proof.
  intros Hcx s'. split; [| split; [reflexivity | apply df_indices]].
  unfold same. subst s'. destruct s as [[rax rbx rcx rdx r8 r9 r10 r11] hf0 c gm lc nc mk].
  cbn [hr h_rcx] in *. subst rcx. destruct k; repeat split.
Qed.

Section Rep.
Variables (E : henv) (k : strop) (w : width) (a32 : bool) (seg : sreg) (z ze : bool).
Hypothesis Hw : arith_w w.

Lemma pass_ok rep s : h_rcx (hr s) = P PCtx ->
  (z = true -> segb (ctx s) seg = 0) -> (ze = true -> segb (ctx s) ES = 0) ->
  match element (fault_of E w) (segb (ctx s)) w a32 seg (Z.testbit (eflags (ctx s)) 10) k (gs s) with
  | inr (wr, a) => exists s', run E (str_body k rep w a32 seg z ze) s = Fault wr a (wbytes w) s' /\
                              same s s' /\ gs s' = gs s
  | inl g1 =>
      match rep with
      | None => exists s', run E (str_body k rep w a32 seg z ze) s = Done s' /\ same s s' /\ gs s' = g1
      | Some p =>
          let g2 := set_index a32 ECX (index a32 ECX g1 - 1) g1 in
          exists s', run E (str_body k rep w a32 seg z ze) s =
                       (if (index a32 ECX g2 =? 0) || stops p (g_fl g2) then Done s' else Skip 2 s') /\
                     same s s' /\ gs s' = g2
      end
  end.
Proof.
  intros Hcx Hz Hze. rewrite element_split.
  pose proof (access_ok E k w a32 seg z ze s Hw Hcx Hz Hze) as HA. unfold access_goal in HA.
  unfold str_body.
  destruct (accessed E (segb (ctx s)) w a32 seg k (gs s)) as [g1 | [wr a]].
  2:{ destruct HA as (s' & HR & HS & HG). exists s'. split; [| auto]. now apply run_fault. }
  destruct HA as (s1 & HR & HS & HG & HI). rewrite (run_seq _ _ _ _ _ HR). clear HR. unfold run.
  set (df := Z.testbit (eflags (ctx s)) 10).
  assert (Df : Z.testbit (eflags (ctx s1)) 10 = df) by (unfold df; now rewrite (same_df _ _ HS)).
  pose proof (same_rcx _ _ HS) as Hcx1.
  match goal with |- context [exec E (df_test k ++ ?l) _] => destruct (df_ok E k s1 l Hcx1) as (f & v & HD) end.
  rewrite Df in HD. clearbody df. cbv zeta in HD.
  destruct (df_same E k f v s1 a32 Hcx1) as (HS2 & HG2 & HI2). specialize (HI2 HI). cbv zeta in *.
  set (s2 := set_hf f (set_hr (rset (df_reg k) (N v) (hr s1)) s1)) in *. clearbody s2.
  assert (HD' : forall l, (if df then exec E l (Skip 1 s2) else exec E l (Done s2)) =
                          exec E l (if df then Skip 1 s2 else Done s2)) by (intros; now destruct df).
  rewrite HD' in HD. clear HD'. pose proof (same_rcx _ _ HS2) as Hcx2.
  pose proof (same_trans _ _ _ HS HS2) as HS02.
  destruct rep as [p |].
  - cbv zeta.
    set (g2 := set_index a32 ECX (index a32 ECX (moves w a32 df k g1) - 1) (moves w a32 df k g1)).
    set (stop := (index a32 ECX g2 =? 0) || stops p (g_fl g2)).
    destruct (move_ok E k df w a32 s2 Hw Hcx2 HI2) as (s3 & HM & HS3 & HG3).
    destruct (tail_ok E p a32 s3 (same_rcx _ _ HS3)) as (s4 & HS4 & HG4 & HT). cbv zeta in HT, HG4.
    assert (G3 : gs s3 = moves w a32 df k g1) by congruence.
    rewrite G3 in HT, HG4. fold g2 in HT, HG4. fold stop in HT. unfold run in HM, HT.
    exists s4. split; [| split; [eauto using same_trans | assumption]].
    rewrite HD. clear HD. destruct df.
    + rewrite exec_app, skip_over by apply move_labels. rewrite exec_app, skip_over by apply tail_labels.
      cbn [app]. rewrite skip_lab. cbn [Nat.eqb]. rewrite exec_app, HM, exec_app, HT. now destruct stop.
    + rewrite exec_app, HM, exec_app, HT. destruct stop; cbn [app]; rewrite skip_lab; cbn [Nat.eqb];
      rewrite exec_app, skip_over by apply move_labels; rewrite exec_app, skip_over by apply tail_labels; reflexivity.
  - destruct (move_ok E k df w a32 s2 Hw Hcx2 HI2) as (s3 & HM & HS3 & HG3). unfold run in HM.
    exists s3. split; [| split; [eauto using same_trans | congruence]].
    rewrite HD. clear HD. destruct df.
    + rewrite exec_app, skip_over by apply move_labels. rewrite exec_app, skip_over by reflexivity.
      cbn [app]. rewrite skip_lab. cbn [Nat.eqb]. rewrite exec_app, HM. reflexivity.
    + rewrite exec_app, HM. cbn [app]. rewrite jmp_step, skip_lab. cbn [Nat.eqb].
      rewrite exec_app, skip_over by apply move_labels. reflexivity.
Qed.

(** ** All passes *)

Lemma element_keeps_count base df g g1 :
  element (fault_of E w) base w a32 seg df k g = inl g1 -> index a32 ECX g1 = index a32 ECX g.
Proof.
  rewrite element_split. destruct (accessed E base w a32 seg k g) as [g0 |] eqn:A; [| discriminate].
  intros H. inversion H. unfold index, gget. now rewrite moves_count, (accessed_count _ _ _ _ _ _ _ _ A).
Qed.

Lemma count_step v : 0 < v < modulus (index_w a32) ->
  (v - 1) mod modulus (index_w a32) = v - 1.
Proof. intros H. apply Z.mod_small. lia. Qed.

Lemma repeated_S fault base df p n g :
  repeated fault base w a32 seg df k p (S n) g =
  match element fault base w a32 seg df k g with
  | inr f => (g, Some f)
  | inl g1 =>
      let g2 := set_index a32 ECX (index a32 ECX g1 - 1) g1 in
      if stops p (g_fl g2) then (g2, None) else repeated fault base w a32 seg df k p n g2
  end.
Proof. reflexivity. Qed.

Lemma rep_ok p : forall n s, h_rcx (hr s) = P PCtx ->
  (z = true -> segb (ctx s) seg = 0) -> (ze = true -> segb (ctx s) ES = 0) ->
  index a32 ECX (gs s) = Z.of_nat (S n) ->
  let '(g', f) := repeated (fault_of E w) (segb (ctx s)) w a32 seg (Z.testbit (eflags (ctx s)) 10) k p (S n) (gs s) in
  exists s', rep_runs E (str_body k (Some p) w a32 seg z ze) s
               (match f with None => Done s' | Some (wr, a) => Fault wr a (wbytes w) s' end) /\
             same s s' /\ gs s' = g'.
Proof.
  induction n as [| n IH]; intros s Hcx Hz Hze HN; rewrite repeated_S;
  pose proof (pass_ok (Some p) s Hcx Hz Hze) as HP;
  destruct (element (fault_of E w) (segb (ctx s)) w a32 seg (Z.testbit (eflags (ctx s)) 10) k (gs s))
    as [g1 | [wr a]] eqn:EL.
  2,4: destruct HP as (s' & HR & HS & HG); exists s'; (split; [| auto]); apply rr_last; [exact HR | discriminate].
  - cbv zeta in *. destruct HP as (s' & HR & HS & HG).
    set (g2 := set_index a32 ECX (index a32 ECX g1 - 1) g1) in *.
    assert (C : index a32 ECX g2 = 0).
    { unfold g2, set_index, index at 1. cbn [g_regs]. rewrite gget_new, getw_mod, Zmod_mod.
      rewrite (element_keeps_count _ _ _ _ EL), HN. reflexivity. }
    rewrite C in HR. cbn [Z.eqb orb] in HR.
    cbn [repeated]; destruct (stops p (g_fl g2)); exists s'; (split; [| auto]); apply rr_last; (exact HR || discriminate).
  - cbv zeta in *. destruct HP as (s' & HR & HS & HG).
    set (g2 := set_index a32 ECX (index a32 ECX g1 - 1) g1) in *.
    assert (C : index a32 ECX g2 = Z.of_nat (S n)).
    { unfold g2, set_index, index at 1. cbn [g_regs]. rewrite gget_new, getw_mod, Zmod_mod.
      rewrite (element_keeps_count _ _ _ _ EL). pose proof (index_range a32 ECX (gs s)).
      rewrite count_step by lia. lia. }
    destruct (stops p (g_fl g2)) eqn:ST.
    + rewrite orb_true_r in HR. exists s'. split; [| auto]. apply rr_last; [exact HR | discriminate].
    + replace (index a32 ECX g2 =? 0) with false in HR by lia. cbn [orb] in HR.
      rewrite <- HG in C. rewrite <- (same_seg _ _ HS) in Hz, Hze.
      specialize (IH s' (same_rcx _ _ HS) Hz Hze C).
      rewrite (same_seg _ _ HS), (same_df _ _ HS), HG in IH.
      destruct (repeated _ _ _ _ _ _ _ _ (S n) g2) as [g' f]. destruct IH as (s'' & R & S2 & G2).
      exists s''. split; [| split; [eauto using same_trans | assumption]]. eapply rr_again; eassumption.
Qed.

(** the count is tested in front *)
Lemma start_ok s : h_rcx (hr s) = P PCtx ->
  exists s', same s s' /\ gs s' = gs s /\
    run E (rep_start a32) s = (if index a32 ECX (gs s) =? 0 then Skip 0 s' else Done s').
Proof.
  intros Hcx. start_state s Hcx.
  unfold gs, index, index_w. cbn [g_regs g_mem g_fl ctx gprs gmem res aux].
  destruct a32; unfold run; expand_list; symj; rewrite jcc_exec; cbn [hf]; cbv [holds logic_flags hzf];
  rewrite Z.land_diag, ?getw_idem, ?wide16; try rewrite getw_gget;
  match goal with |- context [if ?b then exec _ _ _ else _] => destruct b end;
  (eexists; split; [| split; [| reflexivity]]; [repeat split | reflexivity]).
Qed.

Theorem instr_ok p s : h_rcx (hr s) = P PCtx -> ctx_ok (ctx s) ->
  (z = true -> segb (ctx s) seg = 0) -> (ze = true -> segb (ctx s) ES = 0) ->
  let '(g', f) := repeated (fault_of E w) (segb (ctx s)) w a32 seg (Z.testbit (eflags (ctx s)) 10) k p
                    (Z.to_nat (index a32 ECX (gs s))) (gs s) in
  exists s', rep_instr E k p w a32 seg z ze s
               (match f with None => Done s' | Some (wr, a) => Fault wr a (wbytes w) s' end) /\
             same s s' /\ gs s' = g'.
Proof.
  intros Hcx Hok Hz Hze. destruct (start_ok s Hcx) as (s1 & HS & HG & HR).
  unfold rep_instr. rewrite HR. pose proof (index_range a32 ECX (gs s)).
  destruct (Z.eqb_spec (index a32 ECX (gs s)) 0) as [E0 | N0].
  - rewrite E0. cbn [Z.to_nat repeated]. exists s1. auto.
  - destruct (Z.to_nat (index a32 ECX (gs s))) as [| n] eqn:EN; [lia |].
    rewrite <- (same_seg _ _ HS) in Hz, Hze.
    pose proof (rep_ok p n s1 (same_rcx _ _ HS) Hz Hze) as R.
    rewrite (same_seg _ _ HS), (same_df _ _ HS), HG in R. specialize (R ltac:(lia)).
    destruct (repeated _ _ _ _ _ _ _ _ (S n) (gs s)) as [g' f]. destruct R as (s' & R & S2 & G2).
    exists s'. eauto using same_trans.
Qed.
End Rep.
