(** * Invariants of the debug paths *)

From Coq Require Import ZArith Bool List Lia.
From Verif Require Import DtModel DtSpec.
Import ListNotations.
Local Open Scope Z_scope.

(** ** Hits *)
Lemma hit_all_eq : forall l s, hit_all l s =
  mkst (pc s) (tf s) (rf s) (fold_left (fun d i => Z.lor d (Z.shiftl 1 i)) l (dr6 s)) (arm s)
       (match l with [] => pend s | _ => true end) (match l with [] => idb s | _ => true end) (cache s) (run s).
Proof.
  induction l as [|i l IH]; intros s; [destruct s; reflexivity|].
  change (hit_all (i :: l) s) with (hit_all l (hit1 s i)). rewrite IH. cbn. destruct l; reflexivity.
Qed.

Lemma bit_lor_l : forall a b i, Z.testbit a i = true -> Z.testbit (Z.lor a b) i = true.
Proof. intros. rewrite Z.lor_spec, H. reflexivity. Qed.
Lemma bit_hit : forall a i, 0 <= i -> Z.testbit (Z.lor a (Z.shiftl 1 i)) i = true.
Proof.
  intros. rewrite Z.lor_spec, Z.shiftl_spec by lia. rewrite Z.sub_diag.
  change (Z.testbit 1 0) with true. apply orb_true_r.
Qed.
Lemma fold_keep : forall l d i, Z.testbit d i = true -> Z.testbit (fold_left (fun d i => Z.lor d (Z.shiftl 1 i)) l d) i = true.
Proof. induction l as [|x l IH]; intros d i H; [exact H|]. cbn [fold_left]. apply IH, bit_lor_l, H. Qed.
Lemma fold_hits : forall l d i, In i l -> 0 <= i -> Z.testbit (fold_left (fun d i => Z.lor d (Z.shiftl 1 i)) l d) i = true.
Proof.
  induction l as [|x l IH]; intros d i H P; [destruct H|]. cbn [fold_left]. destruct H as [->|H].
  - apply fold_keep, bit_hit, P.
  - apply IH; assumption.
Qed.

(** ** Blocks *)
Fixpoint chain (P : prog) (a : Z) (l : list Z) : Prop :=
  match l with [] => True | x :: t => x = a /\ chain P (next_addr P x) t end.
Fixpoint last_addr (P : prog) (a : Z) (l : list Z) : Z :=
  match l with [] => a | x :: t => last_addr P (next_addr P x) t end.

Lemma trans_chain : forall P n r f a l b, trans P n r f a = (l, b) -> chain P a l.
Proof.
  induction n as [|n IH]; intros r f a l b H; cbn [trans] in H; [assert (l = []) by congruence; subst; exact I|].
  destruct (if r then None else f a); [assert (l = []) by congruence; subst; exact I|].
  destruct (ends (knd P a) || negb (same_page a (next_addr P a))).
  { assert (l = [a]) by congruence. subst. split; [reflexivity|exact I]. }
  destruct (trans P n r f (next_addr P a)) as [l' b'] eqn:E. assert (l = a :: l') by congruence. subst.
  split; [reflexivity|]. eapply IH, E.
Qed.
Lemma trans_unarmed : forall P n f a l b, trans P n false f a = (l, b) -> Forall (fun x => f x = None) l.
Proof.
  induction n as [|n IH]; intros f a l b H; cbn [trans] in H; [assert (l = []) by congruence; subst; constructor|].
  destruct (f a) eqn:F; [assert (l = []) by congruence; subst; constructor|].
  destruct (ends (knd P a) || negb (same_page a (next_addr P a))).
  { assert (l = [a]) by congruence. subst. repeat constructor; assumption. }
  destruct (trans P n false f (next_addr P a)) as [l' b'] eqn:E. assert (l = a :: l') by congruence. subst.
  constructor; [assumption|]. eapply IH, E.
Qed.
Lemma trans_break : forall P n r f a l i, trans P n r f a = (l, Some i) -> r = false /\ f (last_addr P a l) = Some i.
Proof.
  induction n as [|n IH]; intros r f a l i H; cbn [trans] in H; [discriminate H|].
  destruct r.
  - destruct (ends (knd P a) || negb (same_page a (next_addr P a))); [discriminate H|].
    destruct (trans P n true f (next_addr P a)) as [l' b'] eqn:E. assert (b' = Some i) by congruence. subst. destruct (IH _ _ _ _ _ E) as [X _]. discriminate X.
  - destruct (f a) eqn:F.
    { assert (l = []) by congruence. assert (z = i) by congruence. subst. split; [reflexivity|exact F]. }
    destruct (ends (knd P a) || negb (same_page a (next_addr P a))); [discriminate H|].
    destruct (trans P n false f (next_addr P a)) as [l' b'] eqn:E. assert (b' = Some i) by congruence. assert (l = a :: l') by congruence. subst.
    split; [reflexivity|]. cbn [last_addr]. apply (IH _ _ _ _ _ E).
Qed.
Lemma trans_one : forall P (r : bool) f a, (if r then None else f a) = None -> trans P 1 r f a = ([a], None).
Proof.
  intros P r f a H. cbn [trans]. rewrite H. destruct (ends (knd P a) || negb (same_page a (next_addr P a))); reflexivity.
Qed.
Lemma chain_skipn : forall P l a n x t, chain P a l -> skipn n l = x :: t -> chain P x (x :: t).
Proof.
  induction l as [|y l IH]; intros a n x t C E; [destruct n; discriminate E|].
  destruct n.
  - cbn [skipn] in E. assert (y = x) by congruence. assert (l = t) by congruence. subst. destruct C as [_ C]. split; [reflexivity|exact C].
  - cbn [skipn] in E. destruct C as [_ C]. eapply IH; eassumption.
Qed.
Lemma Forall_skipn : forall (A : Type) (Q : A -> Prop) n l, Forall Q l -> Forall Q (skipn n l).
Proof. induction n; intros l H; [exact H|]. destruct l; [exact H|]. inversion H; subst. cbn [skipn]. apply IHn. assumption. Qed.
Lemma Forall_nth_nil : forall (Q : list Z -> Prop) n l, Forall Q l -> Q [] -> Q (nth n l []).
Proof. induction n; intros l H Z0; destruct l; cbn [nth]; try assumption; inversion H; subst; auto. Qed.

Definition block_ok (P : prog) (b : list Z) : Prop := match b with [] => True | a :: _ => chain P a b end.

(** ** The invariant of the running block, in every history *)
Record inv (P : prog) (s : st) : Prop := mkinv {
  i_cache : Forall (block_ok P) (cache s);
  i_run : match run s with
          | None => True
          | Some (l, brk, bt, br) =>
            bt = tf s /\ br = rf s /\ chain P (pc s) l /\
            (bt || br = true -> brk = false /\ exists a, l = [a]) /\
            (brk = true -> exists i, arm s (last_addr P (pc s) l) = Some i /\ (0 <= i -> Z.testbit (dr6 s) i = true))
          end }.

Lemma init_inv : forall P p d, inv P (init p d).
Proof. intros. constructor; [constructor|exact I]. Qed.

Lemma deliver_inv : forall P v s, Forall (block_ok P) (cache s) -> inv P (fst (deliver P v s)).
Proof. intros P v s H. constructor; [exact H|exact I]. Qed.

Lemma none_inv : forall P s, Forall (block_ok P) (cache s) -> run s = None -> inv P s.
Proof. intros P s H R. constructor; [exact H|]. rewrite R. exact I. Qed.

Lemma linked_run : forall P s lk l, Forall (block_ok P) (cache s) -> linked lk s = Some l ->
  tf s = false /\ rf s = false /\ chain P (pc s) l /\ exists k b, (b = [] \/ In b (cache s)) /\ l = skipn k b.
Proof.
  intros P s lk l C H. unfold linked in H.
  destruct (skipn (snd lk) (nth (fst lk) (cache s) [])) as [|a t] eqn:E; [discriminate H|].
  destruct (a =? pc s) eqn:A; [|discriminate H]. destruct (tf s), (rf s); try discriminate H.
  apply Z.eqb_eq in A. assert (l = a :: t) by (cbn in H; congruence). subst l.
  split; [reflexivity|]. split; [reflexivity|]. split.
  - assert (B : block_ok P (nth (fst lk) (cache s) [])) by (apply (Forall_nth_nil (block_ok P)); [exact C|exact I]).
    destruct (nth (fst lk) (cache s) []) as [|x b]; [destruct (snd lk); discriminate E|]. rewrite <- A. eapply (chain_skipn P (x :: b) x (snd lk)); [exact B|exact E].
  - exists (snd lk), (nth (fst lk) (cache s) []). split; [|symmetry; exact E].
    destruct (Nat.lt_ge_cases (fst lk) (length (cache s))) as [L|L]; [right; apply nth_In; exact L|left; apply nth_overflow; exact L].
Qed.

Lemma find_block : forall p l b, find (fun b => match b with a :: _ => a =? p | [] => false end) l = Some b ->
  In b l /\ exists t, b = p :: t.
Proof.
  intros p l b H. apply find_some in H. destruct H as [A B]. split; [exact A|].
  destruct b as [|x t]; [discriminate B|]. apply Z.eqb_eq in B. subst. eexists. reflexivity.
Qed.

(** one round of the main loop *)
Lemma main_cases : forall P n c s s' o, inv P s -> run s = None -> main_loop P n c s = (s', o) ->
  (exists i, rf s = false /\ arm s (pc s) = Some i /\
     s' = fst (deliver P DB (set_dr6 (Z.lor (dr6 s) (Z.shiftl 1 i)) s)) /\ o = [Exc DB (pc s) (tf s) (rf s) (Z.lor (dr6 s) (Z.shiftl 1 i))]) \/
  ((rf s = true \/ arm s (pc s) = None) /\ o = [] /\ inv P s' /\
   pc s' = pc s /\ tf s' = tf s /\ rf s' = rf s /\ arm s' = arm s /\ pend s' = pend s /\ idb s' = idb s /\
   (cache s' = cache s \/ exists b, cache s' = b :: cache s /\ Forall (fun x => arm s x = None) b) /\
   exists l brk, run s' = Some (l, brk, tf s, rf s) /\ (rf s = false -> (Forall (fun b => Forall (fun x => arm s x = None) b) (cache s) -> Forall (fun x => arm s x = None) l))).
Proof.
  intros P n c s s' o I R H. unfold main_loop in H. pose proof (i_cache P s I) as C.
  destruct (if rf s then None else arm s (pc s)) eqn:B.
  { destruct (rf s) eqn:RF; [discriminate B|]. left. exists z. cbn in H. rewrite RF in H.
    repeat split; try assumption; cbn; congruence. }
  assert (A : rf s = true \/ arm s (pc s) = None) by (destruct (rf s); [left; reflexivity|right; exact B]).
  right. split; [exact A|]. destruct (tf s || rf s) eqn:ONE.
  - rewrite (trans_one P (rf s) (arm s) (pc s) B) in H.
    assert (E : s' = set_run (Some ([pc s], false, tf s, rf s)) s) by (cbn in H; congruence). assert (o = []) by (cbn in H; congruence). subst s' o.
    split; [reflexivity|]. split.
    { constructor; [exact C|]. cbn. split; [reflexivity|]. split; [reflexivity|]. split; [split; [reflexivity|exact Logic.I]|].
      split; [intros _; split; [reflexivity|eexists; reflexivity]|intros X; discriminate X]. }
    repeat (split; [reflexivity|]). split; [left; reflexivity|]. exists [pc s], false. split; [reflexivity|].
    intros RF _. destruct A as [A|A]; [congruence|]. repeat constructor. exact A.
  - apply orb_false_iff in ONE. destruct ONE as [TF RF]. rewrite TF, RF in *.
    destruct (find _ (cache s)) as [b|] eqn:F.
    + apply find_block in F. destruct F as [F [t ->]].
      assert (E : s' = set_run (Some (pc s :: t, false, false, false)) s) by congruence. assert (o = []) by congruence. subst s' o.
      split; [reflexivity|]. split.
      { constructor; [exact C|]. cbn. rewrite TF, RF. pose proof (proj1 (Forall_forall _ _) C _ F) as X. cbn in X.
        split; [reflexivity|]. split; [reflexivity|]. split; [exact X|]. split; intros Y; discriminate Y. }
      cbn. rewrite TF, RF. repeat (split; [reflexivity|]). split; [left; reflexivity|]. exists (pc s :: t), false. split; [reflexivity|].
      intros _ X. exact (proj1 (Forall_forall _ _) X _ F).
    + destruct (trans P (S n) false (arm s) (pc s)) as [l b] eqn:T.
      pose proof (trans_chain _ _ _ _ _ _ _ T) as CH. pose proof (trans_unarmed _ _ _ _ _ _ T) as UN.
      destruct b as [i|].
      * destruct (trans_break _ _ _ _ _ _ _ T) as [_ BR].
        assert (E : s' = set_run (Some (l, true, false, false)) (set_dr6 (Z.lor (dr6 s) (Z.shiftl 1 i)) s)) by congruence. assert (o = []) by congruence. subst s' o.
        split; [reflexivity|]. split.
        { constructor; [exact C|]. cbn. rewrite TF, RF. split; [reflexivity|]. split; [reflexivity|]. split; [exact CH|]. split; [intros Y; discriminate Y|].
          intros _. exists i. split; [exact BR|]. apply bit_hit. }
        cbn. rewrite TF, RF. repeat (split; [reflexivity|]). split; [left; reflexivity|]. exists l, true. split; [reflexivity|]. intros; exact UN.
      * cbn [orb] in H. assert (o = []) by congruence. subst o. split; [reflexivity|].
        destruct (negb c).
        -- assert (E : s' = set_run (Some (l, false, false, false)) s) by congruence. subst s'.
           split. { constructor; [exact C|]. cbn. rewrite TF, RF. split; [reflexivity|]. split; [reflexivity|]. split; [exact CH|]. split; intros Y; discriminate Y. }
           cbn. rewrite TF, RF. repeat (split; [reflexivity|]). split; [left; reflexivity|]. exists l, false. split; [reflexivity|]. intros; exact UN.
        -- assert (E : s' = set_run (Some (l, false, false, false)) (set_cache (l :: cache s) s)) by congruence. subst s'.
           split. { constructor; [cbn; constructor; [|exact C]|]. { destruct l; [exact Logic.I|]. destruct CH as [_ CH']. split; [reflexivity|exact CH']. }
             cbn. rewrite TF, RF. split; [reflexivity|]. split; [reflexivity|]. split; [exact CH|]. split; intros Y; discriminate Y. }
           cbn. rewrite TF, RF. repeat (split; [reflexivity|]). split; [right; exists l; split; [reflexivity|exact UN]|]. exists l, false. split; [reflexivity|]. intros; exact UN.
Qed.

Lemma completed_eq : forall P a e s, completed P a e s =
  mkst (match knd P a with Seq => next_addr P a | MovDr => next_addr P a | _ => target e end)
       (match knd P a, ltf e with Jump, Some b => b | _, _ => tf s end)
       (match knd P a, lrf e with Jump, Some b => b | _, _ => rf s end)
       (match knd P a, ldr6 e with Jump, Some d => d | _, _ => dr6 s end)
       (match knd P a, larm e with MovDr, Some f => f | _, _ => arm s end)
       (pend s) (idb s) (cache s) (run s).
Proof. reflexivity. Qed.

(** what the end of an instruction does *)
Lemma boundary_cases : forall P a rest brk bt br e lk s s' o,
  boundary P a rest brk bt br e lk s = (s', o) ->
  let s0 := if br then set_rf false s else s in
  (bt = true /\ s' = fst (deliver P DB (set_dr6 (Z.lor (dr6 s) BS) s0)) /\ o = [Exc DB (pc s) (tf s) (rf s0) (Z.lor (dr6 s) BS)]) \/
  (bt = false /\ pend s = true /\ idb s = true /\ s' = set_pend false (fst (deliver P DB s0)) /\ o = [Exc DB (pc s) (tf s) (rf s0) (dr6 s)]) \/
  (bt = false /\ (pend s = true -> idb s = false) /\ o = [] /\
   exists r, s' = mkst (pc s) (tf s) (rf s0) (dr6 s) (arm s) false (idb s) (cache s) r /\
     (r = None \/
      (pend s = false /\ knd P a = Seq /\ r = Some (rest, brk, bt, br) /\ (rest <> [] \/ brk = true)) \/
      (pend s = false /\ exists l, linked lk s0 = Some l /\ r = Some (l, false, false, false)))).
Proof.
  intros P a rest brk bt br e lk s s' o H s0.
  assert (E : pc s0 = pc s /\ tf s0 = tf s /\ dr6 s0 = dr6 s /\ arm s0 = arm s /\ pend s0 = pend s /\ idb s0 = idb s /\ cache s0 = cache s)
    by (subst s0; destruct br; repeat split).
  destruct E as (E1 & E2 & E3 & E4 & E5 & E6 & E7).
  unfold boundary in H. fold s0 in H. destruct bt.
  { left. cbn [deliver] in H. unfold deliver in H. cbv beta iota zeta in H. split; [reflexivity|].
    unfold deliver, fst. rewrite <- E3, <- E1, <- E2. cbn in H |- *. split; congruence. }
  right. rewrite E5, E6 in H. destruct (pend s) eqn:PE.
  { destruct (idb s) eqn:ID.
    - left. repeat (split; [reflexivity|]). unfold deliver, fst. rewrite <- E3, <- E1, <- E2. unfold deliver in H. cbv beta iota zeta in H. split; congruence.
    - right. repeat (split; [reflexivity|]). split; [congruence|]. exists None.
      split; [|left; reflexivity].
      assert (s' = set_run None (set_pend false s0)) by congruence. subst s'. unfold set_run, set_pend. cbn. congruence. }
  right. split; [reflexivity|]. split; [discriminate|].
  assert (X : forall r, set_run r s0 = mkst (pc s) (tf s) (rf s0) (dr6 s) (arm s) false (idb s) (cache s) r).
  { intros r. unfold set_run. congruence. }
  destruct (shadow e).
  { split; [congruence|]. exists None. split; [|left; reflexivity]. rewrite <- X. congruence. }
  assert (Y : forall r, (set_run r s0, @nil obs) = (s', o) -> o = [] /\ s' = mkst (pc s) (tf s) (rf s0) (dr6 s) (arm s) false (idb s) (cache s) r).
  { intros r Hr. split; [congruence|]. rewrite <- X. congruence. }
  assert (Z1 : forall q, q = linked lk s0 ->
    (set_run (match q with Some l => Some (l, false, false, false) | None => None end) s0, @nil obs) = (s', o) ->
    o = [] /\ exists r, s' = mkst (pc s) (tf s) (rf s0) (dr6 s) (arm s) false (idb s) (cache s) r /\
     (r = None \/ (false = false /\ knd P a = Seq /\ r = Some (rest, brk, false, br) /\ (rest <> [] \/ brk = true)) \/
      (false = false /\ exists l, linked lk s0 = Some l /\ r = Some (l, false, false, false)))).
  { intros q Q Hq. destruct (Y _ Hq) as [Y1 Y2]. split; [exact Y1|]. eexists. split; [exact Y2|]. destruct q as [l|]; [|left; reflexivity].
    right; right. split; [reflexivity|]. exists l. split; [symmetry; exact Q|reflexivity]. }
  destruct (knd P a) eqn:K.
  - destruct (Y _ H) as [Y1 Y2]. split; [exact Y1|]. eexists. split; [exact Y2|]. destruct rest as [|x t]; [destruct brk|].
    + right; left. repeat (split; [reflexivity|]). right; reflexivity.
    + left; reflexivity.
    + right; left. repeat (split; [reflexivity|]). left; discriminate.
  - exact (Z1 _ eq_refl H).
  - exact (Z1 _ eq_refl H).
  - destruct (Y _ H) as [Y1 Y2]. split; [exact Y1|]. eexists. split; [exact Y2|]. left; reflexivity.
  - exact (Z1 _ eq_refl H).
  - exact (Z1 _ eq_refl H).
Qed.

Lemma instr_inv : forall P e lk s s' o, inv P s -> instr P e lk s = (s', o) -> inv P s'.
Proof.
  intros P e lk s s' o I H. unfold instr in H. pose proof (i_cache P s I) as C. pose proof (i_run P s I) as R.
  destruct (run s) as [[[[l brk] bt] br]|] eqn:RS; [|assert (s' = s) by congruence; subst; exact I].
  destruct R as (R1 & R2 & R3 & R4 & R5).
  destruct l as [|a rest].
  { destruct brk.
    - assert (s' = fst (deliver P DB s)) by (unfold deliver in *; cbn in *; congruence). subst. apply deliver_inv, C.
    - assert (s' = set_run None s) by congruence. subst. apply none_inv; [exact C|reflexivity]. }
  assert (C1 : cache (hit_all (hits e) s) = cache s) by (rewrite hit_all_eq; reflexivity).
  destruct (fault e) as [v|].
  { assert (s' = fst (deliver P v (hit_all (hits e) s))) by (unfold deliver in *; cbn in *; congruence). subst. apply deliver_inv. rewrite C1. exact C. }
  assert (D : forall q, knd P a = q -> (q = Int \/ q = Halt) -> inv P s').
  { intros q K D. rewrite K in H. destruct D as [-> | ->].
    all: unfold deliver in H; cbv beta iota zeta in H; constructor.
    all: match type of H with (?x, _) = _ => assert (s' = x) by congruence end; subst s'; cbn [cache run]; try exact Logic.I; rewrite C1; exact C. }
  destruct (knd P a) eqn:K; try (eapply D; [reflexivity|tauto]).
  all: destruct (boundary P a rest brk bt br e lk (completed P a e (hit_all (hits e) s))) as [s2 o2] eqn:B.
  all: assert (s' = s2) by congruence; subst s2.
  all: apply boundary_cases in B; cbv zeta in B.
  all: destruct B as [(B1 & B2 & B3)|[(B1 & B2 & B3 & B4 & B5)|(B1 & B2 & B3 & r & B4 & B5)]].
  all: try (subst s'; apply deliver_inv; destruct br; cbn [cache set_dr6 set_rf completed]; rewrite C1; exact C).
  all: try (subst s'; constructor; [destruct br; cbn [cache set_pend fst deliver set_rf completed]; rewrite C1; exact C|exact Logic.I]).
  all: destruct B5 as [B5|[(B5 & B6 & B7 & B8)|(B5 & q & B6 & B7)]].
  all: try (subst r; subst s'; apply none_inv; [cbn [cache completed]; rewrite C1; exact C|reflexivity]).
  all: try (rewrite K in B6; discriminate B6).
  all: try (match type of B6 with linked _ ?x = _ => pose proof (linked_run P x lk q) as L end;
            match type of L with ?A -> _ => assert (LA : A) by (destruct br; cbn [cache set_rf completed]; rewrite C1; exact C) end;
            specialize (L LA B6); destruct L as (L1 & L2 & L3 & _); subst r; subst s'; constructor;
            [cbn [cache completed]; rewrite C1; exact C|]; cbn [run];
            split; [destruct br; cbn [tf set_rf] in L1 |- *; symmetry; exact L1|]; split; [symmetry; exact L2|];
            split; [destruct br; cbn [pc set_rf] in L3 |- *; exact L3|]; split; intros X; discriminate X).
  (* Seq, going on *)
  subst bt. assert (BT : tf s = false) by (symmetry; exact R1 || exact R1).
  destruct br.
  { exfalso. destruct R4 as [X [y Y]]; [apply orb_true_r|]. assert (rest = []) by congruence. destruct B8; congruence. }
  subst r. subst s'. constructor; [cbn [cache completed]; rewrite C1; exact C|]. cbn [run tf rf pc arm dr6]. rewrite completed_eq, K, hit_all_eq. cbn [tf rf pc arm dr6].
  destruct R3 as [R3 R3']. split; [exact R1|]. split; [exact R2|]. split; [exact R3'|]. split; [intros X; discriminate X|].
  intros X. destruct (R5 X) as (i & R6 & R7). exists i. cbn [last_addr] in R6. split; [exact R6|].
  intros Y. apply fold_keep, R7, Y.
Qed.

Lemma step_inv : forall P v s s' o, inv P s -> step P v s = (s', o) -> inv P s'.
Proof.
  intros P v s s' o I H. destruct v as [n c|e lk|]; cbn [step] in H.
  - destruct (run s) eqn:R; [assert (s' = s) by congruence; subst; exact I|].
    destruct (main_cases P n c s s' o I R H) as [(i & _ & _ & -> & _)|(_ & _ & X & _)]; [apply deliver_inv; exact (i_cache P s I)|exact X].
  - eapply instr_inv; eassumption.
  - destruct (run s) eqn:R; [assert (s' = s) by congruence; subst; exact I|].
    assert (s' = set_cache [] s) by congruence. subst. apply none_inv; [constructor|exact R].
Qed.

(** ** What is observed is right *)
Definition unarmed (s : st) (l : list Z) : Prop := Forall (fun x => arm s x = None) l.
Record rel (s : st) (g : arch) : Prop := mkrel {
  r_pc : apc g = pc s; r_tf : atf g = tf s; r_rf : arf g = rf s; r_arm : aarm g = arm s; r_due : due g = Nothing;
  r_pend : pend s = false;
  r_cache : afresh g = true -> Forall (unarmed s) (cache s);
  r_run : afresh g = true -> match run s with Some (l, _, _, false) => unarmed s l | _ => True end }.

Fixpoint rights (P : prog) (g : arch) (l : list obs) : Prop :=
  match l with [] => True | o :: t => right g o /\ rights P (after P g o) t end.

Lemma main_right : forall P n c s s' o g, inv P s -> rel s g -> run s = None -> main_loop P n c s = (s', o) ->
  rights P g o /\ rel s' (fold_left (after P) o g).
Proof.
  intros P n c s s' o g I G R H. destruct G as [G1 G2 G3 G4 G5 G6 G7 G8].
  destruct (main_cases P n c s s' o I R H) as [(i & A & B & -> & ->)|(A & -> & I' & E1 & E2 & E3 & E4 & E5 & E6 & E7 & l & brk & E8 & E9)].
  - split.
    + cbn [rights]. split; [|exact Logic.I]. cbn [right]. rewrite G5. repeat (split; [congruence|]).
      split; [reflexivity|]. split; [exact A|]. exists i. split; [congruence|apply bit_hit].
    + cbn [fold_left after]. constructor; cbn; try congruence; try exact G7; trivial.
  - split; [exact Logic.I|]. cbn [fold_left]. constructor; try congruence.
    + intros F. unfold unarmed. rewrite E4. destruct E7 as [-> | (b & -> & E7)]; [exact (G7 F)|constructor; [exact E7|exact (G7 F)]].
    + intros F. rewrite E8. destruct (rf s) eqn:RF; [exact Logic.I|]. unfold unarmed. rewrite E4. apply (E9 eq_refl), G7, F.
Qed.

Lemma instr_right : forall P e lk s s' o g, inv P s -> rel s g -> instr P e lk s = (s', o) -> Forall (plain P) o ->
  rights P g o /\ rel s' (fold_left (after P) o g).
Proof.
  intros P e lk s s' o g I G H PL. pose proof G as G0. destruct G as [G1 G2 G3 G4 G5 G6 G7 G8].
  unfold instr in H. pose proof (i_cache P s I) as C. pose proof (i_run P s I) as R.
  destruct (run s) as [[[[l brk] bt] br]|] eqn:RS.
  2:{ assert (s' = s) by congruence. assert (o = []) by congruence. subst. split; [exact Logic.I|exact G0]. }
  destruct R as (R1 & R2 & R3 & R4 & R5).
  destruct l as [|a rest].
  { assert (BB : bt || br = false) by (destruct (bt || br) eqn:X; [destruct (R4 eq_refl) as [_ [y Y]]; discriminate Y|reflexivity]).
    apply orb_false_iff in BB. destruct BB as [BT BR]. destruct brk.
    - unfold deliver in H. cbv beta iota zeta in H. match type of H with (?x, ?y) = _ => assert (s' = x) by congruence; assert (o = y) by congruence end. subst s' o.
      split.
      + cbn [rights right]. rewrite G5. split; [|exact Logic.I]. repeat (split; [congruence|]). split; [reflexivity|]. split; [congruence|].
        destruct (R5 eq_refl) as (i & R6 & R7). exists i. split; [rewrite G4; exact R6|exact R7].
      + cbn [fold_left after]. constructor; cbn; try congruence; try exact G7; trivial.
    - assert (s' = set_run None s) by congruence. assert (o = []) by congruence. subst. split; [exact Logic.I|].
      cbn [fold_left]. constructor; cbn; try assumption; trivial. }
  destruct R3 as [R3 R3'].
  assert (EX : right g (Exec a (tf s) (rf s) e)).
  { cbn [right]. split; [exact G5|]. split; [congruence|]. split; [congruence|]. split; [congruence|].
    intros F RF. specialize (G8 F). rewrite R2, RF in G8. rewrite G4. inversion G8; subst; assumption. }
  pose proof (hit_all_eq (hits e) s) as HA.
  assert (O1 : exists t, o = Exec a (tf s) (rf s) e :: t).
  { destruct (fault e); [unfold deliver in H; cbv beta iota zeta in H; eexists; symmetry; exact (f_equal snd H)|].
    destruct (knd P a) eqn:K.
    all: try (unfold deliver in H; cbv beta iota zeta in H; eexists; symmetry; exact (f_equal snd H)).
    all: destruct (boundary P a rest brk bt br e lk (completed P a e (hit_all (hits e) s))) as [s2 o2]; eexists; symmetry; exact (f_equal snd H). }
  destruct O1 as [ot ->]. inversion PL as [|x y PX PT]; subst x y. destruct PX as (PA & PB & PC).
  cbn [rights fold_left]. 
  enough (X : rights P (after P g (Exec a (tf s) (rf s) e)) ot /\ rel s' (fold_left (after P) ot (after P g (Exec a (tf s) (rf s) e))))
    by (split; [split; [exact EX|apply X]|apply X]).
  destruct (fault e) as [v|] eqn:FA.
  { assert (HN : hits e = []) by (destruct (hits e) eqn:HH; [reflexivity|exfalso; destruct PA as (_ & X & _); [discriminate|discriminate X]]).
    rewrite HN in HA. unfold deliver in H. cbv beta iota zeta in H. rewrite HN in H. change (hit_all [] s) with s in H.
    match type of H with (?x, ?y) = _ => assert (s' = x) by congruence; assert (ot = tl y) by (exact (f_equal (fun q => tl (snd q)) (eq_sym H))) end. subst s' ot.
    cbn [tl]. unfold after at 1. rewrite FA. split.
    - cbn [rights right due]. split; [|exact Logic.I]. cbn. repeat (split; [congruence|]). reflexivity.
    - cbn [fold_left after]. rewrite FA. constructor; cbn; try congruence; try exact G7; trivial. }
  assert (V : vectored P a = true -> 
    (Exec a (tf s) (rf s) e :: [Exc (vector e) (next_addr P a) (tf s) (rf s) (dr6 s)] = Exec a (tf s) (rf s) e :: ot) ->
    s' = mkst (vec P (vector e)) false false (dr6 s) (arm s) (pend s) (vector e =? DB) (cache s) None ->
    rights P (after P g (Exec a (tf s) (rf s) e)) ot /\ rel s' (fold_left (after P) ot (after P g (Exec a (tf s) (rf s) e)))).
  { intros VV OT ->. assert (ot = [Exc (vector e) (next_addr P a) (tf s) (rf s) (dr6 s)]) by congruence. subst ot.
    assert (HN : hits e = []) by (destruct (hits e) eqn:HH; [reflexivity|exfalso; destruct PA as (_ & _ & X & _); [discriminate|congruence]]).
    assert (RF : rf s = false) by (destruct (rf s) eqn:RF; [exfalso; destruct (PC eq_refl eq_refl) as [X _]; congruence|reflexivity]).
    unfold vectored in VV. destruct (knd P a) eqn:K; try discriminate VV.
    - cbn [rights fold_left right]. unfold after. rewrite FA, K. unfold next_of, tf_after, rf_after, rearms, loads. rewrite K. cbn [due apc atf arf aarm or_else].
      split; [split; [|exact Logic.I]|].
      + repeat (split; [try reflexivity; congruence|]). reflexivity.
      + constructor; cbn; try congruence; try exact G7; trivial.
    - rewrite (PB eq_refl). cbn [rights fold_left right]. unfold after. rewrite FA, K, HN. unfold next_of, tf_after, rf_after, rearms, loads. rewrite K. cbn [due apc atf arf aarm or_else].
      split; [split; [|exact Logic.I]|].
      + repeat (split; [try reflexivity; congruence|]). reflexivity.
      + constructor; cbn; try congruence; try exact G7; trivial. }
  destruct (vectored P a) eqn:VE.
  { assert (HN : hits e = []) by (destruct (hits e) eqn:HH; [reflexivity|exfalso; destruct PA as (_ & _ & X & _); [discriminate|congruence]]).
    rewrite HN in H. change (hit_all [] s) with s in H. unfold vectored in VE. destruct (knd P a) eqn:K; try discriminate VE.
    all: unfold deliver in H; cbv beta iota zeta in H; apply V; [reflexivity|exact (f_equal snd H)|symmetry; exact (f_equal fst H)]. }
  clear V.
  destruct (boundary P a rest brk bt br e lk (completed P a e (hit_all (hits e) s))) as [s2 o2] eqn:B.
  assert (HB : (s2, Exec a (tf s) (rf s) e :: o2) = (s', Exec a (tf s) (rf s) e :: ot)).
  { unfold vectored in VE. destruct (knd P a) eqn:K; try discriminate VE; exact H. }
  assert (s2 = s') by congruence. assert (o2 = ot) by congruence. subst s2 o2. clear H HB.
  apply boundary_cases in B. cbv zeta in B. set (s1 := completed P a e (hit_all (hits e) s)) in *.
  assert (S1 : pc s1 = next_of P a e /\ tf s1 = tf_after P a (tf s) e /\
     rf (if br then set_rf false s1 else s1) = rf_after P a e /\ arm s1 = or_else (rearms P a e) (arm s) /\
     cache s1 = cache s /\ pend s1 = (match hits e with [] => false | _ => true end) /\ idb s1 = (match hits e with [] => idb s | _ => true end) /\
     (forall i, In i (hits e) -> 0 <= i -> Z.testbit (dr6 s1) i = true)).
  { subst s1. rewrite completed_eq, HA. unfold vectored in VE. unfold next_of, tf_after, rf_after, rearms, loads, next_addr.
    cbn [pc tf rf arm cache pend idb dr6]. unfold loads in PA, PC.
    split; [destruct (knd P a); try discriminate VE; reflexivity|].
    split; [destruct (knd P a); try discriminate VE; try reflexivity; destruct (ltf e); reflexivity|].
    split.
    { rewrite R2. destruct (rf s) eqn:RF; cbn [rf set_rf].
      - destruct (PC eq_refl eq_refl) as [_ X]. destruct (knd P a); try discriminate VE; try reflexivity.
        destruct (lrf e) as [[]|]; try reflexivity. exfalso. apply X; reflexivity.
      - destruct (knd P a); try discriminate VE; try reflexivity; destruct (lrf e) as [[]|]; reflexivity. }
    split; [destruct (knd P a); try discriminate VE; try reflexivity; destruct (larm e); reflexivity|].
    split; [reflexivity|]. split; [destruct (hits e); [exact G6|reflexivity]|]. split; [reflexivity|].
    intros i Hi Pi. assert (L : (match knd P a with Jump => true | _ => false end) = true -> ldr6 e = None).
    { apply PA. intros X. rewrite X in Hi. destruct Hi. }
    destruct (knd P a); try discriminate VE; try (apply fold_hits; assumption). rewrite (L eq_refl). apply fold_hits; assumption. }
  destruct S1 as (S1 & S2 & S3 & S4 & S5 & S6 & S7 & S8). clearbody s1.
  assert (FR : match rearms P a e with Some _ => false | None => afresh g end = true ->
               Forall (fun b => Forall (fun x => or_else (rearms P a e) (arm s) x = None) b) (cache s) /\
               (match rearms P a e with Some _ => false | None => afresh g end = true -> afresh g = true)).
  { intros F. destruct (rearms P a e); [discriminate F|]. cbn [or_else]. split; [exact (G7 F)|trivial]. }
  assert (AG : after P g (Exec a (tf s) (rf s) e) = mkarch (next_of P a e) (tf_after P a (tf s) e) (rf_after P a e)
        (or_else (rearms P a e) (aarm g)) (match rearms P a e with Some _ => false | None => afresh g end)
        (match tf s, hits e with false, [] => Nothing | _, h => Trap (tf s) h end)).
  { unfold after. rewrite FA. unfold vectored in VE. destruct (knd P a); try discriminate VE; reflexivity. }
  rewrite AG. clear AG. rewrite G4.
  destruct B as [(B1 & B2 & B3)|[(B1 & B2 & B3 & B4 & B5)|(B1 & B2 & B3 & r & B4 & B5)]].
  - subst ot. assert (T : tf s = true) by congruence.
    cbn [rights fold_left right due apc atf arf aarm]. rewrite S1, S2, S3, T. split.
    + split; [|exact Logic.I]. repeat (split; [reflexivity|]). split.
      * intros _. rewrite Z.lor_spec. change (Z.testbit BS 14) with true. apply orb_true_r.
      * intros i Hi Pi. apply bit_lor_l, S8; assumption.
    + subst s'. unfold after. constructor; cbn; try reflexivity.
      * destruct br; cbn; congruence.
      * destruct br; cbn [pend set_rf]; rewrite S6; (destruct (hits e) eqn:HH; [reflexivity|]; exfalso; destruct PA as (X & _); [discriminate|congruence]).
      * intros F. unfold unarmed. destruct br; cbn [cache arm set_rf]; rewrite S4, S5; apply FR; assumption.
  - subst ot. assert (T : tf s = false) by congruence.
    assert (HN : exists x h, hits e = x :: h) by (rewrite S6 in B2; destruct (hits e); [discriminate B2|eexists; eexists; reflexivity]).
    destruct HN as (x & h & HN).
    cbn [rights fold_left right due apc atf arf aarm]. rewrite S1, S2, S3, T, HN. split.
    + split; [|exact Logic.I]. repeat (split; [reflexivity|]). split; [intros X; discriminate X|].
      rewrite <- HN. exact S8.
    + subst s'. unfold after. constructor; cbn; try reflexivity.
      * destruct br; cbn; congruence.
      * intros F. unfold unarmed. destruct br; cbn [cache arm set_rf set_pend fst deliver]; rewrite ?S4, ?S5; apply FR; assumption.
  - subst ot. assert (T : tf s = false) by congruence.
    assert (HN : hits e = []).
    { destruct (hits e) eqn:HH; [reflexivity|]. exfalso. rewrite S6 in B2. rewrite S7 in B2. discriminate (B2 eq_refl). }
    rewrite HN, T. cbn [rights fold_left]. split; [exact Logic.I|]. subst s'. constructor; cbn [apc atf arf aarm due pc tf rf arm pend cache run afresh].
    + congruence.
    + rewrite S2, T. reflexivity.
    + symmetry. exact S3.
    + congruence.
    + reflexivity.
    + reflexivity.
    + intros F. unfold unarmed. cbn [arm]. rewrite S4, S5. apply FR, F.
    + intros F. destruct (FR F) as [F1 F2]. specialize (F2 F). destruct B5 as [-> |[(_ & K & -> & _)|(_ & l & L & ->)]]; [exact Logic.I| |].
      * destruct br; [exact Logic.I|]. unfold unarmed. cbn [arm]. rewrite S4.
        assert (RE : rearms P a e = None) by (unfold rearms; rewrite K; reflexivity). rewrite RE. cbn [or_else].
        specialize (G8 F2). inversion G8; assumption.
      * assert (CC : Forall (block_ok P) (cache (if br then set_rf false s1 else s1))) by (destruct br; cbn [cache set_rf]; rewrite S5; exact C).
        destruct (linked_run P _ _ _ CC L) as (_ & _ & _ & k & b & [-> |Hb] & ->); unfold unarmed; cbn [arm]; rewrite S4.
        -- destruct k; constructor.
        -- apply Forall_skipn. apply (proj1 (Forall_forall _ _) F1). destruct br; cbn [cache set_rf] in Hb; rewrite <- S5; exact Hb.
Qed.

Lemma rights_app : forall P l1 l2 g, rights P g (l1 ++ l2) <-> rights P g l1 /\ rights P (fold_left (after P) l1 g) l2.
Proof.
  induction l1 as [|o l1 IH]; intros l2 g; cbn [app rights fold_left]; [tauto|]. rewrite IH. tauto.
Qed.

Lemma trace_right : forall P l s g, inv P s -> rel s g -> Forall (plain P) (trace P l s) ->
  rights P g (trace P l s) /\ due (fold_left (after P) (trace P l s) g) = Nothing.
Proof.
  intros P. induction l as [|v l IH]; intros s g I G PL; [split; [exact Logic.I|exact (r_due s g G)]|].
  cbn [trace] in *. destruct (step P v s) as [s' o] eqn:ST. apply Forall_app in PL. destruct PL as [PO PL].
  assert (X : rights P g o /\ rel s' (fold_left (after P) o g)).
  { destruct v as [n c|e lk|]; cbn [step] in ST.
    - destruct (run s) eqn:R; [assert (s' = s) by congruence; assert (o = []) by congruence; subst; split; [exact Logic.I|exact G]|].
      eapply main_right; eassumption.
    - eapply instr_right; eassumption.
    - destruct (run s) eqn:R; [assert (s' = s) by congruence; assert (o = []) by congruence; subst; split; [exact Logic.I|exact G]|].
      assert (s' = set_cache [] s) by congruence. assert (o = [Flushed]) by congruence. subst. destruct G as [G1 G2 G3 G4 G5 G6 G7 G8].
      cbn [rights fold_left right after]. split; [split; [exact G5|exact Logic.I]|].
      constructor; cbn; try assumption; [intros; constructor|rewrite R; trivial]. }
  destruct X as [X1 X2]. destruct (IH s' _ (step_inv P v s s' o I ST) X2 PL) as [Y1 Y2].
  split; [apply rights_app; split; assumption|]. rewrite fold_left_app. exact Y2.
Qed.

(** ** In every history *)
Record rel0 (s : st) (g : arch) : Prop := mkrel0 {
  q_arm : aarm g = arm s;
  q_cache : afresh g = true -> Forall (unarmed s) (cache s);
  q_run : afresh g = true -> match run s with Some (l, _, _, false) => unarmed s l | _ => True end }.

Lemma instr_exec : forall P e' lk s s' a t r e o, inv P s -> instr P e' lk s = (s', Exec a t r e :: o) ->
  e' = e /\ t = tf s /\ r = rf s /\ a = pc s /\ exists rest brk, run s = Some (a :: rest, brk, t, r) /\
  match fault e with
  | Some v => s' = fst (deliver P v (hit_all (hits e) s)) /\ o = [snd (deliver P v (hit_all (hits e) s))]
  | None => if vectored P a then exists s1, cache s1 = cache s /\ arm s1 = arm s /\ s' = fst (deliver P (vector e) s1) /\ o = [snd (deliver P (vector e) s1)]
            else boundary P a rest brk t r e lk (completed P a e (hit_all (hits e) s)) = (s', o)
  end.
Proof.
  intros P e' lk s s' a t r e o I H. unfold instr in H. pose proof (i_run P s I) as R.
  destruct (run s) as [[[[l brk] bt] br]|] eqn:RS; [|discriminate (f_equal snd H)].
  destruct R as (R1 & R2 & R3 & _ & _).
  destruct l as [|x rest].
  { destruct brk; [discriminate (f_equal (fun q => match snd q with Exc _ _ _ _ _ :: _ => true | _ => false end) H)|discriminate (f_equal snd H)]. }
  destruct R3 as [R3 _].
  assert (HD : Some (Exec x (tf s) (rf s) e') = Some (Exec a t r e) /\
    match fault e' with
    | Some v => (s', o) = (fst (deliver P v (hit_all (hits e') s)), [snd (deliver P v (hit_all (hits e') s))])
    | None => if vectored P x then exists s1, cache s1 = cache s /\ arm s1 = arm s /\ s' = fst (deliver P (vector e') s1) /\ o = [snd (deliver P (vector e') s1)]
              else boundary P x rest brk bt br e' lk (completed P x e' (hit_all (hits e') s)) = (s', o)
    end).
  { destruct (fault e') as [v|].
    { unfold deliver in *. cbv beta iota zeta in H. split; [exact (f_equal (fun q => hd_error (snd q)) H)|].
      pose proof (f_equal fst H) as H1. pose proof (f_equal (fun q => tl (snd q)) H) as H2. cbn [fst snd tl] in *. congruence. }
    unfold vectored. destruct (knd P x) eqn:K.
    5,6: unfold deliver in H; cbv beta iota zeta in H; split; [exact (f_equal (fun q => hd_error (snd q)) H)|];
         pose proof (f_equal fst H) as H1; pose proof (f_equal (fun q => tl (snd q)) H) as H2; cbn [fst snd tl] in H1, H2;
         rewrite (hit_all_eq (hits e') s) in H1, H2; cbn [pc tf rf dr6 arm pend idb cache run] in H1, H2;
         match type of H2 with [Exc _ ?p ?t0 ?r0 ?d] = _ => match type of H1 with mkst _ _ _ _ _ ?pe _ _ _ = _ =>
           exists (mkst p t0 r0 d (arm s) pe (idb s) (cache s) None) end end;
         split; [reflexivity|]; split; [reflexivity|]; split; [symmetry; exact H1|symmetry; exact H2].
    all: destruct (boundary P x rest brk bt br e' lk (completed P x e' (hit_all (hits e') s))) as [s2 o2];
         split; [exact (f_equal (fun q => hd_error (snd q)) H)|];
         pose proof (f_equal fst H) as H1; pose proof (f_equal (fun q => tl (snd q)) H) as H2; cbn [fst snd tl] in H1, H2; congruence. }
  destruct HD as [HD HR]. assert (x = a) by congruence. assert (e' = e) by congruence. assert (tf s = t) by congruence. assert (rf s = r) by congruence.
  assert (R3' : a = pc s) by congruence. clear R3. subst x e'. split; [reflexivity|]. split; [congruence|]. split; [congruence|]. split; [exact R3'|]. exists rest, brk. split; [congruence|].
  destruct (fault e); [split; congruence|]. destruct (vectored P a); [exact HR|]. subst t r. rewrite R1, R2 in HR. exact HR.
Qed.

Lemma rel0_deliver : forall P v s s1 g g', rel0 s g -> cache s1 = cache s -> arm s1 = arm s -> aarm g' = aarm g -> (afresh g' = true -> afresh g = true) ->
  rel0 (fst (deliver P v s1)) g'.
Proof.
  intros P v s s1 g g' [Q1 Q2 Q3] C A G F. constructor; cbn.
  - congruence.
  - intros X. unfold unarmed. cbn. rewrite C, A. exact (Q2 (F X)).
  - trivial.
Qed.

Lemma exec_arm : forall P e' lk s s' a t r e o g, inv P s -> rel0 s g -> instr P e' lk s = (s', Exec a t r e :: o) ->
  rel0 s' (fold_left (after P) (Exec a t r e :: o) g) /\ (afresh g = true -> r = false -> aarm g a = None).
Proof.
  intros P e' lk s s' a t r e o g I Q H. destruct (instr_exec P e' lk s s' a t r e o I H) as (-> & E1 & E2 & E3 & rest & brk & E4 & E5).
  split.
  2:{ destruct Q as [Q1 Q2 Q3]. intros F ->. specialize (Q3 F). rewrite E4 in Q3. rewrite Q1. inversion Q3; assumption. }
  cbn [fold_left]. destruct (fault e) as [v|] eqn:FA.
  { destruct E5 as [-> ->]. eapply rel0_deliver; [exact Q|rewrite hit_all_eq; reflexivity|rewrite hit_all_eq; reflexivity| |].
    - cbn. rewrite FA. reflexivity.
    - cbn. rewrite FA. trivial. }
  destruct (vectored P a) eqn:V.
  { destruct E5 as (s1 & A1 & A2 & -> & ->). eapply rel0_deliver; [exact Q|exact A1|exact A2| |]; cbn [fold_left after deliver snd aarm afresh]; rewrite FA; unfold rearms; unfold vectored in V; cbn [aarm afresh]; destruct (knd P a); try discriminate V; try reflexivity; trivial. }
  apply boundary_cases in E5. cbv zeta in E5. set (s1 := completed P a e (hit_all (hits e) s)) in *.
  assert (S : cache s1 = cache s /\ arm s1 = or_else (rearms P a e) (arm s)).
  { subst s1. rewrite completed_eq, hit_all_eq. cbn [cache arm]. split; [reflexivity|]. unfold rearms. destruct (knd P a), (larm e); reflexivity. }
  destruct S as [S1 S2]. clearbody s1.
  set (g1 := after P g (Exec a t r e)).
  assert (Q0 : aarm g1 = arm s1 /\ (afresh g1 = true -> Forall (unarmed s1) (cache s1) /\ afresh g = true /\ rearms P a e = None)).
  { destruct Q as [Q1 Q2 Q3]. subst g1. unfold after. rewrite FA. cbn [aarm afresh]. split; [congruence|].
    intros F. destruct (rearms P a e) eqn:RE; [discriminate F|]. cbn [or_else] in S2. unfold unarmed. rewrite S1, S2. split; [exact (Q2 F)|]. split; [exact F|reflexivity]. }
  destruct Q0 as [Q1 Q2].
  assert (IB : forall b : bool, cache (if b then set_rf false s1 else s1) = cache s1 /\ arm (if b then set_rf false s1 else s1) = arm s1) by (intros []; split; reflexivity).
  destruct (IB r) as [IB1 IB2].
  destruct E5 as [(B1 & B2 & B3)|[(B1 & B2 & B3 & B4 & B5)|(B1 & B2 & B3 & q & B4 & B5)]].
  - subst o s'. cbn [fold_left after]. constructor; cbn [fst deliver set_dr6 arm cache aarm afresh run]; [congruence| |trivial].
    intros F. unfold unarmed. cbn [arm]. rewrite IB1, IB2. apply Q2, F.
  - subst o s'. cbn [fold_left after]. constructor; cbn [fst deliver set_pend arm cache aarm afresh run]; [congruence| |trivial].
    intros F. unfold unarmed. cbn [arm]. rewrite IB1, IB2. apply Q2, F.
  - subst o s'. cbn [fold_left]. constructor; cbn [arm cache run]; [exact Q1| |].
    + intros F. apply Q2, F.
    + intros F. destruct (Q2 F) as (F1 & F2 & F3). destruct B5 as [-> |[(_ & K & -> & _)|(_ & l & L & ->)]]; [exact Logic.I| |].
      * destruct r; [exact Logic.I|]. pose proof (q_run s g Q F2) as X. rewrite E4 in X. unfold unarmed in *. cbn [arm]. rewrite S2, F3. cbn [or_else]. inversion X; assumption.
      * assert (CC : Forall (block_ok P) (cache (if r then set_rf false s1 else s1))) by (rewrite IB1, S1; exact (i_cache P s I)).
        destruct (linked_run P _ _ _ CC L) as (_ & _ & _ & k & b & [-> |Hb] & ->); unfold unarmed; cbn [arm].
        -- destruct k; constructor.
        -- apply Forall_skipn. apply (proj1 (Forall_forall _ _) F1). rewrite <- IB1. exact Hb.
Qed.

(** the shapes of a step *)
Lemma step_shape : forall P v s s' o, inv P s -> step P v s = (s', o) ->
  (exists e lk a t r k, v = Instr e lk /\ o = Exec a t r e :: k /\ instr P e lk s = (s', o) /\ (k = [] \/ exists w p t' r' d, k = [Exc w p t' r' d])) \/
  (run s' = None /\ cache s' = cache s /\ arm s' = arm s /\ exists w p t r d, o = [Exc w p t r d] /\ p = pc s /\ w = 1 /\ exists i, arm s p = Some i) \/
  (run s' = None /\ cache s' = [] /\ arm s' = arm s /\ pend s' = pend s /\ idb s' = idb s /\ o = [Flushed]) \/
  (o = [] /\ pc s' = pc s /\ arm s' = arm s /\ pend s' = pend s /\ idb s' = idb s /\ tf s' = tf s /\ rf s' = rf s /\
   (cache s' = cache s \/ exists b, cache s' = b :: cache s /\ Forall (fun x => arm s x = None) b) /\
   (run s' = run s \/ run s' = None \/ exists l brk, run s' = Some (l, brk, tf s, rf s) /\ (rf s = false -> (Forall (fun b => Forall (fun x => arm s x = None) b) (cache s) -> Forall (fun x => arm s x = None) l)))).
Proof.
  intros P v s s' o I H. destruct v as [n c|e lk|]; cbn [step] in H.
  - destruct (run s) eqn:R.
    { assert (s' = s) by congruence. assert (o = []) by congruence. subst. right; right; right. repeat (split; [reflexivity|]). split; [left; reflexivity|left; exact R]. }
    destruct (main_cases P n c s s' o I R H) as [(i & A & B & -> & ->)|(A & -> & I' & E1 & E2 & E3 & E4 & E5 & E6 & E7 & l & brk & E8 & E9)].
    + right; left. repeat (split; [reflexivity|]). do 5 eexists. split; [reflexivity|]. split; [reflexivity|]. split; [reflexivity|]. exists i. exact B.
    + right; right; right. repeat (split; [first [reflexivity|assumption]|]). right; right. exists l, brk. split; assumption.
  - pose proof H as H0. pose proof (i_run P s I) as R. unfold instr in H.
    destruct (run s) as [[[[l brk] bt] br]|] eqn:RS.
    2:{ assert (s' = s) by congruence. assert (o = []) by congruence. subst. right; right; right. repeat (split; [reflexivity|]). split; [left; reflexivity|left; exact RS]. }
    destruct l as [|a rest].
    { destruct brk.
      - right; left. unfold deliver in H. cbv beta iota zeta in H. match type of H with (?x, ?y) = _ => assert (s' = x) by congruence; assert (o = y) by congruence end. subst s' o.
        repeat (split; [reflexivity|]). do 5 eexists. split; [reflexivity|]. split; [reflexivity|]. split; [reflexivity|].
        destruct R as (_ & _ & _ & _ & R). destruct (R eq_refl) as (i & R6 & _). exists i. exact R6.
      - assert (s' = set_run None s) by congruence. assert (o = []) by congruence. subst. right; right; right. repeat (split; [reflexivity|]).
        split; [left; reflexivity|right; left; reflexivity]. }
    left. clear H. assert (X : exists k, o = Exec a (tf s) (rf s) e :: k).
    { pose proof H0 as H. unfold instr in H. rewrite RS in H.
      destruct (fault e); [unfold deliver in H; cbv beta iota zeta in H; eexists; symmetry; exact (f_equal snd H)|].
      destruct (knd P a) eqn:K.
      all: try (unfold deliver in H; cbv beta iota zeta in H; eexists; symmetry; exact (f_equal snd H)).
      all: destruct (boundary P a rest brk bt br e lk (completed P a e (hit_all (hits e) s))) as [s2 o2]; eexists; symmetry; exact (f_equal snd H). }
    destruct X as [k ->]. exists e, lk, a, (tf s), (rf s), k. repeat (split; [first [reflexivity|assumption]|]).
    destruct (instr_exec P e lk s s' a (tf s) (rf s) e k I H0) as (_ & _ & _ & _ & rest' & brk' & _ & E5).
    destruct (fault e).
    { destruct E5 as [_ ->]. right. unfold deliver. do 5 eexists. reflexivity. }
    destruct (vectored P a).
    { destruct E5 as (s1 & _ & _ & _ & ->). right. unfold deliver. do 5 eexists. reflexivity. }
    apply boundary_cases in E5. cbv zeta in E5. destruct E5 as [(_ & _ & B3)|[(_ & _ & _ & _ & B3)|(_ & _ & B3 & _)]]; subst k; [right|right|left; reflexivity]; do 5 eexists; reflexivity.
  - destruct (run s) eqn:R.
    { assert (s' = s) by congruence. assert (o = []) by congruence. subst. right; right; right. repeat (split; [reflexivity|]). split; [left; reflexivity|left; exact R]. }
    assert (s' = set_cache [] s) by congruence. assert (o = [Flushed]) by congruence. subst. right; right; left. cbn. repeat split; assumption.
Qed.

Lemma step_arm : forall P v s s' o g, inv P s -> rel0 s g -> step P v s = (s', o) -> rel0 s' (fold_left (after P) o g).
Proof.
  intros P v s s' o g I Q H. destruct (step_shape P v s s' o I H) as [(e & lk & a & t & r & k & -> & -> & E & _)|[(A & B & C & w & p & t & r & d & -> & _)|[(A & B & C & _ & _ & ->)|(-> & _ & A & _ & _ & T & R & C & D)]]].
  - eapply exec_arm; eassumption.
  - destruct Q as [Q1 Q2 Q3]. cbn [fold_left after]. constructor; cbn [aarm afresh]; [congruence| |rewrite A; trivial]. intros F. unfold unarmed. rewrite B, C. exact (Q2 F).
  - destruct Q as [Q1 Q2 Q3]. cbn [fold_left after]. constructor; cbn [aarm afresh]; [congruence| |rewrite A; trivial]. intros F. rewrite B. constructor.
  - destruct Q as [Q1 Q2 Q3]. cbn [fold_left]. constructor; [congruence| |].
    + intros F. unfold unarmed. rewrite A. destruct C as [-> |(b & -> & C)]; [exact (Q2 F)|constructor; [exact C|exact (Q2 F)]].
    + intros F. destruct D as [-> |[-> |(l & brk & -> & D)]]; [|exact Logic.I|].
      * unfold unarmed. rewrite A. exact (Q3 F).
      * destruct (rf s); [exact Logic.I|]. unfold unarmed. rewrite A. apply (D eq_refl), Q2, F.
Qed.

Lemma app_split : forall (A : Type) (l1 : list A) x l2 o tr, o ++ tr = l1 ++ x :: l2 ->
  (exists k, o = l1 ++ x :: k /\ l2 = k ++ tr) \/ (exists k, l1 = o ++ k /\ tr = k ++ x :: l2).
Proof.
  induction l1 as [|y l1 IH]; intros x l2 o tr H.
  - destruct o as [|z o]; [right; exists []; split; [reflexivity|exact H]|]. left. exists o. cbn in *. split; congruence.
  - destruct o as [|z o]; [right; exists (y :: l1); split; [reflexivity|exact H]|]. cbn [app] in H.
    assert (z = y) by congruence. subst z. assert (H' : o ++ tr = l1 ++ x :: l2) by congruence.
    destruct (IH _ _ _ _ H') as [(k & -> & K)|(k & -> & K)]; [left|right]; exists k; split; try reflexivity; exact K.
Qed.

Lemma exec_split : forall P l s g l1 a t r e l2, inv P s -> rel0 s g -> trace P l s = l1 ++ Exec a t r e :: l2 ->
  exists s0 lk s1 o l', inv P s0 /\ rel0 s0 (fold_left (after P) l1 g) /\ instr P e lk s0 = (s1, Exec a t r e :: o) /\ l2 = o ++ trace P l' s1.
Proof.
  intros P. induction l as [|v l IH]; intros s g l1 a t r e l2 I Q H; [destruct l1; discriminate H|].
  cbn [trace] in H. destruct (step P v s) as [s' o] eqn:ST.
  destruct (app_split _ _ _ _ _ _ H) as [(k & K1 & K2)|(k & K1 & K2)].
  - destruct (step_shape P v s s' o I ST) as [(e' & lk & a' & t' & r' & k' & -> & E1 & E & E2)|[(_ & _ & _ & w & p & t' & r' & d & E1 & _)|[(_ & _ & _ & _ & _ & E1)|(E1 & _)]]].
    + assert (N : l1 = []).
      { destruct l1 as [|y l1]; [reflexivity|]. exfalso. rewrite E1 in K1. cbn [app] in K1. assert (KK : k' = l1 ++ Exec a t r e :: k) by congruence.
        destruct E2 as [-> |(w & p & t2 & r2 & d & ->)]; [destruct l1; discriminate KK|]. destruct l1 as [|z l1]; [discriminate KK|destruct l1; discriminate KK]. }
      subst l1. cbn [app fold_left] in *. assert (e' = e) by congruence. subst e'. exists s, lk, s', k, l. rewrite E, K1.
      split; [exact I|]. split; [exact Q|]. split; [reflexivity|exact K2].
    + exfalso. rewrite E1 in K1. destruct l1 as [|y l1]; [discriminate K1|destruct l1; discriminate K1].
    + exfalso. rewrite E1 in K1. destruct l1 as [|y l1]; [discriminate K1|destruct l1; discriminate K1].
    + exfalso. rewrite E1 in K1. destruct l1; discriminate K1.
  - subst l1. rewrite fold_left_app. eapply IH; [eapply step_inv; eassumption|eapply step_arm; eassumption|exact K2].
Qed.

Lemma init_rel0 : forall p d, rel0 (init p d) (start p).
Proof. intros. constructor; cbn; [reflexivity|intros _; constructor|trivial]. Qed.
Lemma init_rel : forall p d, rel (init p d) (start p).
Proof. intros. constructor; cbn; try reflexivity; [intros _; constructor]. Qed.
