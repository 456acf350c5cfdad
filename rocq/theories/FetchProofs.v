(** * Proofs about instruction fetching *)

From Coq Require Import ZArith Bool List Lia.
Import ListNotations.
From Verif Require Import FetchModel FetchSpec.
Local Open Scope Z_scope.

Lemma w32_small : forall x, 0 <= x < 2 ^ 32 -> w32 x = x.
Proof. intros; apply Z.mod_small; auto. Qed.
Lemma w32_range : forall x, 0 <= w32 x < 2 ^ 32.
Proof. intros; apply Z.mod_pos_bound; lia. Qed.
Lemma w32_w32 : forall x y, w32 (w32 x + y) = w32 (x + y).
Proof. intros; unfold w32; apply Zplus_mod_idemp_l. Qed.
Lemma page_off : forall a, a = 4096 * page a + off a /\ 0 <= off a < 4096.
Proof. intros; unfold page, off; split; [apply Z.div_mod; lia | apply Z.mod_pos_bound; lia]. Qed.
Lemma page_eq : forall a q r, a = 4096 * q + r -> 0 <= r < 4096 -> page a = q /\ off a = r.
Proof. intros a q r E H; unfold page, off; split; [symmetry; apply (Z.div_unique a 4096 q r); lia | symmetry; apply (Z.mod_unique a 4096 q r); lia]. Qed.

(** addresses of the same page, and of the next one *)
Lemma same_page : forall a k, 0 <= a < 2 ^ 32 -> 0 <= k < 4096 - off a -> w32 (a + k) = a + k /\ page (a + k) = page a /\ off (a + k) = off a + k.
Proof.
  intros a k Ha Hk; destruct (page_off a) as (E & R); set (q := page a) in *; set (r := off a) in *.
  assert (q < 1048576) by lia; destruct (page_eq (a + k) q (r + k)); try lia; split; [apply w32_small; lia | auto].
Qed.
Lemma next_page : forall a k, 0 <= a < 2 ^ 32 -> 4096 - off a <= k < 8192 - off a ->
  page (w32 (a + k)) <> page a /\ off (w32 (a + k)) = off a + k - 4096 /\ w32 (a + k) = w32 (a + (4096 - off a)) + (k - (4096 - off a)) /\
  page (w32 (a + k)) = page (w32 (a + (4096 - off a))).
Proof.
  intros a k Ha Hk; destruct (page_off a) as (E & R); set (q := page a) in *; set (r := off a) in *.
  assert (0 <= q < 1048576) by lia.
  assert (Hw : forall j, 0 <= j < 4096 -> w32 (a + (4096 - r + j)) = 4096 * (if q =? 1048575 then 0 else q + 1) + j).
  { intros j Hj; unfold w32; destruct (q =? 1048575) eqn:Eq; [apply Z.eqb_eq in Eq | apply Z.eqb_neq in Eq].
    - symmetry; apply (Z.mod_unique _ _ 1); lia.
    - rewrite Z.mod_small; lia. }
  pose proof (Hw (k - (4096 - r)) ltac:(lia)) as H1; pose proof (Hw 0 ltac:(lia)) as H0.
  replace (4096 - r + (k - (4096 - r))) with k in H1 by lia; replace (4096 - r + 0) with (4096 - r) in H0 by lia.
  rewrite H1, H0.
  destruct (page_eq (4096 * (if q =? 1048575 then 0 else q + 1) + (k - (4096 - r))) _ _ eq_refl ltac:(lia)) as (P1 & O1).
  destruct (page_eq (4096 * (if q =? 1048575 then 0 else q + 1) + 0) _ _ eq_refl ltac:(lia)) as (P0 & O0).
  rewrite P1, O1, P0; repeat split; try lia.
  destruct (q =? 1048575) eqn:Eq; [apply Z.eqb_eq in Eq | apply Z.eqb_neq in Eq]; lia.
Qed.
Lemma page_test : forall a k, 0 <= a < 2 ^ 32 -> 0 <= k <= 4096 -> (page a =? page (w32 (a + k))) = (k <? 4096 - off a).
Proof.
  intros a k Ha Hk; destruct (page_off a) as (_ & R); destruct (Z.ltb_spec k (4096 - off a)).
  - destruct (same_page a k Ha ltac:(lia)) as (-> & -> & _); apply Z.eqb_refl.
  - destruct (next_page a k Ha ltac:(lia)) as (N & _); apply Z.eqb_neq; auto.
Qed.

(** bytes [bs] lie at consecutive linear addresses from [a] *)
Fixpoint at_lin (w : world) (a : Z) (bs : list Z) : Prop :=
  match bs with [] => True | b :: tl => (exists p, xl w a = Xok p /\ rd w p = b) /\ at_lin w (w32 (a + 1)) tl end.
Lemma at_lin_app : forall w bs a cs, 0 <= a < 2 ^ 32 -> at_lin w a bs -> at_lin w (w32 (a + Z.of_nat (length bs))) cs -> at_lin w a (bs ++ cs).
Proof.
  intros w bs; induction bs as [| b bs IH]; intros a cs Ha H1 H2; cbn [app at_lin length] in *.
  - replace (a + Z.of_nat 0) with a in H2 by lia; rewrite w32_small in H2 by auto; auto.
  - destruct H1 as (Hb & H1); split; auto; apply IH; auto; [apply w32_range |].
    rewrite w32_w32; replace (a + 1 + Z.of_nat (length bs)) with (a + Z.of_nat (S (length bs))) by lia; auto.
Qed.

(** bytes of one page *)
Lemma at_lin_page : forall w a p n, paged w -> 0 <= a < 2 ^ 32 -> xl w a = Xok p -> Z.of_nat n <= 4096 - off a ->
  at_lin w a (map (fun j => rd w (p + Z.of_nat j)) (seq 0 n)).
Proof.
  intros w a p n Hp Ha Hx Hn.
  assert (G : forall m s, (s + m <= n)%nat -> at_lin w (w32 (a + Z.of_nat s)) (map (fun j => rd w (p + Z.of_nat j)) (seq s m))).
  { induction m as [| m IH]; intros s Hs; cbn [seq map at_lin]; auto; split.
    - exists (p + Z.of_nat s); split; auto.
      destruct (same_page a (Z.of_nat s) Ha ltac:(lia)) as (-> & P & _).
      destruct (Hp a (a + Z.of_nat s) p Ha) as (X & _); auto.
      + destruct (same_page a (Z.of_nat s) Ha ltac:(lia)) as (W & _); rewrite <- W; apply w32_range.
      + rewrite X; f_equal; lia.
    - rewrite w32_w32; replace (a + Z.of_nat s + 1) with (a + Z.of_nat (S s)) by lia; apply IH; lia. }
  specialize (G n 0%nat ltac:(lia)); replace (a + Z.of_nat 0) with a in G by lia; rewrite w32_small in G by auto; auto.
Qed.

(** decoding a buffer that agrees with memory *)
Definition agrees (w : world) (d : decoder) (a : Z) (k : nat) (bs : list Z) (st : zstatus) (r : arch) : Prop :=
  match st with
  | Zok i n => r = Aok i n /\ 15 - Z.of_nat k < n <= 15 - Z.of_nat k + Z.of_nat (length bs) /\ n <= 15
  | Zbad => r = Aexc UD_ 0 0
  | Znomore => (length bs < k)%nat /\ forall c, xl w (w32 (a + Z.of_nat (length bs))) = Xpf c -> r = Aexc PF_ c (w32 (a + Z.of_nat (length bs)))
  | Ztoolong => (k <= length bs)%nat /\ match xl w (w32 (a + Z.of_nat k)) with Xpf c => r = Aexc PF_ c (w32 (a + Z.of_nat k)) | Xok _ => r = Aexc GP_ 0 0 end
  end.
Lemma zrun_ok : forall w d bs k s a, (k <= 15)%nat -> 0 <= a < 2 ^ 32 -> at_lin w a bs ->
  agrees w d a k bs (zrun d s (15 - Z.of_nat k) bs) (arun w d k s a).
Proof.
  intros w d bs; induction bs as [| b bs IH]; intros k s a Hk Ha Hl.
  - cbn [zrun]; destruct k as [| k].
    + replace (15 - Z.of_nat 0) with 15 by lia; change (15 <=? 15) with true; cbn [agrees length].
      replace (a + Z.of_nat 0) with a by lia; rewrite w32_small by auto; split; auto.
      cbn [arun]; destruct (xl w a); auto.
    + destruct (Z.leb_spec 15 (15 - Z.of_nat (S k))); [lia |]; cbn [agrees length]; split; [lia |].
      replace (a + Z.of_nat 0) with a by lia; rewrite w32_small by auto; intros c E; cbn [arun]; rewrite E; auto.
  - cbn [at_lin] in Hl; destruct Hl as ((p & Hx & Hr) & Hl); cbn [zrun].
    destruct k as [| k].
    + replace (15 - Z.of_nat 0) with 15 by lia; change (15 <=? 15) with true; cbn [agrees length].
      replace (a + Z.of_nat 0) with a by lia; rewrite w32_small by auto; split; [lia |].
      cbn [arun]; destruct (xl w a); auto.
    + destruct (Z.leb_spec 15 (15 - Z.of_nat (S k))); [lia |]; cbn [arun]; rewrite Hx, Hr.
      destruct (znext d s b) as [s' | i |].
      * specialize (IH k s' (w32 (a + 1)) ltac:(lia) (w32_range _) Hl).
        replace (15 - Z.of_nat (S k) + 1) with (15 - Z.of_nat k) by lia.
        remember (arun w d k s' (w32 (a + 1))) as r; clear Heqr.
        unfold agrees in *; cbn [length].
        destruct (zrun d s' (15 - Z.of_nat k) bs) as [i n | | |].
        -- destruct IH as (-> & B & C); split; auto; lia.
        -- auto.
        -- destruct IH as (L & IH); rewrite w32_w32 in IH; replace (a + 1 + Z.of_nat (length bs)) with (a + Z.of_nat (S (length bs))) in IH by lia; split; [lia | auto].
        -- destruct IH as (L & IH); rewrite w32_w32 in IH; replace (a + 1 + Z.of_nat k) with (a + Z.of_nat (S k)) in IH by lia; split; [lia | auto].
      * cbn [agrees length]; split; [f_equal; lia | lia].
      * cbn [agrees]; auto.
Qed.

Lemma dispatch_len : forall w p n, 0 <= n <= avail w p -> dispatch w p n = map (fun j => rd w (p + Z.of_nat j)) (seq 0 (Z.to_nat n)) /\ Z.of_nat (length (dispatch w p n)) = n.
Proof.
  intros w p n H; unfold dispatch; rewrite Z.min_r by lia; split; auto; rewrite map_length, seq_length; lia.
Qed.

(** A fault on record for the page after that of [vpc], as it is, met close to the end of the page *)
Definition upto (w : world) (vpc : Z) (e : exp_data) : Prop :=
  match e with
  | None => True
  | Some (a, c) => a = w32 (vpc + (4096 - off vpc)) /\ xl w a = Xpf c /\ 4096 - off vpc < 15
  end.

Lemma fetch_ok : forall w vpc pc e0, paged w -> backed w -> 0 <= vpc < 2 ^ 32 -> xl w vpc = Xok pc -> upto w vpc e0 ->
  let (bs, e) := ram_fetch w vpc pc e0 in
  at_lin w vpc bs /\ upto w vpc e /\
  ((Z.of_nat (length bs) = 15 /\ e = None) \/
   (exists c, Z.of_nat (length bs) = 4096 - off vpc /\ 4096 - off vpc < 15 /\ xl w (w32 (vpc + (4096 - off vpc))) = Xpf c /\ e = Some (w32 (vpc + (4096 - off vpc)), c))).
Proof.
  intros w vpc pc e0 Hp Hb Hv Hx Hu; unfold ram_fetch; pose proof (Hb vpc pc Hv Hx) as B; destruct (page_off vpc) as (_ & R).
  rewrite page_test by (auto; lia); destruct (Z.ltb_spec 14 (4096 - off vpc)).
  - destruct (dispatch_len w pc 15) as (E & L); [lia |].
    assert (e0 = None) as -> by (destruct e0 as [[a c] |]; auto; cbn [upto] in Hu; lia).
    split; [| split; [exact I | left; auto]].
    rewrite E; apply at_lin_page; auto; lia.
  - destruct (dispatch_len w pc (4096 - off vpc)) as (E & L); [lia |].
    rewrite L, Z.ltb_irrefl; unfold code_addr; destruct (xl w (w32 (vpc + (4096 - off vpc)))) as [p2 | c] eqn:X2.
    + pose proof (Hb _ _ (w32_range (vpc + (4096 - off vpc))) X2) as B2.
      destruct (next_page vpc (4096 - off vpc) Hv ltac:(lia)) as (_ & O2 & _).
      assert (e0 = None) as -> by (destruct e0 as [[a c] |]; auto; cbn [upto] in Hu; destruct Hu as (-> & U & _); congruence).
      destruct (dispatch_len w p2 (15 - (4096 - off vpc))) as (E2 & L2); [lia |].
      split; [| split; [exact I | left; rewrite app_length, Nat2Z.inj_add, L, L2; split; auto; lia]].
      apply at_lin_app; auto.
      * rewrite E; apply at_lin_page; auto; lia.
      * rewrite L, E2; apply at_lin_page; auto; [apply w32_range | lia].
    + split; [rewrite E; apply at_lin_page; auto; lia |].
      split; [cbn [upto]; repeat split; auto; lia |].
      right; exists c; repeat split; auto; lia.
Qed.

Lemma one_ok : forall w d vpc pc e0, paged w -> backed w -> 0 <= vpc < 2 ^ 32 -> xl w vpc = Xok pc -> upto w vpc e0 ->
  let (bs, e) := ram_fetch w vpc pc e0 in
  upto w vpc e /\
  match decode d bs with
  | Zok i n => arun w d 15 (z0 d) vpc = Aok i n
  | Zbad => arun w d 15 (z0 d) vpc = Aexc UD_ 0 0
  | Znomore => exists c, e = Some (w32 (vpc + (4096 - off vpc)), c) /\ arun w d 15 (z0 d) vpc = Aexc PF_ c (w32 (vpc + (4096 - off vpc)))
  | Ztoolong => e = None /\ match xl w (w32 (vpc + 15)) with Xpf c => arun w d 15 (z0 d) vpc = Aexc PF_ c (w32 (vpc + 15)) | Xok _ => arun w d 15 (z0 d) vpc = Aexc GP_ 0 0 end
  end.
Proof.
  intros w d vpc pc e0 Hp Hb Hv Hx Hu; pose proof (fetch_ok w vpc pc e0 Hp Hb Hv Hx Hu) as F.
  destruct (ram_fetch w vpc pc e0) as (bs & e); destruct F as (L & U & F); split; auto.
  pose proof (zrun_ok w d bs 15 (z0 d) vpc (le_n _) Hv L) as G; replace (15 - Z.of_nat 15) with 0 in G by lia; fold (decode d bs) in G.
  unfold agrees in G; destruct (decode d bs) as [i n | | |].
  - destruct G as (-> & _); auto.
  - auto.
  - destruct G as (Z1 & Z2); destruct F as [(F & _) | (c & F1 & F2 & F3 & F4)]; [lia |].
    rewrite F1 in Z2; exists c; repeat split; auto.
  - destruct G as (Z1 & Z2); destruct F as [(_ & F) | (c & F1 & F2 & _)]; [| lia]; split; auto.
Qed.

(** lengths of decoded instructions *)
Lemma zok_len : forall d bs s n i m, 0 <= n -> zrun d s n bs = Zok i m -> n < m <= 15.
Proof.
  intros d bs; induction bs as [| b bs IH]; intros s n i m Hn; cbn [zrun]; destruct (Z.leb_spec 15 n); try discriminate.
  destruct (znext d s b) as [s' | j |]; try discriminate.
  - intros E; apply IH in E; lia.
  - intros E; injection E as _ <-; lia.
Qed.
Lemma decode_len : forall d bs i n, decode d bs = Zok i n -> 1 <= n <= 15.
Proof. intros d bs i n E; apply zok_len in E; lia. Qed.

(** ** Blocks *)
Lemma tloop_ok : forall fuel w d vpc pc one e dr6 b, paged w -> backed w -> 0 <= vpc < 2 ^ 32 -> xl w vpc = Xok pc -> upto w vpc e ->
  tloop fuel w d vpc pc one e dr6 = Some b ->
  straight w d vpc (ins b) (fin b) /\
  (forall p, xl w (w32 (vpc + (4096 - off vpc))) = Xok p -> exp' b = None).
Proof.
  intros fuel w d; induction fuel as [| f IH]; intros vpc pc one e dr6 b Hp Hb Hv Hx Hu; cbn [tloop]; [discriminate |].
  assert (N : forall e, upto w vpc e -> forall p, xl w (w32 (vpc + (4096 - off vpc))) = Xok p -> e = None)
    by (intros [[a c] |] U p X; auto; cbn [upto] in U; destruct U as (-> & U & _); congruence).
  destruct (hits w vpc) as [i |] eqn:Hh.
  - intros E; injection E as <-; cbn [ins fin exp']; split; [constructor; unfold afetch; rewrite Hh; auto | eauto].
  - assert (A : afetch w d vpc = arun w d 15 (z0 d) vpc) by (unfold afetch; rewrite Hh; auto).
    pose proof (one_ok w d vpc pc e Hp Hb Hv Hx Hu) as O; destruct (ram_fetch w vpc pc e) as (bs & e1); destruct O as (U & O).
    destruct (decode d bs) as [i n | | |] eqn:D; rewrite <- A in O.
    + pose proof (decode_len _ _ _ _ D) as Ln; destruct (i_term i) eqn:T.
      * intros E; injection E as <-; cbn [ins fin exp']; split; [constructor; auto | eauto].
      * destruct (page_off vpc) as (_ & R).
        replace (vpc + n - 1) with (vpc + (n - 1)) by lia; rewrite !page_test by (auto; lia).
        destruct (Z.ltb_spec (n - 1) (4096 - off vpc)); destruct (Z.ltb_spec n (4096 - off vpc)); try lia; cbn [negb orb].
        -- destruct one.
           ++ intros E; injection E as <-; cbn [ins fin exp']; split; [apply st_link; auto | eauto].
           ++ destruct (same_page vpc n Hv ltac:(lia)) as (W & P & O').
              destruct (Hp vpc (vpc + n) pc Hv) as (X2 & Pr & Po); auto; [rewrite <- W; apply w32_range |].
              assert (W2 : w32 (pc + n) = pc + n) by (destruct (same_page pc n Pr ltac:(lia)); auto).
              destruct (tloop f w d (w32 (vpc + n)) (w32 (pc + n)) false e1 dr6) as [b' |] eqn:L; [| discriminate].
              intros E; injection E as <-; cbn [consb ins fin exp'].
              assert (Nx : w32 (w32 (vpc + n) + (4096 - off (w32 (vpc + n)))) = w32 (vpc + (4096 - off vpc)))
                by (rewrite w32_w32, W, O'; f_equal; lia).
              apply IH in L; auto; [| apply w32_range | rewrite W, W2, X2; f_equal; lia |].
              ** destruct L as (L1 & L2); split; [apply st_cons; auto | intros p X; apply (L2 p); rewrite Nx; auto].
              ** destruct e1 as [[a c] |]; cbn [upto] in *; auto; rewrite Nx; destruct U as (-> & U1 & U2); repeat split; auto; rewrite W, O'; lia.
        -- intros E; injection E as <-; cbn [ins fin exp']; split; [apply st_link; auto | eauto].
        -- intros E; injection E as <-; cbn [ins fin exp']; split; [apply st_link; auto | eauto].
    + intros E; injection E as <-; cbn [ins fin exp']; split; [constructor; auto | eauto].
    + destruct O as (c & -> & O); intros E; injection E as <-; cbn [ins fin exp']; split; [constructor; auto |].
      intros p X; apply (N _ U p X).
    + destruct O as (-> & O); unfold code_addr; destruct (xl w (w32 (vpc + 15))) as [p1 | c] eqn:X1.
      * intros E; injection E as <-; cbn [ins fin exp']; split; [constructor; auto | eauto].
      * intros E; injection E as <-; cbn [ins fin exp']; split; [constructor; auto |].
        intros p X; exfalso; destruct (page_off vpc) as (_ & R); destruct (Z_lt_le_dec 15 (4096 - off vpc)).
        -- destruct (same_page vpc 15 Hv ltac:(lia)) as (W & P & _); rewrite W in X1.
           destruct (Hp vpc (vpc + 15) pc Hv) as (X2 & _); auto; [rewrite <- W; apply w32_range | congruence].
        -- destruct (next_page vpc 15 Hv ltac:(lia)) as (_ & _ & W & P).
           destruct (Hp _ (w32 (vpc + 15)) p (w32_range (vpc + (4096 - off vpc)))) as (X2 & _); auto; [apply w32_range | congruence].
Qed.

Lemma translate_ok : forall w d fl vpc dr6 b, paged w -> backed w -> 0 <= vpc < 2 ^ 32 ->
  translate w d fl vpc None dr6 = Some b ->
  straight w d vpc (ins b) (fin b) /\
  (forall p, xl w (w32 (vpc + (4096 - off vpc))) = Xok p -> exp' b = None).
Proof.
  intros w d fl vpc dr6 b Hp Hb Hv; unfold translate; destruct (hits w vpc) as [i |] eqn:Hh.
  - intros E; injection E as <-; cbn [ins fin exp']; split; [constructor; unfold afetch; rewrite Hh; auto | auto].
  - destruct (xl w vpc) as [pc | c] eqn:X.
    + intros E; eapply tloop_ok in E; eauto; exact I.
    + intros E; injection E as <-; cbn [ins fin exp']; split; [constructor; unfold afetch; rewrite Hh; cbn [arun]; rewrite X; auto | auto].
Qed.

(** the loop ends *)
Lemma tloop_total : forall fuel w d vpc pc one e dr6, 0 <= vpc < 2 ^ 32 -> 4096 - off vpc < Z.of_nat fuel -> tloop fuel w d vpc pc one e dr6 <> None.
Proof.
  intros fuel w d; induction fuel as [| f IH]; intros vpc pc one e dr6 Hv Hf; cbn [tloop].
  - destruct (page_off vpc) as (_ & R); lia.
  - destruct (hits w vpc); [discriminate |]; destruct (ram_fetch w vpc pc e) as (bs & e1); destruct (page_off vpc) as (_ & R).
    destruct (decode d bs) as [i n | | |] eqn:D; try discriminate.
    + pose proof (decode_len _ _ _ _ D) as Ln; destruct (i_term i); [discriminate |].
      replace (vpc + n - 1) with (vpc + (n - 1)) by lia; rewrite !page_test by (auto; lia).
      destruct (Z.ltb_spec n (4096 - off vpc)); [| rewrite orb_true_r; discriminate].
      destruct (Z.ltb_spec (n - 1) (4096 - off vpc)); [| discriminate]; cbn [negb orb]; destruct one; [discriminate |].
      destruct (same_page vpc n Hv ltac:(lia)) as (W & P & O').
      specialize (IH (w32 (vpc + n)) (w32 (pc + n)) false e1 dr6 (w32_range _) ltac:(rewrite W, O'; lia)).
      destruct (tloop f w d (w32 (vpc + n)) (w32 (pc + n)) false e1 dr6); [discriminate | contradiction].
    + destruct e1 as [[] |]; discriminate.
    + destruct (code_addr w (w32 (vpc + 15)) e1) as (p & [[] |]); discriminate.
Qed.

Lemma tloop_page : forall fuel w d vpc pc one e dr6 b, 0 <= vpc < 2 ^ 32 -> tloop fuel w d vpc pc one e dr6 = Some b ->
  in_a_row vpc (ins b) /\ off vpc + size_of (ins b) <= 4096 + 14 /\ (cross b = false -> off vpc + size_of (ins b) <= 4096) /\ (one = true -> (length (ins b) <= 1)%nat).
Proof.
  intros fuel w d; induction fuel as [| f IH]; intros vpc pc one e dr6 b Hv; cbn [tloop]; [discriminate |].
  destruct (page_off vpc) as (_ & R).
  assert (K : forall t c x y, let b := mkb [] t c x y in in_a_row vpc (ins b) /\ off vpc + size_of (ins b) <= 4096 + 14 /\ (cross b = false -> off vpc + size_of (ins b) <= 4096) /\ (one = true -> (length (ins b) <= 1)%nat))
    by (cbn [ins cross in_a_row size_of length]; intros; repeat split; auto; lia).
  destruct (hits w vpc); [intros E; injection E as <-; apply K |].
  destruct (ram_fetch w vpc pc e) as (bs & e1); destruct (decode d bs) as [i n | | |] eqn:D.
  - pose proof (decode_len _ _ _ _ D) as Ln.
    replace (vpc + n - 1) with (vpc + (n - 1)) by lia; rewrite !page_test by (auto; lia).
    assert (K1 : forall t x y, let b := mkb [(vpc, i, n)] t (negb (n - 1 <? 4096 - off vpc)) x y in
      in_a_row vpc (ins b) /\ off vpc + size_of (ins b) <= 4096 + 14 /\ (cross b = false -> off vpc + size_of (ins b) <= 4096) /\ (one = true -> (length (ins b) <= 1)%nat)).
    { cbn [ins cross in_a_row size_of length]; intros; repeat split; auto; try lia. }
    destruct (i_term i); [intros E; injection E as <-; apply K1 |].
    destruct (Z.ltb_spec n (4096 - off vpc)); [| rewrite orb_true_r; cbn [orb]; intros E; injection E as <-; apply K1].
    destruct (Z.ltb_spec (n - 1) (4096 - off vpc)) as [Hlt | Hge]; [| lia].
    cbn [negb orb]; destruct one.
    + intros E; injection E as <-; pose proof (K1 Tlink e1 dr6) as K2; try rewrite (proj2 (Z.ltb_lt _ _) Hlt) in K2; apply K2.
    + destruct (same_page vpc n Hv ltac:(lia)) as (W & P & O').
      destruct (tloop f w d (w32 (vpc + n)) (w32 (pc + n)) false e1 dr6) as [b' |] eqn:L; [| discriminate].
      intros E; injection E as <-; apply IH in L; [| apply w32_range]; destruct L as (L1 & L2 & L3 & _).
      rewrite W, O' in *; unfold consb; cbn [ins cross in_a_row size_of].
      rewrite W; repeat split; auto; try lia; intros C; specialize (L3 C); lia.
  - intros E; injection E as <-; apply K.
  - destruct e1 as [[] |]; intros E; injection E as <-; apply K.
  - destruct (code_addr w (w32 (vpc + 15)) e1) as (p & [[] |]); intros E; injection E as <-; apply K.
Qed.

(** ** A fault on record *)
Lemma stale : forall w d vpc pc i n a c one dr6 f, paged w -> backed w -> 0 <= vpc < 2 ^ 32 -> xl w vpc = Xok pc ->
  afetch w d vpc = Aok i n -> page (w32 (vpc + n - 1)) <> page vpc ->
  exists e, tloop (S f) w d vpc pc one (Some (a, c)) dr6 = Some (mkb [] (Texc PF_ c a) true e dr6) /\ e = Some (a, c).
Proof.
  intros w d vpc pc i n a c one dr6 f Hp Hb Hv Hx Hf Hc; unfold afetch in Hf; cbn [tloop].
  destruct (hits w vpc) eqn:Hh; [discriminate |]; destruct (page_off vpc) as (_ & R).
  (* the instruction has at most 15 bytes and needs one of the second page *)
  assert (B : forall w d k s a i n, (k <= 15)%nat -> arun w d k s a = Aok i n -> 15 - Z.of_nat k < n <= 15).
  { clear; intros w d k; induction k as [| k IH]; intros s a i n Hk; cbn [arun]; destruct (xl w a); try discriminate.
    destruct (znext d s (rd w p)); try discriminate; [intros E; apply IH in E; lia | intros E; assert (15 - Z.of_nat k = n) by congruence; lia]. }
  pose proof (B _ _ _ _ _ _ _ (le_n _) Hf) as Bn.
  replace (vpc + n - 1) with (vpc + (n - 1)) in Hc by lia.
  assert (Hk : 4096 - off vpc < n).
  { destruct (Z_lt_le_dec (4096 - off vpc) n); auto; destruct (same_page vpc (n - 1) Hv ltac:(lia)) as (W & P & _); rewrite W, P in Hc; contradiction. }
  unfold ram_fetch; rewrite page_test by (auto; lia); destruct (Z.ltb_spec 14 (4096 - off vpc)); [lia |].
  destruct (dispatch_len w pc (4096 - off vpc)) as (E & L); [pose proof (Hb vpc pc Hv Hx); lia |].
  rewrite L, Z.ltb_irrefl; unfold code_addr.
  assert (X2 : exists p2, xl w (w32 (vpc + (4096 - off vpc))) = Xok p2).
  { destruct (xl w (w32 (vpc + (4096 - off vpc)))) as [p2 | c2] eqn:X2; [eauto |]; exfalso.
    assert (G : forall k s m a i n, (Z.of_nat m < Z.of_nat k + 1) -> 0 <= a < 2 ^ 32 -> (k <= 15)%nat -> xl w (w32 (a + Z.of_nat m)) = Xpf c2 -> arun w d k s a = Aok i n -> n <= 15 - Z.of_nat k + Z.of_nat m).
    { clear; intros k; induction k as [| k IH]; intros s m a i n Hm Ha Hk X; cbn [arun].
      - destruct (xl w a); discriminate.
      - destruct m as [| m].
        + replace (a + Z.of_nat 0) with a in X by lia; rewrite w32_small in X by auto; rewrite X; discriminate.
        + destruct (xl w a); [| discriminate]; destruct (znext d s (rd w p)); try discriminate.
          * intros E; apply (IH _ m) in E; [lia | lia | apply w32_range | lia |].
            rewrite w32_w32; replace (a + 1 + Z.of_nat m) with (a + Z.of_nat (S m)) by lia; auto.
          * intros E; assert (15 - Z.of_nat k = n) by congruence; lia. }
    apply (G 15%nat (z0 d) (Z.to_nat (4096 - off vpc)) vpc i n) in Hf; auto; [lia | lia |].
    rewrite Z2Nat.id by lia; auto. }
  destruct X2 as (p2 & X2); rewrite X2.
  assert (Al : at_lin w vpc (dispatch w pc (4096 - off vpc))) by (rewrite E; apply at_lin_page; auto; lia).
  pose proof (zrun_ok w d _ 15 (z0 d) vpc (le_n _) Hv Al) as G; replace (15 - Z.of_nat 15) with 0 in G by lia.
  fold (decode d (dispatch w pc (4096 - off vpc))) in G; unfold agrees in G; rewrite Hf in G.
  destruct (decode d (dispatch w pc (4096 - off vpc))) as [j m | | |].
  - destruct G as (G & G2 & _); injection G as <- <-; exfalso; lia.
  - discriminate.
  - eexists; split; reflexivity.
  - destruct G as (G & _); lia.
Qed.
