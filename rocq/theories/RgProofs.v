(** Proofs about changes of the region maps that take effect later *)
From Coq Require Import ZArith List Bool Lia ZifyBool.
From Verif Require Import AddrSpaceModel AddrSpaceSpec AddrSpaceProofs RegionApiProofs RgModel RgSpec.
Import ListNotations.
Open Scope Z_scope.

(** ** Updates of handlers *)
Definition keeps (f : node -> node) : Prop := forall n, n_key (f n) = n_key n /\ n_id (f n) = n_id n /\ rs (f n) = rs n /\ re (f n) = re n /\
  i_type (ri (f n)) = i_type (ri n) /\ (unm (ri n) -> f n = n).
Lemma keeps_seg : forall f l lo hi, keeps f -> seg lo l hi -> seg lo (map f l) hi.
Proof.
  intros f; induction l as [| n t IH]; intros lo hi K H; cbn [map seg] in *; [exact H |].
  destruct (K n) as (K1 & _ & K3 & K4 & _); destruct H as (H1 & H2 & H3 & H4); rewrite K1, K3, K4.
  split; [exact H1 | split; [exact H2 | split; [exact H3 | apply IH; assumption]]].
Qed.
Lemma keeps_adj : forall f l, keeps f -> adjI (map ri l) -> adjI (map ri (map f l)).
Proof.
  intros f; induction l as [| n t IH]; intros K H; cbn [map adjI] in *; [exact H |].
  destruct H as (H1 & H2); split; [| apply IH; assumption].
  destruct t as [| m t]; cbn [map] in *; [exact I |].
  unfold unm in *; destruct (K n) as (_ & _ & _ & _ & -> & _); destruct (K m) as (_ & _ & _ & _ & -> & _); exact H1.
Qed.
Lemma keeps_inv : forall M f s, keeps f -> inv M s -> inv M (mk_as (map f (nodes s)) (next_id s)).
Proof.
  intros M f s K (G & U & A); split; [exact (keeps_seg f _ _ _ K G) | split; [| exact (keeps_adj f _ K A)]].
  cbn [nodes]; unfold unm_ok in *; rewrite Forall_forall in *; intros m Hm; apply in_map_iff in Hm; destruct Hm as (n & <- & Hn) .
  destruct (K n) as (_ & _ & _ & _ & Kt & Ku); intro Hu; assert (unm (ri n)) by (unfold unm in *; congruence); rewrite (Ku H); exact (U n Hn H).
Qed.
Lemma keeps_algn : forall g f l, keeps f -> algn g l -> algn g (map f l).
Proof.
  intros g f l K A; unfold algn in *; rewrite Forall_forall in *; intros m Hm; apply in_map_iff in Hm; destruct Hm as (n & <- & Hn).
  destruct (K n) as (_ & _ & -> & -> & _); exact (A n Hn).
Qed.
Lemma keeps_get : forall f l a, keeps f -> get_it (map f l) a = option_map f (get_it l a).
Proof.
  intros f l a K; unfold get_it; cut (forall c, get_it_from (option_map f c) (map f l) a = option_map f (get_it_from c l a)); [intro H; exact (H None) |].
  induction l as [| n t IH]; intro c; cbn [map get_it_from]; [reflexivity |].
  destruct (K n) as (-> & _); destruct (n_key n <=? a); [exact (IH (Some n)) | reflexivity].
Qed.
Lemma keeps_outline : forall f s, keeps f -> outline (mk_as (map f (nodes s)) (next_id s)) = outline s.
Proof.
  intros f s K; unfold outline; cbn [nodes]; rewrite map_map; apply map_ext; intro n; destruct (K n) as (_ & -> & K3 & K4 & K5 & _).
  unfold rs, re, ri in *; rewrite K3, K4, K5; reflexivity.
Qed.
Lemma type_eqb_eq : forall a b, mem_type_eqb a b = true <-> a = b.
Proof. intros a b; destruct a, b; cbn; split; congruence. Qed.
Definition setter (ty : mem_type) (k h o : Z) (n : node) : node := if (n_key n =? k) && mem_type_eqb (i_type (ri n)) ty then set_node h o n else n.
Lemma setter_keeps : forall ty k h o, ty <> unmapped -> keeps (setter ty k h o).
Proof.
  intros ty k h o Ht n; unfold setter; destruct ((n_key n =? k) && mem_type_eqb (i_type (ri n)) ty) eqn:E; [| repeat (split; [reflexivity |]); reflexivity].
  repeat (split; [reflexivity |]); intro Hu; unfold unm in Hu; apply andb_prop in E; destruct E as [_ E]; apply type_eqb_eq in E; congruence.
Qed.

Definition upd1 (ty : mem_type) (a h o : Z) (r : region) : region :=
  if (r_start r <=? a) && (a <=? r_end r) && mem_type_eqb (i_type (r_info r)) ty then mk_region (r_start r) (r_end r) (set_info h o (r_info r)) else r.
Lemma update_spec : forall M ty s a h o, ty <> unmapped -> inv M s -> 0 <= a <= M ->
  exists s', update ty s a h o = Some s' /\ inv M s' /\ (forall g, algn g (nodes s) -> algn g (nodes s')) /\ outline s' = outline s /\
    forall x, 0 <= x <= M -> search s' x = option_map (upd1 ty a h o) (search s x).
Proof.
  intros M ty s a h o Ht I Ha; pose proof I as (G & _).
  destruct (locate M s a) as (l1 & n & l2 & En & S1 & Kn & Bn & S2 & Gi); [exact G | exact Ha |].
  unfold update; rewrite Gi.
  assert (E : (if mem_type_eqb (i_type (r_info (n_reg n))) ty then mk_as (modify (nodes s) (n_key n) (set_node h o)) (next_id s) else s)
              = mk_as (map (setter ty (n_key n) h o) (nodes s)) (next_id s)).
  { assert (Hk : forall m, In m (nodes s) -> n_key m = n_key n -> m = n).
    { intros m Hm Em; destruct (good_partition M s G) as (P1 & P2).
      destruct (P1 m Hm) as (Q1 & Q2 & Q3).
      assert (Hn : In n (nodes s)) by (rewrite En; apply in_or_app; right; left; reflexivity).
      destruct (P1 n Hn) as (R1 & R2 & R3).
      destruct (P2 (n_key n)) as (y & _ & _ & Hy); [lia |].
      rewrite (Hy m Hm), (Hy n Hn); unfold contains; [reflexivity | lia | lia]. }
    destruct (mem_type_eqb (i_type (r_info (n_reg n))) ty) eqn:Et.
    - f_equal; unfold modify; apply map_ext_in; intros m Hm; unfold setter; destruct (Z.eqb_spec (n_key m) (n_key n)) as [Em | _]; [| reflexivity].
      rewrite (Hk m Hm Em); unfold ri; rewrite Et; reflexivity.
    - destruct s as [ns nid]; cbn [nodes next_id] in *; f_equal; rewrite <- (map_id ns) at 1; apply map_ext_in; intros m Hm; unfold setter.
      destruct (Z.eqb_spec (n_key m) (n_key n)) as [Em | _]; [| reflexivity]. rewrite (Hk m Hm Em); unfold ri; rewrite Et; reflexivity. }
  rewrite E; pose proof (setter_keeps ty (n_key n) h o Ht) as K.
  eexists; split; [reflexivity |]; split; [exact (keeps_inv M _ s K I) |]; split; [intros g A; exact (keeps_algn g _ _ K A) |].
  split; [exact (keeps_outline _ s K) |]; intros x Hx; unfold search; cbn [nodes]; rewrite (keeps_get _ _ _ K).
  destruct (locate M s x) as (m1 & m & m2 & Em & T1 & Km & Bm & T2 & Gm); [exact G | exact Hx |]; rewrite Gm; cbn [option_map]; f_equal.
  unfold setter, upd1; fold (rs m) (re m) (ri m).
  assert (Hiff : (n_key m =? n_key n) = (rs m <=? a) && (a <=? re m)).
  { destruct (good_partition M s G) as (_ & P2); destruct (P2 a Ha) as (y & _ & _ & Hy).
    assert (Hn : In n (nodes s)) by (rewrite En; apply in_or_app; right; left; reflexivity).
    assert (Hm : In m (nodes s)) by (rewrite Em; apply in_or_app; right; left; reflexivity).
    destruct (Z.eqb_spec (n_key m) (n_key n)) as [Ek | Nk].
    - symmetry; apply andb_true_intro; assert (m = n); [| subst m; split; apply Z.leb_le; lia].
      destruct (P2 (rs m)) as (z & _ & _ & Hz); [| ]; try (unfold rs, re in *; cbn in *).
      + assert (B := seg_bounds _ _ _ G); rewrite Forall_forall in B; specialize (B m Hm); unfold rs, re in B; lia.
      + rewrite (Hz m Hm), (Hz n Hn); unfold contains; [reflexivity | lia | lia].
    - symmetry; apply not_true_is_false; intro B; apply andb_prop in B; destruct B as [B1 B2]; apply Z.leb_le in B1, B2.
      apply Nk; rewrite (Hy m Hm), (Hy n Hn); [reflexivity | exact Bn | unfold contains, rs, re in *; lia]. }
  rewrite Hiff; destruct ((rs m <=? a) && (a <=? re m)); [| reflexivity]; cbn [andb].
  destruct (mem_type_eqb (i_type (ri m)) ty); reflexivity.
Qed.

Lemma updated_cons : forall b u l r, updated b (u :: l) r =
  updated b l (if Bool.eqb (c_io u) b then upd1 (if b then pmio else mmio) (c_start u) (c_h u) (c_o u) r else r).
Proof.
  intros b u l r; unfold updated at 1; cbn [rev]; rewrite find_snoc.
  set (p := fun v : change => Bool.eqb (c_io v) b && (r_start r <=? c_start v) && (c_start v <=? r_end r)).
  set (r' := if Bool.eqb (c_io u) b then _ else r).
  assert (Hs : r_start r' = r_start r /\ r_end r' = r_end r /\ i_type (r_info r') = i_type (r_info r) /\ i_alias_offset (r_info r') = i_alias_offset (r_info r) /\
    i_aliased (r_info r') = i_aliased (r_info r) /\ i_rom_ptr (r_info r') = i_rom_ptr (r_info r) /\ i_buff_off (r_info r') = i_buff_off (r_info r) /\
    (mem_type_eqb (i_type (r_info r)) (if b then pmio else mmio) = false -> r' = r)).
  { unfold r', upd1; destruct (Bool.eqb (c_io u) b); [| repeat (split; [reflexivity |]); reflexivity].
    destruct (_ && _ && _) eqn:E; [| repeat (split; [reflexivity |]); reflexivity].
    repeat (split; [reflexivity |]); intro F; rewrite F, andb_false_r in E; discriminate. }
  destruct Hs as (H1 & H2 & H3 & H4 & H5 & H6 & H7 & H8).
  unfold updated; rewrite H1, H2; fold p; destruct (find p (rev l)) as [v |].
  - rewrite H3, H4, H5, H6, H7; destruct (mem_type_eqb (i_type (r_info r)) (if b then pmio else mmio)) eqn:E; [reflexivity | rewrite (H8 eq_refl); reflexivity].
  - unfold p, r', upd1; destruct (Bool.eqb (c_io u) b); cbn [andb]; [| reflexivity].
    destruct ((r_start r <=? c_start u) && (c_start u <=? r_end r)); cbn [andb]; [| reflexivity].
    destruct (mem_type_eqb (i_type (r_info r)) (if b then pmio else mmio)); reflexivity.
Qed.

(** the updates of a list; ports are taken modulo 65536 *)
Definition port (u : change) : change := mkc (c_io u) (if c_io u then c_start u mod 2 ^ 16 else c_start u) (c_h u) (c_o u).
Lemma updates_spec : forall l m p, inv MEM_MAX m -> inv IO_MAX p -> Forall (fun u => 0 <= c_start u < 2 ^ 32) l ->
  exists m' p', updates m p l = Some (m', p') /\ inv MEM_MAX m' /\ inv IO_MAX p' /\ (forall g, algn g (nodes m) -> algn g (nodes m')) /\ (forall g, algn g (nodes p) -> algn g (nodes p')) /\
    outline m' = outline m /\ outline p' = outline p /\
    (forall x, 0 <= x <= MEM_MAX -> search m' x = option_map (with_updates false (map port l)) (search m x)) /\
    (forall x, 0 <= x <= IO_MAX -> search p' x = option_map (with_updates true (map port l)) (search p x)).
Proof.
  induction l as [| u l IH]; intros m p Im Ip H; cbn [updates map].
  - exists m, p; split; [reflexivity |]; repeat (split; [assumption |]); split; [auto |]; split; [auto |]; split; [reflexivity |]; split; [reflexivity |].
    split; intros x Hx; [destruct (search m x) as [[a b i] |] | destruct (search p x) as [[a b i] |]]; reflexivity.
  - inversion_clear H as [| ? ? Hu Hl]; destruct (c_io u) eqn:Eio.
    + assert (Hr : 0 <= c_start u mod 2 ^ 16 <= IO_MAX) by (unfold IO_MAX; pose proof (Z.mod_pos_bound (c_start u) (2 ^ 16)); lia).
      destruct (update_spec IO_MAX pmio p (c_start u mod 2 ^ 16) (c_h u) (c_o u) ltac:(discriminate) Ip Hr) as (p1 & E & I1 & A1 & O1 & S1); rewrite E.
      destruct (IH m p1 Im I1 Hl) as (m' & p' & E' & J1 & J2 & J3 & J4 & J5 & J6 & J7 & J8).
      exists m', p'; split; [exact E' |]; split; [exact J1 |]; split; [exact J2 |]; split; [exact J3 |]; split; [intros g A; exact (J4 g (A1 g A)) |].
      split; [exact J5 |]; split; [congruence |]; split; intros x Hx.
      * rewrite (J7 x Hx); destruct (search m x) as [r |]; [| reflexivity]; cbn [option_map]; f_equal; unfold with_updates; rewrite updated_cons; cbn [port c_io]; rewrite Eio; reflexivity.
      * rewrite (J8 x Hx), (S1 x Hx); destruct (search p x) as [r |]; [| reflexivity]; cbn [option_map]; f_equal; unfold with_updates; rewrite updated_cons; cbn [port c_io c_start c_h c_o]; rewrite Eio; cbn [Bool.eqb].
        assert (r_start (upd1 pmio (c_start u mod 2 ^ 16) (c_h u) (c_o u) r) = r_start r /\ r_end (upd1 pmio (c_start u mod 2 ^ 16) (c_h u) (c_o u) r) = r_end r) as [-> ->];
          [unfold upd1; destruct (_ && _ && _); split; reflexivity | reflexivity].
    + assert (Hr : 0 <= c_start u <= MEM_MAX) by (unfold MEM_MAX; lia).
      destruct (update_spec MEM_MAX mmio m (c_start u) (c_h u) (c_o u) ltac:(discriminate) Im Hr) as (m1 & E & I1 & A1 & O1 & S1); rewrite E.
      destruct (IH m1 p I1 Ip Hl) as (m' & p' & E' & J1 & J2 & J3 & J4 & J5 & J6 & J7 & J8).
      exists m', p'; split; [exact E' |]; split; [exact J1 |]; split; [exact J2 |]; split; [intros g A; exact (J3 g (A1 g A)) |]; split; [exact J4 |].
      split; [congruence |]; split; [exact J6 |]; split; intros x Hx.
      * rewrite (J7 x Hx), (S1 x Hx); destruct (search m x) as [r |]; [| reflexivity]; cbn [option_map]; f_equal; unfold with_updates; rewrite updated_cons; cbn [port c_io c_start c_h c_o]; rewrite Eio; cbn [Bool.eqb].
        assert (r_start (upd1 mmio (c_start u) (c_h u) (c_o u) r) = r_start r /\ r_end (upd1 mmio (c_start u) (c_h u) (c_o u) r) = r_end r) as [-> ->];
          [unfold upd1; destruct (_ && _ && _); split; reflexivity | reflexivity].
      * rewrite (J8 x Hx); destruct (search p x) as [r |]; [| reflexivity]; cbn [option_map]; f_equal; unfold with_updates; rewrite updated_cons; cbn [port c_io]; rewrite Eio; reflexivity.
Qed.

(** ** Reachable states *)
Definition port_unit (gp : Z) : Prop := 1 < gp /\ 65536 mod gp = 0.
Record ok (g gp : Z) (s : st) : Prop := mkok {
  k_mem : inv MEM_MAX (mem s); k_al : algn g (nodes (mem s)); k_io : inv IO_MAX (io s); k_alp : algn gp (nodes (io s));
  k_chg : Forall (fun o => valid_op MEM_MAX o /\ aligned_op g o) (chg s); k_upd : Forall (fun u => 0 <= c_start u < 2 ^ 32) (upd s);
  k_int : chg s <> [] -> True; k_fill : Forall (fun m => outline m = outline (mem s)) (fills s) }.
Lemma run_ops : forall g ops m, 1 < g -> inv MEM_MAX m -> algn g (nodes m) -> Forall (fun o => valid_op MEM_MAX o /\ aligned_op g o) ops ->
  exists m', as_run MEM_MAX m ops = Some m' /\ inv MEM_MAX m' /\ algn g (nodes m').
Proof.
  intros g ops; induction ops as [| o ops IH]; intros m Hg I A H; cbn [as_run]; [exists m; auto |].
  inversion_clear H as [| ? ? (V & Al) H']; pose proof (aligned_one g m o Hg A Al) as Sf.
  destruct (step_good MEM_MAX MEM_MAX_pos m o I V Sf) as (m1 & E & I1 & _ & Bd & _); rewrite E.
  apply IH; [exact Hg | exact I1 | exact (bnd_algn g _ _ _ _ A (proj1 Al) (proj2 Al) Bd) | exact H'].
Qed.
Lemma IO_MAX_pos : 0 <= IO_MAX.
Proof. unfold IO_MAX; lia. Qed.
Lemma port_op : forall gp p o, 1 < gp -> inv IO_MAX p -> algn gp (nodes p) -> valid_op IO_MAX o -> aligned_op gp o ->
  exists p', as_step IO_MAX p o = Some p' /\ inv IO_MAX p' /\ algn gp (nodes p').
Proof.
  intros gp p o Hg I A V Al; pose proof (aligned_one gp p o Hg A Al) as Sf.
  destruct (step_good IO_MAX IO_MAX_pos p o I V Sf) as (p1 & E & I1 & _ & Bd & _); exists p1.
  split; [exact E | split; [exact I1 | exact (bnd_algn gp _ _ _ _ A (proj1 Al) (proj2 Al) Bd)]].
Qed.
Lemma ok_init : forall g gp, unit_ok g -> port_unit gp -> ok g gp init.
Proof.
  intros g gp (Hg & Hu) (Hp & Hq); constructor; cbn [init mem io chg upd fills].
  - apply inv_create, MEM_MAX_pos.
  - apply algn_create; [lia |]; unfold MEM_MAX; replace (2 ^ 32 - 1 + 1) with (2 ^ 32) by lia; exact Hu.
  - apply inv_create, IO_MAX_pos.
  - apply algn_create; [lia |]; exact Hq.
  - constructor.
  - constructor.
  - trivial.
  - constructor.
Qed.
Lemma fill_trans : forall (m m' : aspace) l, outline m' = outline m -> Forall (fun x => outline x = outline m) l -> Forall (fun x => outline x = outline m') l.
Proof. intros m m' l E H; eapply Forall_impl; [| exact H]; intros x Hx; cbn in *; congruence. Qed.
Lemma serve_ok : forall g gp s, unit_ok g -> ok g gp s -> exists s', serve s = Some s' /\ ok g gp s'.
Proof.
  intros g gp s (Hg & _) [K1 K2 K3 K4 K5 K6 _ K8]; unfold serve.
  destruct (negb (i_reg s || i_hnd s || i_a20 s)); [exists s; split; [reflexivity | constructor; auto] |].
  assert (U : exists m p, (if i_hnd s then updates (mem s) (io s) (upd s) else Some (mem s, io s)) = Some (m, p) /\ inv MEM_MAX m /\ inv IO_MAX p /\
    algn g (nodes m) /\ algn gp (nodes p) /\ outline m = outline (mem s)).
  { destruct (i_hnd s); [| exists (mem s), (io s); repeat (split; [first [reflexivity | assumption] |]); reflexivity].
    destruct (updates_spec (upd s) (mem s) (io s) K1 K3 K6) as (m & p & E & J1 & J2 & J3 & J4 & J5 & _).
    exists m, p; split; [exact E |]; split; [exact J1 |]; split; [exact J2 |]; split; [exact (J3 g K2) |]; split; [exact (J4 gp K4) | exact J5]. }
  destruct U as (m & p & E & J1 & J2 & J3 & J4 & J5); rewrite E.
  destruct (run_ops g (chg s) m Hg J1 J3 K5) as (m' & Em & I' & A'); rewrite Em.
  assert (Kus : Forall (fun u => 0 <= c_start u < 2 ^ 32) (if i_hnd s then [] else upd s)) by (destruct (i_hnd s); [constructor | exact K6]).
  destruct (i_a20 s), (i_reg s); eexists; (split; [reflexivity |]); constructor; cbn [mem io chg upd fills]; auto.
  exact (fill_trans (mem s) m _ J5 K8).
Qed.
Lemma step_ok : forall g gp s e, unit_ok g -> port_unit gp -> ok g gp s -> ev_ok g gp e -> exists s' b, step s e = Some (s', b) /\ ok g gp s'.
Proof.
  intros g gp s e Hu (Hp & Hq) K He; pose proof K as [K1 K2 K3 K4 K5 K6 K7 K8]; destruct e as [c later | a n h o | a n | k later u | | | | ]; cbn [step ev_ok] in *.
  - assert (Hd : call_op (mem s) c <> None).
    { destruct c; cbn [call_op]; try discriminate; intro E.
      destruct (alias_region (mem s) alias_start ori_start ori_size) eqn:E2; [discriminate |].
      revert E2; apply alias_region_defined; [exact K1 | apply He]. }
    destruct (call_op (mem s) c) as [[o |] |] eqn:E; [| destruct later; exists s, false; split; auto | congruence].
    destruct (call_op_spec g (mem s) c o Hu He E) as (V & Al & _).
    destruct later.
    + eexists; eexists; split; [reflexivity |]; constructor; cbn [mem io chg upd fills]; auto; apply Forall_app; split; [exact K5 | constructor; [split; assumption | constructor]].
    + destruct (run_ops g [o] (mem s) (proj1 Hu) K1 K2 ltac:(constructor; [split; assumption | constructor])) as (m & Em & I' & A').
      cbn [as_run] in Em; destruct (as_step MEM_MAX (mem s) o) as [m1 |]; [| discriminate]; assert (m1 = m) by congruence; subst m1.
      eexists; eexists; split; [reflexivity |]; constructor; cbn [mem io chg upd fills]; auto.
  - destruct He as (Ha & Hn & Hs & Hma & Hmn); unfold pmio_region.
    replace (n =? 0) with false by lia; replace (65535 <? a) with false by lia; replace ((a + n) mod U64) with (a + n) by (symmetry; apply Z.mod_small; unfold U64; lia).
    replace (65536 <? a + n) with false by lia; cbn [orb].
    assert (Ea : a mod 2 ^ 16 = a) by (apply Z.mod_small; lia).
    assert (El : last_addr IO_MAX a n = a + n - 1) by (unfold last_addr, IO_MAX; rewrite Z.mod_small by (unfold U64; lia); lia).
    rewrite Ea, El, (Z.mod_small (a + n - 1)) by lia; set (r := mk_region a (a + n - 1) _).
    destruct (port_op gp (io s) (OpInsert r) Hp K3 K4) as (p & E & I' & A').
    + unfold valid_op, r, IO_MAX; cbn; repeat split; try lia; discriminate.
    + unfold aligned_op, r; cbn [op_start op_end r_start r_end]; split; [exact Hma |]; replace (a + n - 1 + 1) with (a + n) by lia; rewrite Z.add_mod, Hma, Hmn by lia; apply Z.mod_0_l; lia.
    + cbn [as_step] in E; rewrite E; eexists; eexists; split; [reflexivity |]; constructor; cbn [mem io chg upd fills]; auto.
  - destruct He as (Ha & Hn & Hs & Hma & Hmn); unfold destroy_io_range; cbn [fst snd].
    assert (Ea : a mod 2 ^ 16 = a) by (apply Z.mod_small; lia); rewrite Ea.
    assert (El : last_addr IO_MAX a n = a + n - 1) by (unfold last_addr, IO_MAX; rewrite Z.mod_small by (unfold U64; lia); lia); rewrite El.
    destruct (port_op gp (io s) (OpErase a (a + n - 1)) Hp K3 K4) as (p & E & I' & A').
    + unfold valid_op, IO_MAX; cbn; repeat split; lia.
    + unfold aligned_op; cbn [op_start op_end]; split; [exact Hma |]; replace (a + n - 1 + 1) with (a + n) by lia; rewrite Z.add_mod, Hma, Hmn by lia; apply Z.mod_0_l; lia.
    + cbn [as_step] in E; rewrite E; eexists; eexists; split; [reflexivity |]; constructor; cbn [mem io chg upd fills]; auto.
  - assert (Ku : Forall (fun u => 0 <= c_start u < 2 ^ 32) (upd s ++ [u])) by (apply Forall_app; split; [exact K6 | constructor; [exact He | constructor]]).
    destruct later; cbn [negb]; [| exists s, false; split; auto].
    destruct (k =? 1); [eexists; eexists; split; [reflexivity |]; constructor; cbn [mem io chg upd fills]; auto |].
    destruct (k =? 2); [eexists; eexists; split; [reflexivity |]; constructor; cbn [mem io chg upd fills]; auto |].
    destruct (k =? 3); [eexists; eexists; split; [reflexivity |]; constructor; cbn [mem io chg upd fills]; auto | exists s, false; split; auto].
  - eexists; eexists; split; [reflexivity |]; constructor; cbn [mem io chg upd fills]; auto.
  - destruct (serve_ok g gp s Hu K) as (s' & E & K'); rewrite E; exists s', true; split; auto.
  - eexists; eexists; split; [reflexivity |]; constructor; cbn [mem io chg upd fills]; auto.
  - eexists; eexists; split; [reflexivity |]; constructor; cbn [mem io chg upd fills]; auto.
Qed.
Lemma run_ok : forall g gp l s, unit_ok g -> port_unit gp -> ok g gp s -> Forall (ev_ok g gp) l -> exists s' bs, run s l = Some (s', bs) /\ ok g gp s'.
Proof.
  intros g gp l; induction l as [| e l IH]; intros s Hu Hp K H; cbn [run]; [exists s, []; auto |].
  inversion_clear H as [| ? ? He Hl]; destruct (step_ok g gp s e Hu Hp K He) as (s1 & b & E & K1); rewrite E.
  destruct (IH s1 Hu Hp K1 Hl) as (s2 & bs & E2 & K2); rewrite E2; exists s2, (b :: bs); auto.
Qed.

(** ** Calls that take effect later *)
Lemma as_run_app : forall M a b s, as_run M s (a ++ b) = match as_run M s a with Some s => as_run M s b | None => None end.
Proof. intros M a; induction a as [| o a IH]; intros b s; cbn [app as_run]; [reflexivity |]; destruct (as_step M s o); [apply IH | reflexivity]. Qed.
Definition lazy (w : bool) (s : st) (m : aspace) : Prop := as_run MEM_MAX (mem s) (chg s) = Some m /\ (w = false -> chg s = []) /\ (chg s <> [] -> i_reg s = true) /\ upd s = [].
Lemma op_any : forall c s s', (forall x y z, c <> CallAlias x y z) -> call_op s c = call_op s' c.
Proof. intros c s s' H; destruct c; cbn [call_op]; try reflexivity; destruct (H alias_start ori_start ori_size); reflexivity. Qed.
Lemma lazy_run : forall l w s m s' bs, lazy w s m -> in_turn w l -> run s l = Some (s', bs) -> (forall a, In a [chg s] -> chg s <> [] -> as_run MEM_MAX (mem s) (chg s) <> None) ->
  (forall x, api_run m (calls l) = x -> x <> None) ->
  exists m', api_run m (calls l) = Some (m', statuses l bs) /\ lazy (waits w l) s' m'.
Proof.
  induction l as [| e l IH]; intros w s m s' bs (L1 & L2 & L3 & L4) T R D1 D2; cbn [run] in R.
  - assert (s' = s) by congruence; assert (bs = []) by congruence; subst; exists m; split; [reflexivity | split; [exact L1 | split; [exact L2 | split; [exact L3 | exact L4]]]].
  - destruct (step s e) as [[s1 b] |] eqn:Es; [| discriminate]; destruct (run s1 l) as [[s2 bs2] |] eqn:Er; [| discriminate].
    assert (s2 = s') by congruence; assert (bs = b :: bs2) by congruence; subst s2 bs; clear R.
    assert (KeepD : forall t mm, as_run MEM_MAX (mem t) (chg t) = Some mm -> forall a, In a [chg t] -> chg t <> [] -> as_run MEM_MAX (mem t) (chg t) <> None) by (intros t mm E; intros; rewrite E; discriminate).
    destruct e as [c later | a n h o | a n | k later u | | | | ]; cbn [step calls in_turn waits statuses] in *.
    + assert (Hc : forall x y z, c <> CallAlias x y z) by (intros x y z ->; destruct later; exact T).
      rewrite (op_any c (mem s) m Hc) in Es.
      cbn [api_run] in D2 |- *; unfold api_step in D2 |- *.
      destruct later.
      * assert (T' : in_turn true l) by (destruct c; try exact T; destruct T).
        destruct (call_op m c) as [[o |] |] eqn:Eo; [| | discriminate].
        -- assert (s1 = mkst (mem s) (io s) (chg s ++ [o]) (upd s) true (i_hnd s) (i_a20 s) (fills s)) by congruence; assert (b = true) by congruence; subst s1 b.
           destruct (as_step MEM_MAX m o) as [m1 |] eqn:Em; cbn [option_map] in *; [| destruct (D2 _ eq_refl); reflexivity].
           assert (Lz : lazy true (mkst (mem s) (io s) (chg s ++ [o]) (upd s) true (i_hnd s) (i_a20 s) (fills s)) m1).
           { split; [cbn [mem chg]; rewrite as_run_app, L1; cbn [as_run]; rewrite Em; reflexivity |]; split; [discriminate | split; [reflexivity | exact L4]]. }
           destruct (IH _ _ _ _ _ Lz T' Er (KeepD _ _ (proj1 Lz))) as (m' & Ea & L'); [intros x Hx Hn; apply (D2 _ eq_refl); rewrite Hx, Hn; reflexivity |].
           exists m'; rewrite Ea; split; [reflexivity | destruct c; exact L'].
        -- assert (s1 = s) by congruence; assert (b = false) by congruence; subst s1 b.
           assert (Lz : lazy true s m) by (split; [exact L1 | split; [discriminate | split; [exact L3 | exact L4]]]).
           destruct (IH _ _ _ _ _ Lz T' Er (KeepD _ _ L1)) as (m' & Ea & L'); [intros x Hx Hn; apply (D2 _ eq_refl); rewrite Hx, Hn; reflexivity |].
           exists m'; rewrite Ea; split; [reflexivity | destruct c; exact L'].
      * assert (T' : w = false /\ in_turn w l) by (destruct c; try exact T; destruct T); destruct T' as [-> T'].
        pose proof (L2 eq_refl) as Ec; rewrite Ec in L1; cbn [as_run] in L1; assert (m = mem s) by congruence; subst m.
        destruct (call_op (mem s) c) as [[o |] |] eqn:Eo; [| | discriminate].
        -- destruct (as_step MEM_MAX (mem s) o) as [m1 |] eqn:Em; cbn [option_map] in *; [| discriminate].
           assert (s1 = mkst m1 (io s) (chg s) (upd s) (i_reg s) (i_hnd s) (i_a20 s) []) by congruence; assert (b = true) by congruence; subst s1 b.
           assert (Lz : lazy false (mkst m1 (io s) (chg s) (upd s) (i_reg s) (i_hnd s) (i_a20 s) []) m1).
           { split; [cbn [mem chg]; rewrite Ec; reflexivity |]; split; [intros _; exact Ec | split; [exact L3 | exact L4]]. }
           destruct (IH _ _ _ _ _ Lz T' Er (KeepD _ _ (proj1 Lz))) as (m' & Ea & L'); [intros x Hx Hn; apply (D2 _ eq_refl); rewrite Hx, Hn; reflexivity |].
           exists m'; rewrite Ea; split; [reflexivity | destruct c; exact L'].
        -- assert (s1 = s) by congruence; assert (b = false) by congruence; subst s1 b.
           assert (Lz : lazy false s (mem s)) by (split; [rewrite Ec; reflexivity | split; [intros _; exact Ec | split; [exact L3 | exact L4]]]).
           destruct (IH _ _ _ _ _ Lz T' Er (KeepD _ _ (proj1 Lz))) as (m' & Ea & L'); [intros x Hx Hn; apply (D2 _ eq_refl); rewrite Hx, Hn; reflexivity |].
           exists m'; rewrite Ea; split; [reflexivity | destruct c; exact L'].
    + assert (Lz : lazy w s1 m).
      { destruct (pmio_region a n h o) as [r |]; [destruct (insert IO_MAX (io s) r) as [p |]; [| discriminate] |];
          [assert (s1 = mkst (mem s) p (chg s) (upd s) (i_reg s) (i_hnd s) (i_a20 s) (fills s)) by congruence | assert (s1 = s) by congruence]; subst s1;
          (split; [exact L1 | split; [exact L2 | split; [exact L3 | exact L4]]]). }
      exact (IH _ _ _ _ _ Lz T Er (KeepD _ _ (proj1 Lz)) D2).
    + assert (Lz : lazy w s1 m).
      { destruct (erase IO_MAX (io s) _ _) as [p |]; [| discriminate]; assert (s1 = mkst (mem s) p (chg s) (upd s) (i_reg s) (i_hnd s) (i_a20 s) (fills s)) by congruence; subst s1.
        split; [exact L1 | split; [exact L2 | split; [exact L3 | exact L4]]]. }
      exact (IH _ _ _ _ _ Lz T Er (KeepD _ _ (proj1 Lz)) D2).
    + destruct T.
    + assert (s1 = mkst (mem s) (io s) (chg s) (upd s) (i_reg s) (i_hnd s) true (fills s)) by congruence; subst s1.
      assert (Lz : lazy w (mkst (mem s) (io s) (chg s) (upd s) (i_reg s) (i_hnd s) true (fills s)) m) by (split; [exact L1 | split; [exact L2 | split; [exact L3 | exact L4]]]).
      exact (IH _ _ _ _ _ Lz T Er (KeepD _ _ (proj1 Lz)) D2).
    + assert (Lz : lazy false s1 m).
      { destruct (serve s) as [t |] eqn:Ev; [| discriminate]; assert (t = s1) by congruence; subst t; unfold serve in Ev.
        assert (Eu : (if i_hnd s then updates (mem s) (io s) (upd s) else Some (mem s, io s)) = Some (mem s, io s)) by (rewrite L4; destruct (i_hnd s); reflexivity).
        rewrite Eu in Ev; clear Eu; rewrite L1, L4 in Ev.
        assert (Ech : i_reg s = false -> chg s = []) by (intro F; destruct (chg s); [reflexivity | specialize (L3 ltac:(discriminate)); congruence]).
        destruct (i_reg s) eqn:Ei; cbn [orb negb] in Ev.
        - assert (mem s1 = m /\ chg s1 = [] /\ upd s1 = []) as (E1 & E2 & E3).
          { destruct (i_a20 s); assert (X := f_equal (fun o => match o with Some t => (mem t, chg t, upd t) | None => (m, [], []) end) Ev); cbn [mem chg upd] in X;
              assert (X1 := f_equal (fun y => fst (fst y)) X); assert (X2 := f_equal (fun y => snd (fst y)) X); assert (X3 := f_equal snd X); cbn [fst snd] in *;
              (split; [congruence | split; [congruence |]]); destruct (i_hnd s); congruence. }
          split; [rewrite E1, E2; reflexivity |]; split; [intros _; exact E2 | split; [rewrite E2; congruence | exact E3]].
        - pose proof (Ech eq_refl) as Ec; rewrite Ec in *; cbn [as_run] in L1; assert (m = mem s) by congruence; subst m.
          assert (mem s1 = mem s /\ chg s1 = [] /\ upd s1 = []) as (E1 & E2 & E3).
          { destruct (i_hnd s), (i_a20 s); cbn [orb negb] in Ev;
              (assert (X := f_equal (fun o => match o with Some t => (mem t, chg t, upd t) | None => (mem s, [], []) end) Ev); cbn [mem chg upd] in X;
               assert (X1 := f_equal (fun y => fst (fst y)) X); assert (X2 := f_equal (fun y => snd (fst y)) X); assert (X3 := f_equal snd X); cbn [fst snd] in *;
               split; [congruence | split; congruence]). }
          split; [rewrite E1, E2; reflexivity |]; split; [intros _; exact E2 | split; [rewrite E2; congruence | exact E3]]. }
      exact (IH _ _ _ _ _ Lz T Er (KeepD _ _ (proj1 Lz)) D2).
    + destruct T as [-> T]; assert (s1 = mkst (mem s) (io s) (chg s) (upd s) false false false []) by congruence; subst s1.
      assert (Lz : lazy false (mkst (mem s) (io s) (chg s) (upd s) false false false []) m).
      { split; [exact L1 | split; [exact L2 | split; [cbn [chg i_reg]; rewrite (L2 eq_refl); congruence | exact L4]]]. }
      exact (IH _ _ _ _ _ Lz T Er (KeepD _ _ (proj1 Lz)) D2).
    + assert (s1 = mkst (mem s) (io s) (chg s) (upd s) (i_reg s) (i_hnd s) (i_a20 s) (mem s :: fills s)) by congruence; subst s1.
      assert (Lz : lazy w (mkst (mem s) (io s) (chg s) (upd s) (i_reg s) (i_hnd s) (i_a20 s) (mem s :: fills s)) m) by (split; [exact L1 | split; [exact L2 | split; [exact L3 | exact L4]]]).
      exact (IH _ _ _ _ _ Lz T Er (KeepD _ _ (proj1 Lz)) D2).
Qed.
