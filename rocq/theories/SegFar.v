(** * Proofs about far returns *)

From Coq Require Import ZArith Bool List Lia ZifyBool.
From Verif Require Import SegModel SegSpec SegBits SegProofs.
Import ListNotations.
Local Open Scope Z_scope.

Section Far.
Context (X : memsys).
Notation st := (st X).
Implicit Types s : st.

Lemma ss32_eq s : nz (hfl X s .& HFLG_SS32) = Z.testbit (hfl X s) 3.
Proof. change HFLG_SS32 with (1 << 3). apply nz_fld. lia. Qed.

Lemma pop_inj (v e v' e' : Z) s s' : Ok X _ (v, e) s = Ok X _ (v', e') s' -> v' = v /\ e' = e /\ s' = s.
Proof. intros H. inversion H. now repeat split. Qed.

Lemma upd_inv (f : st -> st) s u s' : upd X f s = Ok X _ u s' -> s' = f s.
Proof. unfold upd. intros H. inversion H. reflexivity. Qed.
Lemma esp_load r sl d s : esp X (load_desc X r sl d s) = esp X s. Proof. now destruct r. Qed.

(** ** Pops *)
Lemma pop_inv n e s v e' s1 k : n = 2 \/ n = 4 -> e mod stack_mod X s n = (esp X s + n * k) mod stack_mod X s n ->
  stack_pop X n e s = Ok X _ (v, e') s1 ->
  exists m, s1 = set_mem X m s /\ rd X (ring X s) 0 n (stack_item X s n k) (mem X s) = (m, MVal v) /\
    e' mod stack_mod X s n = (esp X s + n * (k + 1)) mod stack_mod X s n.
Proof.
  intros Hn E. unfold stack_pop. rewrite ss32_eq. unfold bind, mread, ret. rewrite cpl_mod. unfold stack_item, stack_mod in *.
  destruct Hn as [-> | ->].
  - change (2 =? 4) with false in *. cbn [andb] in *. rewrite andb_false_r in *. cbv zeta. unfold w16, w32. rewrite E.
    destruct (rd X _ _ _ _ _) as [m [v0 | ? ?]] eqn:R; [| discriminate]. intros H. apply pop_inj in H as (-> & -> & ->). exists m.
    split; [reflexivity |]. split; [first [exact R | reflexivity] |]. rewrite Zplus_mod_idemp_l. f_equal. lia.
  - change (4 =? 4) with true in *. cbn [andb] in *. cbv zeta. rewrite andb_true_r in *. destruct (Z.testbit (hfl X s) 3).
    + unfold w32. replace ((e + base (seg X s SS)) mod 2 ^ 32) with (((esp X s + 4 * k) mod 2 ^ 32 + base (seg X s SS)) mod 2 ^ 32)
        by (rewrite <- E, Zplus_mod_idemp_l; reflexivity).
      destruct (rd X _ _ _ _ _) as [m [v0 | ? ?]] eqn:R; [| discriminate]. intros H. apply pop_inj in H as (-> & -> & ->). exists m.
      split; [reflexivity |]. split; [first [exact R | reflexivity] |]. rewrite Z.mod_mod by lia. rewrite <- Zplus_mod_idemp_l, E, Zplus_mod_idemp_l. f_equal. lia.
    + unfold w16, w32. rewrite E.
      destruct (rd X _ _ _ _ _) as [m [v0 | ? ?]] eqn:R; [| discriminate]. intros H. apply pop_inj in H as (-> & -> & ->). exists m.
      split; [reflexivity |]. split; [first [exact R | reflexivity] |].
      pose proof (Z.mod_pos_bound (esp X s + 4 * k) (2 ^ 16) ltac:(lia)).
      rewrite (Z.mod_small (_ + 4)) by lia. rewrite Zplus_mod_idemp_l. f_equal. lia.
Qed.

(** ** The ring after a load *)
Lemma ring_hfl s h : ring X (set_hfl X h s) = h mod 4. Proof. reflexivity. Qed.
Lemma land3 a : a mod 4 = a .& 3. Proof. symmetry. change 3 with (Z.ones 2). now rewrite Z.land_ones by lia. Qed.
Lemma ring_cs sl b l f s : ring X (write_seg_reg X CS sl b l f s) = rpl sl.
Proof.
  unfold write_seg_reg. rewrite ring_hfl, land3. unfold SEG_HIDDEN_DB. rewrite fld1 by lia. rewrite !Z.land_lor_distr_l, <- !Z.land_assoc.
  replace (not32 (HFLG_CS32 .| HFLG_CPL .| zero_bit CS) .& 3) with 0 by reflexivity.
  change (HFLG_CPL .& 3) with 3. rewrite (rpl_eq sl), Z.land_0_r, Z.lor_0_r.
  destruct (Z.testbit f 22), (b =? 0); cbn [Z.land zero_bit Z.shiftl Pos.iter Pos.mul Z.lor Z.sub Z.pow Z.pow_pos Z.opp Z.add Z.pos_sub Pos.pred_double Pos.succ Pos.land];
    change ((2 ^ (22 - 20)) .& 3) with 0; rewrite ?Z.lor_0_l, ?Z.lor_0_r; reflexivity.
Qed.
Lemma ring_other r sl b l f s : r <> CS -> ring X (write_seg_reg X r sl b l f s) = ring X s.
Proof.
  intros Hr. unfold write_seg_reg. destruct r; try reflexivity; try (now destruct Hr);
    rewrite ring_hfl, land3; unfold SEG_HIDDEN_DB; rewrite ?fld1 by lia; rewrite !Z.land_lor_distr_l, <- Z.land_assoc;
    try (change (not32 (zero_bit _) .& 3) with 3); try (change (not32 (HFLG_SS32 .| zero_bit SS) .& 3) with 3);
    rewrite <- (land3 (hfl X s)); destruct (b =? 0); try reflexivity; destruct (Z.testbit f 22); reflexivity.
Qed.
Lemma ring_validate r s : r <> CS -> ring X (validate_seg X r s) = ring X s.
Proof. intros Hr. unfold validate_seg. cbv zeta. destruct (_ && _); [now apply ring_other | reflexivity]. Qed.

Lemma validate_frame r q s : q <> r -> seg X (validate_seg X r s) q = seg X s q.
Proof.
  intros Hq. unfold validate_seg. cbv zeta. destruct (_ && _); [| reflexivity]. unfold write_seg_reg. destruct r, q; try reflexivity; now destruct Hq.
Qed.
Lemma validate_ef r s : ef X (validate_seg X r s) = ef X s.
Proof. unfold validate_seg. cbv zeta. destruct (_ && _); [| reflexivity]. now destruct r. Qed.
Lemma validate_esp r s : esp X (validate_seg X r s) = esp X s.
Proof. unfold validate_seg. cbv zeta. destruct (_ && _); [| reflexivity]. now destruct r. Qed.
Lemma validate_eip r s : eip X (validate_seg X r s) = eip X s.
Proof. unfold validate_seg. cbv zeta. destruct (_ && _); [| reflexivity]. now destruct r. Qed.
Lemma write_ef r a b c d s : ef X (write_seg_reg X r a b c d s) = ef X s. Proof. now destruct r. Qed.

(** the flag field the code takes for the DPL *)
Definition dropped_code (c f : Z) : bool := Z.testbit f 12 && negb (Z.testbit f 11 && Z.testbit f 10) && (f mod 4 <? c).
Lemma validate_val r s : data_reg r ->
  seg X (validate_seg X r s) r = if dropped_code (ring X s) (sflags (seg X s r)) then mkseg 0 0 0 0 else seg X s r.
Proof.
  intros Hr. unfold validate_seg. cbv zeta. set (f := sflags (seg X s r)). unfold dropped_code.
  rewrite nz_fld, !z_fld by lia. change ((3 << 13) >> 13) with 3. rewrite <- land3, cpl_mod.
  replace ((f mod 4 <? ring X s) && (Z.testbit f 12 && (negb (Z.testbit f 11) || negb (Z.testbit f 10))))
    with (Z.testbit f 12 && negb (Z.testbit f 11 && Z.testbit f 10) && (f mod 4 <? ring X s))
    by (destruct (Z.testbit f 12), (Z.testbit f 11), (Z.testbit f 10), (f mod 4 <? ring X s); reflexivity).
  destruct (_ && _); [| reflexivity]. destruct Hr as [-> | [-> | [-> | ->]]]; reflexivity.
Qed.

(** ** The common part of RETF and IRET *)
Definition same_ret (s : st) (cs d ip e1 : Z) (m : M X) s' : Prop :=
  ring X s = rpl cs /\
  s' = load_desc X CS cs d (set_eip X ip (set_esp X
         ((esp X s .& not32 (if Z.testbit (hfl X s) 3 then 0xFFFFFFFF else 0xFFFF)) .| (e1 .& (if Z.testbit (hfl X s) 3 then 0xFFFFFFFF else 0xFFFF))) (set_mem X m s))).
Definition outer_pre (s : st) (cs d ss sd : Z) (m : M X) : st := load_desc X CS cs d (load_desc X SS ss sd (set_mem X m s)).
Definition validated (s : st) : st :=
  validate_seg X GS (validate_seg X FS (validate_seg X ES (validate_seg X DS s))).

Lemma dpl_cmp d cs : nz (d .& SEG_DESC_C) && ((cs .& 3) <? desc_dpl d) = Z.testbit d 42 && (rpl cs <? dpl_of d).
Proof. unfold SEG_DESC_C. rewrite nz_fld by lia. now rewrite rpl_eq, dpl_eq. Qed.

Lemma code_type d : (((d .& SEG_DESC_S) >> 44) .| ((d .& SEG_DESC_DC) >> 42) =? 3) = negb (is_system d) && is_code d.
Proof.
  unfold SEG_DESC_S, SEG_DESC_DC. rewrite !fld1 by lia. unfold is_system, is_code. rewrite negb_involutive.
  destruct (Z.testbit d 44), (Z.testbit d 43); reflexivity.
Qed.

Lemma check_ss_inv ss cs s p s1 : 0 <= ss < 2 ^ 16 -> check_ss_desc_priv X ss (Some cs) s = Ok X _ p s1 ->
  exists m, s1 = set_mem X m s /\ descriptor X s ss m (snd p) /\ is_null ss = false /\ stack_ok (rpl cs) ss (snd p) = true /\ is_present (snd p) = true.
Proof.
  intros Hs. unfold check_ss_desc_priv. rewrite null_eq by lia. destruct (is_null ss); [discriminate |]. intros H.
  apply bind_ok in H as (q & s2 & HD & H). destruct (desc_inv _ _ _ _ _ _ HD) as (m & -> & RD & RR & A).
  cbv zeta in H. destruct q as [a d]. cbn [fst snd] in *. revert H.
  unfold SEG_DESC_S, SEG_DESC_DC, SEG_DESC_W, SEG_DESC_P, SEG_DESC_DPL. rewrite !fld1 by lia.
  change (3 << 45) with (Z.ones 2 << 45). rewrite fieldr by lia. change (d / 2 ^ 45 mod 2 ^ 2) with (dpl_of d).
  rewrite !rpl_eq, z_fld by lia. change (44 - 44) with 0. change (43 - 42) with 1. change (41 - 39) with 2. change (45 - 42) with 3.
  rewrite stack_bits by (try apply dpl_range; apply rpl_range).
  assert (SO : Z.testbit d 44 && negb (Z.testbit d 43) && Z.testbit d 41 && (dpl_of d =? rpl cs) && (rpl ss =? rpl cs) = stack_ok (rpl cs) ss d).
  { unfold stack_ok, is_system, is_code, is_rw. now rewrite negb_involutive. }
  rewrite SO. destruct (stack_ok (rpl cs) ss d) eqn:OK; cbn [negb]; [| discriminate].
  destruct (Z.testbit d 47) eqn:P; cbn [negb]; [| discriminate]. unfold ret. intros [= <- <-]. exists m. cbn [snd].
  split; [reflexivity |]. split; [| now repeat split]. unfold descriptor, index. rewrite A in RD. exact RD.
Qed.

Lemma tail_inv n ip cs e1 s s' u : 0 <= cs < 2 ^ 16 -> lret_tail X n ip cs e1 s = Ok X _ u s' ->
  exists m0 m d, cs_checked X s cs d m0 /\ 0 <= d < 2 ^ 64 /\
    (same_ret s cs d ip e1 m s' \/
     (ring X s < rpl cs /\ exists p1 p2 m1 m2 m3 sd,
        stack_pop X n e1 (set_mem X m0 s) = Ok X _ p1 (set_mem X m1 s) /\
        stack_pop X n (snd p1) (set_mem X m1 s) = Ok X _ p2 (set_mem X m2 s) /\
        let ss := fst p2 mod 2 ^ 16 in
        is_null ss = false /\ descriptor X (set_mem X m2 s) ss m3 sd /\ 0 <= sd < 2 ^ 64 /\ stack_ok (rpl cs) ss sd = true /\ is_present sd = true /\
        exists e', s' = validated (set_eip X ip (set_esp X e' (outer_pre s cs d ss sd m))) /\
          e' = let mask := if is_big sd then 0xFFFFFFFF else 0xFFFF in (esp X s .& not32 mask) .| (fst p1 .& mask))).
Proof.
  intros Hcs. unfold lret_tail. unfold bind at 1, get at 1. rewrite null_eq by lia. destruct (is_null cs) eqn:N; [discriminate |]. intros H.
  apply bind_ok in H as (q & s2 & HD & H). destruct (desc_inv _ _ _ _ _ _ HD) as (m0 & -> & RD & RR & A). destruct q as [a d]. cbn [fst snd] in *.
  cbv zeta in H. rewrite code_type, dpl_cmp in H. rewrite !rpl_eq, cpl_mod in H.
  destruct (negb (is_system d) && is_code d) eqn:T; cbn [negb] in H; [| discriminate]. apply andb_true_iff in T as [T1 T2].
  destruct (rpl cs <? ring X s) eqn:R1; [discriminate |].
  destruct (Z.testbit d 42 && (rpl cs <? dpl_of d)) eqn:R2; [discriminate |].
  unfold SEG_DESC_P in H. rewrite z_fld in H by lia. destruct (Z.testbit d 47) eqn:P; cbn [negb] in H; [| discriminate].
  assert (CC : cs_checked X s cs d m0).
  { split; [exact N |]. split; [unfold descriptor, index; now rewrite <- A |]. split; [now destruct (is_system d) |]. split; [exact T2 |].
    split; [exact P |]. split; [lia |]. unfold is_conforming. intros C. apply andb_true_iff in C as [_ C]. rewrite C in R2. cbn in R2. lia. }
  destruct (ring X s <? rpl cs) eqn:R3.
  - apply bind_ok in H as (p1 & s2 & P1 & H). apply bind_ok in H as (p2 & s3 & P2 & H).
    pose proof (memonly_ok _ _ _ _ _ P1 (memonly_pop _ _ _ _)) as [m1 ->].
    pose proof (memonly_ok _ _ _ _ _ P2 (memonly_pop _ _ _ _)) as [m2 ->].
    apply bind_ok in H as (sq & s4 & P3 & H). unfold w16 in *.
    destruct (check_ss_inv (fst p2 mod 2 ^ 16) _ _ _ _ ltac:(apply Z.mod_pos_bound; lia) P3) as (m3 & -> & D & N2 & SO & PR).
    apply bind_ok in H as (u1 & s5 & P4 & H). pose proof (memonly_ok _ _ _ _ _ P4 (memonly_access _ _ _ _)) as [m4 ->].
    apply bind_ok in H as (u2 & s6 & P5 & H). pose proof (memonly_ok _ _ _ _ _ P5 (memonly_access _ _ _ _)) as [m5 ->].
    exists m0, m5, d. split; [exact CC |]. split; [exact RR |]. right. split; [lia |].
    exists p1, p2, m1, m2, m3, (snd sq). split; [exact P1 |]. split; [exact P2 |]. cbv zeta. split; [exact N2 |]. split; [exact D |].
    pose proof (read_range _ _ _ _ _ D) as SR. split; [exact SR |]. split; [exact SO |]. split; [exact PR |].
    change (set_mem X m5 (set_mem X m4 (set_mem X m3 (set_mem X m2 (set_mem X m1 (set_mem X m0 s)))))) with (set_mem X m5 s) in H.
    apply upd_inv in H. cbv beta in H.
    assert (BIG : nz (sflags (seg X (load_desc X CS cs d (load_desc X SS (fst p2 mod 2 ^ 16) (snd sq) (set_mem X m5 s))) SS) .& SEG_HIDDEN_DB) = is_big (snd sq)).
    { rewrite load_other by discriminate. rewrite decode_eq by exact SR. cbn [decode sflags]. unfold SEG_HIDDEN_DB. rewrite nz_fld by lia.
      unfold is_big. rewrite <- Z.shiftr_div_pow2 by lia. now rewrite Z.shiftr_spec by lia. }
    rewrite BIG in H. rewrite !esp_load in H. eexists. split; [exact H | reflexivity].
  - apply bind_ok in H as (u1 & s5 & P4 & H). pose proof (memonly_ok _ _ _ _ _ P4 (memonly_access _ _ _ _)) as [m4 ->].
    exists m0, m4, d. split; [exact CC |]. split; [exact RR |]. left. split; [lia |]. change (set_mem X m4 (set_mem X m0 s)) with (set_mem X m4 s) in H. apply upd_inv in H. cbv beta in H.
    rewrite ss32_eq in H. exact H.
Qed.

Lemma validated_val r t : data_reg r ->
  seg X (validated t) r = if dropped_code (ring X t) (sflags (seg X t r)) then mkseg 0 0 0 0 else seg X t r.
Proof.
  intros Hr. unfold validated. destruct Hr as [-> | [-> | [-> | ->]]].
  - rewrite !validate_frame by discriminate. now rewrite validate_val by (unfold data_reg; auto).
  - do 2 rewrite validate_frame by discriminate. rewrite validate_val by (unfold data_reg; auto). rewrite ring_validate by discriminate.
    now rewrite !validate_frame by discriminate.
  - rewrite validate_frame by discriminate. rewrite validate_val by (unfold data_reg; auto). rewrite !ring_validate by discriminate.
    now rewrite !validate_frame by discriminate.
  - rewrite validate_val by (unfold data_reg; auto). rewrite !ring_validate by discriminate.
    now rewrite !validate_frame by discriminate.
Qed.
Lemma validated_ring t : ring X (validated t) = ring X t.
Proof. unfold validated. now rewrite !ring_validate by discriminate. Qed.
Lemma outer_seg s cs d ss sd m ip e r : data_reg r -> seg X (set_eip X ip (set_esp X e (outer_pre s cs d ss sd m))) r = seg X s r.
Proof.
  intros Hr. change (seg X (outer_pre s cs d ss sd m) r = seg X s r). unfold outer_pre.
  rewrite !load_other by (destruct Hr as [-> | [-> | [-> | ->]]]; discriminate). reflexivity.
Qed.
Lemma tail_segs n ip cs e1 s s' u r : 0 <= cs < 2 ^ 16 -> data_reg r -> lret_tail X n ip cs e1 s = Ok X _ u s' ->
  ring X s' = ring X s \/
  seg X s' r = if dropped_code (ring X s') (sflags (seg X s r)) then mkseg 0 0 0 0 else seg X s r.
Proof.
  intros Hcs Hr H. destruct (tail_inv _ _ _ _ _ _ _ Hcs H) as (mm & m & d & CC & RR & [[EQ ->] | (_ & q1 & q2 & m3 & m4 & m5 & sd & _ & _ & _ & _ & SR & _ & _ & e' & -> & _)]).
  - left. rewrite EQ. apply ring_cs.
  - right. rewrite validated_val, validated_ring, outer_seg by exact Hr. reflexivity.
Qed.

End Far.
