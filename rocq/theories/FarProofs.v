(** * Proofs about the frame a far CALL leaves *)

From Coq Require Import ZArith Bool List Lia ZifyBool.
From Verif Require Import SegModel SegSpec SegBits SegProofs SegFar SegRet SegCall ExcSpec ExcDel FarSpec.
Import ListNotations.
Local Open Scope Z_scope.

Section Far.
Context (X : memsys).
Notation st := (st X).
Implicit Types s : st.

Lemma seg_mem m s : seg X (set_mem X m s) = seg X s. Proof. reflexivity. Qed.
Lemma mem_mem m s : mem X (set_mem X m s) = m. Proof. reflexivity. Qed.
Lemma seg_fin e i s : seg X (set_eip X i (set_esp X e s)) = seg X s. Proof. reflexivity. Qed.
Lemma mem_fin e i s : mem X (set_eip X i (set_esp X e s)) = mem X s. Proof. reflexivity. Qed.
Lemma esp_fin e i s : esp X (set_eip X i (set_esp X e s)) = e. Proof. reflexivity. Qed.
Lemma mem_load r sl d s : mem X (load_desc X r sl d s) = mem X s. Proof. now destruct r. Qed.
Lemma hfl_fin e i s : hfl X (set_eip X i (set_esp X e s)) = hfl X s. Proof. reflexivity. Qed.
Lemma hfl_mem m s : hfl X (set_mem X m s) = hfl X s. Proof. reflexivity. Qed.
Lemma hfl_set h s : hfl X (set_hfl X h s) = h. Proof. reflexivity. Qed.
Lemma hfl3_cs sl d s : Z.testbit (hfl X (load_desc X CS sl d s)) 3 = Z.testbit (hfl X s) 3.
Proof.
  unfold load_desc, write_seg_reg. rewrite hfl_set. rewrite !Z.lor_spec, !Z.land_spec, Z.shiftr_spec, Z.land_spec by lia.
  change (Z.testbit SEG_HIDDEN_DB (3 + 20)) with false. change (Z.testbit HFLG_CPL 3) with false.
  change (Z.testbit (not32 (HFLG_CS32 .| HFLG_CPL .| zero_bit CS)) 3) with true.
  replace (Z.testbit (if desc_base d =? 0 then zero_bit CS else 0) 3) with false by (destruct (desc_base d =? 0); reflexivity).
  rewrite !andb_false_r, andb_true_r. reflexivity.
Qed.
(** ** One push *)
Lemma ipush_inv n p big b v e0 e s r s1 : e0 mod 2 ^ 32 = e mod 2 ^ 32 -> ipush X n p (mask_of big) b v e0 s = Ok X _ r s1 ->
  exists m, s1 = set_mem X m s /\ wr X (ring X s) p n ((b + (e - n) mod stack_width big) mod 2 ^ 32) (v mod 2 ^ (8 * n)) (mem X s) = (m, None) /\
    r mod 2 ^ 32 = (e - n) mod 2 ^ 32.
Proof.
  intros E H. assert (HH : ipushes X n p (mask_of big) b [v] e0 s = Ok X _ r s1) by (cbn [ipushes]; unfold bind; rewrite H; reflexivity).
  destruct (pushes_inv X n p big b [v] e0 e s r s1 E HH) as (m & -> & (m1 & W & ->) & R). exists m1. split; [reflexivity |]. split; [exact W |].
  rewrite R. cbn [length]. f_equal. lia.
Qed.

Lemma push_inv n v e0 e s r s1 : n = 2 \/ n = 4 -> (Z.testbit (hfl X s) 3 = true -> n = 4) ->
  e0 mod own_width X s = e mod own_width X s -> stack_push X v n e0 s = Ok X _ r s1 ->
  exists m, s1 = set_mem X m s /\
    wr X (ring X s) 0 n ((base (seg X s SS) + (e - n) mod own_width X s) mod 2 ^ 32) (v mod 2 ^ (8 * n)) (mem X s) = (m, None) /\
    r mod own_width X s = (e - n) mod own_width X s.
Proof.
  intros Hn Hb E. unfold stack_push. rewrite ss32_eq. unfold own_width, stack_width in *.
  assert (W0 : 0 < (if Z.testbit (hfl X s) 3 then 2 ^ 32 else 2 ^ 16)) by (destruct (Z.testbit (hfl X s) 3); lia).
  assert (E1 : (e0 - n) mod (if Z.testbit (hfl X s) 3 then 2 ^ 32 else 2 ^ 16) = (e - n) mod (if Z.testbit (hfl X s) 3 then 2 ^ 32 else 2 ^ 16))
    by (rewrite Zminus_mod, E, <- Zminus_mod; reflexivity).
  assert (G : forall w q, q = (e0 - n) mod w -> w = (if Z.testbit (hfl X s) 3 then 2 ^ 32 else 2 ^ 16) ->
     bind X (mwrite X n 0 (q + base (seg X s SS)) v) (fun _ => ret X q) s = Ok X _ r s1 ->
     exists m, s1 = set_mem X m s /\
       wr X (ring X s) 0 n ((base (seg X s SS) + (e - n) mod (if Z.testbit (hfl X s) 3 then 2 ^ 32 else 2 ^ 16)) mod 2 ^ 32) (v mod 2 ^ (8 * n)) (mem X s) = (m, None) /\
       r mod (if Z.testbit (hfl X s) 3 then 2 ^ 32 else 2 ^ 16) = (e - n) mod (if Z.testbit (hfl X s) 3 then 2 ^ 32 else 2 ^ 16)).
  { intros w q Q Hw H. apply bind_ok in H as (u & s2 & H1 & H). apply ret_inv in H as [<- <-].
    destruct (write_inv _ _ _ _ _ _ _ _ H1) as (m & -> & WW). exists m. split; [reflexivity |]. rewrite Q, Hw, E1 in *. split.
    - rewrite <- WW. now rewrite Z.add_comm.
    - apply Z.mod_mod. lia. }
  destruct Hn as [-> | ->].
  - change (2 =? 4) with false. cbv iota zeta. destruct (Z.testbit (hfl X s) 3) eqn:B; [specialize (Hb eq_refl); lia |].
    apply (G (2 ^ 16)); reflexivity.
  - change (4 =? 4) with true. cbv iota zeta. destruct (Z.testbit (hfl X s) 3) eqn:B; [apply (G (2 ^ 32)) | apply (G (2 ^ 16))]; reflexivity.
Qed.

(** ** The parameters *)
Lemma copied_mem x s n w b k : forall e m m', copied X (set_mem X x s) n w b k e m m' -> copied X s n w b k e m m'.
Proof.
  induction k as [| k IH]; intros e m m' H; [exact H |]. destruct H as (m1 & v & m2 & R & W & C). exists m1, v, m2.
  split; [exact R |]. split; [exact W |]. now apply IH.
Qed.
Lemma copy_inv n big b k : forall e0 e s r s1, n = 2 \/ n = 4 -> (k = O \/ Z.testbit (hfl X s) 3 = big) -> e0 mod 2 ^ 32 = e mod 2 ^ 32 ->
  copy_params X k n (mask_of big) b e0 s = Ok X _ r s1 ->
  exists m, s1 = set_mem X m s /\ copied X s n (stack_width big) b k e (mem X s) m /\ r mod 2 ^ 32 = (e - n * Z.of_nat k) mod 2 ^ 32.
Proof.
  induction k as [| k IH]; intros e0 e s r s1 Hn Hb E H; cbn [copy_params] in H.
  - apply ret_inv in H as [<- <-]. exists (mem X s). split; [symmetry; apply set_mem_id |]. split; [reflexivity |]. rewrite E. f_equal. lia.
  - destruct Hb as [Hb | Hb]; [discriminate |]. unfold bind at 1, get in H. apply bind_ok in H as (v & s2 & R1 & H).
    destruct (read_inv _ _ _ _ _ _ _ R1) as (m1 & -> & RD & RV). apply bind_ok in H as (e1 & s3 & P & H).
    destruct (ipush_inv _ _ _ _ _ _ _ _ _ _ E P) as (m2 & -> & W & E1).
    change (set_mem X m2 (set_mem X m1 s)) with (set_mem X m2 s) in H.
    assert (Hb2 : k = O \/ Z.testbit (hfl X (set_mem X m2 s)) 3 = big) by (right; exact Hb).
    destruct (IH _ _ _ _ _ Hn Hb2 E1 H) as (m3 & -> & C & R).
    exists m3. split; [reflexivity |]. split.
    + cbn [copied]. exists m1, v, m2. split.
      { rewrite <- RD. f_equal. unfold caller_item, own_width. rewrite Hb. rewrite mask_mod. unfold w32. rewrite width_mod. f_equal. f_equal. f_equal. lia. }
      split; [| exact (copied_mem _ _ _ _ _ _ _ _ _ C)]. change (ring X (set_mem X m1 s)) with (ring X s) in W. cbn [mem set_mem] in W. now rewrite (Z.mod_small v) in W by exact RV.
    + rewrite R. f_equal. lia.
Qed.
Lemma params_eq g : Z.to_nat ((g >> 32) .& 0x1F) = call_params g.
Proof. unfold call_params. change 0x1F with (Z.ones 5). rewrite Z.land_ones by lia. now rewrite Z.shiftr_div_pow2 by lia. Qed.
Lemma size_of g : gate_ok 0 0 g = true \/ type_of g = 4 \/ type_of g = 12 ->
  (if nz ((g .& SEG_DESC_TY) >> 40 >> 3) then 4 else 2) = call_size g.
Proof.
  rewrite type_eq. intros H. assert (T : type_of g = 4 \/ type_of g = 12).
  { destruct H as [H | H]; [| exact H]. unfold gate_ok in H. rewrite !andb_true_iff, orb_true_iff, !Z.eqb_eq in H. tauto. }
  unfold call_size. destruct T as [-> | ->]; reflexivity.
Qed.

Lemma off2 e n : e - 2 * n = e - n - n. Proof. lia. Qed.
Lemma off_args e n k : e - n * (2 + k) = e - n - n - n * k. Proof. lia. Qed.
Lemma off_all e n k : e - n - n - n * k - n - n = e - n * (4 + k). Proof. lia. Qed.
(** ** Direct calls *)
Lemma direct_frame sl call n ret0 s s' u m d : n = 2 \/ n = 4 -> (Z.testbit (hfl X s) 3 = true -> n = 4) -> 0 <= sl < 2 ^ 16 ->
  lcall_pe X sl call n ret0 s = Ok X _ u s' -> descriptor X s sl m d -> is_system d = false ->
  exists m1, pushed X (ring X s) 0 n (own_width X s) (base (seg X s SS)) [sel (seg X s CS); ret0] (esp X s) m m1 /\
    accessed X (ring X s) d (desc_addr X s sl) m1 (mem X s') /\ esp X s' mod own_width X s = (esp X s - 2 * n) mod own_width X s /\
    Z.testbit (hfl X s') 3 = Z.testbit (hfl X s) 3 /\ 0 <= esp X s' < 2 ^ 32.
Proof.
  intros Hn Hb Hs H D SY. unfold lcall_pe in H. unfold bind at 1, get at 1 in H. cbv zeta in H. rewrite null_eq in H by lia. destruct (is_null sl) eqn:N; [discriminate |].
  apply bind_ok in H as ([a d'] & s1 & HD & H). destruct (desc_inv _ _ _ _ _ _ HD) as (m' & -> & RD & RR & A). cbn [fst snd] in *.
  assert (DS1 : descriptor X s sl m' d') by (unfold descriptor, index; rewrite <- A; exact RD).
  unfold descriptor in D, DS1. rewrite D in DS1. injection DS1 as <- <-.
  rewrite cpl_mod in H.
  assert (S : nz (d .& SEG_DESC_S) = true) by (unfold SEG_DESC_S; rewrite nz_fld by lia; unfold is_system in SY; now apply negb_false_iff in SY).
  rewrite S in H. destruct (d .& SEG_DESC_DC =? 0) eqn:C; [discriminate |].
  destruct (if nz (d .& SEG_DESC_C) then _ else _) eqn:Q in H; [discriminate |].
  destruct (d .& SEG_DESC_P =? 0) eqn:P; [discriminate |].
  apply bind_ok in H as (e1 & s2 & P2 & H).
  destruct (push_inv n _ _ (esp X s) (set_mem X m s) _ _ Hn Hb eq_refl P2) as (m2 & -> & W2 & E2).
  apply bind_ok in H as (e2 & s2 & P3 & H).
  assert (Hb2 : Z.testbit (hfl X (set_mem X m2 (set_mem X m s))) 3 = true -> n = 4) by exact Hb.
  destruct (push_inv n _ _ (esp X s - n) (set_mem X m2 (set_mem X m s)) _ _ Hn Hb2 E2 P3) as (m3 & -> & W3 & E3).
  apply bind_ok in H as (u1 & s2 & P4 & H). destruct (access_inv _ _ _ _ _ _ RR P4) as (m4 & -> & A4).
  apply upd_inv in H. subst s'. exists m3. split.
  { cbn [pushed]. exists m2. split; [exact W2 |]. exists m3. split; [exact W3 | reflexivity]. }
  split. { rewrite mem_fin, mem_load, mem_mem. rewrite A in A4. exact A4. }
  rewrite esp_fin. change (own_width X (set_mem X m2 (set_mem X m s))) with (own_width X s) in E3. split; [rewrite E3; f_equal; lia |].
  split; [rewrite hfl_fin, hfl3_cs; reflexivity |].
  unfold stack_push in P3. destruct (n =? 4); [destruct (nz _) in P3 |];
    (apply bind_ok in P3 as (u5 & s5 & P5 & P3); apply ret_inv in P3 as [<- _]; unfold w32, w16;
     match goal with |- 0 <= ?a mod ?b < _ => pose proof (Z.mod_pos_bound a b ltac:(lia)); lia end).
Qed.

(** ** Calls through a gate *)
Lemma gate_frame sl call n0 ret0 s s' u m g m1 c : 0 <= sl < 2 ^ 16 -> lcall_pe X sl call n0 ret0 s = Ok X _ u s' ->
  descriptor X s sl m g -> is_system g = true -> descriptor X (set_mem X m s) (gate_sel g) m1 c ->
  let n := call_size g in
  if negb (is_conforming c) && (dpl_of c <? ring X s) then
    exists m2 m3 e ss sd, tss_stack X s 0 (dpl_of c) m1 m2 e ss /\ is_null ss = false /\ descriptor X (set_mem X m2 s) ss m3 sd /\
      stack_ok (dpl_of c) ss sd = true /\ is_present sd = true /\ seg X s' SS = decode ss sd /\
      let w := stack_width (is_big sd) in
      (call_params g = O \/ w = own_width X s ->
       exists m4 m5 m6 m7, pushed X (ring X s) 2 n w (base_of sd) [sel (seg X s SS); esp X s] e m3 m4 /\
         copied X s n w (base_of sd) (call_params g) (e - 2 * n) m4 m5 /\
         pushed X (ring X s) 2 n w (base_of sd) [sel (seg X s CS); ret0] (e - n * (2 + Z.of_nat (call_params g))) m5 m6 /\
         accessed X (ring X s) sd (desc_addr X s ss) m6 m7 /\
         accessed X (ring X s) c (desc_addr X s (gate_sel g)) m7 (mem X s') /\
         esp X s' mod w = (e - n * (4 + Z.of_nat (call_params g))) mod w)
  else
    exists m2, pushed X (ring X s) 0 n (own_width X s) (base (seg X s SS)) [sel (seg X s CS); ret0] (esp X s) m1 m2 /\
      accessed X (ring X s) c (desc_addr X s (gate_sel g)) m2 (mem X s') /\
      esp X s' mod own_width X s = (esp X s - 2 * n) mod own_width X s.
Proof.
  intros Hs H D SY DC n. unfold lcall_pe in H. unfold bind at 1, get at 1 in H. cbv zeta in H. rewrite null_eq in H by lia. destruct (is_null sl) eqn:N; [discriminate |].
  apply bind_ok in H as ([a d'] & s1 & HD & H). destruct (desc_inv _ _ _ _ _ _ HD) as (m' & -> & RD & RR & A). cbn [fst snd] in *.
  assert (DS1 : descriptor X s sl m' d') by (unfold descriptor, index; rewrite <- A; exact RD).
  unfold descriptor in D, DS1. rewrite D in DS1. injection DS1 as <- <-.
  rewrite cpl_mod in H.
  assert (S : nz (g .& SEG_DESC_S) = false) by (unfold SEG_DESC_S; rewrite nz_fld by lia; unfold is_system in SY; now apply negb_true_iff in SY).
  rewrite S in H. destruct (_ || _ || _) eqn:TSS in H; [discriminate |]. destruct (negb _) eqn:TY in H; [discriminate |].
  destruct ((desc_dpl g <? _) || _) eqn:Q in H; [discriminate |]. destruct (g .& SEG_DESC_P =? 0) eqn:P; [discriminate |].
  assert (SZ : (if nz ((g .& SEG_DESC_TY) >> 40 >> 3) then 4 else 2) = n).
  { apply size_of. right. rewrite type_eq in TY. lia. }
  assert (Hn : n = 2 \/ n = 4) by (subst n; unfold call_size; destruct (type_of g =? 12); auto).
  rewrite SZ, params_eq in H. clear SZ. clearbody n.
  rewrite gate_sel_eq in H. pose proof (gate_sel_range g) as GR.
  rewrite null_eq in H by lia. destruct (is_null (gate_sel g)) eqn:N2; [discriminate |].
  apply bind_ok in H as ([a2 c'] & s2 & HC & H). destruct (desc_inv _ _ _ _ _ _ HC) as (m2 & -> & RC & RRC & A2). cbn [fst snd] in *.
  assert (DS2 : descriptor X (set_mem X m s) (gate_sel g) m2 c') by (unfold descriptor, index; rewrite <- A2; exact RC).
  unfold descriptor in DC, DS2. rewrite DC in DS2. injection DS2 as <- <-.
  rewrite code_type2 in H. destruct (negb (negb (is_system c) && is_code c) || _) eqn:QC in H; [discriminate |].
  destruct (c .& SEG_DESC_P =? 0) eqn:PC; [discriminate |]. rewrite dpl_eq in *.
  assert (IC : is_code c = true) by (destruct (is_code c); [reflexivity |]; now rewrite andb_false_r in QC).
  replace (c .& SEG_DESC_C =? 0) with (negb (is_conforming c)) in H by (rewrite <- (conf_bit _ IC); unfold nz; now rewrite negb_involutive).
  pose proof (dpl_range c) as DR.
  change (set_mem X m1 (set_mem X m s)) with (set_mem X m1 s) in H.
  apply bind_ok in H as (e & s3 & H1 & H).
  destruct (negb (is_conforming c) && (dpl_of c <? ring X s)) eqn:BR.
  - apply bind_ok in H1 as ([e0 ss] & s4 & T1 & H1). destruct (tss_inv _ _ _ _ _ _ _ DR T1) as (m4 & -> & TS & SSR). cbn [fst snd] in *.
    rewrite (null_eq ss (proj1 SSR)) in H1. destruct (is_null ss) eqn:N3; [discriminate |].
    apply bind_ok in H1 as ([a3 sd] & s5 & HS & H1). destruct (desc_inv _ _ _ _ _ _ HS) as (m5 & -> & RS & RRS & A3). cbn [fst snd] in *.
    rewrite ss_checks in H1 by exact DR. destruct (stack_ok (dpl_of c) ss sd) eqn:SO; cbn [negb] in H1; [| discriminate].
    destruct (sd .& SEG_DESC_P =? 0) eqn:PS; [discriminate |].
    rewrite big_eq in H1. change (if is_big sd then 4294967295 else 65535) with (mask_of (is_big sd)) in H1.
    rewrite (base_eq sd) in H1.
    change (set_mem X m5 (set_mem X m4 (set_mem X m1 s))) with (set_mem X m5 s) in *.
    apply bind_ok in H1 as (e1 & s5 & P1 & H1). destruct (ipush_inv _ _ _ _ _ _ e0 _ _ _ eq_refl P1) as (m6 & -> & W1 & E1).
    apply bind_ok in H1 as (e2 & s5 & P2 & H1). destruct (ipush_inv _ _ _ _ _ _ (e0 - n) _ _ _ E1 P2) as (m7 & -> & W2 & E2).
    apply bind_ok in H1 as (e3 & s5 & P3 & H1). destruct (memonly_ok _ _ _ _ _ P3 (memonly_copy _ _ _ _ _ _ _)) as [m8 ->].
    apply bind_ok in H1 as (e4 & s5 & P4 & H1). pose proof (memonly_ok _ _ _ _ _ P4 (memonly_ipush _ _ _ _ _ _ _ _)) as [m9 ->].
    apply bind_ok in H1 as (e5 & s5 & P5 & H1). pose proof (memonly_ok _ _ _ _ _ P5 (memonly_ipush _ _ _ _ _ _ _ _)) as [m10 ->].
    apply bind_ok in H1 as (u5 & s5 & P6 & H1). destruct (access_inv _ _ _ _ _ _ RRS P6) as (m11 & -> & A6).
    apply bind_ok in H1 as (u6 & s5 & P7 & H1). apply upd_inv in P7 as ->. apply ret_inv in H1 as [-> <-].
    rewrite (sel_id _ _ _ SSR DR SO) in H.
    apply bind_ok in H as (u7 & s6 & P8 & H).
    assert (SSL : forall q, seg X (load_desc X SS ss sd q) SS = decode ss sd) by (intros q; now apply (decode_eq SS)).
    destruct (access_inv _ _ _ _ _ _ RRC P8) as (m12 & -> & A8). apply upd_inv in H.
    exists m4, m5, e0, ss, sd. split; [exact TS |]. split; [exact N3 |]. split. { unfold descriptor, index. rewrite A3 in RS. exact RS. }
    split; [exact SO |]. split; [exact (present_eq _ PS) |]. split.
    { rewrite H. assert (SC0 : SS <> CS) by discriminate. rewrite seg_fin, (load_other CS SS _ _ X _ SC0), seg_mem. apply SSL. }
    cbv zeta. set (w := stack_width (is_big sd)). intros HW. assert (HB : call_params g = O \/ Z.testbit (hfl X (set_mem X m7 (set_mem X m6 (set_mem X m5 s)))) 3 = is_big sd).
    { destruct HW as [HW | HW]; [now left | right]. cbn [hfl set_mem]. subst w. unfold own_width, stack_width in HW.
      destruct (is_big sd), (Z.testbit (hfl X s) 3); reflexivity || discriminate. }
    destruct (copy_inv _ _ _ _ _ (e0 - n - n) _ _ _ Hn HB E2 P3) as (m8' & M8 & CP & E3).
    assert (m8' = m8) as ->. { apply (f_equal (mem X)) in M8. cbn [mem set_mem] in M8. congruence. } clear M8.
    destruct (ipush_inv _ _ _ _ _ _ (e0 - n - n - n * Z.of_nat (call_params g)) _ _ _ E3 P4) as (m9' & M9 & W4 & E4).
    assert (m9' = m9) as ->. { apply (f_equal (mem X)) in M9. cbn [mem set_mem] in M9. congruence. } clear M9.
    destruct (ipush_inv _ _ _ _ _ _ (e0 - n - n - n * Z.of_nat (call_params g) - n) _ _ _ E4 P5) as (m10' & M10 & W5 & E5).
    assert (m10' = m10) as ->. { apply (f_equal (mem X)) in M10. cbn [mem set_mem] in M10. congruence. } clear M10.
    exists m7, m8, m10, m11. fold w in W1, W2, W4, W5. split.
    { cbn [pushed]. exists m6. split; [exact W1 |]. exists m7. split; [exact W2 | reflexivity]. }
    split. { rewrite off2. do 3 apply copied_mem in CP. exact CP. }
    split. { rewrite off_args.
      cbn [pushed]. exists m9. split; [exact W4 |]. exists m10. split; [exact W5 | reflexivity]. }
    split. { rewrite A3 in A6. exact A6. }
    split. { assert (RS2 : forall q, ring X (load_desc X SS ss sd q) = ring X q) by (intros q; apply ring_other; discriminate).
      rewrite RS2, mem_load, mem_mem in A8. rewrite A2 in A8. rewrite H, mem_fin, mem_load, mem_mem. exact A8. }
    rewrite H, esp_fin. subst w.
    rewrite <- (width_mod (is_big sd) e), E5, width_mod. now rewrite off_all.
  - rewrite ss32_eq in H1. change (if Z.testbit (hfl X s) 3 then 4294967295 else 65535) with (mask_of (Z.testbit (hfl X s) 3)) in H1.
    apply bind_ok in H1 as (e1 & s4 & P1 & H1). destruct (ipush_inv _ _ _ _ _ _ (esp X s) _ _ _ eq_refl P1) as (m4 & -> & W1 & E1).
    destruct (ipush_inv _ _ _ _ _ _ (esp X s - n) _ _ _ E1 H1) as (m5 & -> & W2 & E2).
    apply bind_ok in H as (u7 & s6 & P8 & H). destruct (access_inv _ _ _ _ _ _ RRC P8) as (m12 & -> & A8). apply upd_inv in H.
    exists m5. split. { cbn [pushed]. exists m4. split; [exact W1 |]. exists m5. split; [exact W2 | reflexivity]. }
    split. { rewrite H, mem_fin, mem_load, mem_mem. rewrite A2 in A8. exact A8. }
    rewrite H, esp_fin. unfold own_width. rewrite <- (width_mod _ e), E2, width_mod. now rewrite off2.
Qed.

(** ** Returns *)
Lemma smod_width s n : n = 2 \/ n = 4 -> (Z.testbit (hfl X s) 3 = true -> n = 4) -> stack_mod X s n = own_width X s.
Proof.
  intros Hn Hb. unfold stack_mod, own_width, stack_width. destruct (Z.testbit (hfl X s) 3); [| reflexivity].
  rewrite (Hb eq_refl). reflexivity.
Qed.
Lemma esp_w s e1 e : 0 <= esp X s < 2 ^ 32 -> e1 mod own_width X s = e mod own_width X s ->
  (esp X s .& not32 (if Z.testbit (hfl X s) 3 then 0xFFFFFFFF else 0xFFFF)) .| (e1 .& (if Z.testbit (hfl X s) 3 then 0xFFFFFFFF else 0xFFFF))
  = new_esp (own_width X s) (esp X s) e.
Proof.
  intros He E. change (if Z.testbit (hfl X s) 3 then 0xFFFFFFFF else 0xFFFF) with (mask_of (Z.testbit (hfl X s) 3)).
  rewrite (esp_eq (Z.testbit (hfl X s) 3) (esp X s) e1 e1 He eq_refl). unfold new_esp. fold (own_width X s). now rewrite E.
Qed.

Lemma returned_mem x s n k m cs s' : returned X (set_mem X x s) n k m cs s' -> returned X s n k m cs s'.
Proof. intros H. exact H. Qed.

Lemma tail_frame n ip cs e1 k s s' u : n = 2 \/ n = 4 -> (Z.testbit (hfl X s) 3 = true -> n = 4) -> 0 <= esp X s < 2 ^ 32 -> 0 <= cs < 2 ^ 16 ->
  e1 mod own_width X s = (esp X s + n * k) mod own_width X s ->
  lret_tail X n ip cs e1 s = Ok X _ u s' -> returned X s n k (mem X s) cs s'.
Proof.
  intros Hn Hb He Hcs E H. destruct (tail_inv X _ _ _ _ _ _ _ Hcs H) as (m0 & m & d & CC & RR & C). unfold returned.
  destruct C as [[R ->] | (L & p1 & p2 & m1 & m2 & m3 & sd & P1 & P2 & C)].
  - destruct (Z.ltb_spec (ring X s) (rpl cs)); [lia |]. assert (SC0 : SS <> CS) by discriminate. split.
    + rewrite (load_other CS SS _ _ X _ SC0). reflexivity.
    + rewrite esp_load, esp_fin. now apply esp_w.
  - destruct (Z.ltb_spec (ring X s) (rpl cs)); [| lia]. cbv zeta in C.
    destruct C as (N2 & D & SR & SO & PR & e' & -> & EE). destruct p1 as [nsp e2], p2 as [ss e3]. cbn [fst snd] in *.
    assert (E' : e1 mod stack_mod X (set_mem X m0 s) n = (esp X (set_mem X m0 s) + n * k) mod stack_mod X (set_mem X m0 s) n).
    { rewrite (smod_width (set_mem X m0 s)) by assumption. exact E. }
    destruct (pop_inv X _ _ _ _ _ _ k Hn E' P1) as (m1' & M1 & R1 & E2).
    assert (m1' = m1) as ->. { apply (f_equal (mem X)) in M1. rewrite !mem_mem in M1. congruence. } clear M1.
    destruct (pop_inv X _ _ (set_mem X m1 s) _ _ _ (k + 1) Hn E2 P2) as (m2' & M2 & R2 & E3).
    assert (m2' = m2) as ->. { apply (f_equal (mem X)) in M2. rewrite !mem_mem in M2. congruence. } clear M2.
    exists m0, m2, m3, nsp, ss, d, sd. destruct CC as (_ & CC & _). split; [exact CC |]. split.
    { exists m1. split; [exact R1 |]. exists m2. split; [exact R2 | reflexivity]. }
    split; [exact D |]. split; [exact SO |]. split; [exact PR |]. unfold validated. rewrite !validate_frame by discriminate. rewrite !validate_esp.
    rewrite seg_fin, esp_fin. unfold outer_pre. assert (SC0 : SS <> CS) by discriminate. rewrite (load_other CS SS _ _ X _ SC0).
    split; [now apply (decode_eq SS) |]. rewrite EE. cbv zeta.
    change (if is_big sd then 4294967295 else 65535) with (mask_of (is_big sd)). now apply esp_eq.
Qed.

Lemma lret_frame n s s' u : n = 2 \/ n = 4 -> (Z.testbit (hfl X s) 3 = true -> n = 4) -> 0 <= esp X s < 2 ^ 32 -> lret_pe X n s = Ok X _ u s' ->
  exists ip cs m, pops X s n 0 [ip; cs] (mem X s) m /\ eip X s' = ip /\ sel (seg X s' CS) = cs mod 2 ^ 16 /\ returned X s n 2 m (cs mod 2 ^ 16) s'.
Proof.
  intros Hn Hb He H. pose proof H as H0. unfold lret_pe in H. unfold bind at 1, get at 1 in H.
  apply bind_ok in H as ([ip e1] & s1 & P1 & H). apply bind_ok in H as ([cs e2] & s2 & P2 & H). cbn [fst snd] in *.
  assert (E0 : esp X s mod stack_mod X s n = (esp X s + n * 0) mod stack_mod X s n) by (f_equal; lia).
  destruct (pop_inv _ _ _ _ _ _ _ 0 Hn E0 P1) as (m1 & -> & R1 & E1).
  destruct (pop_inv _ _ _ (set_mem X m1 s) _ _ _ (0 + 1) Hn E1 P2) as (m2 & -> & R2 & E2).
  change (set_mem X m2 (set_mem X m1 s)) with (set_mem X m2 s) in H.
  assert (Hcs : 0 <= cs mod 2 ^ 16 < 2 ^ 16) by (apply Z.mod_pos_bound; lia).
  unfold w16 in H. assert (E2' : e2 mod own_width X (set_mem X m2 s) = (esp X (set_mem X m2 s) + n * 2) mod own_width X (set_mem X m2 s)).
  { rewrite <- (smod_width (set_mem X m2 s) n Hn Hb). exact E2. }
  pose proof (tail_frame n ip (cs mod 2 ^ 16) e2 2 (set_mem X m2 s) s' u Hn Hb He Hcs E2' H) as T. rewrite mem_mem in T. apply returned_mem in T.
  destruct (tail_sum _ _ _ _ _ _ _ _ Hcs H) as (mm & d & CC & R & SG & IP & EF).
  exists ip, cs, m2. split. { exists m1. split; [exact R1 |]. exists m2. split; [exact R2 | reflexivity]. }
  split; [exact IP |]. split; [now rewrite SG | exact T].
Qed.

Lemma new_esp_range w old e : w = 2 ^ 32 \/ w = 2 ^ 16 -> 0 <= old < 2 ^ 32 -> 0 <= new_esp w old e < 2 ^ 32.
Proof.
  intros [-> | ->] H; unfold new_esp.
  - rewrite Z.div_small by exact H. pose proof (Z.mod_pos_bound e (2 ^ 32) ltac:(lia)). lia.
  - pose proof (Z.mod_pos_bound e (2 ^ 16) ltac:(lia)). pose proof (Z.div_mod old (2 ^ 16) ltac:(lia)). pose proof (Z.mod_pos_bound old (2 ^ 16) ltac:(lia)).
    assert (old / 2 ^ 16 < 2 ^ 16) by (apply Z.div_lt_upper_bound; lia). assert (0 <= old / 2 ^ 16) by (apply Z.div_pos; lia). lia.
Qed.
Lemma new_esp_add w old e i : w = 2 ^ 32 \/ w = 2 ^ 16 -> 0 <= old < 2 ^ 32 ->
  (if w =? 2 ^ 32 then (new_esp w old e + i) mod 2 ^ 32 else (new_esp w old e .& 0xFFFF0000) .| (new_esp w old e + i) mod 2 ^ 16) = new_esp w old (e + i).
Proof.
  intros Hw H. pose proof (new_esp_range w old e Hw H) as R. destruct Hw as [-> | ->].
  - change (2 ^ 32 =? 2 ^ 32) with true. cbv iota. unfold new_esp. rewrite Z.div_small by exact H. rewrite Z.mul_0_l, !Z.add_0_l. now rewrite Zplus_mod_idemp_l.
  - change (2 ^ 16 =? 2 ^ 32) with false. cbv iota. change 0xFFFF0000 with (not32 (mask_of false)).
    change ((new_esp (2 ^ 16) old e + i) mod 2 ^ 16) with ((new_esp (2 ^ 16) old e + i) mod stack_width false). rewrite <- mask_mod.
    rewrite (esp_eq false _ _ _ R eq_refl). change (stack_width false) with (2 ^ 16). unfold new_esp. f_equal.
    + pose proof (Z.mod_pos_bound e (2 ^ 16) ltac:(lia)). rewrite Z.div_add_l by lia. rewrite (Z.div_small (e mod 2 ^ 16)) by lia. lia.
    + rewrite <- Z.add_assoc, Z.add_comm, Z.mod_add by lia. now rewrite Zplus_mod_idemp_l.
Qed.

(** IRET outside VM86 mode *)
Lemma vm86_seg r sl s : seg X (write_seg_reg_vm86 X r sl s) r =
  mkseg sl (sl << 4) 0xFFFF ((SEG_DESC_A .| SEG_DESC_W .| (match r with CS => SEG_DESC_DC | _ => 0 end) .| SEG_DESC_S .| SEG_DESC_DPL .| SEG_DESC_P) >> 32).
Proof. unfold write_seg_reg_vm86, write_seg_reg. destruct r; reflexivity. Qed.
Lemma vm86_other r q sl s : q <> r -> seg X (write_seg_reg_vm86 X r sl s) q = seg X s q.
Proof. intros H. unfold write_seg_reg_vm86, write_seg_reg. destruct r, q; try reflexivity; now destruct H. Qed.

Lemma iret_frame n s s' u : n = 2 \/ n = 4 -> (Z.testbit (hfl X s) 3 = true -> n = 4) -> 0 <= esp X s < 2 ^ 32 -> vm X s = false ->
  iret_pe X n s = Ok X _ u s' ->
  exists ip cs fl m, pops X s n 0 [ip; cs; fl] (mem X s) m /\ eip X s' = ip /\ sel (seg X s' CS) = cs mod 2 ^ 16 /\
    if Z.testbit fl 17 then
      exists nsp ss es ds fs gs m1, pops X s 4 3 [nsp; ss; es; ds; fs; gs] m m1 /\ esp X s' = nsp /\
        (forall r q, In (r, q) [(CS, cs); (SS, ss); (ES, es); (DS, ds); (FS, fs); (GS, gs)] ->
           sel (seg X s' r) = q mod 2 ^ 16 /\ base (seg X s' r) = q mod 2 ^ 16 * 16 /\ limit (seg X s' r) = 0xFFFF)
    else returned X s n 3 m (cs mod 2 ^ 16) s'.
Proof.
  intros Hn Hb He V H. unfold iret_pe in H. unfold bind at 1, get at 1 in H. rewrite vm_eq, V in H.
  destruct (nz (ef X s .& NT_MASK)); [discriminate |].
  apply bind_ok in H as ([ip e1] & s1 & P1 & H). apply bind_ok in H as ([cs e2] & s2 & P2 & H). apply bind_ok in H as ([fl e3] & s3 & P3 & H). cbn [fst snd] in *.
  assert (E0 : esp X s mod stack_mod X s n = (esp X s + n * 0) mod stack_mod X s n) by (f_equal; lia).
  destruct (pop_inv _ _ _ _ _ _ _ 0 Hn E0 P1) as (m1 & -> & R1 & E1).
  destruct (pop_inv _ _ _ (set_mem X m1 s) _ _ _ (0 + 1) Hn E1 P2) as (m2 & -> & R2 & E2).
  destruct (pop_inv _ _ _ (set_mem X m2 s) _ _ _ (0 + 1 + 1) Hn E2 P3) as (m3 & -> & R3 & E3).
  change (set_mem X m3 (set_mem X m2 (set_mem X m1 s))) with (set_mem X m3 s) in H.
  assert (Hcs : 0 <= cs mod 2 ^ 16 < 2 ^ 16) by (apply Z.mod_pos_bound; lia).
  exists ip, cs, fl, m3. split. { exists m1. split; [exact R1 |]. exists m2. split; [exact R2 |]. exists m3. now split. }
  change VM_MASK with (1 << 17) in H at 1. rewrite nz_fld in H by lia. destruct (Z.testbit fl 17) eqn:VF.
  - assert (N4 : n = 4).
    { destruct Hn as [-> | ->]; [| reflexivity]. apply (rd_range X) in R3. exfalso.
      rewrite (Z.bits_above_log2 fl 17) in VF; [discriminate | lia |].
      destruct (Z.eq_dec fl 0) as [-> | NZ]; [cbn; lia |]. apply Z.log2_lt_pow2; [lia |]. change (2 ^ (8 * 2)) with (2 ^ 16) in R3. lia. }
    subst n. change (set_mem X m3 (set_mem X m2 s)) with (set_mem X m3 s) in H.
    apply bind_ok in H as ([q1 f1] & t1 & Q1 & H). destruct (pop_inv _ _ _ (set_mem X m3 s) _ _ _ 3 Hn E3 Q1) as (n1 & -> & S1 & F1). cbn [fst snd] in *.
    apply bind_ok in H as ([q2 f2] & t2 & Q2 & H). destruct (pop_inv _ _ _ (set_mem X n1 s) _ _ _ 4 Hn F1 Q2) as (n2 & -> & S2 & F2). cbn [fst snd] in *.
    apply bind_ok in H as ([q3 f3] & t3 & Q3 & H). destruct (pop_inv _ _ _ (set_mem X n2 s) _ _ _ 5 Hn F2 Q3) as (n3 & -> & S3 & F3). cbn [fst snd] in *.
    apply bind_ok in H as ([q4 f4] & t4 & Q4 & H). destruct (pop_inv _ _ _ (set_mem X n3 s) _ _ _ 6 Hn F3 Q4) as (n4 & -> & S4 & F4). cbn [fst snd] in *.
    apply bind_ok in H as ([q5 f5] & t5 & Q5 & H). destruct (pop_inv _ _ _ (set_mem X n4 s) _ _ _ 7 Hn F4 Q5) as (n5 & -> & S5 & F5). cbn [fst snd] in *.
    apply bind_ok in H as ([q6 f6] & t6 & Q6 & H). destruct (pop_inv _ _ _ (set_mem X n5 s) _ _ _ 8 Hn F5 Q6) as (n6 & -> & S6 & F6). cbn [fst snd] in *.
    apply upd_inv in H. subst s'.
    match goal with |- context [set_hfl X ?h ?t] => set (hv := h) end.
    split; [reflexivity |]. split; [reflexivity |]. exists q1, q2, q3, q4, q5, q6, n6. split.
    { exists n1. split; [exact S1 |]. exists n2. split; [exact S2 |]. exists n3. split; [exact S3 |]. exists n4. split; [exact S4 |].
      exists n5. split; [exact S5 |]. exists n6. split; [exact S6 | reflexivity]. }
    split; [reflexivity |].
    assert (B : forall x, x << 4 = x * 16) by (intros x; now rewrite Z.shiftl_mul_pow2 by lia).
    intros r q I. cbn [In] in I.
    destruct I as [I | [I | [I | [I | [I | [I | []]]]]]]; injection I as <- <-;
      (split; [reflexivity |]; split; [rewrite <- B; reflexivity | reflexivity]).
  - cbv zeta in H. apply bind_ok in H as (u1 & s4 & HT & H). apply upd_inv in H.
    assert (E3' : e3 mod own_width X (set_mem X m3 s) = (esp X (set_mem X m3 s) + n * 3) mod own_width X (set_mem X m3 s)).
    { rewrite <- (smod_width (set_mem X m3 s) n Hn Hb). exact E3. }
    pose proof (tail_frame n ip (cs mod 2 ^ 16) e3 3 (set_mem X m3 s) s4 u1 Hn Hb He Hcs E3' HT) as T. rewrite mem_mem in T. apply returned_mem in T.
    destruct (tail_sum _ _ _ _ _ _ _ _ Hcs HT) as (mm & d & CC & R & SG & IP & EF).
    rewrite H. split; [exact IP |]. split. { change (sel (seg X s4 CS) = cs mod 2 ^ 16). now rewrite SG. } exact T.
Qed.
End Far.
