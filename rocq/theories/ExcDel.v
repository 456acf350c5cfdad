(** * Proofs about a completed exception or interrupt delivery *)

From Coq Require Import ZArith Bool List Lia ZifyBool.
From Verif Require Import SegModel SegSpec SegBits SegProofs SegFar SegRet SegCall ExcSpec.
Import ListNotations.
Local Open Scope Z_scope.

Section Del.
Context (X : memsys).
Notation st := (st X).
Implicit Types s : st.

Lemma read_inv n p a s v s1 : mread X n p a s = Ok X _ v s1 ->
  exists m, s1 = set_mem X m s /\ rd X (ring X s) p n (a mod 2 ^ 32) (mem X s) = (m, MVal v) /\ 0 <= v < 2 ^ (8 * n).
Proof.
  unfold mread. rewrite cpl_mod. unfold w32. destruct (rd X _ _ _ _ _) as [m [w | c b]] eqn:E; [| discriminate].
  intros [= <- <-]. exists m. split; [reflexivity |]. split; [reflexivity |]. now apply (rd_range X) in E.
Qed.
Lemma write_inv n p a v s u s1 : mwrite X n p a v s = Ok X _ u s1 ->
  exists m, s1 = set_mem X m s /\ wr X (ring X s) p n (a mod 2 ^ 32) (v mod 2 ^ (8 * n)) (mem X s) = (m, None).
Proof.
  unfold mwrite. rewrite cpl_mod. unfold w32. destruct (wr X _ _ _ _ _ _) as [m [[c b] |]] eqn:E; [discriminate |].
  intros [= <- <-]. now exists m.
Qed.

Lemma set_bit_add d k : 0 <= k -> Z.testbit d k = false -> d .| (1 << k) = d + 2 ^ k.
Proof.
  intros K B. rewrite Z.shiftl_1_l. rewrite <- Z.lxor_lor, <- Z.add_nocarry_lxor; try reflexivity;
  (apply Z.bits_inj'; intros i Hi; rewrite Z.land_spec, Z.bits_0, Z.pow2_bits_eqb by exact K;
   destruct (Z.eqb_spec k i); [subst; rewrite B; reflexivity | apply andb_false_r]).
Qed.
Lemma access_inv d a s u s1 : 0 <= d < 2 ^ 64 -> set_access_flg X d a s = Ok X _ u s1 ->
  exists m, s1 = set_mem X m s /\ accessed X (ring X s) d a (mem X s) m.
Proof.
  intros R. unfold set_access_flg, SEG_DESC_S, SEG_DESC_A. rewrite !fld1 by lia. unfold accessed, is_system. rewrite negb_involutive.
  destruct (Z.testbit d 44) eqn:S.
  - destruct (Z.testbit d 40) eqn:A.
    + change (_ =? 1) with false. cbn [andb negb]. intros [= <- <-]. exists (mem X s). split; [symmetry; apply set_mem_id | reflexivity].
    + change (_ =? 1) with true. cbn [andb negb]. intros H. destruct (write_inv _ _ _ _ _ _ _ H) as (m & -> & W). exists m. split; [reflexivity |].
      rewrite (set_bit_add d 40 ltac:(lia) A) in W. rewrite (Z.mod_small (d + 2 ^ 40)) in W; [exact W |].
      split; [lia |]. change (8 * 8) with 64.
      assert (HB : d + 2 ^ 40 = d .| (1 << 40)) by (symmetry; now apply set_bit_add). rewrite HB.
      assert (L : (d .| (1 << 40)) = (d .| (1 << 40)) mod 2 ^ 64); [| rewrite L; apply Z.mod_pos_bound; lia].
      symmetry. rewrite <- Z.land_ones by lia. rewrite Z.land_lor_distr_l. f_equal.
      rewrite Z.land_ones by lia. now apply Z.mod_small.
  - destruct (Z.testbit d 40); change (_ =? 1) with false; cbn [andb]; intros [= <- <-]; (exists (mem X s); split; [symmetry; apply set_mem_id | reflexivity]).
Qed.

(** ** Pushes *)
Definition mask_of (big : bool) : Z := if big then 0xFFFFFFFF else 0xFFFF.
Lemma mask_mod big e : e .& mask_of big = e mod stack_width big.
Proof.
  unfold mask_of, stack_width. destruct big.
  - change 0xFFFFFFFF with (Z.ones 32). apply Z.land_ones. lia.
  - change 0xFFFF with (Z.ones 16). apply Z.land_ones. lia.
Qed.
Lemma width_mod big e : (e mod 2 ^ 32) mod stack_width big = e mod stack_width big.
Proof.
  unfold stack_width. destruct big; [apply Z.mod_mod; lia |].
  change (2 ^ 32) with (2 ^ 16 * 2 ^ 16). rewrite Z.rem_mul_r by lia. rewrite Z.mul_comm, Z.mod_add by lia. apply Z.mod_mod. lia.
Qed.
Lemma pushes_inv n p big b vs : forall e0 e s r s1, e0 mod 2 ^ 32 = e mod 2 ^ 32 ->
  ipushes X n p (mask_of big) b vs e0 s = Ok X _ r s1 ->
  exists m, s1 = set_mem X m s /\ pushed X (ring X s) p n (stack_width big) b vs e (mem X s) m /\
            r mod 2 ^ 32 = (e - n * Z.of_nat (length vs)) mod 2 ^ 32.
Proof.
  induction vs as [| v vs IH]; intros e0 e s r s1 E H; cbn [ipushes] in H.
  - injection H as <- <-. exists (mem X s). split; [symmetry; apply set_mem_id |]. split; [reflexivity |]. cbn [length].
    now rewrite Z.mul_0_r, Z.sub_0_r.
  - apply bind_ok in H as (e1 & s2 & H1 & H). unfold ipush in H1. cbv zeta in H1.
    apply bind_ok in H1 as (u & s3 & W & H1). unfold ret in H1. injection H1 as <- <-.
    destruct (write_inv _ _ _ _ _ _ _ W) as (m & -> & WW).
    assert (E2 : w32 (e0 - n) mod 2 ^ 32 = (e - n) mod 2 ^ 32).
    { unfold w32. rewrite Z.mod_mod by lia. rewrite Zminus_mod, E, <- Zminus_mod. reflexivity. }
    destruct (IH _ _ _ _ _ E2 H) as (m2 & -> & P & R). exists m2. split; [reflexivity |]. split.
    + cbn [pushed]. exists m. split; [| exact P]. rewrite <- WW. f_equal. rewrite mask_mod. f_equal. f_equal.
      rewrite <- (width_mod big (e - n)), <- E2, width_mod. reflexivity.
    + rewrite R. f_equal. cbn [length]. rewrite Nat2Z.inj_succ. lia.
Qed.

Lemma esp_eq big old e r : 0 <= old < 2 ^ 32 -> r mod 2 ^ 32 = e mod 2 ^ 32 ->
  (old .& not32 (mask_of big)) .| (r .& mask_of big) = new_esp (stack_width big) old e.
Proof.
  intros H E. rewrite mask_mod. unfold new_esp. rewrite <- (width_mod big r), E, width_mod. unfold mask_of, stack_width.
  destruct big.
  - change (not32 0xFFFFFFFF) with 0. rewrite Z.land_0_r, Z.lor_0_l. rewrite Z.div_small by exact H. reflexivity.
  - change (not32 0xFFFF) with (Z.ones 16 << 16). rewrite field by lia.
    rewrite (Z.mod_small (old / 2 ^ 16)) by (split; [apply Z.div_pos; lia | apply Z.div_lt_upper_bound; lia]).
    rewrite Z.shiftl_mul_pow2 by lia. apply lor_disj; [lia | apply Z.mod_pos_bound; lia].
Qed.

(** ** Gate type *)
Lemma kind_eq g : 0 <= g -> (g >> 40) .& 0x1F = gate_kind g.
Proof. intros H. change 0x1F with (Z.ones 5). rewrite Z.land_ones, Z.shiftr_div_pow2 by lia. reflexivity. Qed.
Lemma kind_cases g : negb ((gate_kind g =? 6) || (gate_kind g =? 14) || (gate_kind g =? 7) || (gate_kind g =? 15)) = false ->
  gate_kind g = 6 \/ gate_kind g = 14 \/ gate_kind g = 7 \/ gate_kind g = 15.
Proof. lia. Qed.
Lemma size_eq g : gate_kind g = 6 \/ gate_kind g = 14 \/ gate_kind g = 7 \/ gate_kind g = 15 ->
  (if nz (gate_kind g >> 3) then 4 else 2) = item_size g /\ (if (gate_kind g =? 14) || (gate_kind g =? 15) then 4 else 2) = item_size g.
Proof. unfold item_size, gate32. intros [-> | [-> | [-> | ->]]]; split; reflexivity. Qed.

Lemma entry_ef g old : gate_kind g = 6 \/ gate_kind g = 14 \/ gate_kind g = 7 \/ gate_kind g = 15 ->
  entry_flags g old ((if (gate_kind g =? 6) || (gate_kind g =? 14) then old .& not32 IF_MASK else old)
                       .& not32 (VM_MASK .| RF_MASK .| NT_MASK .| TF_MASK)).
Proof.
  intros K i Hi. rewrite Z.land_spec.
  assert (A : Z.testbit (not32 (VM_MASK .| RF_MASK .| NT_MASK .| TF_MASK)) i = negb (existsb (Z.eqb i) [8; 14; 16; 17])).
  { unfold not32. change 0xFFFFFFFF with (Z.ones 32). rewrite Z.ldiff_spec, Z.ones_spec_low by lia. cbn [andb].
    f_equal. change (VM_MASK .| RF_MASK .| NT_MASK .| TF_MASK) with ((2 ^ 17 .| 2 ^ 16 .| 2 ^ 14) .| 2 ^ 8).
    rewrite !Z.lor_spec, !Z.pow2_bits_eqb by lia. cbn [existsb]. lia. }
  rewrite A. destruct (existsb (Z.eqb i) [8; 14; 16; 17]) eqn:Q; [apply andb_false_r |]. cbn [negb]. rewrite andb_true_r.
  assert (IG : int_gate g = (gate_kind g =? 6) || (gate_kind g =? 14)) by reflexivity. rewrite IG.
  destruct ((gate_kind g =? 6) || (gate_kind g =? 14)).
  - rewrite Z.land_spec. unfold not32. change 0xFFFFFFFF with (Z.ones 32). rewrite Z.ldiff_spec, Z.ones_spec_low by lia.
    change IF_MASK with (2 ^ 9). rewrite Z.pow2_bits_eqb by lia. cbn [andb negb]. rewrite Z.eqb_sym.
    destruct (Z.eqb_spec i 9); [subst i; now rewrite !andb_false_r |]. apply andb_true_r.
  - destruct (Z.eqb_spec i 9); [subst i; now rewrite andb_true_r | reflexivity].
Qed.

Lemma ldiff_sel sl c : 0 <= sl -> 0 <= c < 4 -> Z.ldiff sl 3 .| c = errcode sl + c.
Proof.
  intros H C. change 3 with (Z.ones 2). rewrite Z.ldiff_ones_r by lia.
  rewrite Z.shiftr_div_pow2, Z.shiftl_mul_pow2 by lia. change (2 ^ 2) with 4. unfold errcode. exact (lor_disj c (sl / 4) 2 ltac:(lia) C).
Qed.

Lemma big_eq d : nz (d .& SEG_DESC_DB) = is_big d.
Proof. unfold SEG_DESC_DB. now rewrite nz_fld by lia. Qed.

(** the stack segment check; a stack that passes is present *)
Lemma ss_bits (s d w p : bool) dp rp c : 0 <= dp < 4 -> 0 <= rp < 4 -> 0 <= c < 4 ->
  nz (((if s then 2 ^ 0 else 0) .| (if d then 2 ^ 1 else 0) .| (if w then 2 ^ 2 else 0) .| (dp * 2 ^ 3) .| (rp << 5) .| (if p then 2 ^ 7 else 0))
       .^ (0x85 .| (c << 3) .| (c << 5)))
  = negb (s && negb d && w && (dp =? c) && (rp =? c) && p).
Proof.
  intros D%four R%four C%four. destruct D as [-> | [-> | [-> | ->]]], R as [-> | [-> | [-> | ->]]], C as [-> | [-> | [-> | ->]]];
    destruct s, d, w, p; reflexivity.
Qed.
Lemma ss_check d sl c : 0 <= c < 4 ->
  nz ((((d .& SEG_DESC_S) >> 44) .| ((d .& SEG_DESC_DC) >> 42) .| ((d .& SEG_DESC_W) >> 39) .| ((d .& SEG_DESC_DPL) >> 42) .| ((sl .& 3) << 5)
          .| ((d .& SEG_DESC_P) >> 40))
       .^ (0x85 .| (c << 3) .| (c << 5))) = negb (stack_ok c sl d && is_present d).
Proof.
  intros Hc. unfold SEG_DESC_S, SEG_DESC_DC, SEG_DESC_W, SEG_DESC_DPL, SEG_DESC_P. rewrite !fld1 by lia.
  change (3 << 45) with (Z.ones 2 << 45). rewrite fieldr by lia. change (d / 2 ^ 45 mod 2 ^ 2) with (dpl_of d).
  rewrite (rpl_eq sl). change (44 - 44) with 0. change (43 - 42) with 1. change (41 - 39) with 2. change (45 - 42) with 3. change (47 - 40) with 7.
  rewrite ss_bits by (try apply dpl_range; try apply rpl_range; exact Hc).
  unfold stack_ok, is_system, is_code, is_rw, is_present. now rewrite negb_involutive.
Qed.

Lemma tss_inv c p s e ss s1 : 0 <= c < 4 -> read_stack_ptr_from_tss X c p s = Ok X _ (e, ss) s1 ->
  exists m, s1 = set_mem X m s /\ tss_stack X s p c (mem X s) m e ss /\ 0 <= ss < 2 ^ 16.
Proof.
  intros C. unfold read_stack_ptr_from_tss, tss_stack, tss32, SEG_HIDDEN_TSS_TY. cbv zeta. rewrite fld1 by lia.
  change (2 ^ (11 - 11)) with 1. destruct (Z.testbit (sflags (seg X s TR)) 11).
  - change (2 << 1) with 4. change (4 << 1) with 8. destruct (Z.ltb_spec (limit (seg X s TR)) (4 + c * 8 + 8 - 1)); [discriminate |].
    change (nz 1) with true. cbv iota. intros H1. apply bind_ok in H1 as (v & s2 & R1 & H1). apply bind_ok in H1 as (w & s3 & R2 & H1). unfold ret in H1. injection H1 as -> -> <-.
    destruct (read_inv _ _ _ _ _ _ R1) as (m1 & -> & E1 & _). destruct (read_inv _ _ _ _ _ _ R2) as (m2 & -> & E2 & G2).
    exists m2. split; [reflexivity |]. split; [| exact G2]. split; [lia |]. exists m1.
    rewrite (Z.mul_comm c 8) in E1, E2. split; [exact E1 | exact E2].
  - change (2 << 0) with 2. change (4 << 0) with 4. destruct (Z.ltb_spec (limit (seg X s TR)) (2 + c * 4 + 4 - 1)); [discriminate |].
    change (nz 0) with false. cbv iota. intros H1. apply bind_ok in H1 as (v & s2 & R1 & H1). apply bind_ok in H1 as (w & s3 & R2 & H1). unfold ret in H1. injection H1 as -> -> <-.
    destruct (read_inv _ _ _ _ _ _ R1) as (m1 & -> & E1 & _). destruct (read_inv _ _ _ _ _ _ R2) as (m2 & -> & E2 & G2).
    exists m2. split; [reflexivity |]. split; [| exact G2]. split; [lia |]. exists m1.
    rewrite (Z.mul_comm c 4) in E1, E2. split; [exact E1 | exact E2].
Qed.

Lemma check_ss_inv vm86 ext c s e ss sd s1 : 0 <= c < 4 -> (vm86 = true -> c = 0) ->
  check_ss_desc X vm86 ext c s = Ok X _ (e, ss, sd) s1 ->
  exists m, s1 = set_mem X m s /\ inner_stack X s (if vm86 then 2 else 0) c (mem X s) m e ss sd /\ 0 <= sd < 2 ^ 64 /\ 0 <= ss < 2 ^ 16.
Proof.
  intros C V. unfold check_ss_desc. destruct (read_stack_ptr_from_tss X c (if vm86 then 2 else 0) s) as [[e0 ss0] s2 | s2 | s2 |] eqn:T; try discriminate.
  destruct (tss_inv _ _ _ _ _ _ C T) as (m1 & -> & TS & SR). rewrite null_eq by lia. destruct (is_null ss0) eqn:N; [discriminate |].
  destruct (read_seg_desc X false ss0 (set_mem X m1 s)) as [[a d] s3 | s3 | s3 |] eqn:D; try discriminate.
  destruct (desc_inv _ _ _ _ _ _ D) as (m2 & -> & RD & RR & A). cbn [fst snd] in *. cbv zeta.
  assert (W : (if vm86 then 0 else c) = c) by (destruct vm86; [symmetry; now apply V | reflexivity]). rewrite W.
  rewrite ss_check by exact C. destruct (stack_ok c ss0 d && is_present d) eqn:Q; [| discriminate]. cbn [negb].
  intros H. apply bind_ok in H as (u & s4 & AC & H). unfold ret in H. injection H as -> -> -> <-.
  destruct (access_inv _ _ _ _ _ RR AC) as (m3 & -> & ACC). exists m3. split; [reflexivity |]. split; [| now split].
  exists m1, m2. split; [exact TS |]. split; [exact N |]. apply andb_true_iff in Q as [Q1 Q2].
  split; [unfold descriptor, index; rewrite <- A; exact RD |]. split; [exact Q1 |]. split; [exact Q2 |].
  rewrite A in ACC. exact ACC.
Qed.

(** ** A completed delivery through the IDT *)
Lemma code_bit_eq (p : bool) idx : has_code p idx = p && with_code idx.
Proof. unfold has_code, with_code, EXP_DF, EXP_TS, EXP_NP, EXP_SS, EXP_GP, EXP_PF, EXP_AC. cbn [existsb]. destruct p; [lia | reflexivity]. Qed.

Lemma mk_decode sl d : 0 <= d < 2 ^ 64 -> mkseg sl (desc_base d) (desc_limit d) (desc_flags d) = decode sl d.
Proof. intros H. unfold decode. now rewrite base_eq, limit_eq, flags_eq. Qed.
Lemma fin_ef i a s : ef X (finish X i a s) = ef X s. Proof. unfold finish. destruct (i =? EXP_PF), (i =? EXP_DB); reflexivity. Qed.
Lemma fin_seg i a s : seg X (finish X i a s) = seg X s. Proof. unfold finish. destruct (i =? EXP_PF), (i =? EXP_DB); reflexivity. Qed.
Lemma fin_hfl i a s : hfl X (finish X i a s) = hfl X s. Proof. unfold finish. destruct (i =? EXP_PF), (i =? EXP_DB); reflexivity. Qed.
Lemma fin_ring i a s : ring X (finish X i a s) = ring X s. Proof. unfold ring. now rewrite fin_hfl. Qed.
Lemma fin_esp i a s : esp X (finish X i a s) = esp X s. Proof. unfold finish. destruct (i =? EXP_PF), (i =? EXP_DB); reflexivity. Qed.
Lemma fin_eip i a s : eip X (finish X i a s) = eip X s. Proof. unfold finish. destruct (i =? EXP_PF), (i =? EXP_DB); reflexivity. Qed.
Lemma fin_mem i a s : mem X (finish X i a s) = mem X s. Proof. unfold finish. destruct (i =? EXP_PF), (i =? EXP_DB); reflexivity. Qed.
Lemma fin_old i a s : oldexp X (finish X i a s) = EXP_INVALID. Proof. unfold finish. destruct (i =? EXP_PF), (i =? EXP_DB); reflexivity. Qed.
Lemma fin_cr2 i a s : cr2 X (finish X i a s) = if i =? 14 then a else cr2 X s. Proof. unfold finish, EXP_PF. destruct (i =? 14), (i =? EXP_DB); reflexivity. Qed.
Lemma fin_dr7 i a s j : 0 <= j < 32 -> Z.testbit (dr7 X (finish X i a s)) j = Z.testbit (dr7 X s) j && negb ((i =? 1) && (j =? 13)).
Proof.
  intros J. unfold finish, EXP_DB. destruct (i =? EXP_PF), (i =? 1); cbn [dr7 set_dr7 set_cr2 set_oldexp andb negb]; rewrite ?andb_true_r; try reflexivity;
  (rewrite Z.land_spec; f_equal; unfold not32, DR7_GD_MASK; change 0xFFFFFFFF with (Z.ones 32);
   rewrite Z.ldiff_spec, Z.ones_spec_low, Z.shiftl_1_l, Z.pow2_bits_eqb by lia; cbn [andb]; now rewrite Z.eqb_sym).
Qed.

(** the ring of a composed hflags word *)
Lemma lor_mod4 a b : (a .| b) mod 4 = (a mod 4) .| (b mod 4).
Proof. rewrite !land3. apply Z.land_lor_distr_l. Qed.
Lemma db_mod4 f k : 2 <= k <= 20 -> ((f .& SEG_HIDDEN_DB) >> k) mod 4 = 0.
Proof.
  intros K. unfold SEG_HIDDEN_DB. rewrite fld1 by lia. destruct (Z.testbit f 22); [| reflexivity].
  replace (22 - k) with (2 + (20 - k)) by lia. rewrite Z.pow_add_r by lia. change (2 ^ 2) with 4. now rewrite Z.mul_comm, Z_mod_mult.
Qed.
Lemma keep_mod4 h k : k mod 4 = 0 -> (h .& k) mod 4 = 0.
Proof. intros H. rewrite land3, <- Z.land_assoc, <- (land3 k), H. apply Z.land_0_r. Qed.

Lemma keep_id4 h k : k mod 4 = 3 -> (h .& k) mod 4 = h mod 4.
Proof. intros H. rewrite !land3, <- Z.land_assoc, <- (land3 k), H. reflexivity. Qed.

Lemma cs_ring f dpl z h : 0 <= dpl < 4 -> z = 0 \/ z = HFLG_CS_IS_ZERO ->
  (((f .& SEG_HIDDEN_DB) >> 20) .| dpl .| z .| (h .& not32 (HFLG_CS32 .| HFLG_CPL .| HFLG_CS_IS_ZERO))) mod 4 = dpl.
Proof.
  intros D Z0. rewrite !lor_mod4, (db_mod4 _ 20) by lia.
  assert (KK : not32 (HFLG_CS32 .| HFLG_CPL .| HFLG_CS_IS_ZERO) mod 4 = 0) by reflexivity.
  rewrite (keep_mod4 h _ KK). rewrite (Z.mod_small dpl) by lia. rewrite Z.lor_0_l.
  assert (z mod 4 = 0) as -> by (destruct Z0 as [-> | ->]; reflexivity). now rewrite !Z.lor_0_r.
Qed.

Lemma deliver_pe_sum intn hw code idx fa ofl s s' u : 0 <= esp X s < 2 ^ 32 ->
  deliver_pe X intn hw code idx fa ofl s = Ok X _ u s' ->
  entered X s (negb (intn =? 0)) (codes intn hw code idx) idx fa ofl s'.
Proof.
  intros HE. unfold deliver_pe. unfold bind at 1, get at 1. cbv zeta.
  destruct (Z.ltb_spec (idtl X s) (idx * 8 + 7)) as [| IL]; [discriminate |]. intros H.
  apply bind_ok in H as (g & s1 & RG & H). destruct (read_inv _ _ _ _ _ _ RG) as (m & -> & RD & GR).
  rewrite kind_eq in H by lia. destruct (gate_kind g =? 5); [discriminate |].
  destruct (negb ((gate_kind g =? 6) || _ || _ || _)) eqn:KD in H; [discriminate |]. pose proof (kind_cases _ KD) as KC.
  rewrite dpl_eq, cpl_mod in H.
  destruct (negb (intn =? 0) && (dpl_of g <? ring X s)) eqn:SD in H; [discriminate |].
  destruct (g .& SEG_DESC_P =? 0) eqn:PG; [discriminate |]. rewrite gate_sel_eq, gate_off_eq in H.
  pose proof (gate_sel_range g) as GSR. rewrite null_eq in H by lia. destruct (is_null (gate_sel g)) eqn:N; [discriminate |].
  apply bind_ok in H as ([ca c] & s2 & HC & H). cbn [fst snd] in H.
  assert (HC' : read_seg_desc X false (gate_sel g) (set_mem X m s) = Ok X _ (ca, c) s2).
  { destruct (read_seg_desc X false (gate_sel g) (set_mem X m s)); try discriminate; exact HC. }
  clear HC. destruct (desc_inv _ _ _ _ _ _ HC') as (m1 & -> & RC & RRC & A). cbn [fst snd] in *.
  destruct (Z.ltb_spec (ring X s) (desc_dpl c)) as [| DL] in H; [discriminate |].
  rewrite dpl_eq in DL. rewrite ?dpl_eq in H. destruct (c .& SEG_DESC_P =? 0) eqn:PC; [discriminate |].
  apply bind_ok in H as (u1 & s3 & AC & H). destruct (access_inv _ _ _ _ _ RRC AC) as (m2 & -> & ACC).
  change (set_mem X m2 (set_mem X m1 (set_mem X m s))) with (set_mem X m2 s) in H.
  pose proof (size_eq _ KC) as [SZ1 SZ2]. pose proof (entry_ef g (ef X s) KC) as EF.
  assert (HR : (if nz (c .& SEG_DESC_C) then ring X s else dpl_of c) = handler_ring (ring X s) c).
  { unfold handler_ring, SEG_DESC_C. now rewrite nz_fld by lia. }
  rewrite HR in H. set (r := handler_ring (ring X s) c) in *.
  pose proof (ring_range X s) as RR0. pose proof (dpl_range c) as DR0.
  assert (RB : 0 <= r < 4) by (unfold r, handler_ring; destruct (Z.testbit c 42); lia).
  assert (RL : r <= ring X s) by (unfold r, handler_ring; destruct (Z.testbit c 42); lia).
  rewrite (code_bit_eq ((intn =? 0) && negb hw) idx) in H. fold (codes intn hw code idx) in H. rewrite vm_eq in H.
  assert (GATE : idt_gate X s idx m g) by (split; [exact IL | exact RD]).
  assert (USE : gate_usable X s (negb (intn =? 0)) g = true).
  { unfold gate_usable. rewrite (present_eq _ PG). apply andb_true_iff. split; [| clear - SD; destruct (intn =? 0); cbn [negb andb orb] in *; lia].
    clear - KC.
    unfold int_gate, trap_gate. destruct KC as [-> | [-> | [-> | ->]]]; reflexivity. }
  assert (DSC : descriptor X (set_mem X m s) (gate_sel g) m1 c) by (unfold descriptor, index; rewrite <- A; exact RC).
  assert (ACC' : accessed X (ring X s) c (desc_addr X s (gate_sel g)) m1 m2) by (rewrite A in ACC; exact ACC).
  exists m, g, m1, c, m2. split; [exact GATE |]. split; [exact USE |]. split; [exact N |]. split; [exact DSC |].
  split; [exact (present_eq _ PC) |]. split; [exact DL |]. split; [exact ACC' |]. fold r.
  destruct (Z.ltb_spec r (ring X s)) as [LT | GE].
  - destruct (vm X s) eqn:V.
    + destruct (nz r) eqn:NR; [discriminate |]. assert (r = 0) as R0 by (unfold nz in NR; lia).
      apply bind_ok in H as ([[e ss] sd] & s3 & CS_ & H).
      destruct (check_ss_inv true _ _ _ _ _ _ _ RB (fun _ => R0) CS_) as (m3 & -> & IS & SDR & SSR).
      change (set_mem X m3 (set_mem X m2 s)) with (set_mem X m3 s) in H. cbn iota in H.
      apply bind_ok in H as (e1 & s4 & PP & H). rewrite big_eq in PP, H. fold (mask_of (is_big sd)) in PP, H.
      rewrite SZ2 in PP, H.
      destruct (pushes_inv _ _ _ _ _ e e _ _ _ eq_refl PP) as (m4 & -> & PS & EE). apply upd_inv in H. cbv zeta in H.
      subst s'. rewrite fin_ef, fin_old, fin_cr2, fin_seg, fin_eip, fin_esp, fin_mem. rewrite fin_ring.
      split; [exact EF |]. split; [reflexivity |]. split; [reflexivity |]. split; [intros j J; exact (fin_dr7 _ _ _ _ J) |]. split; [exact RL |].
      split. { unfold ring. cbn [hfl set_hfl set_ef set_esp set_eip]. rewrite R0. rewrite !lor_mod4. rewrite (db_mod4 _ 19) by lia.
               rewrite Z.lor_0_l, keep_id4 by reflexivity. rewrite lor_mod4, (db_mod4 _ 20) by lia. now rewrite keep_mod4. }
      split; [exact R0 |]. split. { exists (gate_sel g .& 4092). exact (mk_decode _ c RRC). }
      split. { intros q [-> | [-> | [-> | ->]]]; reflexivity. }
      split. { cbn [eip set_eip]. unfold item_size. destruct (gate32 g); [reflexivity |]. change (2 =? 4) with false. cbv iota.
               change 65535 with (Z.ones 16). rewrite land_ones16. unfold gate_off32, gate_off16.
               rewrite Z.add_comm, Z.mod_add by lia. apply Z.mod_mod. lia. }
      exists e, ss, sd, m3. split; [exact IS |]. split. { exact (mk_decode _ sd SDR). }
      split; [rewrite <- base_eq; exact PS |]. cbn [esp set_esp set_eip]. now apply esp_eq.
    + apply bind_ok in H as ([[e ss] sd] & s3 & CS_ & H).
      destruct (check_ss_inv false _ _ _ _ _ _ _ RB ltac:(discriminate) CS_) as (m3 & -> & IS & SDR & SSR).
      change (set_mem X m3 (set_mem X m2 s)) with (set_mem X m3 s) in H. cbn iota in H.
      apply bind_ok in H as (e1 & s4 & PP & H). rewrite big_eq in PP, H. fold (mask_of (is_big sd)) in PP, H.
      destruct (pushes_inv _ _ _ _ _ e e _ _ _ eq_refl PP) as (m4 & -> & PS & EE). apply upd_inv in H. cbv zeta in H.
      rewrite !ldiff_sel in H by lia. rewrite SZ1 in PS, EE.
      subst s'. rewrite fin_ef, fin_old, fin_cr2, fin_seg, fin_eip, fin_esp, fin_mem. rewrite fin_ring.
      split; [exact EF |]. split; [reflexivity |]. split; [reflexivity |]. split; [intros j J; exact (fin_dr7 _ _ _ _ J) |]. split; [exact RL |].
      split. { unfold ring. cbn [hfl set_hfl set_eip]. apply cs_ring; [exact RB |]. destruct (desc_base c =? 0); auto. }
      split. { exact (mk_decode _ c RRC). }
      split; [reflexivity |].
      split. { intros q Q1 Q2. cbn. destruct q; try reflexivity; contradiction. }
      assert (SE : errcode ss + r = ss).
      { destruct IS as (? & ? & _ & _ & _ & SO & _). rewrite <- (sel_rpl ss r SSR RB). exact (sel_id ss r sd SSR RB SO). }
      rewrite (proj2 (Z.ltb_lt _ _) LT).
      exists e, ss, sd, m3. split; [exact IS |]. split. { refine (eq_trans (mk_decode (errcode ss + r) sd SDR) _). now rewrite SE. }
      split; [rewrite <- base_eq; exact PS |]. cbn [esp set_esp set_eip set_hfl put_seg set_seg]. now apply esp_eq.
  - destruct (vm X s) eqn:V; [discriminate |]. destruct (negb (r =? ring X s)) eqn:RE; [discriminate |].
    apply bind_ok in H as (e1 & s4 & PP & H). rewrite ss32_eq in PP, H. fold (mask_of (Z.testbit (hfl X s) 3)) in PP, H.
    destruct (pushes_inv _ _ _ _ _ _ (esp X s) _ _ _ eq_refl PP) as (m4 & -> & PS & EE). apply upd_inv in H. cbv zeta in H.
    rewrite !ldiff_sel in H by lia. rewrite SZ1 in PS, EE.
    subst s'. rewrite fin_ef, fin_old, fin_cr2, fin_seg, fin_eip, fin_esp, fin_mem. rewrite fin_ring.
    split; [exact EF |]. split; [reflexivity |]. split; [reflexivity |]. split; [intros j J; exact (fin_dr7 _ _ _ _ J) |]. split; [exact RL |].
    split. { unfold ring. cbn [hfl set_hfl set_eip]. apply cs_ring; [exact RB |]. destruct (desc_base c =? 0); auto. }
    split. { exact (mk_decode _ c RRC). }
    split; [reflexivity |].
    split. { intros q Q1 Q2. cbn. destruct q; try reflexivity; contradiction. }
    rewrite (proj2 (Z.ltb_ge _ _) GE). split; [reflexivity |]. split; [exact PS |]. cbn [esp set_esp set_eip set_hfl put_seg set_seg]. now apply esp_eq.
Qed.
End Del.
