(** * Far JMP and CALL in protected mode: completed executions *)

From Coq Require Import ZArith Bool List Lia ZifyBool.
From Verif Require Import SegModel SegSpec SegBits SegProofs SegFar SegRet.
Import ListNotations.
Local Open Scope Z_scope.

Section Call.
Context (X : memsys).
Notation st := (st X).
Implicit Types s : st.

Lemma memonly_ipush n p k b v e s : memonly X (ipush X n p k b v e s) s.
Proof. unfold ipush. cbv zeta. apply memonly_bind; [apply memonly_write |]. intros a m _. apply memonly_ret. Qed.
Lemma memonly_ipushes n p k b vs e s : memonly X (ipushes X n p k b vs e s) s.
Proof.
  revert e s. induction vs as [| v vs IH]; intros e s; [apply memonly_ret |]. cbn [ipushes].
  apply memonly_bind; [apply memonly_ipush |]. intros a m _. apply IH.
Qed.
Lemma memonly_get_bind {A} (k : st -> st -> out X A) s : memonly X (k s s) s -> memonly X (bind X (get X) k s) s.
Proof. intros H. exact H. Qed.
Lemma memonly_copy k n mask b e s : memonly X (copy_params X k n mask b e s) s.
Proof.
  revert e s. induction k as [| k IH]; intros e s; [apply memonly_ret |]. cbn [copy_params]. apply memonly_get_bind.
  apply memonly_bind; [apply memonly_read |]. intros v m _. apply memonly_bind; [apply memonly_ipush |]. intros a m1 _. apply IH.
Qed.
Lemma memonly_tss dpl p s : memonly X (read_stack_ptr_from_tss X dpl p s) s.
Proof.
  unfold read_stack_ptr_from_tss. cbv zeta. destruct (_ <? _); [apply memonly_exc |].
  destruct (nz _); (apply memonly_bind; [apply memonly_read |]; intros a m _; apply memonly_bind; [apply memonly_read |]; intros a1 m1 _; apply memonly_ret).
Qed.

Lemma ret_inv {A} (a b : A) s s' : ret X a s = Ok X _ b s' -> a = b /\ s = s'.
Proof. unfold ret. intros H. inversion H. now split. Qed.

Lemma present_eq d : (d .& SEG_DESC_P =? 0) = false -> is_present d = true.
Proof. unfold SEG_DESC_P. rewrite z_fld by lia. unfold is_present. now destruct (Z.testbit d 47). Qed.
Lemma type_eq d : (d .& SEG_DESC_TY) >> 40 = type_of d.
Proof. unfold SEG_DESC_TY. change (15 << 40) with (Z.ones 4 << 40). rewrite fieldr by lia. unfold type_of. change (2 ^ 4) with 16. change (2 ^ (40 - 40)) with 1. lia. Qed.
Lemma code_type2 d : (((d .& SEG_DESC_S) >> 43) .| ((d .& SEG_DESC_DC) >> 43) =? 3) = negb (is_system d) && is_code d.
Proof.
  unfold SEG_DESC_S, SEG_DESC_DC. rewrite !fld1 by lia. unfold is_system, is_code. rewrite negb_involutive.
  destruct (Z.testbit d 44), (Z.testbit d 43); reflexivity.
Qed.
Lemma gate_sel_eq d : (d .& 0xFFFF0000) >> 16 = gate_sel d.
Proof. change 0xFFFF0000 with (Z.ones 16 << 16). rewrite fieldr by lia. unfold gate_sel. change (2 ^ (16 - 16)) with 1. lia. Qed.
Lemma gate_off_eq d : ((d .& 0xFFFF000000000000) >> 32) .| (d .& 0xFFFF) = gate_off32 d.
Proof.
  change 0xFFFF000000000000 with (Z.ones 16 << 48). rewrite fieldr by lia. change 0xFFFF with (Z.ones 16). rewrite Z.land_ones by lia.
  change (48 - 32) with 16. rewrite lor_disj; [reflexivity | lia |]. apply Z.mod_pos_bound. lia.
Qed.
Lemma land_ones32 x : x .& Z.ones 32 = x mod 2 ^ 32. Proof. now rewrite Z.land_ones by lia. Qed.
Lemma land_ones16 x : x .& Z.ones 16 = x mod 2 ^ 16. Proof. now rewrite Z.land_ones by lia. Qed.
Lemma gate_off_range d : 0 <= gate_off32 d < 2 ^ 32.
Proof. unfold gate_off32. pose proof (Z.mod_pos_bound (d / 2 ^ 48) (2 ^ 16) ltac:(lia)). pose proof (Z.mod_pos_bound d (2 ^ 16) ltac:(lia)). lia. Qed.
Lemma gate_sel_range d : 0 <= gate_sel d < 2 ^ 16. Proof. apply Z.mod_pos_bound. lia. Qed.
Lemma sel_rpl sl c : 0 <= sl < 2 ^ 16 -> 0 <= c < 4 -> (sl .& 0xFFFC) .| c = errcode sl + c.
Proof.
  intros Hs Hc. rewrite err_eq by lia. unfold errcode. change 4 with (2 ^ 2) at 2. rewrite lor_disj by lia. reflexivity.
Qed.
Lemma rpl_sel sl c : 0 <= c < 4 -> rpl (errcode sl + c) = c.
Proof. intros Hc. unfold rpl, errcode. rewrite Z.add_comm, Z.mod_add by lia. now apply Z.mod_small. Qed.

Lemma sel_id ss c sd : 0 <= ss < 2 ^ 16 -> 0 <= c < 4 -> stack_ok c ss sd = true -> (ss .& 65532) .| c = ss.
Proof.
  intros Hs Hc SO. change 65532 with 0xFFFC. rewrite sel_rpl by lia. unfold stack_ok in SO. rewrite !andb_true_iff in SO. destruct SO as [_ E].
  apply Z.eqb_eq in E. rewrite <- E. unfold errcode, rpl. pose proof (Z.div_mod ss 4 ltac:(lia)). lia.
Qed.

Lemma conf_bit d : is_code d = true -> nz (d .& SEG_DESC_C) = is_conforming d.
Proof. unfold SEG_DESC_C, is_code, is_conforming. intros ->. rewrite nz_fld by lia. reflexivity. Qed.

Lemma direct_checks d sl c : 0 <= c < 4 -> nz (d .& SEG_DESC_S) = true -> (d .& SEG_DESC_DC =? 0) = false ->
  (if nz (d .& SEG_DESC_C) then c <? desc_dpl d else (c <? sl .& 3) || negb (desc_dpl d =? c)) = false -> (d .& SEG_DESC_P =? 0) = false ->
  direct_ok c sl d = true.
Proof.
  unfold SEG_DESC_S, SEG_DESC_DC, SEG_DESC_P. rewrite nz_fld, !z_fld by lia. intros Hc S C.
  assert (IC : is_code d = true) by (unfold is_code; destruct (Z.testbit d 43); [reflexivity | discriminate]).
  rewrite (conf_bit _ IC). rewrite dpl_eq, rpl_eq. intros Q P. unfold direct_ok. rewrite IC. unfold is_system. rewrite S.
  unfold is_present. destruct (Z.testbit d 47); [| discriminate]. cbn [negb andb]. destruct (is_conforming d); lia.
Qed.

Lemma gate_checks d sl c : nz (d .& SEG_DESC_S) = false -> negb ((((d .& SEG_DESC_TY) >> 40) =? 4) || (((d .& SEG_DESC_TY) >> 40) =? 12)) = false ->
  (desc_dpl d <? c) || (desc_dpl d <? sl .& 3) = false -> (d .& SEG_DESC_P =? 0) = false -> gate_ok c sl d = true.
Proof.
  unfold SEG_DESC_S, SEG_DESC_P. rewrite nz_fld, z_fld by lia. rewrite type_eq, dpl_eq, rpl_eq. intros S T Q P.
  unfold gate_ok, is_system, is_present. rewrite S. destruct (Z.testbit d 47); [| discriminate]. cbn [negb andb] in *. lia.
Qed.

Lemma ring_load_cs sl d s : ring X (load_desc X CS sl d s) = rpl sl. Proof. apply ring_cs. Qed.
Lemma seg_load_eq r sl d s : 0 <= d < 2 ^ 64 -> seg X (load_desc X r sl d s) r = decode sl d. Proof. apply decode_eq. Qed.

Definition ljmp_result (s : st) sl jmp s' : Prop :=
  is_null sl = false /\ ring X s' = ring X s /\ ef X s' = ef X s /\ esp X s' = esp X s /\ (forall r, r <> CS -> seg X s' r = seg X s r) /\
  exists m d, descriptor X s sl m d /\
  ((direct_ok (ring X s) sl d = true /\ eip X s' = jmp /\ seg X s' CS = decode (errcode sl + ring X s) d) \/
   (gate_ok (ring X s) sl d = true /\ exists m1 c, is_null (gate_sel d) = false /\ descriptor X (set_mem X m s) (gate_sel d) m1 c /\
      direct_ok (ring X s) 0 c = true /\
      eip X s' = (if type_of d =? 4 then jmp mod 2 ^ 16 else jmp) /\ seg X s' CS = decode (errcode sl + ring X s) c)).

Lemma ljmp_sum sl n jmp s s' u : n = 4 -> 0 <= sl < 2 ^ 16 -> ljmp_pe X sl n jmp s = Ok X _ u s' -> ljmp_result s sl jmp s'.
Proof.
  intros Hn Hs. unfold ljmp_pe. unfold bind at 1, get at 1. cbv zeta. rewrite null_eq by lia. destruct (is_null sl) eqn:N; [discriminate |]. intros H.
  apply bind_ok in H as ([a d] & s1 & HD & H). destruct (desc_inv _ _ _ _ _ _ HD) as (m & -> & RD & RR & A). cbn [fst snd] in *.
  assert (DS1 : descriptor X s sl m d) by (unfold descriptor, index; rewrite <- A; exact RD).
  pose proof (ring_range X s) as RG. rewrite cpl_mod in H.
  destruct (nz (d .& SEG_DESC_S)) eqn:S.
  - destruct (d .& SEG_DESC_DC =? 0) eqn:C; [discriminate |].
    destruct (if nz (d .& SEG_DESC_C) then _ else _) eqn:Q in H; [discriminate |].
    destruct (d .& SEG_DESC_P =? 0) eqn:P; [discriminate |].
    pose proof (direct_checks _ _ _ RG S C Q P) as OK.
    apply bind_ok in H as (u1 & s2 & P4 & H). pose proof (memonly_ok _ _ _ _ _ P4 (memonly_access _ _ _ _)) as [m4 ->].
    change (set_mem X m4 (set_mem X m s)) with (set_mem X m4 s) in H. apply upd_inv in H.
    rewrite (sel_rpl sl _ Hs RG) in H. rewrite Hn in H. change (4 =? 2) with false in H. cbv iota in H. subst s'.
    split; [exact N |]. split; [exact (eq_trans (ring_load_cs _ _ _) (rpl_sel sl (ring X s) RG)) |]. split; [exact (ef_load X CS (errcode sl + ring X s) d (set_mem X m4 s)) |].
    split; [exact (esp_load X CS _ _ _) |]. split; [intros r Hr; exact (load_other CS r _ _ X _ Hr) |].
    exists m, d. split; [exact DS1 |]. left. split; [exact OK |]. split; [reflexivity |]. now apply (decode_eq CS).
  - destruct (_ || _ || _) eqn:TSS in H; [discriminate |]. destruct (negb _) eqn:TY in H; [discriminate |].
    destruct ((desc_dpl d <? _) || _) eqn:Q in H; [discriminate |]. destruct (d .& SEG_DESC_P =? 0) eqn:P; [discriminate |].
    pose proof (gate_checks _ _ _ S TY Q P) as OK. rewrite gate_sel_eq in H. pose proof (gate_sel_range d) as GR.
    rewrite null_eq in H by lia. destruct (is_null (gate_sel d)) eqn:N2; [discriminate |].
    apply bind_ok in H as ([a2 c] & s2 & HC & H). destruct (desc_inv _ _ _ _ _ _ HC) as (m2 & -> & RC & RRC & A2). cbn [fst snd] in *.
    assert (DS2 : descriptor X (set_mem X m s) (gate_sel d) m2 c) by (unfold descriptor, index; rewrite <- A2; exact RC).
    rewrite code_type2 in H. destruct (negb (negb (is_system c) && is_code c) || _ || _) eqn:QC in H; [discriminate |].
    destruct (c .& SEG_DESC_P =? 0) eqn:PC; [discriminate |].
    assert (OKC : direct_ok (ring X s) 0 c = true).
    { unfold direct_ok. destruct (is_system c) eqn:SC; [discriminate |]. destruct (is_code c) eqn:IC; [| discriminate]. cbn [negb andb] in *.
      rewrite (conf_bit _ IC), dpl_eq in QC. replace (c .& SEG_DESC_C =? 0) with (negb (is_conforming c)) in QC by (rewrite <- (conf_bit _ IC); unfold nz; now rewrite negb_involutive).
      unfold SEG_DESC_P in PC. rewrite z_fld in PC by lia. unfold is_present. destruct (Z.testbit c 47); [| discriminate]. cbn [andb].
      change (rpl 0) with 0. destruct (is_conforming c); cbn [negb andb orb] in *; lia. }
    apply bind_ok in H as (u1 & s2 & P4 & H). pose proof (memonly_ok _ _ _ _ _ P4 (memonly_access _ _ _ _)) as [m4 ->].
    change (set_mem X m4 (set_mem X m2 (set_mem X m s))) with (set_mem X m4 s) in H. apply upd_inv in H.
    rewrite (sel_rpl sl _ Hs RG) in H. rewrite type_eq in H. subst s'.
    split; [exact N |]. split; [exact (eq_trans (ring_load_cs _ _ _) (rpl_sel sl (ring X s) RG)) |]. split; [exact (ef_load X CS (errcode sl + ring X s) c (set_mem X m4 s)) |].
    split; [exact (esp_load X CS _ _ _) |]. split; [intros r Hr; exact (load_other CS r _ _ X _ Hr) |].
    exists m, d. split; [exact DS1 |]. right. split; [exact OK |]. exists m2, c. split; [exact N2 |]. split; [exact DS2 |]. split; [exact OKC |]. split.
    + cbn [eip set_eip]. rewrite type_eq in TY. destruct (Z.eqb_spec (type_of d) 4) as [E | E].
      * rewrite E. change (4 >> 3 =? 0) with true. cbv iota. change (jmp .& 65535) with (jmp .& Z.ones 16). apply (land_ones16 jmp).
      * assert (E2 : type_of d = 12) by lia. now rewrite E2.
    + now apply (decode_eq CS).
Qed.

(** ** CALL *)
Definition lcall_result (s : st) sl call s' : Prop :=
  is_null sl = false /\ ef X s' = ef X s /\ (forall r, r <> CS -> r <> SS -> seg X s' r = seg X s r) /\
  exists m d, descriptor X s sl m d /\
  ((direct_ok (ring X s) sl d = true /\ eip X s' = call /\ seg X s' CS = decode (errcode sl + ring X s) d /\
    ring X s' = ring X s /\ seg X s' SS = seg X s SS) \/
   (gate_ok (ring X s) sl d = true /\ exists m1 c, is_null (gate_sel d) = false /\ descriptor X (set_mem X m s) (gate_sel d) m1 c /\
      is_system c = false /\ is_code c = true /\ is_present c = true /\ dpl_of c <= ring X s /\
      eip X s' = gate_off32 d /\ seg X s' CS = decode (errcode (gate_sel d) + dpl_of c) c /\ ring X s' = dpl_of c /\
      if negb (is_conforming c) && (dpl_of c <? ring X s) then
        exists e ss m2 m4 sd, read_stack_ptr_from_tss X (dpl_of c) 0 (set_mem X m1 s) = Ok X _ (e, ss) (set_mem X m2 s) /\
          is_null ss = false /\ descriptor X (set_mem X m2 s) ss m4 sd /\ stack_ok (dpl_of c) ss sd = true /\ is_present sd = true /\
          seg X s' SS = decode ss sd
      else seg X s' SS = seg X s SS)).

Lemma ss_checks d sl c : 0 <= c < 4 ->
  nz ((((d .& SEG_DESC_S) >> 44) .| ((d .& SEG_DESC_DC) >> 42) .| ((d .& SEG_DESC_W) >> 39) .| ((d .& SEG_DESC_DPL) >> 42) .| ((sl .& 3) << 5))
       .^ (5 .| (c << 3) .| (c << 5))) = negb (stack_ok c sl d).
Proof.
  intros Hc. unfold SEG_DESC_S, SEG_DESC_DC, SEG_DESC_W, SEG_DESC_DPL. rewrite !fld1 by lia.
  change (3 << 45) with (Z.ones 2 << 45). rewrite fieldr by lia. change (d / 2 ^ 45 mod 2 ^ 2) with (dpl_of d).
  rewrite (rpl_eq sl). change (44 - 44) with 0. change (43 - 42) with 1. change (41 - 39) with 2. change (45 - 42) with 3.
  rewrite stack_bits by (try apply dpl_range; try apply rpl_range; exact Hc).
  unfold stack_ok, is_system, is_code, is_rw. now rewrite negb_involutive.
Qed.

Lemma lcall_sum sl call n ret s s' u : 0 <= sl < 2 ^ 16 -> lcall_pe X sl call n ret s = Ok X _ u s' -> lcall_result s sl call s'.
Proof.
  intros Hs. unfold lcall_pe. unfold bind at 1, get at 1. cbv zeta. rewrite null_eq by lia. destruct (is_null sl) eqn:N; [discriminate |]. intros H.
  apply bind_ok in H as ([a d] & s1 & HD & H). destruct (desc_inv _ _ _ _ _ _ HD) as (m & -> & RD & RR & A). cbn [fst snd] in *.
  assert (DS1 : descriptor X s sl m d) by (unfold descriptor, index; rewrite <- A; exact RD).
  pose proof (ring_range X s) as RG. rewrite cpl_mod in H.
  destruct (nz (d .& SEG_DESC_S)) eqn:S.
  - destruct (d .& SEG_DESC_DC =? 0) eqn:C; [discriminate |].
    destruct (if nz (d .& SEG_DESC_C) then _ else _) eqn:Q in H; [discriminate |].
    destruct (d .& SEG_DESC_P =? 0) eqn:P; [discriminate |].
    pose proof (direct_checks _ _ _ RG S C Q P) as OK.
    apply bind_ok in H as (e1 & s2 & P2 & H). pose proof (memonly_ok _ _ _ _ _ P2 (memonly_push _ _ _ _ _)) as [m2 ->].
    apply bind_ok in H as (e2 & s2 & P3 & H). pose proof (memonly_ok _ _ _ _ _ P3 (memonly_push _ _ _ _ _)) as [m3 ->].
    apply bind_ok in H as (u1 & s2 & P4 & H). pose proof (memonly_ok _ _ _ _ _ P4 (memonly_access _ _ _ _)) as [m4 ->].
    change (set_mem X m4 (set_mem X m3 (set_mem X m2 (set_mem X m s)))) with (set_mem X m4 s) in H. apply upd_inv in H.
    rewrite (sel_rpl sl _ Hs RG) in H. subst s'.
    split; [exact N |]. split; [exact (ef_load X CS (errcode sl + ring X s) d (set_mem X m4 s)) |].
    split; [intros r Hr _; exact (load_other CS r _ _ X _ Hr) |].
    exists m, d. split; [exact DS1 |]. left. split; [exact OK |]. split; [reflexivity |]. split; [now apply (decode_eq CS) |].
    split; [exact (eq_trans (ring_load_cs _ _ _) (rpl_sel sl (ring X s) RG)) |]. assert (SC0 : SS <> CS) by discriminate. exact (load_other CS SS _ _ X _ SC0).
  - destruct (_ || _ || _) eqn:TSS in H; [discriminate |]. destruct (negb _) eqn:TY in H; [discriminate |].
    destruct ((desc_dpl d <? _) || _) eqn:Q in H; [discriminate |]. destruct (d .& SEG_DESC_P =? 0) eqn:P; [discriminate |].
    pose proof (gate_checks _ _ _ S TY Q P) as OK. rewrite gate_sel_eq, gate_off_eq in H. pose proof (gate_sel_range d) as GR.
    rewrite null_eq in H by lia. destruct (is_null (gate_sel d)) eqn:N2; [discriminate |].
    apply bind_ok in H as ([a2 c] & s2 & HC & H). destruct (desc_inv _ _ _ _ _ _ HC) as (m2 & -> & RC & RRC & A2). cbn [fst snd] in *.
    assert (DS2 : descriptor X (set_mem X m s) (gate_sel d) m2 c) by (unfold descriptor, index; rewrite <- A2; exact RC).
    rewrite code_type2 in H. destruct (negb (negb (is_system c) && is_code c) || _) eqn:QC in H; [discriminate |].
    destruct (c .& SEG_DESC_P =? 0) eqn:PC; [discriminate |]. rewrite dpl_eq in *.
    assert (SC : is_system c = false) by (destruct (is_system c); [discriminate | reflexivity]). rewrite SC in QC.
    assert (IC : is_code c = true) by (destruct (is_code c); [reflexivity | discriminate]). rewrite IC in QC. cbn [negb andb orb] in QC.
    assert (CP : is_present c = true) by (unfold SEG_DESC_P in PC; rewrite z_fld in PC by lia; unfold is_present; destruct (Z.testbit c 47); [reflexivity | discriminate]).
    replace (c .& SEG_DESC_C =? 0) with (negb (is_conforming c)) in H by (rewrite <- (conf_bit _ IC); unfold nz; now rewrite negb_involutive).
    pose proof (dpl_range c) as DR. assert (QL : dpl_of c <= ring X s) by (now apply Z.ltb_ge).
    change (set_mem X m2 (set_mem X m s)) with (set_mem X m2 s) in H.
    assert (GEN : forall e s3, (exists ms, s3 = set_mem X ms s) \/ (exists ms ss sd, s3 = load_desc X SS ss sd (set_mem X ms s)) ->
      forall u2, (bind X (set_access_flg X c a2) (fun _ : unit => upd X (fun s0 => set_eip X
         (gate_off32 d .& not32 (if (if nz ((d .& SEG_DESC_TY) >> 40 >> 3) then 4 else 2) =? 4 then 4294967295 else 65535)
            .| gate_off32 d .& (if (if nz ((d .& SEG_DESC_TY) >> 40 >> 3) then 4 else 2) =? 4 then 4294967295 else 65535))
          (set_esp X e (load_desc X CS ((gate_sel d .& 65532) .| dpl_of c) c s0))))) s3 = Ok X _ u2 s' ->
      ef X s' = ef X s /\ (forall r, r <> CS -> r <> SS -> seg X s' r = seg X s r) /\ eip X s' = gate_off32 d /\
      seg X s' CS = decode (errcode (gate_sel d) + dpl_of c) c /\ ring X s' = dpl_of c /\ seg X s' SS = seg X s3 SS).
    { intros e s3 H3 u2 G. apply bind_ok in G as (u1 & s4 & P4 & G). pose proof (memonly_ok _ _ _ _ _ P4 (memonly_access _ _ _ _)) as [m4 ->].
      apply upd_inv in G. rewrite (sel_rpl _ _ GR DR) in G. subst s'.
      assert (E3 : ef X s3 = ef X s) by (destruct H3 as [[? ->] | (? & ? & ? & ->)]; reflexivity).
      assert (S3 : forall r, r <> SS -> seg X s3 r = seg X s r).
      { destruct H3 as [[? ->] | (? & ? & ? & ->)]; [reflexivity |]. intros r Hr. now rewrite load_other. }
      split; [exact (eq_trans (ef_load X CS (errcode (gate_sel d) + dpl_of c) c (set_mem X m4 s3)) E3) |].
      split; [intros r H1 H2; exact (eq_trans (load_other CS r (errcode (gate_sel d) + dpl_of c) c X (set_mem X m4 s3) H1) (S3 r H2)) |].
      split; [cbn [eip set_eip] |].
      { rewrite <- Z.land_lor_distr_r. 
        pose proof (gate_off_range d) as GO.
        transitivity (gate_off32 d .& Z.ones 32); [f_equal; destruct (nz ((d .& SEG_DESC_TY) >> 40 >> 3)); reflexivity |]. rewrite land_ones32. apply Z.mod_small. exact GO. }
      split; [now apply (decode_eq CS) |]. split; [exact (eq_trans (ring_load_cs _ _ _) (rpl_sel (gate_sel d) (dpl_of c) DR)) |].
      assert (SC0 : SS <> CS) by discriminate. exact (load_other CS SS _ _ X _ SC0). }
    apply bind_ok in H as (e & s3 & H1 & H).
    split; [exact N |].
    destruct (negb (is_conforming c) && (dpl_of c <? ring X s)) eqn:BR.
    + apply bind_ok in H1 as ([e0 ss] & s4 & T1 & H1). pose proof (memonly_ok _ _ _ _ _ T1 (memonly_tss _ _ _)) as [m4 ->]. cbn [fst snd] in *.
      assert (SSR : 0 <= ss < 2 ^ 16).
      { clear - T1. unfold read_stack_ptr_from_tss in T1. cbv zeta in T1. destruct (_ <? _) in T1; [discriminate |]. destruct (nz _) in T1;
        apply bind_ok in T1 as (v1 & s5 & _ & T1); apply bind_ok in T1 as (v2 & s6 & R & T1); apply ret_inv in T1 as [E1 E2]; injection E1 as E3 E4; subst;
        unfold mread in R; destruct (rd X _ _ _ _ _) as [mm [vv | ? ?]] eqn:RR in R; try discriminate; injection R as R1 R2; subst; apply (rd_range X) in RR; exact RR. }
      rewrite (null_eq ss (proj1 SSR)) in H1. destruct (is_null ss) eqn:N3; [discriminate |].
      apply bind_ok in H1 as ([a3 sd] & s5 & HS & H1). destruct (desc_inv _ _ _ _ _ _ HS) as (m5 & -> & RS & RRS & A3). cbn [fst snd] in *.
      rewrite ss_checks in H1 by exact DR. destruct (stack_ok (dpl_of c) ss sd) eqn:SO; cbn [negb] in H1; [| discriminate].
      destruct (sd .& SEG_DESC_P =? 0) eqn:PS; [discriminate |].
      repeat (apply bind_ok in H1 as (?e & ? & ?P & H1);
              match goal with P : ipush X _ _ _ _ _ _ _ = Ok _ _ _ _ |- _ => destruct (memonly_ok _ _ _ _ _ P (memonly_ipush _ _ _ _ _ _ _)) as [?m ->]; clear P
                            | P : copy_params X _ _ _ _ _ _ = Ok _ _ _ _ |- _ => destruct (memonly_ok _ _ _ _ _ P (memonly_copy _ _ _ _ _ _)) as [?m ->]; clear P
                            | P : set_access_flg X _ _ _ = Ok _ _ _ _ |- _ => destruct (memonly_ok _ _ _ _ _ P (memonly_access _ _ _ _)) as [?m ->]; clear P
                            | P : upd X _ _ = Ok _ _ _ _ |- _ => apply upd_inv in P as -> end).
      apply ret_inv in H1 as [HE HS3].
      assert (SLE : (ss .& 65532) .| dpl_of c = ss).
      { exact (sel_id _ _ _ SSR DR SO). }
      rewrite SLE in HS3.
      match type of HS3 with load_desc X SS ss sd ?t = _ => 
        match t with set_mem X ?mm _ => change t with (set_mem X mm s) in HS3 end end.
      destruct (GEN e s3 ltac:(right; rewrite <- HS3; eauto) u H) as (G1 & G2 & G3 & G4 & G5 & G6).
      split; [exact G1 |]. split; [exact G2 |].
      exists m, d. split; [exact DS1 |]. right. split; [exact OK |]. exists m2, c. split; [exact N2 |]. split; [exact DS2 |].
      split; [exact SC |]. split; [exact IC |]. split; [exact CP |]. split; [exact QL |]. split; [exact G3 |]. split; [exact G4 |]. split; [exact G5 |].
      change (set_mem X m5 (set_mem X m4 (set_mem X m2 s))) with (set_mem X m5 s) in *.
      rewrite BR. exists e0, ss, m4, m5, sd. split; [exact T1 |]. split; [exact N3 |].
      split. { unfold descriptor, index. rewrite A3 in RS. exact RS. }
      split; [exact SO |]. split. { exact (present_eq _ PS). }
      rewrite G6, <- HS3. now apply (decode_eq SS).
    + apply bind_ok in H1 as (e1 & s4 & P1 & H1). destruct (memonly_ok _ _ _ _ _ P1 (memonly_ipush _ _ _ _ _ _ _)) as [m4 ->].
      destruct (memonly_ok _ _ _ _ _ H1 (memonly_ipush _ _ _ _ _ _ _)) as [m5 ->].
      change (set_mem X m5 (set_mem X m4 (set_mem X m2 s))) with (set_mem X m5 s) in *.
      destruct (GEN e (set_mem X m5 s) ltac:(left; eauto) u H) as (G1 & G2 & G3 & G4 & G5 & G6).
      split; [exact G1 |]. split; [exact G2 |].
      exists m, d. split; [exact DS1 |]. right. split; [exact OK |]. exists m2, c. split; [exact N2 |]. split; [exact DS2 |].
      split; [exact SC |]. split; [exact IC |]. split; [exact CP |]. split; [exact QL |]. split; [exact G3 |]. split; [exact G4 |]. split; [exact G5 |].
      rewrite BR. exact G6.
Qed.

End Call.
