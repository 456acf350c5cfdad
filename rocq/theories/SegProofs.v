(** * Proofs about segment loads *)

From Coq Require Import ZArith Bool List Lia ZifyBool.
From Verif Require Import SegModel SegSpec SegBits.
Import ListNotations.
Local Open Scope Z_scope.

Section Proofs.
Context (X : memsys).
Notation st := (st X).
Implicit Types s : st.

(** ** What the memory helpers can do to the state *)
Definition exc_st (m : M X) (c i : Z) s : st := set_xcode X c (set_xidx X i (set_mem X m s)).
Definition pf_st (m : M X) (c a : Z) s : st := set_xaddr X a (set_xcode X c (set_xidx X EXP_PF (set_mem X m s))).
Definition memonly {A} (o : out X A) s : Prop :=
  match o with
  | Ok _ _ _ s' => exists m, s' = set_mem X m s
  | Exc _ _ s' => exists m c i, s' = exc_st m c i s
  | PFault _ _ s' => exists m c a, s' = pf_st m c a s
  | Abort _ _ => False
  end.

Lemma memonly_ret {A} (a : A) s : memonly (ret X a s) s.
Proof. exists (mem X s). now destruct s. Qed.
Lemma memonly_bind {A B} (f : st -> out X A) (k : A -> st -> out X B) s :
  memonly (f s) s -> (forall a m, f s = Ok X A a (set_mem X m s) -> memonly (k a (set_mem X m s)) (set_mem X m s)) -> memonly (bind X f k s) s.
Proof.
  unfold bind. intros H K. destruct (f s) as [a s1 | s1 | s1 |]; try exact H. destruct H as [m ->].
  specialize (K a m eq_refl). destruct (k a (set_mem X m s)) as [b s2 | s2 | s2 |]; cbn in K |- *.
  - destruct K as [m2 ->]. now exists m2.
  - destruct K as (m2 & c & i & ->). now exists m2, c, i.
  - destruct K as (m2 & c & i & ->). now exists m2, c, i.
  - exact K.
Qed.
Lemma memonly_exc {A} c i s : memonly (raise_exp X c i s : out X A) s.
Proof. exists (mem X s), c, i. now destruct s. Qed.
Lemma memonly_read n p a s : memonly (mread X n p a s) s.
Proof. unfold mread. destruct (rd X _ _ _ _ _) as [m [v | c b]]; cbn; [now exists m | now exists m, c, b]. Qed.
Lemma memonly_write n p a v s : memonly (mwrite X n p a v s) s.
Proof. unfold mwrite. destruct (wr X _ _ _ _ _ _) as [m [[c b] |]]; cbn; [now exists m, c, b | now exists m]. Qed.
Lemma memonly_access d a s : memonly (set_access_flg X d a s) s.
Proof. unfold set_access_flg. destruct (_ =? 1); [apply memonly_write | apply memonly_ret]. Qed.
Lemma memonly_desc t sl s : memonly (read_seg_desc X t sl s) s.
Proof.
  unfold read_seg_desc. destruct (_ && _); [apply memonly_exc |]. cbv zeta. destruct (_ <? _); [apply memonly_exc |].
  apply memonly_bind; [apply memonly_read |]. intros a m _. apply memonly_ret.
Qed.
Lemma memonly_pop n e s : memonly (stack_pop X n e s) s.
Proof.
  unfold stack_pop. destruct (n =? 4); (apply memonly_bind; [apply memonly_read |]); intros a m _; apply memonly_ret.
Qed.
Lemma memonly_push v n e s : memonly (stack_push X v n e s) s.
Proof.
  unfold stack_push. destruct (n =? 4); [destruct (nz _) |];
    (apply memonly_bind; [apply memonly_write |]); intros a m _; apply memonly_ret.
Qed.
Lemma memonly_check_ss sl o s : memonly (check_ss_desc_priv X sl o s) s.
Proof.
  unfold check_ss_desc_priv. destruct (_ =? 0); [apply memonly_exc |]. apply memonly_bind; [apply memonly_desc |].
  intros a m _. cbv zeta. destruct (nz _); [apply memonly_exc |]. destruct (_ =? 0); [apply memonly_exc | apply memonly_ret].
Qed.

(** ** Inversion *)
Lemma bind_ok {A B} (f : st -> out X A) (k : A -> st -> out X B) s b s2 :
  bind X f k s = Ok X B b s2 -> exists a s1, f s = Ok X A a s1 /\ k a s1 = Ok X B b s2.
Proof. unfold bind. destruct (f s) as [a s1 | | |]; try discriminate. intros H. now exists a, s1. Qed.
Lemma memonly_ok {A} (o : out X A) s a s' : o = Ok X A a s' -> memonly o s -> exists m, s' = set_mem X m s.
Proof. intros -> H. exact H. Qed.

Lemma desc_inv t sl s p s1 : read_seg_desc X t sl s = Ok X _ p s1 ->
  exists m, s1 = set_mem X m s /\ rd X (ring X s) 2 8 (fst p) (mem X s) = (m, MVal (snd p)) /\ 0 <= snd p < 2 ^ 64 /\
    fst p = (tbl_base X s sl + sl / 8 * 8) mod 2 ^ 32.
Proof.
  unfold read_seg_desc. destruct (t && _); [discriminate |]. cbv zeta. destruct (_ <? _); [discriminate |]. unfold bind, mread.
  rewrite cpl_mod. rewrite ti_eq. rewrite Z.shiftr_div_pow2 by lia. change (2 ^ 3) with 8.
  set (a := w32 ((if in_ldt sl then base (seg X s LDTR) else gdtb X s) + sl / 8 * 8)).
  assert (W : w32 a = a) by (unfold a, w32; now rewrite Z.mod_mod by lia). rewrite W.
  destruct (rd X (ring X s) 2 8 a (mem X s)) as [m [v | c b]] eqn:E; [| discriminate]. unfold ret. intros [= <- <-].
  exists m. split; [reflexivity |]. cbn [fst snd]. split; [exact E |]. split; [| reflexivity].
  apply (rd_range X) in E. exact E.
Qed.

Lemma set_mem_id s : set_mem X (mem X s) s = s. Proof. now destruct s. Qed.

Lemma in_ldt_case sl s : tables_ok X s ->
  0 <= tbl_base X s sl /\ 0 <= tbl_limit X s sl /\ tbl_base X s sl + 2 ^ 16 <= 2 ^ 32 /\ tbl_base X s sl + tbl_limit X s sl < 2 ^ 32.
Proof. unfold tables_ok, tbl_base, tbl_limit. intros H. destruct (in_ldt sl); lia. Qed.

Lemma desc_eq sl s : 0 <= sl < 2 ^ 16 -> tables_ok X s ->
  let a := (tbl_base X s sl + index sl * 8) mod 2 ^ 32 in
  read_seg_desc X false sl s =
  if in_table X s sl then
    match rd X (ring X s) 2 8 a (mem X s) with
    | (m, MVal d) => Ok X _ (a, d) (set_mem X m s)
    | (m, MFault c b) => PFault X _ (pf_st m c b s)
    end
  else Exc X _ (exc_st (mem X s) (errcode sl) EXP_GP s).
Proof.
  intros Hs T a. pose proof (in_ldt_case sl s T) as (B0 & L0 & B1 & L1). unfold read_seg_desc. cbn [andb]. cbv zeta.
  rewrite !ti_eq. rewrite Z.shiftr_div_pow2 by lia. change (2 ^ 3) with 8.
  change (if in_ldt sl then base (seg X s LDTR) else gdtb X s) with (tbl_base X s sl).
  change (if in_ldt sl then limit (seg X s LDTR) else gdtl X s) with (tbl_limit X s sl).
  change (w32 (tbl_base X s sl + sl / 8 * 8)) with a.
  assert (I : 0 <= sl / 8 * 8 <= 2 ^ 16 - 8).
  { split; [apply Z.mul_nonneg_nonneg; [apply Z.div_pos; lia | lia] |].
    assert (sl / 8 < 2 ^ 13) by (apply Z.div_lt_upper_bound; lia). lia. }
  assert (A : a = tbl_base X s sl + sl / 8 * 8) by (unfold a, index; apply Z.mod_small; lia).
  unfold w32. rewrite (Z.mod_small (tbl_base X s sl + tbl_limit X s sl)) by lia. rewrite (Z.mod_small (a + 7)) by lia.
  unfold in_table, index. replace (tbl_base X s sl + tbl_limit X s sl <? a + 7) with (negb (sl / 8 * 8 + 7 <=? tbl_limit X s sl)) by lia.
  destruct (sl / 8 * 8 + 7 <=? tbl_limit X s sl); cbn [negb].
  - unfold bind, mread, w32. rewrite cpl_mod. rewrite (Z.mod_small a) by lia.
    destruct (rd X (ring X s) 2 8 a (mem X s)) as [m [v | c b]]; reflexivity.
  - unfold raise_exp, exc_st. rewrite set_mem_id, err_eq by lia. reflexivity.
Qed.

Lemma read_range s sl m d : descriptor X s sl m d -> 0 <= d < 2 ^ 64.
Proof. unfold descriptor. intros H. apply (rd_range X) in H. exact H. Qed.

Lemma type_bits d : ((d .& SEG_DESC_DC) >> 43) .| ((d .& SEG_DESC_W) >> 40) =? 1 = is_code d && negb (is_rw d).
Proof. unfold SEG_DESC_DC, SEG_DESC_W. rewrite !fld1 by lia. unfold is_code, is_rw. destruct (Z.testbit d 43), (Z.testbit d 41); reflexivity. Qed.
Lemma code_bits d : ((d .& SEG_DESC_DC) >> 43 =? 0) || (d .& SEG_DESC_C =? 0) = negb (is_conforming d).
Proof. unfold SEG_DESC_DC, SEG_DESC_C. rewrite fld1, z_fld by lia. unfold is_conforming. destruct (Z.testbit d 43), (Z.testbit d 42); reflexivity. Qed.

Definition data_reg (r : sr) : Prop := r = DS \/ r = ES \/ r = FS \/ r = GS.

(** the effect of loading a data segment register *)
Lemma load_frame r sl b l f s : r <> LDTR -> r <> TR ->
  forall q, q <> r -> seg X (write_seg_reg X r sl b l f s) q = seg X s q.
Proof. intros _ _ q Hq. unfold write_seg_reg. destruct r, q; try reflexivity; now destruct Hq. Qed.

Lemma check_seg_eq sl s : 0 <= sl < 2 ^ 16 -> tables_ok X s ->
  let a := (tbl_base X s sl + index sl * 8) mod 2 ^ 32 in
  check_seg_desc_priv X sl s =
  if in_table X s sl then
    match rd X (ring X s) 2 8 a (mem X s) with
    | (m, MVal d) =>
        if data_type_ok d && data_priv_weak (ring X s) sl d then
          if is_present d then Ok X _ (a, d) (set_mem X m s)
          else Exc X _ (exc_st m (errcode sl) EXP_NP s)
        else Exc X _ (exc_st m (errcode sl) EXP_GP s)
    | (m, MFault c b) => PFault X _ (pf_st m c b s)
    end
  else Exc X _ (exc_st (mem X s) (errcode sl) EXP_GP s).
Proof.
  intros Hs T a. unfold check_seg_desc_priv, bind, get. rewrite desc_eq by assumption. cbv zeta. fold a.
  destruct (in_table X s sl); [| reflexivity]. destruct (rd X (ring X s) 2 8 a (mem X s)) as [m [d | c b]]; [| reflexivity].
  cbn [snd]. rewrite type_bits, code_bits. unfold SEG_DESC_S. rewrite z_fld by lia.
  unfold SEG_DESC_P. rewrite z_fld by lia. rewrite rpl_eq, dpl_eq. rewrite cpl_mod. change (ring X (set_mem X m s)) with (ring X s).
  unfold raise_exp. change (set_xcode X (sl .& 65532) (set_xidx X ?i (set_mem X m s))) with (exc_st m (sl .& 65532) i s).
  rewrite err_eq by lia. unfold data_type_ok, data_priv_weak, is_system, is_present. rewrite negb_involutive.
  destruct (Z.testbit d 44); cbn [negb andb]; [| reflexivity].
  destruct (is_code d) eqn:C, (is_rw d) eqn:R; cbn [negb andb orb]; try reflexivity;
  (destruct (is_conforming d); cbn [negb andb orb]; [destruct (Z.testbit d 47); reflexivity |]);
  (replace ((dpl_of d <? rpl sl) && (dpl_of d <? ring X s)) with (negb ((ring X s <=? dpl_of d) || (rpl sl <=? dpl_of d))) by lia);
  destruct ((ring X s <=? dpl_of d) || (rpl sl <=? dpl_of d)); cbn [negb]; destruct (Z.testbit d 47); reflexivity.
Qed.

Lemma data_load s r sl : data_reg r -> 0 <= sl < 2 ^ 16 -> tables_ok X s ->
  match mov_sel_pe X r sl s with
  | Ok _ _ _ s' =>
      (forall q, q <> r -> seg X s' q = seg X s q) /\ ring X s' = ring X s /\
      ((is_null sl = true /\ seg X s' r = mkseg 0 0 0 0) \/
       (is_null sl = false /\ in_table X s sl = true /\
        exists m d, descriptor X s sl m d /\ data_type_ok d = true /\ data_priv_weak (ring X s) sl d = true /\
          is_present d = true /\ seg X s' r = decode sl d))
  | Exc _ _ s' =>
      is_null sl = false /\ exists m i, s' = set_xcode X (errcode sl) (set_xidx X i (set_mem X m s)) /\
      ((in_table X s sl = false /\ i = EXP_GP) \/
       (in_table X s sl = true /\ exists d, descriptor X s sl m d /\
          if data_type_ok d && data_priv_weak (ring X s) sl d then is_present d = false /\ i = EXP_NP else i = EXP_GP))
  | PFault _ _ s' => is_null sl = false /\ seg X s' = seg X s /\ hfl X s' = hfl X s /\ xidx X s' = EXP_PF
  | Abort _ _ => False
  end.
Proof.
  intros Hr Hs T. assert (E : mov_sel_pe X r sl = if sl >> 2 =? 0 then upd X (write_seg_reg X r 0 0 0 0)
     else bind X (check_seg_desc_priv X sl) (fun dd => bind X (set_access_flg X (snd dd) (fst dd)) (fun _ => upd X (load_desc X r sl (snd dd))))).
  { destruct Hr as [-> | [-> | [-> | ->]]]; reflexivity. }
  rewrite E. rewrite null_eq by lia.
  assert (RG : forall q b l f v, ring X (write_seg_reg X r q b l f v) = ring X v).
  { intros q b l f v. rewrite <- !cpl_mod. unfold cpl, HFLG_CPL, write_seg_reg.
    destruct Hr as [-> | [-> | [-> | ->]]]; cbn [hfl set_hfl put_seg];
      rewrite Z.land_lor_distr_l, <- Z.land_assoc; destruct (b =? 0); cbn [zero_bit Z.shiftl Pos.iter Pos.mul]; reflexivity. }
  destruct (is_null sl) eqn:N.
  { cbn. split; [| split].
    - intros q Hq. apply load_frame; try assumption; destruct Hr as [-> | [-> | [-> | ->]]]; discriminate.
    - apply RG.
    - left. split; [reflexivity |]. destruct Hr as [-> | [-> | [-> | ->]]]; reflexivity. }
  unfold bind at 1. rewrite check_seg_eq by assumption. cbv zeta. set (a := (tbl_base X s sl + index sl * 8) mod 2 ^ 32).
  destruct (in_table X s sl) eqn:IT.
  2:{ split; [reflexivity |]. exists (mem X s), EXP_GP. split; [reflexivity |]. now left. }
  destruct (rd X (ring X s) 2 8 a (mem X s)) as [m [d | c b]] eqn:RD.
  2:{ now repeat split. }
  assert (D : descriptor X s sl m d) by exact RD. pose proof (read_range _ _ _ _ D) as RR.
  destruct (data_type_ok d && data_priv_weak (ring X s) sl d) eqn:OK.
  2:{ split; [reflexivity |]. exists m, EXP_GP. split; [reflexivity |]. right. split; [reflexivity |]. exists d. split; [exact D |]. now rewrite OK. }
  destruct (is_present d) eqn:P.
  2:{ split; [reflexivity |]. exists m, EXP_NP. split; [reflexivity |]. right. split; [reflexivity |]. exists d. split; [exact D |]. rewrite OK. now split. }
  cbn [fst snd]. unfold bind. pose proof (memonly_access d a (set_mem X m s)) as MA.
  destruct (set_access_flg X d a (set_mem X m s)) as [u s1 | s1 | s1 |] eqn:ACC.
  - destruct MA as [m1 ->]. cbn. apply andb_true_iff in OK as [O1 O2]. split; [| split].
    + intros q Hq. unfold load_desc. rewrite load_frame; [reflexivity | | | exact Hq]; destruct Hr as [-> | [-> | [-> | ->]]]; discriminate.
    + unfold load_desc. now rewrite RG.
    + right. split; [reflexivity |]. split; [reflexivity |]. exists m, d. repeat split; try assumption. now apply decode_eq.
  - unfold set_access_flg in ACC. destruct (_ =? 1) in ACC; [| discriminate]. unfold mwrite in ACC. destruct (wr X _ _ _ _ _ _) as [? [[? ?] |]] in ACC; discriminate.
  - destruct MA as (m1 & c & b & ->). now repeat split.
  - exact MA.
Qed.

Lemma stack_load s sl : 0 <= sl < 2 ^ 16 -> tables_ok X s ->
  match mov_sel_pe X SS sl s with
  | Ok _ _ _ s' =>
      (forall q, q <> SS -> seg X s' q = seg X s q) /\ is_null sl = false /\ in_table X s sl = true /\
      exists m d, descriptor X s sl m d /\ stack_ok (ring X s) sl d = true /\ is_present d = true /\ seg X s' SS = decode sl d
  | Exc _ _ s' =>
      exists m i c, s' = set_xcode X c (set_xidx X i (set_mem X m s)) /\
      ((is_null sl = true /\ i = EXP_GP /\ c = 0) \/
       (is_null sl = false /\ c = errcode sl /\
        ((in_table X s sl = false /\ i = EXP_GP) \/
         (in_table X s sl = true /\ exists d, descriptor X s sl m d /\
            if stack_ok (ring X s) sl d then is_present d = false /\ i = EXP_SS else i = EXP_GP))))
  | PFault _ _ s' => is_null sl = false /\ seg X s' = seg X s /\ hfl X s' = hfl X s /\ xidx X s' = EXP_PF
  | Abort _ _ => False
  end.
Proof.
  intros Hs T. cbn [mov_sel_pe]. unfold bind at 1. unfold check_ss_desc_priv. rewrite null_eq by lia.
  destruct (is_null sl) eqn:N.
  { cbn. exists (mem X s), EXP_GP, 0. split; [now destruct s |]. now left. }
  unfold bind at 1. rewrite desc_eq by assumption. cbv zeta. set (a := (tbl_base X s sl + index sl * 8) mod 2 ^ 32).
  destruct (in_table X s sl) eqn:IT.
  2:{ exists (mem X s), EXP_GP, (errcode sl). split; [reflexivity |]. right. split; [reflexivity |]. split; [reflexivity |]. now left. }
  destruct (rd X (ring X s) 2 8 a (mem X s)) as [m [d | c b]] eqn:RD.
  2:{ now repeat split. }
  assert (D : descriptor X s sl m d) by exact RD. pose proof (read_range _ _ _ _ D) as RR.
  cbn [snd]. unfold SEG_DESC_S, SEG_DESC_DC, SEG_DESC_W, SEG_DESC_P, SEG_DESC_DPL. rewrite !fld1 by lia.
  change 3 with (Z.ones 2) at 1. rewrite fieldr by lia. change (d / 2 ^ 45 mod 2 ^ 2) with (dpl_of d).
  rewrite rpl_eq, cpl_mod, z_fld by lia. change (44 - 44) with 0. change (43 - 42) with 1. change (41 - 39) with 2. change (45 - 42) with 3.
  rewrite stack_bits by (try apply dpl_range; try apply rpl_range; apply ring_range).
  assert (SO : Z.testbit d 44 && negb (Z.testbit d 43) && Z.testbit d 41 && (dpl_of d =? ring X s) && (rpl sl =? ring X s) = stack_ok (ring X s) sl d).
  { unfold stack_ok, is_system, is_code, is_rw. now rewrite negb_involutive. }
  rewrite SO. destruct (stack_ok (ring X s) sl d) eqn:OK; cbn [negb].
  2:{ unfold raise_exp. rewrite err_eq by lia. exists m, EXP_GP, (errcode sl). split; [reflexivity |]. right. split; [reflexivity |].
      split; [reflexivity |]. right. split; [reflexivity |]. exists d. split; [exact D |]. now rewrite OK. }
  change (Z.testbit d 47) with (is_present d). destruct (is_present d) eqn:P; cbn [negb].
  2:{ unfold raise_exp. rewrite err_eq by lia. exists m, EXP_SS, (errcode sl). split; [reflexivity |]. right. split; [reflexivity |].
      split; [reflexivity |]. right. split; [reflexivity |]. exists d. split; [exact D |]. rewrite OK. now split. }
  unfold ret. cbn [fst snd]. unfold bind. pose proof (memonly_access d a (set_mem X m s)) as MA.
  destruct (set_access_flg X d a (set_mem X m s)) as [u s1 | s1 | s1 |] eqn:ACC.
  - destruct MA as [m1 ->]. unfold upd. split.
    + intros q Hq. unfold load_desc. rewrite load_frame; [reflexivity | discriminate | discriminate | exact Hq].
    + split; [reflexivity |]. split; [reflexivity |]. exists m, d. repeat split; try assumption. now apply (decode_eq SS).
  - unfold set_access_flg in ACC. destruct (_ =? 1) in ACC; [| discriminate]. unfold mwrite in ACC. destruct (wr X _ _ _ _ _ _) as [? [[? ?] |]] in ACC; discriminate.
  - destruct MA as (m1 & c & b & ->). now repeat split.
  - exact MA.
Qed.

End Proofs.
