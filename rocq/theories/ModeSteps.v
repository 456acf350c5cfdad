(** * Every way of entering or leaving a mode keeps the derived mode flags right *)

From Coq Require Import ZArith Bool List Lia ZifyBool.
From Verif Require Import SegModel SegSpec SegBits SegProofs SegFar SegRet SegCall ExcSpec ExcProofs ExcDel ModeSpec ModeProofs.
Import ListNotations.
Local Open Scope Z_scope.

Section Steps.
Context (X : memsys).
Notation st := (st X).
Implicit Types s : st.

Ltac split_ok H := unfold mode_ok, mode_rest, mode_bits in H; cbn [skipn] in H; 
  repeat match type of H with Forall _ (_ :: _) => let h2 := fresh "B" in pose proof (Forall_inv H) as h2; cbn [fst snd] in h2; apply Forall_inv_tail in H end; clear H.

(** right mode flags, and VM only in protected mode *)
Definition W s : Prop := mode_ok X s /\ (vm X s = true -> pe X s = true).
(** the zero bases are those of [s0] *)
Definition Wz (s0 : st) s : Prop := (vm X s0 = true -> forall r, flat_base X s r = flat_base X s0 r) -> W s.

Lemma closed_W : closed X W. Proof. intros s [H V]. repeat split; assumption. Qed.
Lemma W_eip e s : W s -> W (set_eip X e s). Proof. intros [H V]. split; assumption. Qed.
Lemma closed_Wz s0 : closed X (Wz s0).
Proof. intros s H. repeat split; intros; apply H; assumption. Qed.
Lemma W_Wz s0 s : W s -> Wz s0 s. Proof. now intros H _. Qed.

Lemma inv_mem (P : st -> Prop) {A B} (f : st -> out X A) (k : A -> st -> out X B) s : closed X P -> P s -> memonly X (f s) s ->
  (forall a m, inv X P (k a (set_mem X m s))) -> inv X P (bind X f k s).
Proof.
  intros C H M K. unfold bind. pose proof (inv_memonly X P (f s) s C H M) as IQ.
  destruct (f s) as [a s1 | s1 | s1 |]; try exact IQ. destruct M as [m ->]. apply K.
Qed.

(** ** Entering a handler *)
Lemma sel_dpl sl d : 0 <= d < 4 -> (Z.ldiff sl 3 .| d) .& 3 = d.
Proof.
  intros H. apply Z.bits_inj'. intros n Hn. rewrite Z.land_spec, Z.lor_spec, Z.ldiff_spec.
  assert (D : Z.testbit d n = Z.testbit d n && Z.testbit 3 n).
  { rewrite <- Z.land_spec. f_equal. change 3 with (Z.ones 2). rewrite Z.land_ones by lia. rewrite Z.mod_small; change (2 ^ 2) with 4; lia. }
  rewrite D. destruct (Z.testbit sl n), (Z.testbit d n), (Z.testbit 3 n); reflexivity.
Qed.
Lemma cs_entry sl c d s : 0 <= d < 4 ->
  set_hfl X (((desc_flags c .& SEG_HIDDEN_DB) >> 20) .| d .| (if desc_base c =? 0 then HFLG_CS_IS_ZERO else 0)
     .| (hfl X (put_seg X CS (mkseg (Z.ldiff sl 3 .| d) (desc_base c) (desc_limit c) (desc_flags c)) s) .& not32 (HFLG_CS32 .| HFLG_CPL .| HFLG_CS_IS_ZERO)))
    (put_seg X CS (mkseg (Z.ldiff sl 3 .| d) (desc_base c) (desc_limit c) (desc_flags c)) s)
  = write_seg_reg X CS (Z.ldiff sl 3 .| d) (desc_base c) (desc_limit c) (desc_flags c) s.
Proof. intros H. unfold write_seg_reg. unfold HFLG_CPL at 2. rewrite (sel_dpl sl d H). reflexivity. Qed.
Lemma ok_cs sl b l f s : pe X s = true -> vm X s = false -> mode_rest X s -> mode_ok X (write_seg_reg X CS sl b l f s).
Proof.
  intros P V R. apply rest_ok; [now apply rest_write | |]; rewrite write_pe, write_vm, P, V; cbn [andb orb];
  unfold write_seg_reg; cbv zeta; unfold HFLG_CPL, HFLG_CS32, SEG_HIDDEN_DB, zero_bit;
  cbn [hfl seg set_hfl set_seg put_seg sr_eqb sel]; bits; reflexivity.
Qed.
Lemma fin_cr0 i a s : cr0 X (finish X i a s) = cr0 X s. Proof. unfold finish. destruct (i =? EXP_PF), (i =? EXP_DB); reflexivity. Qed.
Lemma fin_cr4 i a s : cr4 X (finish X i a s) = cr4 X s. Proof. unfold finish. destruct (i =? EXP_PF), (i =? EXP_DB); reflexivity. Qed.
Lemma W_fin i a s : W s -> W (finish X i a s).
Proof.
  intros [H V]. assert (VM : vm X (finish X i a s) = vm X s) by (unfold vm; now rewrite fin_ef).
  split; [| rewrite VM; unfold pe; rewrite fin_cr0; exact V].
  revert H. apply mode_same; auto using fin_hfl, fin_seg, fin_cr0, fin_cr4.
Qed.
Lemma Wz_fin s0 i a s : Wz s0 s -> Wz s0 (finish X i a s).
Proof. intros H Z. apply W_fin, H. intros V r. rewrite <- (Z V r). unfold flat_base. now rewrite fin_seg. Qed.
Lemma W_same s s' : hfl X s' = hfl X s -> seg X s' = seg X s -> cr0 X s' = cr0 X s -> cr4 X s' = cr4 X s -> vm X s' = vm X s -> W s -> W s'.
Proof. intros A B C D V [H K]. split; [revert H; now apply mode_same |]. rewrite V. unfold pe. rewrite C. exact K. Qed.

Lemma clear_vm e : Z.testbit (e .& not32 (VM_MASK .| RF_MASK .| NT_MASK .| TF_MASK)) 17 = false.
Proof. rewrite Z.land_spec. change (Z.testbit (not32 _) 17) with false. apply andb_false_r. Qed.

Lemma W_pe s : W s -> Z.testbit (hfl X s) 4 = pe X s.
Proof. intros [H _]. split_ok H. assumption. Qed.

Definition codes_of (intn : Z) (hw : bool) (code idx : Z) : list Z := if has_code ((intn =? 0) && negb hw) idx then [code] else [].
Lemma desc_ext_mem sl ext s : memonly X (match read_seg_desc X false sl s with Exc _ _ s1 => Exc X _ (set_xcode X (xcode X s1 + ext) s1) | o => o end) s.
Proof.
  pose proof (memonly_desc X false sl s) as M. destruct (read_seg_desc X false sl s); cbn in *; auto.
  destruct M as (m & c & i & ->). exists m, (c + ext), i. reflexivity.
Qed.

Lemma vm86_entry (s : st) m c sl ss lc fc b ls fs e ip ef' :
  W s -> vm X s = true -> Z.testbit ef' 17 = false -> pe X s = true ->
  let s1 := set_seg X (fun r => match r with GS | FS | DS | ES => mkseg 0 0 0 0
              | CS => mkseg (sl .& 0xFFC) c lc fc | SS => mkseg ss b ls fs | _ => seg X (set_mem X m s) r end) (set_mem X m s) in
  let h := ((fc .& SEG_HIDDEN_DB) >> 20) .| (hfl X s1 .& not32 (HFLG_CS32 .| HFLG_CPL)) in
  let h := ((fs .& SEG_HIDDEN_DB) >> 19) .| (h .& not32 HFLG_SS32) in
  Wz s (set_eip X ip (set_esp X e (set_ef X ef' (set_hfl X h s1)))).
Proof.
  intros [H _] V E P. cbv zeta. intros Z. specialize (Z V).
  split; [| intros V'; unfold vm in V'; cbn [ef set_ef set_eip set_esp] in V'; congruence].
  pose proof (Z ES) as ZE. pose proof (Z CS) as ZC. pose proof (Z SS) as ZS. pose proof (Z DS) as ZD. pose proof (Z FS) as ZF. pose proof (Z GS) as ZG.
  split_ok H. unfold pe, big, flat_base in *.
  cbn [seg set_seg set_hfl set_ef set_esp set_eip base] in ZE, ZC, ZS, ZD, ZF, ZG. rewrite <- ZE, <- ZC, <- ZS, <- ZD, <- ZF, <- ZG in *.
  rewrite P in *. cbn [andb] in *.
  unfold mode_ok, mode_bits, pe, big, flat_base, vm.
  cbn [hfl seg cr0 cr4 ef set_mem set_hfl set_seg set_ef set_esp set_eip sel base sflags]. rewrite E, P. cbn [andb orb].
  unfold HFLG_CPL, HFLG_CS32, HFLG_SS32, SEG_HIDDEN_DB.
  repeat (constructor; [cbn [fst snd]; bits; rewrite ?orb_true_r; try assumption; try reflexivity |]); exact (Forall_nil _).
Qed.

Ltac dv W0 := match goal with
  | |- inv X _ (if ?b then _ else _) => destruct b eqn:?
  | |- inv X _ ((if ?b then _ else _) _) => destruct b eqn:?
  | |- inv X _ (raise_exp X _ _ _) => apply inv_exc; [apply closed_Wz | exact W0]
  | |- inv X _ (abort X _) => exact I
  | |- inv X _ (Abort X _) => exact I
  | |- inv X _ (bind X (mread X _ _ _) _ _) => apply inv_mem; [apply closed_Wz | exact W0 | apply memonly_read | intros ? ?; cbv zeta]
  | |- inv X _ (bind X (set_access_flg X _ _) _ _) => apply inv_mem; [apply closed_Wz | exact W0 | apply memonly_access | intros ? ?; cbv zeta]
  | |- inv X _ (bind X (ipushes X _ _ _ _ _ _) _ _) => apply inv_mem; [apply closed_Wz | exact W0 | apply memonly_ipushes | intros ? ?; cbv zeta]
  | |- inv X _ (bind X (check_ss_desc X _ _ _) _ _) => apply inv_mem; [apply closed_Wz | exact W0 | apply check_ss_both | intros [[? ?] ?] ?; cbv zeta]
  end.
Lemma inv_deliver_pe intn hw code idx fa ofl s : W s -> pe X s = true -> inv X (Wz s) (deliver_pe X intn hw code idx fa ofl s).
Proof.
  intros H P. assert (W0 : Wz s s) by now apply W_Wz.
  unfold deliver_pe. unfold bind at 1, get at 1. cbv zeta.
  dv W0; [dv W0 |]. dv W0. do 2 (dv W0; [dv W0 |]). do 2 (dv W0; [dv W0 |]). dv W0; [dv W0 |].
  apply inv_mem; [apply closed_Wz | exact W0 | apply desc_ext_mem |]. intros [ca c] m2. cbn [fst snd].
  change (set_mem X m2 (set_mem X m s)) with (set_mem X m2 s).
  dv W0; [dv W0 |]. dv W0; [dv W0 |]. dv W0.
  rewrite !dpl_eq. rewrite !cpl_mod.
  set (d := if nz (c .& SEG_DESC_C) then ring X s else dpl_of c).
  assert (DR : 0 <= d < 4) by (pose proof (ring_range X s); pose proof (dpl_range c); unfold d; destruct (nz _); lia).
  clearbody d. rewrite vm_eq.
  assert (R : mode_rest X s) by (apply ok_rest, H).
  dv W0.
  - destruct (vm X s) eqn:V.
    + dv W0; [dv W0 |]. dv W0. cbn [fst snd]. dv W0. unfold inv, upd. cbv zeta.
      apply Wz_fin. exact (vm86_entry s _ _ _ _ _ _ _ _ _ _ _ _ H V (clear_vm _) P).
    + dv W0. cbn [fst snd]. dv W0. unfold inv, upd. cbv zeta. apply Wz_fin, W_Wz.
      apply W_eip. rewrite cs_entry by exact DR.
      split; [| intros V'; rewrite write_vm in V'; unfold vm in V'; cbn [ef set_ef set_esp put_seg set_seg set_hfl] in V'; rewrite clear_vm in V'; discriminate].
      apply ok_cs; [exact P | exact (clear_vm _) |].
      match goal with |- mode_rest X (set_esp X _ (set_ef X _ ?t)) => apply (rest_same X t); try reflexivity end.
      match goal with |- mode_rest X (set_hfl X _ (put_seg X SS (mkseg ?sl ?b ?l ?f) ?t)) => exact (rest_write X SS sl b l f t P R) end.
  - destruct (vm X s); [dv W0 |]. dv W0; [dv W0 |]. dv W0. unfold inv, upd. cbv zeta. apply Wz_fin, W_Wz.
      apply W_eip. rewrite cs_entry by exact DR.
      split; [| intros V'; rewrite write_vm in V'; unfold vm in V'; cbn [ef set_ef set_esp put_seg set_seg set_hfl] in V'; rewrite clear_vm in V'; discriminate].
      apply ok_cs; [exact P | exact (clear_vm _) |].
      apply (rest_same X s); try reflexivity. exact R.
Qed.

Lemma inv_vme idx fa ofl iopl s : W s -> vm X s = true -> inv X (Wz s) (deliver_vme X idx fa ofl iopl s).
Proof.
  intros H V. assert (W0 : Wz s s) by now apply W_Wz. unfold deliver_vme. unfold bind at 1, get at 1. cbv zeta.
  dv W0. dv W0. unfold inv, upd. cbv zeta. apply Wz_fin. intros Z. specialize (Z V).
  pose proof (proj2 H V) as P.
  match goal with |- W ?t => assert (V' : vm X t = true) end.
  { unfold vm in *. cbn [ef set_ef set_eip set_esp set_mem put_seg set_seg]. rewrite Z.land_spec, V. destruct (iopl =? 3); reflexivity. }
  split; [| intros _; exact P]. destruct H as [H _].
  pose proof (Z CS) as ZC. split_ok H. unfold pe, big, flat_base in *.
  cbn [seg set_seg put_seg sr_eqb set_hfl set_ef set_esp set_eip base] in ZC.
  rewrite V, P in *. cbn [andb orb] in *.
  unfold mode_ok, mode_bits. rewrite V'. unfold pe, big, flat_base.
  cbn [hfl seg cr0 cr4 set_mem set_hfl set_seg put_seg sr_eqb set_ef set_esp set_eip sel base sflags]. rewrite P, ZC. cbn [andb orb].
  repeat (constructor; [cbn [fst snd]; assumption |]). exact (Forall_nil _).
Qed.

Lemma W_dr7 v s : W s -> W (set_dr7 X v s). Proof. intros [H V]. split; assumption. Qed.
Lemma W_real s cs l f h e ip ef' o : W s -> pe X s = false -> Z.testbit ef' 17 = false ->
  h = (if cs << 4 =? 0 then HFLG_CS_IS_ZERO else 0) .| (hfl X s .& not32 HFLG_CS_IS_ZERO) ->
  W (set_oldexp X o (set_hfl X h (set_eip X ip (put_seg X CS (mkseg cs (cs << 4) l f) (set_esp X e (set_ef X ef' s)))))).
Proof.
  intros [H _] P E ->. split; [| intros V; unfold vm in V; cbn [ef set_oldexp set_hfl set_eip put_seg set_seg set_esp set_ef] in V; congruence].
  split_ok H. rewrite P in *. cbn [andb] in *. unfold flat_base in *.
  unfold mode_ok, mode_bits, pe, big, flat_base, vm in *.
  cbn [hfl seg cr0 cr4 ef set_mem set_hfl set_seg put_seg sr_eqb set_ef set_esp set_eip set_oldexp sel base sflags]. rewrite P. cbn [andb].
  unfold HFLG_CS_IS_ZERO.
  repeat (constructor; [cbn [fst snd]; bits; try assumption; try reflexivity |]); exact (Forall_nil _).
Qed.

Lemma inv_deliver intn hw s : W s -> inv X (Wz s) (deliver X intn hw s).
Proof.
  intros H. assert (W0 : Wz s s) by now apply W_Wz. unfold deliver. cbv zeta.
  change (hfl X s .& HFLG_PE_MODE) with (hfl X s .& (1 << 4)). rewrite nz_fld by lia. rewrite (W_pe s H).
  destruct (pe X s) eqn:P.
  - dv W0; [dv W0 |]. dv W0; [| now apply inv_deliver_pe].
    assert (V : vm X s = true).
    { match goal with E : (_ && _) = true |- _ => apply andb_true_iff in E as [_ E]; apply Z.eqb_eq in E; apply (f_equal (fun x => Z.testbit x 17)) in E; cbv beta in E; rewrite Z.lor_spec, !Z.land_spec in E;
        change (Z.testbit VM_MASK 17) with true in E; change (Z.testbit HFLG_CR4_VME 17) with false in E; change (Z.testbit (VM_MASK .| HFLG_CR4_VME) 17) with true in E;
        rewrite andb_true_r, andb_false_r, orb_false_r in E; exact E end. }
    assert (K : forall m, W (set_mem X m s)) by (intros mm; destruct H; split; assumption).
    dv W0. dv W0.
    assert (Z0 : forall m t, Wz (set_mem X m s) t -> Wz s t) by (intros mm t HH; exact HH).
    assert (ZI : forall m (o : out X unit), inv X (Wz (set_mem X m s)) o -> inv X (Wz s) o) by (intros mm o HH; destruct o; cbn in *; eauto).
    dv W0; [eapply ZI, inv_vme; [apply K | exact V] |]. dv W0; [dv W0 |]. eapply ZI, inv_deliver_pe; [apply K | exact P].
  - dv W0; [dv W0 |]. dv W0. dv W0. unfold inv, upd. cbv zeta. apply W_Wz.
    assert (V : vm X s = false). { destruct (vm X s) eqn:V; [| reflexivity]. rewrite (proj2 H V) in P. discriminate. }
    match goal with |- context [set_esp X _ (set_ef X _ (set_mem X ?m0 (set_mem X ?m1 s)))] =>
      assert (K : W (set_mem X m0 (set_mem X m1 s))) by (destruct H; split; assumption) end.
    match goal with |- W (if _ then set_dr7 X _ ?t else _) => assert (W t) end.
    { apply W_real; [exact K | exact P | | reflexivity]. rewrite Z.land_spec. unfold vm in V. cbn [ef set_mem]. rewrite V. reflexivity. }
    destruct (xidx X s =? EXP_DB); [now apply W_dr7 | assumption].
Qed.

(** ** Real and virtual 8086 mode *)
Lemma W_mov_real r sl s : W s -> r <> CS -> (pe X s = false \/ vm X s = true) -> W (mov_sel_real X r sl s).
Proof.
  intros [H V] N M. split; [| exact V]. split_ok H. 
  unfold mov_sel_real, mode_ok, mode_bits, pe, big, flat_base, vm in *.
  destruct r; try contradiction; cbv zeta;
  cbn [hfl seg cr0 cr4 ef set_mem set_hfl set_seg put_seg sr_eqb set_ef set_esp set_eip set_oldexp sel base sflags]; unfold zero_bit;
  repeat (constructor; [cbn [fst snd]; bits; try assumption; try reflexivity |]); exact (Forall_nil _).
Qed.
Lemma W_cs8086 sl l ip e s : W s -> (pe X s = false \/ vm X s = true) -> flat_base X s CS = (sl << 4 =? 0) ->
  W (set_eip X ip (put_seg X CS (mkseg sl (sl << 4) l (sflags (seg X s CS))) (set_esp X e s))).
Proof.
  intros [H V] M Z. split; [| exact V]. split_ok H.
  unfold mode_ok, mode_bits, pe, big, flat_base, vm in *.
  cbn [hfl seg cr0 cr4 ef set_mem set_hfl set_seg put_seg sr_eqb set_ef set_esp set_eip set_oldexp sel base sflags]. rewrite <- Z.
  repeat (constructor; [cbn [fst snd]; try assumption; destruct M as [M | M]; rewrite M in *; rewrite ?orb_true_r, ?andb_false_r in *; cbn [andb orb] in *; assumption |]); exact (Forall_nil _).
Qed.

(** ** Control registers *)
Lemma some_inj {A} (a b : A) : Some a = Some b -> a = b. Proof. congruence. Qed.
Lemma pe_eqb a b : (a .& CR0_PE =? b .& CR0_PE) = Bool.eqb (Z.testbit a 0) (Z.testbit b 0).
Proof.
  unfold CR0_PE. change 1 with (Z.ones 1) at 1 2. rewrite !Z.land_ones by lia. change (2 ^ 1) with 2.
  rewrite <- !Z.bit0_mod. destruct (Z.testbit a 0), (Z.testbit b 0); reflexivity.
Qed.
Lemma nz_pe a : nz (a .& CR0_PE) = Z.testbit a 0. Proof. change CR0_PE with (1 << 0). apply nz_fld. lia. Qed.
Lemma nz_db a : nz (a .& SEG_HIDDEN_DB) = Z.testbit a 22. Proof. apply nz_fld. lia. Qed.

Lemma W_cr0 ins new s s' : W s -> vm X s = false -> ins = 0 \/ ins = 1 \/ (ins = 2 /\ new = 0) -> update_cr0 X ins new s = Some s' -> W s'.
Proof.
  intros [H _] V I U. unfold update_cr0 in U.
  destruct (_ && _) in U; [discriminate |]. cbv zeta in U.
  match type of U with context [if ?b then set_flushes _ _ _ else _] => set (s1 := if b then set_flushes X (true :: flushes X s) s else s) in U;
    assert (E : hfl X s1 = hfl X s /\ seg X s1 = seg X s /\ cr0 X s1 = cr0 X s /\ cr4 X s1 = cr4 X s /\ ef X s1 = ef X s) by (unfold s1; destruct b; repeat split) end.
  clearbody s1. apply some_inj in U. subst s'. destruct E as (E1 & E2 & E3 & E4 & E5).
  rewrite pe_eqb, nz_pe, !nz_db, E1, E2, E3. split_ok H.
  split; [| unfold vm in *; cbn [ef set_cr0 set_hfl]; rewrite E5; congruence].
  unfold vm in V. unfold mode_ok, mode_bits, pe, big, flat_base, vm in *.
  cbn [hfl seg cr0 cr4 ef set_cr0 set_hfl]. rewrite E2, E4, E5, V in *. cbn [orb] in *.
  unfold put_bits, HFLG_CPL, HFLG_CS32, HFLG_SS32, HFLG_PE_MODE, HFLG_CR0_EM, HFLG_CR0_NE, HFLG_CR0_TS, HFLG_CR0_MP, CR0_EM, CR0_MP, CR0_NE, CR0_TS, CR0_FLG_MASK, CR0_ET, CR0_LMSW_MASK.
  destruct I as [-> | [-> | [-> ->]]]; repeat match goal with |- context [?a =? ?b] => match a with 0 => idtac | 1 => idtac | 2 => idtac end; let v := eval vm_compute in (a =? b) in change (a =? b) with v end;
    cbn [negb andb]; destruct (Z.testbit (cr0 X s) 0) eqn:P; cbn [andb] in *;
  try (destruct (Z.testbit new 0) eqn:NP); cbn [Bool.eqb negb];
  repeat (constructor; [cbn [fst snd]; bits; rewrite ?P, ?NP; cbn [andb orb]; try assumption; try reflexivity;
     repeat match goal with B : Z.testbit (hfl X s) ?i = _ |- context [Z.testbit (hfl X s) ?i] => rewrite B end; cbn [andb orb]; rewrite ?orb_false_r; try reflexivity;
     destruct (Z.testbit (sflags (seg X s SS)) 22), (Z.testbit (sflags (seg X s CS)) 22); reflexivity |]); try exact (Forall_nil _).
Qed.

Lemma W_cr4 new s s' : W s -> update_cr4 X new s = Some (Some s') -> W s'.
Proof.
  intros [H V] U. unfold update_cr4 in U. destruct (nz _) in U; [discriminate |]. destruct (nz _) in U; [discriminate |]. cbv zeta in U.
  match type of U with context [if ?b then set_flushes _ _ _ else _] => set (s1 := if b then set_flushes X (true :: flushes X s) s else s) in U;
    assert (E : hfl X s1 = hfl X s /\ seg X s1 = seg X s /\ cr0 X s1 = cr0 X s /\ ef X s1 = ef X s) by (unfold s1; destruct b; repeat split) end.
  clearbody s1. apply some_inj, some_inj in U. subst s'. destruct E as (E1 & E2 & E3 & E5).
  split; [| unfold vm, pe in *; cbn [ef cr0 set_cr4 set_hfl]; rewrite E3, E5; exact V]. split_ok H.
  unfold mode_ok, mode_bits, pe, big, flat_base, vm in *.
  cbn [hfl seg cr0 cr4 ef set_cr4 set_hfl]. rewrite E1, E2, E3, E5.
  unfold HFLG_CR4_OSFXSR, HFLG_CR4_OSXMMEXCPT, HFLG_CR4_VME, HFLG_CR4_PVI, CR4_OSFXSR, CR4_VME, CR4_PVI, CR4_OSXMMEXCPT.
  repeat (constructor; [cbn [fst snd]; bits; try assumption; try reflexivity |]); try exact (Forall_nil _).
Qed.
Lemma W_cr3 new s : W s -> W (update_cr3 X new s).
Proof. unfold update_cr3. destruct (nz _); apply W_same; reflexivity. Qed.

Lemma cpl_vm s : W s -> nz (cpl X s) = false -> vm X s = false.
Proof.
  intros [H V] C. destruct (vm X s) eqn:VM; [| reflexivity]. specialize (V eq_refl). split_ok H. rewrite V in *. cbn [andb orb] in *.
  exfalso. assert (Z.testbit (cpl X s) 0 = true) by (unfold cpl; rewrite Z.land_spec; unfold HFLG_CPL; rewrite B, VM; reflexivity).
  unfold nz in C. destruct (Z.eqb_spec (cpl X s) 0) as [E | E]; [rewrite E in *; discriminate | discriminate].
Qed.
Lemma inv_movcr n v s : W s -> inv X W (mov_cr X n v s).
Proof.
  intros H. unfold mov_cr. destruct (nz (cpl X s)) eqn:C; [apply inv_exc; [apply closed_W | exact H] |]. pose proof (cpl_vm s H C) as V.
  destruct (n =? 0). { destruct (update_cr0 X 0 v s) eqn:U; [| apply inv_exc; [apply closed_W | exact H]]. exact (W_cr0 0 v s _ H V (or_introl eq_refl) U). }
  destruct (n =? 2). { revert H. apply W_same; reflexivity. }
  destruct (n =? 3). { now apply W_cr3. }
  destruct (n =? 4); [| exact I]. destruct (update_cr4 X v s) as [[s' |] |] eqn:U; [| apply inv_exc; [apply closed_W | exact H] | exact I].
  exact (W_cr4 v s s' H U).
Qed.
Lemma inv_lmsw v s : W s -> inv X W (lmsw X v s).
Proof.
  intros H. unfold lmsw. destruct (nz (cpl X s)) eqn:C; [apply inv_exc; [apply closed_W | exact H] |]. pose proof (cpl_vm s H C) as V.
  destruct (update_cr0 X 1 _ s) eqn:U; [| exact I]. exact (W_cr0 1 _ s _ H V (or_intror (or_introl eq_refl)) U).
Qed.
Lemma inv_clts s : W s -> inv X W (clts X s).
Proof.
  intros H. unfold clts. destruct (nz (cpl X s)) eqn:C; [apply inv_exc; [apply closed_W | exact H] |]. pose proof (cpl_vm s H C) as V.
  destruct (update_cr0 X 2 0 s) eqn:U; [| exact I]. exact (W_cr0 2 0 s _ H V (or_intror (or_intror (conj eq_refl eq_refl))) U).
Qed.
End Steps.
