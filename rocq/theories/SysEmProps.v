(** * Properties of the system instructions *)

From Coq Require Import ZArith Bool List Lia ZifyBool.
From Verif Require Import HostModel AluModel AluSpec HostProofs SysModel SseSpec SseArith SysSpec SysProofs.
Import ListNotations.
Local Open Scope Z_scope.

(** The sequence emitted for [k] gives what [spec_sys] says, in the state [s], [y];
    [u]: the privilege level is above 0, [vm]: virtual 8086 mode, [pe]: protected mode. *)
Definition as_documented (k : sysop) : Prop := forall E u vm pe nxt s y,
  h_rcx (hr s) = P PCtx -> sys_ok k (ctx s) -> 0 <= nxt < 2 ^ 32 -> 0 <= eip (ctx s) < 2 ^ 32 ->
  meets (yrun E (emit_sys k u vm pe nxt) s y) s
    (spec_sys u vm pe nxt (e_fault (y_host E)) (y_help E) k (guest_view s y)).

(** ** C74 *)

(** LGDT, LIDT, SGDT and SIDT *)
Theorem C74_tables : forall k,
  match k with LGDT _ _ | LIDT _ _ | SGDT _ | SIDT _ => True | _ => False end -> as_documented k.
Proof.
  intros k Hk E u vm pe nxt s y Hcx Hok Hn He. destruct k; try (now elim Hk); cbn [emit_sys spec_sys sys_ok] in *.
  - unfold emit_ldt, privileged. destruct u; [now apply raise_ok |]. now apply (ldt_ok E GdtBase GdtLimit).
  - unfold emit_ldt, privileged. destruct u; [now apply raise_ok |]. now apply (ldt_ok E IdtBase IdtLimit).
  - unfold emit_sdt. apply umip_ok; [assumption |]. intros s1 S1.
    pose proof (sdt_ok E GdtBase GdtLimit m s1 y (proj1 S1)) as R. rewrite (view_eq _ _ y S1) in R.
    destruct S1 as (C1 & X1 & M1 & K1). rewrite X1 in R. apply (meets_same _ s1); auto.
  - unfold emit_sdt. apply umip_ok; [assumption |]. intros s1 S1.
    pose proof (sdt_ok E IdtBase IdtLimit m s1 y (proj1 S1)) as R. rewrite (view_eq _ _ y S1) in R.
    destruct S1 as (C1 & X1 & M1 & K1). rewrite X1 in R. apply (meets_same _ s1); auto.
Qed.
Print Assumptions C74_tables.

(** SLDT and STR in protected mode, except that the 16-bit form with a register
    destination is not as documented, see below *)
Theorem C74_selectors_partial : forall (tr op16 : bool) o E u vm nxt s y,
  let k := if tr then STR op16 o else SLDT op16 o in
  h_rcx (hr s) = P PCtx -> sys_ok k (ctx s) -> (forall g, o = RmReg g -> op16 = false) ->
  meets (yrun E (emit_sys k u vm true nxt) s y) s
    (spec_sys u vm true nxt (e_fault (y_host E)) (y_help E) k (guest_view s y)).
Proof.
  intros tr op16 o E u vm nxt s y k Hcx Hok Hr. subst k.
  assert (G : forall c, meets (yrun E (if vm then raise_ud else yhost (umip u) ++ match o with
      | RmReg g => [YGetZ RAX c] ++ yhost [MOV (g_opnd W32 g) hEAX]
      | RmMem m => yhost (emit_ea m) ++ [YGet W16 R8 c] ++ yhost [IStore W16]
      end) s y) s (protected_only vm true (guest_view s y) (prevented u (guest_view s y) (store_sel (e_fault (y_host E)) c op16 o (guest_view s y))))).
  { intros c. unfold protected_only. destruct vm; cbn [andb negb]; [now apply raise_ok |]. apply umip_ok; [assumption |]. intros s1 S1.
    pose proof (ssel_ok E c op16 o s1 y (proj1 S1)) as R. rewrite (view_eq _ _ y S1) in R.
    destruct S1 as (C1 & X1 & M1 & K1). rewrite X1 in R. apply (meets_same _ s1); [exact K1 |]. apply R; [| exact Hr]. destruct tr; exact Hok. }
  destruct tr; apply G.
Qed.
Print Assumptions C74_selectors_partial.

Lemma value_put_ext n : forall m m' a, (forall x, m x = m' x) -> value_at n m a = value_at n m' a.
Proof. induction n as [| n IH]; intros m m' a H; [reflexivity |]. cbn [value_at]. rewrite H. f_equal. f_equal. now apply IH. Qed.

Lemma byte_put n m a v o : 0 <= o < n -> n <= 2 ^ 32 -> put_at n m a v ((a + o) mod 2 ^ 32) = (v / 256 ^ o) mod 256.
Proof.
  intros Ho Hn. unfold put_at. pose proof (Z.mod_pos_bound (a + o) (2 ^ 32) eq_refl).
  assert (Q : ((a + o) mod 2 ^ 32 - a) mod 2 ^ 32 = o).
  { rewrite Zminus_mod_idemp_l. replace (a + o - a) with o by lia. apply Z.mod_small. lia. }
  rewrite Q. replace ((0 <=? (a + o) mod 2 ^ 32) && ((a + o) mod 2 ^ 32 <? 2 ^ 32) && (o <? n)) with true by lia. reflexivity.
Qed.
Lemma byte_other n m a v o : n <= o < 2 ^ 32 -> put_at n m a v ((a + o) mod 2 ^ 32) = m ((a + o) mod 2 ^ 32).
Proof.
  intros Ho. unfold put_at.
  assert (Q : ((a + o) mod 2 ^ 32 - a) mod 2 ^ 32 = o \/ n < 0).
  { destruct (Z.ltb_spec n 0); [now right | left]. rewrite Zminus_mod_idemp_l. replace (a + o - a) with o by lia. apply Z.mod_small. lia. }
  destruct Q as [Q | Q].
  - rewrite Q. replace (o <? n) with false by lia. now rewrite andb_false_r.
  - pose proof (Z.mod_pos_bound ((a + o) mod 2 ^ 32 - a) (2 ^ 32) eq_refl). replace (_ <? n) with false by lia. now rewrite andb_false_r.
Qed.

Lemma digits2 v : (v / 256 ^ 0) mod 256 mod 256 + 256 * ((v / 256 ^ 1) mod 256 mod 256 + 256 * 0) = v mod 2 ^ 16.
Proof. change (2 ^ 16) with (256 * 256). rewrite Z.rem_mul_r by lia. rewrite !Z.mod_mod by lia. rewrite Z.pow_0_r, Z.div_1_r, Z.pow_1_r. lia. Qed.
Lemma digits4 v : (v / 256 ^ 0) mod 256 mod 256 + 256 * ((v / 256 ^ 1) mod 256 mod 256 + 256 * ((v / 256 ^ 2) mod 256 mod 256 + 256 * ((v / 256 ^ 3) mod 256 mod 256 + 256 * 0))) = v mod 2 ^ 32.
Proof.
  change (2 ^ 32) with (256 * (256 * (256 * 256))). rewrite !Z.rem_mul_r by lia. rewrite !Z.mod_mod by lia. rewrite Z.pow_0_r, Z.div_1_r.
  change (256 ^ 1) with 256. change (256 ^ 2) with (256 * 256). change (256 ^ 3) with (256 * (256 * 256)). rewrite !Z.div_div by lia. rewrite !Z.mul_assoc. lia.
Qed.

Lemma stored_back m a l b :
  let m' := put_at 4 (put_at 2 m a l) ((a + 2) mod 2 ^ 32) b in
  value_at 2 m' a = l mod 2 ^ 16 /\ value_at 4 m' ((a + 2) mod 2 ^ 32) = b mod 2 ^ 32.
Proof.
  intros m'. set (a2 := (a + 2) mod 2 ^ 32) in *.
  assert (A : forall o, 0 <= o < 4 -> m' ((a2 + o) mod 2 ^ 32) = (b / 256 ^ o) mod 256).
  { intros o Ho. unfold m'. apply byte_put; lia. }
  assert (B : forall o, 0 <= o < 2 -> m' ((a + o) mod 2 ^ 32) = (l / 256 ^ o) mod 256).
  { intros o Ho. unfold m'. replace ((a + o) mod 2 ^ 32) with ((a2 + (o + (2 ^ 32 - 2))) mod 2 ^ 32).
    2:{ unfold a2. rewrite Zplus_mod_idemp_l. replace (a + 2 + (o + (2 ^ 32 - 2))) with (a + o + 1 * 2 ^ 32) by lia. now apply Z.mod_add. }
    rewrite byte_other by lia.
    replace ((a2 + (o + (2 ^ 32 - 2))) mod 2 ^ 32) with ((a + o) mod 2 ^ 32).
    2:{ unfold a2. rewrite Zplus_mod_idemp_l. replace (a + 2 + (o + (2 ^ 32 - 2))) with (a + o + 1 * 2 ^ 32) by lia. symmetry. now apply Z.mod_add. }
    apply byte_put; lia. }
  split.
  - cbn [value_at]. rewrite <- (digits2 l). rewrite <- (B 0), <- (B 1) by lia. replace (a + 0) with a by lia. reflexivity.
  - cbn [value_at]. rewrite <- (digits4 b). rewrite <- (A 0), <- (A 1), <- (A 2), <- (A 3) by lia. replace (a2 + 0) with a2 by lia. replace (a2 + 1 + 1) with (a2 + 2) by lia. replace (a2 + 2 + 1) with (a2 + 3) by lia. reflexivity.
Qed.

(** SGDT puts the register in memory so that LGDT of the same memory, later and
    with a 32-bit operand, gives the register the same base and limit, whatever
    it was changed to.  The same for SIDT and LIDT. *)
Theorem C74_round_trip : forall (idt : bool) m E u vm pe nxt s y,
  let base := if idt then IdtBase else GdtBase in let limit := if idt then IdtLimit else GdtLimit in
  h_rcx (hr s) = P PCtx -> memop_ok m (ctx s) -> 0 <= nxt < 2 ^ 32 -> 0 <= eip (ctx s) < 2 ^ 32 ->
  Z.testbit (cr4 (ctx s)) 11 = false -> (forall wr b n, e_fault (y_host E) wr b n = false) ->
  exists s1 y1, yrun E (emit_sys (if idt then SIDT m else SGDT m) u vm pe nxt) s y = (Done s1, y1) /\
  forall s2 y2, h_rcx (hr s2) = P PCtx -> memop_ok m (ctx s2) -> 0 <= eip (ctx s2) < 2 ^ 32 ->
    ea m (ctx s2) = ea m (ctx s) -> (forall x, gmem s2 x = gmem s1 x) ->
    meets (yrun E (emit_sys (if idt then LIDT false m else LGDT false m) false vm pe nxt) s2 y2) s2
      (RNext (with_cell limit (cell y limit mod 2 ^ 16) (with_cell base (cell y base mod 2 ^ 32) (guest_view s2 y2)))).
Proof.
  intros idt m E u vm pe nxt s y base limit Hcx Hm Hn He Hu HF.
  assert (R1 : as_documented (if idt then SIDT m else SGDT m)) by (apply C74_tables; destruct idt; exact I).
  assert (R2 : as_documented (if idt then LIDT false m else LGDT false m)) by (apply C74_tables; destruct idt; exact I).
  specialize (R1 E u vm pe nxt s y Hcx ltac:(destruct idt; exact Hm) Hn He).
  replace (spec_sys u vm pe nxt (e_fault (y_host E)) (y_help E) (if idt then SIDT m else SGDT m) (guest_view s y))
    with (store_table (e_fault (y_host E)) base limit m (guest_view s y)) in R1.
  2:{ unfold base, limit. destruct idt; cbn [spec_sys]; unfold prevented; cbn [guest_view v_ctx]; rewrite Hu, andb_false_r; reflexivity. }
  unfold store_table in R1. rewrite !HF in R1. destruct R1 as (s1 & y1 & R1 & _ & M1 & _). exists s1, y1. split; [exact R1 |].
  intros s2 y2 C2 Hm2 He2 EA M2. specialize (R2 E false vm pe nxt s2 y2 C2 ltac:(destruct idt; exact Hm2) Hn He2).
  replace (spec_sys false vm pe nxt (e_fault (y_host E)) (y_help E) (if idt then LIDT false m else LGDT false m) (guest_view s2 y2))
    with (load_table (e_fault (y_host E)) base limit false m (guest_view s2 y2)) in R2 by (unfold base, limit; destruct idt; reflexivity).
  unfold load_table in R2. rewrite !HF in R2. cbn [guest_view v_ctx v_mem v_sys with_mem] in R2, M1. rewrite EA in R2.
  pose proof (stored_back (gmem s) (ea m (ctx s)) (cell y limit) (cell y base)) as (B1 & B2).
  assert (MM : forall x, gmem s2 x = put_at 4 (put_at 2 (gmem s) (ea m (ctx s)) (cell y limit)) ((ea m (ctx s) + 2) mod 2 ^ 32) (cell y base) x)
    by (intros x; rewrite M2; apply M1).
  rewrite (value_put_ext 2 _ _ _ MM), (value_put_ext 4 _ _ _ MM), B1, B2, Z.mod_mod in R2 by lia. exact R2.
Qed.
Print Assumptions C74_round_trip.

(** SLDT AX (16-bit operand) with the upper half of EAX set clears that half *)
Definition env0 : yenv :=
  mkyenv (mkenv (fun _ => 0) (fun _ _ => 0) (fun _ => 0) (fun _ _ _ => false)) (fun _ _ _ g => (g, 0)).
Definition st0 : hst :=
  mkst (mkregs (N 0) (N 0) (P PCtx) (N 0) (N 0) (N 0) (N 0) (N 0)) (mkf false false false false)
    (mkg (fun _ => 0xDEAD0000) (fun _ => 0) 2 0x1000 0 0 0 (fun _ => 0)) (fun _ => 0) (fun _ => 0) 0 false.
Definition sys0 : sysst := mksys (fun c => match c with LdtSel => 0x28 | TrSel => 0x30 | _ => 0 end) (0, 0).

Theorem C74_refuted_register_size :
  let k := SLDT true (RmReg (mkgop false EAX)) in
  ~ meets (yrun env0 (emit_sys k false false true 0x1003) st0 sys0) st0
      (spec_sys false false true 0x1003 (e_fault (y_host env0)) (y_help env0) k (guest_view st0 sys0)).
Proof.
  intros k (s' & y' & H). cbn [spec_sys k store_sel protected_only prevented andb negb] in H. destruct H as [R ((G & _) & _)].
  assert (Q : match yrun env0 (emit_sys k false false true 0x1003) st0 sys0 with (Done s, _) => gprs (ctx s) EAX | _ => 0 end = 0x28)
    by (vm_compute; reflexivity).
  rewrite R in Q. specialize (G EAX). rewrite Q in G. vm_compute in G. discriminate.
Qed.
Print Assumptions C74_refuted_register_size.

(** SLDT is not refused in real mode *)
Theorem C74_refuted_real_mode :
  let k := SLDT false (RmReg (mkgop false EAX)) in
  ~ meets (yrun env0 (emit_sys k false false false 0x1003) st0 sys0) st0
      (spec_sys false false false 0x1003 (e_fault (y_host env0)) (y_help env0) k (guest_view st0 sys0)).
Proof.
  intros k (s' & y' & H). cbn [spec_sys k protected_only andb negb ud] in H. destruct H as [R _].
  assert (Q : match yrun env0 (emit_sys k false false false 0x1003) st0 sys0 with (Done s, _) => true | _ => false end = true)
    by (vm_compute; reflexivity).
  rewrite R in Q. discriminate.
Qed.
Print Assumptions C74_refuted_real_mode.

(** operands in memory; SGDT stores six bytes and no seventh *)
Example C74_hyp :
  sys_ok (LGDT true (MRm true (Some EAX) None None false DS true)) (ctx st0) /\
  sys_ok (STR false (RmMem (MRm true (Some EAX) None None false DS true))) (ctx st0) /\
  (let a := yrun env0 (emit_sys (SGDT (MRm true (Some EAX) None None false DS true)) true false true 0x1003) st0
     (mksys (fun c => match c with GdtBase => 0xC0DE1234 | GdtLimit => 0x5678 | _ => 0 end) (0, 0)) in
   match a with (Done s, _) => map (gmem s) [0xDEAD0000; 0xDEAD0001; 0xDEAD0002; 0xDEAD0003; 0xDEAD0004; 0xDEAD0005; 0xDEAD0006] | _ => [] end
     = [0x78; 0x56; 0x34; 0x12; 0xDE; 0xC0; 0]).
Proof. repeat split. Qed.

(** ** C75 *)

Definition privileged_op (k : sysop) : Prop :=
  match k with
  | LGDT _ _ | LIDT _ _ | LLDT _ | LTR _ | LMSW _ | CLTS | MOV_from_CR _ _ | MOV_to_CR _ _ | RDMSR | WRMSR | INVLPG _ | WBINVD | HLT => True
  | _ => False
  end.

(** Above level 0 a privileged instruction raises #GP(0) (#UD for LLDT and LTR in
    virtual 8086 mode) in exactly the state it started in: no register, no
    memory, no helper. *)
Theorem C75_unprivileged : forall k E vm pe nxt s y, privileged_op k ->
  exists vec, yrun E (emit_sys k true vm pe nxt) s y = (Raise vec 0 s, y) /\
    (vec = 13 \/ vec = 6 /\ vm = true /\ exists o, k = LLDT o \/ k = LTR o).
Proof.
  intros k E vm pe nxt s y Hk. destruct k; try (now elim Hk); cbn [emit_sys];
    try (exists 13; split; [reflexivity | now left]).
  all: unfold emit_lsel; destruct vm; [exists 6; split; [reflexivity | right; eauto] | exists 13; split; [reflexivity | now left]].
Qed.
Print Assumptions C75_unprivileged.

(** All the instructions call their helper once, with the documented argument, or
    raise the documented exception, and continue as documented; [pe] is assumed
    for those that do not exist in real mode, see below. *)
Theorem C75_system_partial : forall k E u vm pe nxt s y,
  match k with LGDT _ _ | LIDT _ _ | SGDT _ | SIDT _ | SLDT _ _ | STR _ _ => False
  | LLDT _ | LTR _ | VERR _ | VERW _ => pe = true | _ => True end ->
  h_rcx (hr s) = P PCtx -> sys_ok k (ctx s) -> 0 <= nxt < 2 ^ 32 -> 0 <= eip (ctx s) < 2 ^ 32 ->
  meets (yrun E (emit_sys k u vm pe nxt) s y) s
    (spec_sys u vm pe nxt (e_fault (y_host E)) (y_help E) k (guest_view s y)).
Proof.
  intros k E u vm pe nxt s y Hk Hcx Hok Hn He. destruct k; try (now elim Hk); cbn [emit_sys spec_sys sys_ok] in *; try subst pe.
  - unfold emit_lsel, protected_only, privileged. destruct vm; [now apply raise_ok |]. cbn [andb negb]. destruct u; [now apply raise_ok |]. now apply (sel_reports E HLldt).
  - unfold emit_lsel, protected_only, privileged. destruct vm; [now apply raise_ok |]. cbn [andb negb]. destruct u; [now apply raise_ok |]. now apply (sel_reports E HLtr).
  - unfold emit_ver, protected_only. destruct vm; [now apply raise_ok |]. cbn [andb negb]. now apply (sel_next E HVerr).
  - unfold emit_ver, protected_only. destruct vm; [now apply raise_ok |]. cbn [andb negb]. now apply (sel_next E HVerw).
  - unfold emit_lmsw, privileged. destruct u; [now apply raise_ok |]. now apply lmsw_ok.
  - unfold emit_clts, privileged. destruct u; [now apply raise_ok |]. now apply clts_ok.
  - unfold emit_mov_from_cr, privileged. destruct u; [now apply raise_ok |]. now apply from_cr_ok.
  - unfold emit_mov_to_cr, privileged. destruct u; [now apply raise_ok |]. now apply to_cr_ok.
  - unfold emit_msr, privileged. destruct u; [now apply raise_ok |]. apply msr_ok; auto.
  - unfold emit_msr, privileged. destruct u; [now apply raise_ok |]. apply msr_ok; auto.
  - unfold emit_rdtsc. apply tsd_ok; [assumption |]. intros s1 S1.
    pose proof (call_next E HRdtsc s1 s y (proj1 S1) ltac:(apply S1)) as R. now rewrite (view_eq _ _ y S1) in R.
  - now apply call_next.
  - unfold emit_invlpg, privileged. destruct u; [now apply raise_ok |]. now apply invlpg_ok.
  - unfold emit_wbinvd, privileged. destruct u; [now apply raise_ok |]. exists s, y. split; [reflexivity |]. apply shows_kept. repeat split. exact Hcx.
  - unfold emit_hlt, privileged. destruct u; [now apply raise_ok |]. now apply hlt_ok.
Qed.
Print Assumptions C75_system_partial.

(** LTR in real mode is not refused: the helper is called *)
Theorem C75_refuted_real_mode :
  let k := LTR (RmReg (mkgop false EAX)) in
  ~ meets (yrun env0 (emit_sys k false false false 0x1003) st0 sys0) st0
      (spec_sys false false false 0x1003 (e_fault (y_host env0)) (y_help env0) k (guest_view st0 sys0)).
Proof.
  intros k (s' & y' & H). cbn [spec_sys k protected_only andb negb ud] in H. destruct H as [R _].
  assert (Q : match yrun env0 (emit_sys k false false false 0x1003) st0 sys0 with (Done s, _) => true | _ => false end = true)
    by (vm_compute; reflexivity).
  rewrite R in Q. discriminate.
Qed.
Print Assumptions C75_refuted_real_mode.

(** a helper that refuses the value makes MOV CR0 raise #GP(0) *)
Example C75_hyp :
  let E := mkyenv (y_host env0) (fun h a b g => (g, if a =? 0xDEAD0000 then 1 else 0)) in
  match yrun E (emit_sys (MOV_to_CR CR0 EAX) false false true 0x1003) st0 sys0 with (Raise v c _, _) => (v, c) | _ => (0, 1) end = (13, 0) /\
  sys_ok (MOV_to_CR CR0 EAX) (ctx st0) /\ 0 <= eip (ctx st0) < 2 ^ 32.
Proof. split; [vm_compute; reflexivity |]. split; [exact I |]. cbn. lia. Qed.
