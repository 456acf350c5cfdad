(** * LAHF, SAHF, CLD and STD *)

From Coq Require Import ZArith Bool List Lia ZifyBool.
From Verif Require Import HostModel AluModel AluSpec HostProofs LazyFlagsProofs FlagsApiProofs
  FlagArith SymExec EaProofs AluProofs AluForms UnaryProofs XchgProofs CondProofs FlagInstrProofs.
Import ListNotations.
Local Open Scope Z_scope.

(** [l] runs to completion and only changes control bits of the flags register *)
Definition sets_eflags (E : henv) (l : list instr) (s : hst) (e : Z) : Prop :=
  exists s', run E l s = Done s' /\ h_rcx (hr s') = P PCtx /\ gmem s' = gmem s /\ masked s' = masked s /\
    ctx s' = set_eflags (eflags (ctx s')) (ctx s) /\ ctx_ok (ctx s') /\ read_eflags (ctx s') = e.

Lemma bit_true k i : 0 <= k -> 0 <= i -> Z.testbit (2 ^ k) i = (k =? i).
Proof. intros. rewrite Z.pow2_bits_eqb by lia. reflexivity. Qed.

Lemma arith_hi c : exists A, read_eflags c = Z.lor (w32 (eflags c)) A /\ 
  (forall e, read_eflags (set_eflags e c) = Z.lor (w32 e) A) /\ Z.testbit A 10 = false.
Proof.
  unfold read_eflags. cbn [set_eflags res aux eflags]. eexists. split; [reflexivity |]. split; [reflexivity |].
  bits2. reflexivity.
Qed.

Lemma cld_ok E s : h_rcx (hr s) = P PCtx -> ctx_ok (ctx s) ->
  sets_eflags E emit_cld s (Z.clearbit (read_eflags (ctx s)) 10).
Proof.
  intros Hcx Hok. destruct (arith_hi (ctx s)) as (A & A1 & A2 & A3). start_state s Hcx. unfold sets_eflags, emit_cld, run. expand_list; sym.
  rewrite ?if00, ?setw_getw32, ?twice.
  eexists. split; [reflexivity |].  split; [reflexivity |]. split; [reflexivity |]. split; [reflexivity |].
  split; [reflexivity |]. cbn [ctx]. unfold ctx_ok in *. cbn [eflags set_eflags] in *. split.
  - apply Z.bits_inj'. intros n Hn. rewrite Z.bits_0, Z.land_spec, putw_testbit by lia.
    assert (H := f_equal (fun z => Z.testbit z n) Hok). cbn beta in H. rewrite Z.land_spec, Z.bits_0 in H.
    destruct (n <? wbits W32); [| exact H].
    rewrite getw_testbit, Z.land_spec, !getw_testbit by lia.
    destruct (Z.testbit ef n); [| reflexivity]. cbn [andb] in H. rewrite H. apply andb_false_r.
  - specialize (A2 (putw W32 ef (getw W32 (Z.land (getw W32 ef) (getw W32 (Z.lnot 1024)))))).
    unfold set_eflags in A2; cbn [gprs segb eflags eip res aux cr4 gsel] in A2. rewrite A1, A2.
    apply Z.bits_inj'. intros n Hn. rewrite Z.clearbit_eqb by lia. rewrite !Z.lor_spec.
    unfold w32. rewrite !Z.land_spec, putw_testbit, getw_testbit, Z.land_spec, !getw_testbit by lia.
    change 0xFFFFFFFF with (Z.ones 32). change 1024 with (2 ^ 10). rewrite Z.lnot_spec, bit_true by lia.
    cbn [wbits]. destruct (Z.ltb_spec n 32).
    + rewrite Z.ones_spec_low by lia. destruct (Z.eqb_spec 10 n) as [<- | ?].
      * rewrite A3. rewrite !andb_false_r. reflexivity.
      * cbn [negb]. rewrite !andb_true_r. reflexivity.
    + rewrite Z.ones_spec_high by lia. rewrite !andb_false_r. replace (10 =? n) with false by lia.
      cbn [negb orb]. rewrite andb_true_r. reflexivity.
Qed.

Lemma std_ok E s : h_rcx (hr s) = P PCtx -> ctx_ok (ctx s) ->
  sets_eflags E emit_std s (Z.setbit (read_eflags (ctx s)) 10).
Proof.
  intros Hcx Hok. destruct (arith_hi (ctx s)) as (A & A1 & A2 & A3). start_state s Hcx. unfold sets_eflags, emit_std, run. expand_list; sym.
  rewrite ?if00, ?setw_getw32, ?twice.
  eexists. split; [reflexivity |].  split; [reflexivity |]. split; [reflexivity |]. split; [reflexivity |].
  split; [reflexivity |]. cbn [ctx]. unfold ctx_ok in *. cbn [eflags set_eflags] in *. split.
  - apply Z.bits_inj'. intros n Hn. rewrite Z.bits_0, Z.land_spec, putw_testbit by lia.
    assert (H := f_equal (fun z => Z.testbit z n) Hok). cbn beta in H. rewrite Z.land_spec, Z.bits_0 in H.
    destruct (Z.ltb_spec n (wbits W32)); [| exact H].
    rewrite getw_testbit, Z.lor_spec, !getw_testbit by lia.
    change 1024 with (2 ^ 10). rewrite bit_true by lia.
    destruct (Z.eqb_spec 10 n) as [<- | ?]; [apply andb_false_r |].
    replace (n <? wbits W32) with true by lia. rewrite !andb_true_r, orb_false_r. exact H.
  - specialize (A2 (putw W32 ef (getw W32 (Z.lor (getw W32 ef) (getw W32 1024))))).
    unfold set_eflags in A2; cbn [gprs segb eflags eip res aux cr4 gsel] in A2. rewrite A1, A2.
    apply Z.bits_inj'. intros n Hn. rewrite Z.setbit_eqb by lia. rewrite !Z.lor_spec.
    unfold w32. rewrite !Z.land_spec, putw_testbit, getw_testbit, Z.lor_spec, !getw_testbit by lia.
    change 0xFFFFFFFF with (Z.ones 32). change 1024 with (2 ^ 10). rewrite bit_true by lia.
    cbn [wbits]. destruct (Z.ltb_spec n 32).
    + rewrite Z.ones_spec_low by lia. destruct (Z.eqb_spec 10 n) as [<- | ?].
      * rewrite !andb_true_r, orb_true_r. reflexivity.
      * rewrite !andb_true_r, orb_false_r. reflexivity.
    + rewrite Z.ones_spec_high by lia. rewrite !andb_false_r. replace (10 =? n) with false by lia. reflexivity.
Qed.

(** ** LAHF and SAHF *)

Definition flag_byte (f : aflags) : Z :=
  b2z (f_cf f) + 4 * b2z (f_pf f) + 16 * b2z (f_af f) + 64 * b2z (f_zf f) + 128 * b2z (f_sf f).

Lemma land_flags e : Z.land e 0xD5 = flag_byte (flags_of_eflags e).
Proof.
  unfold flags_of_eflags, flag_byte. cbn [f_cf f_pf f_af f_zf f_sf].
  apply Z.bits_inj'. intros n Hn. rewrite Z.land_spec.
  destruct (Z.ltb_spec n 8) as [L | L].
  - byte_cases n (conj Hn L); destruct (Z.testbit e 0), (Z.testbit e 2), (Z.testbit e 4), (Z.testbit e 6),
      (Z.testbit e 7); cbn [b2z andb]; try (vm_compute; reflexivity); try (now rewrite andb_false_r).
  - assert (H : forall v, 0 <= v < 256 -> Z.testbit v n = false).
    { intros v Hv. rewrite <- (Z.mod_small v (2 ^ 8)) by exact Hv. apply Z.mod_pow2_bits_high. lia. }
    rewrite (H 0xD5), andb_false_r by lia. symmetry. apply H.
    destruct (Z.testbit e 0), (Z.testbit e 2), (Z.testbit e 4), (Z.testbit e 6), (Z.testbit e 7); vm_compute; split; congruence.
Qed.

Lemma w_af ax : Z.land (getw W32 ax) (getw W32 8) = if Z.testbit ax 3 then 8 else 0.
Proof.
  change (getw W32 8) with (2 ^ 3). rewrite one_bit by lia. 
  replace (Z.testbit (getw W32 ax) 3) with (Z.testbit ax 3) by (hbits; reflexivity). reflexivity.
Qed.

Lemma w_sf7 rs ax :
  Z.land (getw W32 (Z.lxor (getw W32 (getw W8 (if 3 =? 0 then rs else Z.shiftr rs (8 * 3))))
     (getw W32 (Z.shiftl (getw W32 ax) 7)))) (getw W32 128)
  = if xorb (Z.testbit rs 31) (Z.testbit ax 0) then 128 else 0.
Proof.
  change (getw W32 128) with (2 ^ 7). rewrite one_bit by lia. cbn [Z.eqb].  change (8 * 3) with 24.
  match goal with |- (if ?b then _ else _) = _ =>
    replace b with (xorb (Z.testbit rs 31) (Z.testbit ax 0)) by (hbits; reflexivity) end.
  reflexivity.
Qed.

Lemma w_pf' E o1 o2 rs ax :
  getw W8 (parity_at E (setw W64 (setw W32 o1 (getw W8 (w32 rs)))
    (Z.lxor (getw W64 (setw W32 o1 (getw W8 (w32 rs))))
     (getw W64 (setw W32 o2 (getw W8 (if 1 =? 0 then ax else Z.shiftr ax (8 * 1))))))))
  = b2z (odd_ones (Z.lxor rs (Z.shiftr ax 8))).
Proof.
  cbn [Z.eqb]. change (8 * 1) with 8. change (w32 rs) with (getw W32 rs).
  match goal with |- getw W8 (parity_at E ?v) = _ => replace v with (getw W8 (Z.lxor rs (Z.shiftr ax 8))) end.
  2:{ apply Z.bits_inj'. intros n Hn.
      rewrite getw_testbit, setw_testbit, !Z.lxor_spec, !getw_testbit, !setw_testbit, !getw_testbit by lia. cbn [wbits].
      destruct (Z.ltb_spec n 8).
      - replace (n <? 32) with true by lia. replace (n <? 64) with true by lia. now rewrite !andb_true_r.
      - rewrite !andb_false_r. destruct (n <? 32), (n <? 64); reflexivity. }
  rewrite parity_byte. destruct (odd_ones _); vm_compute; reflexivity.
Qed.

Lemma lahf_ok E s : h_rcx (hr s) = P PCtx -> ctx_ok (ctx s) ->
  exists s', run E emit_lahf s = Done s' /\
    becomes s s' (gput W8 true EAX (Z.lor (Z.land (read_eflags (ctx s)) 0xD5) 2) (gprs (ctx s)))
      (gmem s) (flags_now s).
Proof.
  intros Hcx Hok. rewrite land_flags, read_flags by exact Hok. start_state s Hcx. unfold emit_lahf, run. expand_list; sym.
  rewrite ?if00, ?setw_getw32, ?twice.
  eexists. split; [reflexivity |]. apply becomes_same_flags'; [exact Hok | reflexivity | | reflexivity | reflexivity].
  eexists. split; [reflexivity |]. intros r.
  match goal with |- gput W8 true EAX ?v ?g r = gput W8 true EAX ?u ?g r => assert (EQ : getw W8 v = getw W8 u) end.
  { rewrite ?getw_idem, ?getw_setw, ?Z.lxor_nilpotent, w_af, w_sf7, top_word.
    cbv [holds logic_flags hzf]. rewrite Z.land_diag, getw_idem. change (getw W32 rs) with (w32 rs).
    rewrite !w_pf'. unfold lazy_flags, flag_byte. cbn [f_cf f_pf f_af f_zf f_sf].
    change (getw W8 (setw W32 0 (if (w32 rs =? 0) then 1 else 0)) = 0 \/ True) || idtac.
    match goal with |- getw W8 (setw W32 ?o ?v) = _ => change (setw W32 o v) with (getw W32 v) end.
    destruct (Z.testbit rs 31), (Z.testbit ax 0), (Z.testbit ax 3), (Z.testbit ax 31), (odd_ones _), (w32 rs =? 0);
      vm_compute; reflexivity. }
  unfold gput, getw in *. now rewrite EQ.
Qed.

Ltac hi8 ah Z8 := repeat match goal with |- context [Z.testbit ah ?i] => rewrite (Z8 i) by (apply Z.leb_le; reflexivity) end.

Lemma sahf_ok E s : h_rcx (hr s) = P PCtx -> ctx_ok (ctx s) ->
  let ah := gget W8 true EAX (gprs (ctx s)) in
  sets_flags E emit_sahf s (mkaf (Z.testbit ah 0) (Z.testbit ah 2) (Z.testbit ah 4) (Z.testbit ah 6)
     (Z.testbit ah 7) (f_of (flags_now s))).
Proof.
  intros Hcx Hok ah. assert (OF : f_of (flags_now s) = xorb (Z.testbit (aux (ctx s)) 31) (Z.testbit (aux (ctx s)) 30))
    by (unfold flags_now; now rewrite read_flags by assumption).
  rewrite OF. assert (Z8 : forall i, 8 <= i -> Z.testbit ah i = false).
  { intros i Hi. subst ah. unfold gget. rewrite getw_testbit by lia. cbn [wbits].
    replace (i <? 8) with false by lia. apply andb_false_r. }
  assert (Z8c : forallb (fun i => negb (Z.testbit ah (Z.of_nat i))) (seq 8 32) = true).
  { apply forallb_forall. intros i Hi. apply in_seq in Hi. rewrite Z8 by lia. reflexivity. }
  start_state s Hcx. unfold sets_flags, emit_sahf, run. expand_list; sym.
  rewrite ?if00, ?setw_getw32, ?twice. fold ah. clearbody ah. cbn [Z.add].
  eexists. split; [reflexivity |].
  match goal with |- becomes _ (mkst _ _ (mkg _ _ _ _ ?r ?a _ _) _ _ _ _) _ _ _ =>
    apply becomes_flags with r a end; [exact Hok | reflexivity | reflexivity | reflexivity | reflexivity |].
  clear Z8c OF. rewrite Z.add_0_r.
  assert (RW : forall o, getw W32 (Z.land (getw W32 (Z.lnot (getw W32 (Z.shiftl (setw W32 o ah) 2)))) (getw W32 256))
    = if Z.testbit ah 6 then 0 else 256).
  { intros o. change (getw W32 256) with (2 ^ 8). rewrite one_bit by lia.
    match goal with |- getw _ (if ?b then _ else _) = _ => replace b with (negb (Z.testbit ah 6)) by (hbits; reflexivity) end.
    destruct (Z.testbit ah 6); vm_compute; reflexivity. }
  rewrite RW, w_of. unfold lazy_flags. clear RW. destruct (xorb (Z.testbit ax 31) (Z.testbit ax 30)) eqn:OV; f_equal.
  1,3,7,9: hbits; hi8 ah Z8; hbits; reflexivity.
  1,5: rewrite <- (negb_involutive (Z.testbit ah 2)); f_equal; unfold odd_ones; destruct (Z.testbit ah 6) eqn:A6;
    hbits; hi8 ah Z8; hbits; rewrite ?A6; reflexivity.
  1,4: change (w32 (putw W32 rs (if Z.testbit ah 6 then 0 else 256))) with (getw W32 (putw W32 rs (if Z.testbit ah 6 then 0 else 256)));
    rewrite getw_putw; destruct (Z.testbit ah 6); reflexivity.
  1,3: destruct (Z.testbit ah 6) eqn:A6; hbits; hi8 ah Z8; hbits; rewrite ?A6; reflexivity.
  all: hbits; hi8 ah Z8; hbits; destruct (Z.testbit ah 0); reflexivity.
Qed.
