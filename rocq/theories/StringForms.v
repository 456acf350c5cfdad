(** * What whole repetitions amount to *)

From Coq Require Import ZArith Bool List Lia ZifyBool.
From Verif Require Import HostModel AluModel AluSpec HostProofs LazyFlagsProofs FlagsApiProofs
  FlagArith SymExec AluProofs AluForms UnaryProofs XchgProofs MulProofs StringModel StringSpec StringProofs StringRep.
Import ListNotations.
Local Open Scope Z_scope.

(** ** Resuming *)

Section Resume.
Variables (f f' : bool -> Z -> bool) (base : sreg -> Z) (w : width) (a32 : bool) (seg : sreg) (df : bool)
  (k : strop) (p : repk).
Hypothesis Hf : forall wr a, f' wr a = false.

Lemma element_nofault g g1 : element f base w a32 seg df k g = inl g1 -> element f' base w a32 seg df k g = inl g1.
Proof.
  unfold element. cbv zeta. rewrite !Hf.
  destruct k; repeat match goal with |- context [if ?b then _ else _] => destruct b end; intros H; congruence.
Qed.

Lemma element_count g g1 : element f base w a32 seg df k g = inl g1 -> g_regs g1 ECX = g_regs g ECX.
Proof.
  unfold element. cbv zeta.
  destruct k; repeat match goal with |- context [if f ?b ?c then _ else _] => destruct (f b c) end;
  intros H; inversion H; reflexivity.
Qed.

Lemma next_count g g1 n : element f base w a32 seg df k g = inl g1 -> Z.to_nat (index a32 ECX g) = S n ->
  Z.to_nat (index a32 ECX (set_index a32 ECX (index a32 ECX g1 - 1) g1)) = n.
Proof.
  intros EL HN. assert (C : index a32 ECX g1 = index a32 ECX g).
  { unfold index, gget. now rewrite (element_count _ _ EL). }
  rewrite C. unfold set_index, index at 1. cbn [g_regs]. rewrite gget_new, getw_mod, Zmod_mod.
  pose proof (index_range a32 ECX g). rewrite Z.mod_small by lia. lia.
Qed.

Lemma resume_ok : forall n g g' x, Z.to_nat (index a32 ECX g) = n ->
  repeated f base w a32 seg df k p n g = (g', Some x) ->
  repeated f' base w a32 seg df k p n g =
  repeated f' base w a32 seg df k p (Z.to_nat (index a32 ECX g')) g'.
Proof.
  induction n as [| n IH]; intros g g' x HN H; [discriminate |].
  rewrite repeated_S in H.
  destruct (element f base w a32 seg df k g) as [g1 | y] eqn:EL.
  - rewrite repeated_S, (element_nofault _ _ EL). cbv zeta in *.
    destruct (stops p _); [discriminate |]. apply (IH _ _ x); [| exact H]. exact (next_count _ _ _ EL HN).
  - inversion H; subst. now rewrite HN.
Qed.

Lemma nofault_done : forall n g, snd (repeated f' base w a32 seg df k p n g) = None.
Proof.
  induction n as [| n IH]; intros g; [reflexivity |]. rewrite repeated_S.
  unfold element. cbv zeta. rewrite !Hf. destruct k; (destruct (stops p _); [reflexivity | apply IH]).
Qed.
End Resume.

(** ** The outcome is unique *)

Lemma rep_runs_fun E b s o : rep_runs E b s o -> forall o', rep_runs E b s o' -> o = o'.
Proof.
  induction 1 as [s o H N | s s1 o H R IH]; intros o' R'; inversion R'; subst.
  - reflexivity.
  - exfalso. eapply N. exact H0.
  - exfalso. eapply H1. exact H.
  - apply IH. congruence.
Qed.

Lemma rep_instr_fun E k p w a32 seg z ze s o o' :
  rep_instr E k p w a32 seg z ze s o -> rep_instr E k p w a32 seg z ze s o' -> o = o'.
Proof.
  unfold rep_instr. destruct (run E (rep_start a32) s) as [s1 | [|] s1 | | | |]; try contradiction;
  [intros A B; exact (rep_runs_fun _ _ _ _ A _ B) | congruence].
Qed.

(** ** Filling memory *)

Lemma bytes_cases w : arith_w w -> wbytes w = 1 \/ wbytes w = 2 \/ wbytes w = 4.
Proof. destruct w; cbn [wbytes]; auto. intros H; now elim H. Qed.

Lemma mstore_at m w a v x : arith_w w -> 0 <= a < 2 ^ 32 -> 0 <= x < 2 ^ 32 ->
  mstore m w a v x = if (x - a) mod 2 ^ 32 <? wbytes w then (v / 2 ^ (8 * ((x - a) mod 2 ^ 32))) mod 256 else m x.
Proof.
  intros Hw Ha Hx. unfold mstore. change w32 with (getw W32). rewrite getw_mod. change (modulus W32) with (2 ^ 32).
  replace ((0 <=? x) && (x <=? 4294967295)) with true by lia. cbn [andb].
  destruct (_ <? wbytes w); [| reflexivity].
  pose proof (Z.mod_pos_bound (x - a) (2 ^ 32) eq_refl).
  change 255 with (Z.ones 8). rewrite Z.land_ones, Z.shiftr_div_pow2 by lia. reflexivity.
Qed.

Section Fill.
Variables (f : bool -> Z -> bool) (base : sreg -> Z) (w : width) (seg : sreg).
Hypothesis Hw : arith_w w.

Definition EDIx (g : gst) : Z := gget W32 false EDI (g_regs g).
Definition ECXx (g : gst) : Z := gget W32 false ECX (g_regs g).

Lemma fill_ok : forall n g,
  (forall i, 0 <= i < Z.of_nat n -> f true ((dest base true g + i * wbytes w) mod 2 ^ 32) = false) ->
  exists g', repeated f base w true seg false SStos KRep n g = (g', None) /\
    EDIx g' = (EDIx g + Z.of_nat n * wbytes w) mod 2 ^ 32 /\
    ECXx g' = (ECXx g - Z.of_nat n) mod 2 ^ 32 /\
    (forall r, r <> EDI -> r <> ECX -> g_regs g' r = g_regs g r) /\ g_fl g' = g_fl g /\
    (forall x, 0 <= x < 2 ^ 32 ->
       let o := (x - dest base true g) mod 2 ^ 32 in
       g_mem g' x = if o <? Z.of_nat n * wbytes w
                    then (gget w false EAX (g_regs g) / 2 ^ (8 * (o mod wbytes w))) mod 256 else g_mem g x).
Proof.
  induction n as [| n IH]; intros g HF.
  - exists g. split; [reflexivity |]. unfold EDIx, ECXx. cbn [Z.of_nat]. rewrite Z.mul_0_l, Z.add_0_r, Z.sub_0_r.
    pose proof (gget_range W32 false EDI (g_regs g)). pose proof (gget_range W32 false ECX (g_regs g)).
    rewrite !Z.mod_small by assumption. repeat split; auto.
    intros x Hx. cbv zeta. pose proof (Z.mod_pos_bound (x - dest base true g) (2 ^ 32) eq_refl).
    replace (_ <? 0) with false by lia. reflexivity.
  - rewrite repeated_S. unfold element. cbv zeta.
    assert (D : f true (dest base true g) = false).
    { specialize (HF 0 ltac:(lia)). rewrite Z.mul_0_l, Z.add_0_r in HF. unfold dest in *. now rewrite Zmod_mod in HF. }
    rewrite D. cbn [stops].
    set (g1 := move w true false EDI _).
    set (g2 := set_index true ECX (index true ECX g1 - 1) g1).
    assert (E1 : EDIx g2 = (EDIx g + wbytes w) mod 2 ^ 32).
    { unfold EDIx, g2, g1, set_index, move, set_index. cbn [g_regs].
      change (gget W32 false EDI (gput ?a ?b ECX ?c ?d)) with (gget W32 false EDI d).
      unfold index_w. rewrite gget_new, getw_mod, Zmod_mod. reflexivity. }
    assert (E2 : ECXx g2 = (ECXx g - 1) mod 2 ^ 32).
    { unfold ECXx, g2, set_index. cbn [g_regs]. unfold index_w. rewrite gget_new, getw_mod, Zmod_mod. reflexivity. }
    assert (D2 : dest base true g2 = (dest base true g + wbytes w) mod 2 ^ 32).
    { unfold dest. change (index true EDI g2) with (EDIx g2). rewrite E1. rewrite Zplus_mod_idemp_r, Zplus_mod_idemp_l.
      unfold EDIx, index, index_w. f_equal. lia. }
    destruct (IH g2) as (g' & R & A1 & A2 & A3 & A4 & A5).
    { intros i Hi. rewrite D2, Zplus_mod_idemp_l. specialize (HF (i + 1) ltac:(lia)).
      rewrite <- HF. f_equal. f_equal. lia. }
    exists g'. split; [exact R |].
    split; [rewrite A1, E1, Zplus_mod_idemp_l; f_equal; lia |].
    split; [rewrite A2, E2, Zminus_mod_idemp_l; f_equal; lia |].
    split; [intros r N1 N2; rewrite A3 by assumption; destruct r; try reflexivity; congruence |].
    split; [rewrite A4; reflexivity |].
    intros x Hx. specialize (A5 x Hx). cbv zeta in *. rewrite A5. rewrite D2.
    change (g_mem g2) with (mstore (g_mem g) w (dest base true g) (gget w false EAX (g_regs g))).
    change (gget w false EAX (g_regs g2)) with (gget w false EAX (g_regs g)).
    set (v := gget w false EAX (g_regs g)).
    rewrite mstore_at by (try assumption; apply Z.mod_pos_bound; reflexivity).
    assert (Ho : (x - (dest base true g + wbytes w) mod 2 ^ 32) mod 2 ^ 32 =
                 ((x - dest base true g) mod 2 ^ 32 - wbytes w) mod 2 ^ 32).
    { rewrite Zminus_mod_idemp_r, Zminus_mod_idemp_l. f_equal. lia. }
    rewrite Ho. clear Ho. pose proof (Z.mod_pos_bound (x - dest base true g) (2 ^ 32) eq_refl) as Bo.
    set (o := (x - dest base true g) mod 2 ^ 32) in *. clearbody o.
    change (2 ^ 32) with 4294967296 in *.
    destruct (Z.ltb_spec o (wbytes w)).
    + assert (Q : (o - wbytes w) mod 4294967296 = o - wbytes w + 4294967296).
      { destruct (bytes_cases w Hw) as [B | [B | B]]; rewrite B in *; Z.div_mod_to_equations; lia. }
      rewrite Q. replace ((o - wbytes w + 4294967296) mod wbytes w) with (o mod wbytes w).
      2:{ destruct (bytes_cases w Hw) as [B | [B | B]]; rewrite B in *; Z.div_mod_to_equations; lia. }
      replace (o mod wbytes w) with o by (symmetry; apply Z.mod_small; lia).
      replace (o <? Z.of_nat (S n) * wbytes w) with true.
      2:{ symmetry. apply Z.ltb_lt. destruct (bytes_cases w Hw) as [B | [B | B]]; rewrite B in *; lia. }
      match goal with |- (if ?b then _ else _) = _ => now destruct b end.
    + rewrite (Z.mod_small (o - wbytes w)) by (destruct (bytes_cases w Hw) as [B | [B | B]]; rewrite B in *; lia).
      replace ((o - wbytes w) mod wbytes w) with (o mod wbytes w).
      2:{ destruct (bytes_cases w Hw) as [B | [B | B]]; rewrite B in *; Z.div_mod_to_equations; lia. }
      replace (o - wbytes w <? Z.of_nat n * wbytes w) with (o <? Z.of_nat (S n) * wbytes w);
        [reflexivity |].
      destruct (bytes_cases w Hw) as [B | [B | B]]; rewrite B in *; lia.
Qed.
End Fill.

(** ** Copying memory *)

Lemma mload_byte m w a o : arith_w w -> 0 <= a < 2 ^ 32 -> 0 <= o < wbytes w ->
  (mload m w a / 2 ^ (8 * o)) mod 256 = m ((a + o) mod 2 ^ 32) mod 256.
Proof.
  intros Hw Ha Ho. remember ((a + o) mod 2 ^ 32) as x eqn:Ex.
  change 256 with (2 ^ 8). rewrite <- !Z.land_ones, <- Z.shiftr_div_pow2 by lia.
  apply Z.bits_inj'. intros i Hi. rewrite !Z.land_spec, Z.shiftr_spec by assumption.
  rewrite Z.testbit_ones_nonneg by lia.
  destruct (Z.ltb_spec i 8) as [Hi8 |]; [| now rewrite !andb_false_r].
  rewrite !andb_true_r.
  assert (B : forall k, 0 <= k < 4 ->
    Z.testbit (Z.shiftl (Z.land (m (w32 (a + k))) 0xFF) (8 * k)) (i + 8 * o) =
    if k =? o then Z.testbit (m x) i else false).
  { intros k Hk. rewrite Z.shiftl_spec by lia.
    destruct (Z.eqb_spec k o) as [-> | N].
    - rewrite Z.land_spec. change 255 with (Z.ones 8). rewrite Z.testbit_ones_nonneg by lia.
      replace (i + 8 * o - 8 * o) with i by lia. replace (i <? 8) with true by lia.
      rewrite andb_true_r. f_equal. f_equal. rewrite Ex. apply (getw_mod W32).
    - destruct (Z.ltb_spec k o).
      + rewrite Z.land_spec. change 255 with (Z.ones 8). rewrite Z.testbit_ones_nonneg by lia.
        replace (_ <? 8) with false by lia. apply andb_false_r.
      + apply Z.testbit_neg_r. lia. }
  clear Ex. unfold mload. destruct w; try (now elim Hw); cbn [wbytes] in Ho; rewrite ?Z.lor_spec, !B by lia.
  - replace o with 0 by lia. reflexivity.
  - assert (o = 0 \/ o = 1) as [-> | ->] by lia; cbn [Z.eqb orb Pos.eqb]; rewrite ?orb_false_r; reflexivity.
  - assert (o = 0 \/ o = 1 \/ o = 2 \/ o = 3) as [-> | [-> | [-> | ->]]] by lia;
    cbn [Z.eqb orb Pos.eqb]; rewrite ?orb_false_r; reflexivity.
Qed.

Definition ESIx (g : gst) : Z := gget W32 false ESI (g_regs g).

Lemma new_index r v g : gget W32 false r (g_regs (set_index true r v g)) = v mod 2 ^ 32.
Proof. unfold set_index. cbn [g_regs]. unfold index_w. rewrite gget_new, getw_mod, Zmod_mod. reflexivity. Qed.

Section Copy.
Variables (f : bool -> Z -> bool) (base : sreg -> Z) (w : width) (seg : sreg).
Hypothesis Hw : arith_w w.

Lemma copy_ok : forall n g,
  (forall i, 0 <= i < Z.of_nat n ->
     f false ((source base true seg g + i * wbytes w) mod 2 ^ 32) = false /\
     f true ((dest base true g + i * wbytes w) mod 2 ^ 32) = false) ->
  (forall i j, 0 <= i < Z.of_nat n * wbytes w -> 0 <= j < Z.of_nat n * wbytes w ->
     (source base true seg g + i) mod 2 ^ 32 <> (dest base true g + j) mod 2 ^ 32) ->
  exists g', repeated f base w true seg false SMovs KRep n g = (g', None) /\
    EDIx g' = (EDIx g + Z.of_nat n * wbytes w) mod 2 ^ 32 /\
    ESIx g' = (ESIx g + Z.of_nat n * wbytes w) mod 2 ^ 32 /\
    ECXx g' = (ECXx g - Z.of_nat n) mod 2 ^ 32 /\
    (forall r, r <> EDI -> r <> ESI -> r <> ECX -> g_regs g' r = g_regs g r) /\ g_fl g' = g_fl g /\
    (forall x, 0 <= x < 2 ^ 32 ->
       let o := (x - dest base true g) mod 2 ^ 32 in
       g_mem g' x = if o <? Z.of_nat n * wbytes w
                    then g_mem g ((source base true seg g + o) mod 2 ^ 32) mod 256 else g_mem g x).
Proof.
  induction n as [| n IH]; intros g HF HD.
  - exists g. split; [reflexivity |]. unfold EDIx, ECXx, ESIx. cbn [Z.of_nat]. rewrite Z.mul_0_l, !Z.add_0_r, Z.sub_0_r.
    pose proof (gget_range W32 false EDI (g_regs g)). pose proof (gget_range W32 false ECX (g_regs g)).
    pose proof (gget_range W32 false ESI (g_regs g)).
    rewrite !Z.mod_small by assumption. repeat split; auto.
    intros x Hx. cbv zeta. pose proof (Z.mod_pos_bound (x - dest base true g) (2 ^ 32) eq_refl).
    replace (_ <? 0) with false by lia. reflexivity.
  - rewrite repeated_S. unfold element. cbv zeta.
    pose proof (bytes_cases w Hw) as HB.
    assert (RS : 0 <= source base true seg g < 2 ^ 32) by (apply Z.mod_pos_bound; reflexivity).
    assert (RD : 0 <= dest base true g < 2 ^ 32) by (apply Z.mod_pos_bound; reflexivity).
    assert (D : f false (source base true seg g) = false /\ f true (dest base true g) = false).
    { specialize (HF 0 ltac:(lia)). rewrite Z.mul_0_l, !Z.add_0_r, !Z.mod_small in HF by assumption. exact HF. }
    destruct D as [-> ->]. cbn [stops].
    set (g0 := mkgst (g_regs g) (mstore _ _ _ _) (g_fl g)).
    set (g1 := move w true false ESI _).
    set (g2 := set_index true ECX (index true ECX g1 - 1) g1).
    assert (E1 : EDIx g2 = (EDIx g + wbytes w) mod 2 ^ 32) by exact (new_index EDI _ g0).
    assert (E3 : ESIx g2 = (ESIx g + wbytes w) mod 2 ^ 32) by exact (new_index ESI _ (move w true false EDI g0)).
    assert (E2 : ECXx g2 = (ECXx g - 1) mod 2 ^ 32) by exact (new_index ECX _ g1).
    assert (D2 : dest base true g2 = (dest base true g + wbytes w) mod 2 ^ 32).
    { unfold dest. change (index true EDI g2) with (EDIx g2). rewrite E1. rewrite Zplus_mod_idemp_r, Zplus_mod_idemp_l.
      unfold EDIx, index, index_w. f_equal. lia. }
    assert (D3 : source base true seg g2 = (source base true seg g + wbytes w) mod 2 ^ 32).
    { unfold source. change (index true ESI g2) with (ESIx g2). rewrite E3. rewrite Zplus_mod_idemp_r, Zplus_mod_idemp_l.
      unfold ESIx, index, index_w. f_equal. lia. }
    assert (M2 : g_mem g2 = mstore (g_mem g) w (dest base true g) (mload (g_mem g) w (source base true seg g))) by reflexivity.
    assert (F2 : g_fl g2 = g_fl g) by reflexivity.
    assert (R2 : forall r, r <> EDI -> r <> ESI -> r <> ECX -> g_regs g2 r = g_regs g r).
    { intros r N1 N2 N3. destruct r; try reflexivity; congruence. }
    clearbody g2. clear g1 g0.
    set (S0 := source base true seg g) in *. set (T0 := dest base true g) in *.
    destruct (IH g2) as (g' & R & A1 & A0 & A2 & A3 & A4 & A5).
    { intros i Hi. rewrite D2, D3, !Zplus_mod_idemp_l. specialize (HF (i + 1) ltac:(lia)).
      replace (S0 + wbytes w + i * wbytes w) with (S0 + (i + 1) * wbytes w) by lia.
      replace (T0 + wbytes w + i * wbytes w) with (T0 + (i + 1) * wbytes w) by lia. exact HF. }
    { intros i j Hi Hj. rewrite D2, D3, !Zplus_mod_idemp_l, <- !Z.add_assoc. apply HD;
      destruct HB as [B | [B | B]]; rewrite B in *; lia. }
    exists g'. split; [exact R |].
    split; [rewrite A1, E1, Zplus_mod_idemp_l; f_equal; lia |].
    split; [rewrite A0, E3, Zplus_mod_idemp_l; f_equal; lia |].
    split; [rewrite A2, E2, Zminus_mod_idemp_l; f_equal; lia |].
    split; [intros r N1 N2 N3; rewrite A3 by assumption; auto |].
    split; [rewrite A4; assumption |].
    intros x Hx. specialize (A5 x Hx). cbv zeta in *. rewrite A5, D2, D3, M2. clear A5.
    assert (Ho : (x - (T0 + wbytes w) mod 2 ^ 32) mod 2 ^ 32 = ((x - T0) mod 2 ^ 32 - wbytes w) mod 2 ^ 32).
    { rewrite Zminus_mod_idemp_r, Zminus_mod_idemp_l. f_equal. lia. }
    rewrite Ho. clear Ho. pose proof (Z.mod_pos_bound (x - T0) (2 ^ 32) eq_refl) as Bo.
    set (o := (x - T0) mod 2 ^ 32) in *.
    assert (Len : Z.of_nat (S n) * wbytes w < 2 ^ 32).
    { destruct (Z.ltb_spec (Z.of_nat (S n) * wbytes w) (2 ^ 32)); [assumption | exfalso].
      apply (HD ((T0 - S0) mod 2 ^ 32) 0).
      - pose proof (Z.mod_pos_bound (T0 - S0) (2 ^ 32) eq_refl). lia.
      - lia.
      - rewrite Zplus_mod_idemp_r. f_equal. lia. }
    assert (Sep : forall i, 0 <= i < Z.of_nat (S n) * wbytes w ->
      mstore (g_mem g) w T0 (mload (g_mem g) w S0) ((S0 + i) mod 2 ^ 32) = g_mem g ((S0 + i) mod 2 ^ 32)).
    { intros i Hi. rewrite mstore_at by (try assumption; apply Z.mod_pos_bound; reflexivity).
      set (y := (S0 + i) mod 2 ^ 32) in *.
      destruct (Z.ltb_spec ((y - T0) mod 2 ^ 32) (wbytes w)) as [L |]; [exfalso | reflexivity].
      apply (HD i ((y - T0) mod 2 ^ 32) Hi).
      - pose proof (Z.mod_pos_bound (y - T0) (2 ^ 32) eq_refl). nia.
      - fold y. rewrite Zplus_mod_idemp_r. replace (T0 + (y - T0)) with y by lia. unfold y. now rewrite Zmod_mod. }
    rewrite (mstore_at _ _ _ _ x) by assumption. fold o.
    destruct (Z.ltb_spec o (wbytes w)).
    + assert (Q : (o - wbytes w) mod 2 ^ 32 = o - wbytes w + 2 ^ 32).
      { change (2 ^ 32) with 4294967296 in *. destruct HB as [B | [B | B]]; rewrite B in *; Z.div_mod_to_equations; lia. }
      rewrite Q. replace (_ <? Z.of_nat n * wbytes w) with false by (symmetry; apply Z.ltb_ge; nia).
      replace (o <? Z.of_nat (S n) * wbytes w) with true by (symmetry; apply Z.ltb_lt; nia).
      apply mload_byte; try assumption; lia.
    + rewrite (Z.mod_small (o - wbytes w)) by (destruct HB as [B | [B | B]]; rewrite B in *; lia).
      replace (o - wbytes w <? Z.of_nat n * wbytes w) with (o <? Z.of_nat (S n) * wbytes w).
      2:{ destruct HB as [B | [B | B]]; rewrite B in *; lia. }
      destruct (Z.ltb_spec o (Z.of_nat (S n) * wbytes w)); [| reflexivity].
      rewrite Zplus_mod_idemp_l. replace (S0 + wbytes w + (o - wbytes w)) with (S0 + o) by lia.
      now rewrite Sep.
Qed.
End Copy.

(** ** Comparing and scanning *)

Section Compare.
Variables (f : bool -> Z -> bool) (base : sreg -> Z) (w : width) (seg : sreg).
Hypothesis Hw : arith_w w.

(** the [i]-th elements are equal; [cmps]: memory with memory, otherwise the
    accumulator with memory *)
Definition equal_at (cmps : bool) (g : gst) (i : Z) : bool :=
  (if cmps then mload (g_mem g) w ((source base true seg g + i * wbytes w) mod 2 ^ 32)
   else gget w false EAX (g_regs g)) =?
  mload (g_mem g) w ((dest base true g + i * wbytes w) mod 2 ^ 32).

Lemma zf_equal a b : 0 <= a < modulus w -> 0 <= b < modulus w -> f_zf (sub_flags_spec w a b 0) = (a =? b).
Proof.
  intros Ha Hb. unfold sub_flags_spec. cbv zeta. cbn [f_zf]. rewrite Z.sub_0_r, <- getw_mod.
  rewrite sub_zero by assumption. apply Z.eqb_sym.
Qed.

Lemma compare_ok (cmps : bool) p : p <> KRep -> forall n g m,
  (forall i, 0 <= i < m ->
     f false ((dest base true g + i * wbytes w) mod 2 ^ 32) = false /\
     (cmps = true -> f false ((source base true seg g + i * wbytes w) mod 2 ^ 32) = false)) ->
  let hit := match p with KRepnz => true | _ => false end in
  0 < m <= Z.of_nat n ->
  (forall i, 0 <= i < m - 1 -> equal_at cmps g i = negb hit) ->
  m = Z.of_nat n \/ equal_at cmps g (m - 1) = hit ->
  exists g', repeated f base w true seg false (if cmps then SCmps else SScas) p n g = (g', None) /\
    EDIx g' = (EDIx g + m * wbytes w) mod 2 ^ 32 /\
    ESIx g' = (if cmps then (ESIx g + m * wbytes w) mod 2 ^ 32 else ESIx g) /\
    ECXx g' = (ECXx g - m) mod 2 ^ 32 /\
    (forall r, r <> EDI -> r <> ESI -> r <> ECX -> g_regs g' r = g_regs g r) /\ g_mem g' = g_mem g /\
    f_zf (g_fl g') = equal_at cmps g (m - 1).
Proof.
  intros Hp. induction n as [| n IH]; intros g m HF hit Hm Hne Hend; [lia |].
  rewrite repeated_S. 
  assert (RS : 0 <= source base true seg g < 2 ^ 32) by (apply Z.mod_pos_bound; reflexivity).
  assert (RD : 0 <= dest base true g < 2 ^ 32) by (apply Z.mod_pos_bound; reflexivity).
  set (a := if cmps then mload (g_mem g) w (source base true seg g) else gget w false EAX (g_regs g)).
  set (b := mload (g_mem g) w (dest base true g)).
  assert (Ra : 0 <= a < modulus w) by (unfold a; destruct cmps; [apply mload_range | apply gget_range]).
  assert (Rb : 0 <= b < modulus w) by apply mload_range.
  set (g0 := mkgst (g_regs g) (g_mem g) (sub_flags_spec w a b 0)).
  set (g1 := if cmps then move w true false ESI (move w true false EDI g0) else move w true false EDI g0).
  assert (EL : element f base w true seg false (if cmps then SCmps else SScas) g = inl g1).
  { destruct (HF 0 ltac:(lia)) as [F1 F2]. rewrite Z.mul_0_l, Z.add_0_r, Z.mod_small in F1 by assumption.
    unfold element. cbv zeta. unfold g1, g0, a, b. destruct cmps.
    - specialize (F2 eq_refl). rewrite Z.mul_0_l, Z.add_0_r, Z.mod_small in F2 by assumption. now rewrite F1, F2.
    - now rewrite F1. }
  rewrite EL. cbv zeta.
  set (g2 := set_index true ECX (index true ECX g1 - 1) g1).
  assert (E0 : equal_at cmps g 0 = (a =? b)).
  { unfold equal_at, a, b. rewrite Z.mul_0_l, !Z.add_0_r, !Z.mod_small by assumption. reflexivity. }
  assert (FZ : f_zf (g_fl g2) = (a =? b)).
  { rewrite <- (zf_equal a b Ra Rb). unfold g2, g1. destruct cmps; reflexivity. }
  assert (ST : stops p (g_fl g2) = Bool.eqb (a =? b) hit).
  { unfold hit. destruct p; [congruence | |]; cbn [stops]; rewrite FZ; now destruct (a =? b). }
  assert (E1 : EDIx g2 = (EDIx g + wbytes w) mod 2 ^ 32).
  { unfold g2, g1. destruct cmps; exact (new_index EDI _ g0). }
  assert (E3 : ESIx g2 = if cmps then (ESIx g + wbytes w) mod 2 ^ 32 else ESIx g).
  { unfold g2, g1. destruct cmps; [exact (new_index ESI _ (move w true false EDI g0)) | reflexivity]. }
  assert (E2 : ECXx g2 = (ECXx g - 1) mod 2 ^ 32).
  { unfold ECXx at 1, g2. rewrite new_index. unfold g1. destruct cmps; reflexivity. }
  assert (M2 : g_mem g2 = g_mem g) by (unfold g2, g1; destruct cmps; reflexivity).
  assert (R2 : forall r, r <> EDI -> r <> ESI -> r <> ECX -> g_regs g2 r = g_regs g r).
  { intros r N1 N2 N3. unfold g2, g1. destruct cmps, r; try reflexivity; congruence. }
  rewrite ST. clearbody g2. clear g1 g0 EL ST.
  destruct (Z.eq_dec m 1) as [-> | Hm1].
  - (* the last pass *)
    assert (X : (if Bool.eqb (a =? b) hit then (g2, None)
                 else repeated f base w true seg false (if cmps then SCmps else SScas) p n g2) = (g2, @None (bool * Z))).
    { destruct Hend as [Hn | Hh].
      - replace n with O by lia. cbn [repeated]. now destruct (Bool.eqb _ _).
      - change (1 - 1) with 0 in Hh. rewrite E0 in Hh. rewrite Hh. now destruct hit. }
    exists g2. split; [exact X |]. rewrite !Z.mul_1_l.
    repeat split; try assumption. change (1 - 1) with 0. now rewrite E0.
  - assert (X0 : (a =? b) = negb hit) by (rewrite <- E0; apply Hne; lia).
    rewrite X0. replace (Bool.eqb (negb hit) hit) with false by (now destruct hit).
    assert (D2 : dest base true g2 = (dest base true g + wbytes w) mod 2 ^ 32).
    { unfold dest. change (index true EDI g2) with (EDIx g2). rewrite E1. rewrite Zplus_mod_idemp_r, Zplus_mod_idemp_l.
      unfold EDIx, index, index_w. f_equal. lia. }
    assert (D3 : cmps = true -> source base true seg g2 = (source base true seg g + wbytes w) mod 2 ^ 32).
    { intros ->. unfold source. change (index true ESI g2) with (ESIx g2). rewrite E3. rewrite Zplus_mod_idemp_r, Zplus_mod_idemp_l.
      unfold ESIx, index, index_w. f_equal. lia. }
    assert (EA : forall i, 0 <= i -> equal_at cmps g2 i = equal_at cmps g (i + 1)).
    { intros i Hi. unfold equal_at. rewrite M2, D2, !Zplus_mod_idemp_l.
      replace (dest base true g + wbytes w + i * wbytes w) with (dest base true g + (i + 1) * wbytes w) by lia.
      f_equal. destruct cmps.
      - rewrite (D3 eq_refl), Zplus_mod_idemp_l. f_equal. f_equal. lia.
      - unfold gget. now rewrite R2 by discriminate. }
    destruct (IH g2 (m - 1)) as (g' & R & A1 & A0 & A2 & A3 & A4 & A5).
    { intros i Hi. destruct (HF (i + 1) ltac:(lia)) as [F1 F2]. rewrite D2, Zplus_mod_idemp_l.
      replace (dest base true g + wbytes w + i * wbytes w) with (dest base true g + (i + 1) * wbytes w) by lia.
      split; [exact F1 |]. intros C. rewrite (D3 C), Zplus_mod_idemp_l.
      replace (source base true seg g + wbytes w + i * wbytes w) with (source base true seg g + (i + 1) * wbytes w) by lia.
      exact (F2 C). }
    { lia. }
    { intros i Hi. rewrite EA by lia. apply Hne. lia. }
    { destruct Hend as [Hn | Hh]; [left; lia | right]. rewrite EA by lia. replace (m - 1 - 1 + 1) with (m - 1) by lia. exact Hh. }
    exists g'. split; [exact R |].
    split; [rewrite A1, E1, Zplus_mod_idemp_l; f_equal; lia |].
    split; [rewrite A0, E3; destruct cmps; [rewrite Zplus_mod_idemp_l; f_equal; lia | reflexivity] |].
    split; [rewrite A2, E2, Zminus_mod_idemp_l; f_equal; lia |].
    split; [intros r N1 N2 N3; rewrite A3 by assumption; auto |].
    split; [congruence |]. rewrite A5, EA by lia. f_equal. lia.
Qed.
End Compare.
