(** * The lazy flag encoding: decoding, and the flags API *)

From Coq Require Import ZArith Bool List Lia ZifyBool.
From Verif Require Import HostModel AluModel AluSpec HostProofs.
Import ListNotations.
Local Open Scope Z_scope.

(** evaluate closed bit positions and bits of constants *)
Ltac closed_bits :=
  repeat match goal with
  | |- context [Z.testbit (Zpos ?p) ?i] =>
      let v := eval vm_compute in (Z.testbit (Zpos p) i) in
      match v with true => idtac | false => idtac end;
      change (Z.testbit (Zpos p) i) with v
  | |- context [Z.testbit (Zneg ?p) ?i] =>
      let v := eval vm_compute in (Z.testbit (Zneg p) i) in
      match v with true => idtac | false => idtac end;
      change (Z.testbit (Zneg p) i) with v
  | |- context [Z.testbit 0 ?i] => rewrite (Z.testbit_0_l i)
  end.

Ltac norm_pos :=
  repeat match goal with
  | |- context [Z.testbit ?x (?a - ?b)] =>
      lazymatch a with Z0 => idtac | Zpos _ => idtac end;
      lazymatch b with Z0 => idtac | Zpos _ => idtac end;
      let v := eval vm_compute in (a - b) in
      change (a - b) with v
  | |- context [Z.testbit ?x (?a + ?b)] =>
      lazymatch a with Z0 => idtac | Zpos _ => idtac end;
      lazymatch b with Z0 => idtac | Zpos _ => idtac end;
      let v := eval vm_compute in (a + b) in
      change (a + b) with v
  end.

Lemma testbit_neg_pos x p : Z.testbit x (Zneg p) = false.
Proof. destruct x; reflexivity. Qed.

Lemma w32_bit x i : 0 <= i < 32 -> Z.testbit (w32 x) i = Z.testbit x i.
Proof.
  intros H. unfold w32. rewrite Z.land_spec. change 0xFFFFFFFF with (Z.ones 32).
  rewrite Z.ones_spec_low by lia. apply andb_true_r.
Qed.

Ltac posc := apply Z.leb_le; reflexivity.

Lemma w32_hi x i : 32 <= i -> Z.testbit (w32 x) i = false.
Proof.
  intros H. unfold w32. rewrite Z.land_spec. change 0xFFFFFFFF with (Z.ones 32).
  rewrite Z.ones_spec_high by lia. apply andb_false_r.
Qed.

Ltac w32_step :=
  match goal with
  | |- context [Z.testbit (w32 ?x) ?i] =>
      first [ rewrite (w32_bit x i) by (split; [posc | reflexivity])
            | rewrite (w32_hi x i) by posc ]
  end.

Ltac bits :=
  repeat (first
    [ rewrite Z.land_spec | rewrite Z.lor_spec | rewrite Z.lxor_spec
    | rewrite Z.lnot_spec by posc | rewrite Z.shiftl_spec by posc
    | rewrite Z.shiftr_spec by posc | rewrite testbit_neg_pos | w32_step ]; norm_pos); closed_bits;
  repeat (rewrite ?andb_true_r, ?andb_false_r, ?orb_false_r, ?orb_true_r, ?xorb_false_r,
          ?xorb_true_r, ?andb_true_l, ?andb_false_l, ?orb_false_l, ?orb_true_l, ?xorb_false_l,
          ?xorb_true_l; cbn [negb]).

(** ** Decoding *)

Definition lazy_flags (r a : Z) : aflags :=
  mkaf (Z.testbit a 31) (negb (odd_ones (Z.lxor r (Z.shiftr a 8)))) (Z.testbit a 3)
       (w32 r =? 0) (xorb (Z.testbit r 31) (Z.testbit a 0))
       (xorb (Z.testbit a 31) (Z.testbit a 30)).

Lemma status_bit c i : ctx_ok c -> Z.testbit STATUS i = true -> Z.testbit (eflags c) i = false.
Proof.
  unfold ctx_ok. intros H Hi.
  assert (E : Z.testbit (Z.land (eflags c) STATUS) i = false) by (rewrite H; apply Z.testbit_0_l).
  rewrite Z.land_spec, Hi in E. now rewrite andb_true_r in E.
Qed.

Lemma odd_ones_low x : odd_ones (Z.land x 0xFF) = odd_ones x.
Proof. unfold odd_ones. bits. reflexivity. Qed.

Lemma odd_ones_w32 r a :
  odd_ones (Z.lxor (w32 r) (Z.shiftr (w32 a) 8)) = odd_ones (Z.lxor r (Z.shiftr a 8)).
Proof. unfold odd_ones, w32. bits. reflexivity. Qed.

Lemma b2z_bit b i : Z.testbit (b2z b) i = (i =? 0) && b.
Proof. destruct b; cbn [b2z]; [| now rewrite Z.testbit_0_l, andb_false_r].
  change 1 with (2 ^ 0). rewrite andb_true_r.
  destruct (Z.eq_dec i 0) as [-> | H]; [reflexivity |].
  rewrite Z.pow2_bits_false by lia. lia.
Qed.

Lemma if_bit (b : bool) i : Z.testbit (if b then 1 else 0) i = (i =? 0) && b.
Proof. apply b2z_bit. Qed.

Ltac bits2 := bits; rewrite ?b2z_bit, ?if_bit; norm_pos;
  repeat match goal with |- context [Z.eqb ?a ?b] =>
    lazymatch a with Z0 => idtac | Zpos _ => idtac | Zneg _ => idtac end;
    lazymatch b with Z0 => idtac | Zpos _ => idtac | Zneg _ => idtac end;
    let v := eval vm_compute in (Z.eqb a b) in change (Z.eqb a b) with v end; bits.

Lemma read_flags c : ctx_ok c ->
  flags_of_eflags (read_eflags c) = lazy_flags (res c) (aux c).
Proof.
  intros H.
  pose proof (status_bit c 0 H eq_refl). pose proof (status_bit c 2 H eq_refl).
  pose proof (status_bit c 4 H eq_refl). pose proof (status_bit c 6 H eq_refl).
  pose proof (status_bit c 7 H eq_refl). pose proof (status_bit c 11 H eq_refl).
  unfold flags_of_eflags, lazy_flags, read_eflags.
  rewrite odd_ones_low, odd_ones_w32.
  f_equal; bits2; rewrite ?H0, ?H1, ?H2, ?H3, ?H4, ?H5; cbn [orb andb negb xorb]; try reflexivity.
Qed.

Lemma control_read c : control_bits (read_eflags c) = control_bits (w32 (eflags c)).
Proof.
  unfold control_bits, read_eflags.
  apply Z.bits_inj'. intros i Hi. rewrite !Z.land_spec, Z.lor_spec, Z.lnot_spec by assumption.
  destruct (Z.testbit STATUS i) eqn:S; cbn [negb]; rewrite ?andb_false_r, ?andb_true_r; [reflexivity |].
  set (r := w32 (res c)). set (a := w32 (aux c)).
  match goal with |- _ || ?b = _ => enough (E : b = false) by now rewrite E, orb_false_r end.
  assert (Hr : forall j, 32 <= j -> Z.testbit r j = false) by (intros; now apply w32_hi).
  assert (Ha : forall j, 32 <= j -> Z.testbit a j = false) by (intros; now apply w32_hi).
  assert (Hc : i < 12 \/ 12 <= i) by lia. destruct Hc as [Hc | Hc].
  - assert (i = 0 \/ i = 1 \/ i = 2 \/ i = 3 \/ i = 4 \/ i = 5 \/ i = 6 \/ i = 7 \/ i = 8 \/ i = 9
            \/ i = 10 \/ i = 11) as D by lia.
    repeat destruct D as [-> | D]; try subst i; try discriminate S;
      bits2; rewrite ?Hr, ?Ha by posc; reflexivity.
  - rewrite !Z.lor_spec. rewrite !Z.shiftr_spec, !Z.shiftl_spec, !Z.land_spec, !Z.lxor_spec by lia.
    rewrite b2z_bit, if_bit. change 1 with (2 ^ 0). rewrite !Z.land_spec, !Z.pow2_bits_eqb by lia.
    rewrite Z.shiftr_spec by lia. rewrite (Hr (i - 7 + 31)) by lia.
    replace (i - 2 =? 0) with false by lia. replace (0 =? i - 2) with false by lia.
    replace (i - 6 =? 0) with false by lia. replace (0 =? i - 7) with false by lia.
    change 8 with (2 ^ 3). change 0x80000000 with (2 ^ 31). rewrite !Z.pow2_bits_eqb by lia.
    replace (31 =? i + 31) with false by lia. 
    replace (3 =? i - 2 ^ 0) with false by (change (2 ^ 0) with 1; lia).
    replace (31 =? i + 20) with false by lia.
    rewrite ?andb_false_r, ?andb_false_l. reflexivity.
Qed.
