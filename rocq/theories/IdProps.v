(** * Properties of what the guest is told about its processor *)

From Coq Require Import ZArith Bool List Lia.
From Verif Require Import MsrModel IdModel.
Import ListNotations.
Local Open Scope Z_scope.

(** The bytes of a register, lowest first *)
Definition bytes (x : Z) : list Z := map (fun i => (x / 2 ^ (8 * i)) mod 256) [0; 1; 2; 3].

(** Split on every test of an access, and keep what was learnt *)
Ltac split_write H :=
  repeat match type of H with
  | context [if ?b then _ else _] => destruct b eqn:?
  | context [match fixed_idx ?c with _ => _ end] => destruct (fixed_idx c) eqn:?
  end.

Lemma write_other : forall c v r r1, write c v r = MOk r1 -> c <> 0x8B -> sign_id r1 = sign_id r.
Proof.
  intros c v r r1 H N. unfold write in H. cbv zeta in H. split_write H; try discriminate H;
    try (match goal with E : (c =? 0x8B) = true |- _ => apply Z.eqb_eq in E; contradiction end);
    (assert (E1 : r1 = r) by congruence; subst r1; reflexivity) || (inversion H; reflexivity).
Qed.

Lemma write_updated : forall c v r r1, write c v r = MOk r1 -> updated r1 = (updated r || (c =? 0x79)).
Proof.
  intros c v r r1 H. destruct (Z.eqb_spec c 0x79) as [-> | N].
  - rewrite orb_true_r. change (write 0x79 v r) with (MOk (set_updated r)) in H. inversion H. reflexivity.
  - rewrite orb_false_r. unfold write in H. cbv zeta in H. split_write H; try discriminate H;
    try (match goal with E : (c =? 0x79) = true |- _ => apply Z.eqb_eq in E; contradiction end);
    (assert (E1 : r1 = r) by congruence; subst r1; reflexivity) || (inversion H; reflexivity).
Qed.

Lemma cpuid_updated : forall l r, updated (snd (cpuid l r)) = updated r.
Proof. intros l r. unfold cpuid. destruct (l =? 1), (l =? 0), (updated r) eqn:U; cbn [snd]; try exact U; reflexivity || exact U. Qed.

Lemma grun_app : forall a b r, grun (a ++ b) r = match grun a r with Some r1 => grun b r1 | None => None end.
Proof. induction a as [| e a IH]; intros b r; [reflexivity |]. cbn [app grun]. destruct (gstep e r); [apply IH | reflexivity]. Qed.

Lemma updated_kept : forall h r r1, grun h r = Some r1 -> updated r = true -> updated r1 = true.
Proof.
  induction h as [| e h IH]; intros r r1 H U; cbn [grun] in H; [assert (r1 = r) by congruence; now subst |].
  destruct (gstep e r) as [r2 |] eqn:G; [| discriminate H]. apply (IH r2 r1 H). destruct e as [l | c v]; cbn [gstep] in G.
  - assert (r2 = snd (cpuid l r)) by congruence. subst r2. now rewrite cpuid_updated.
  - destruct (write c v r) as [r3 | |] eqn:W; [| | discriminate G].
    + assert (r3 = r2) by congruence. subst r3. rewrite (write_updated c v r r2 W), U. reflexivity.
    + assert (r2 = r) by congruence. now subst.
Qed.

Lemma updated_by : forall h r r1 v, grun h r = Some r1 -> In (Wr 0x79 v) h -> updated r1 = true.
Proof.
  intros h r r1 v H I. apply in_split in I as (a & b & ->). rewrite grun_app in H. destruct (grun a r) as [r2 |]; [| discriminate H].
  cbn [grun gstep] in H. change (write 0x79 v r2) with (MOk (set_updated r2)) in H. cbn iota in H.
  apply (updated_kept b (set_updated r2) r1 H). reflexivity.
Qed.

(** ** C97: CPUID and the microcode revision *)

(** Whatever was done before, CPUID names the vendor, the highest leaf is 2, a leaf above
    it is answered like that one, and leaf 1 has the signature EDX has after a reset. *)
Theorem C97_cpuid : forall r,
  q_eax (fst (cpuid 0 r)) = 2 /\
  bytes (q_ebx (fst (cpuid 0 r))) ++ bytes (q_edx (fst (cpuid 0 r))) ++ bytes (q_ecx (fst (cpuid 0 r))) =
    [71; 101; 110; 117; 105; 110; 101; 73; 110; 116; 101; 108] (* GenuineIntel *) /\
  (forall leaf, 2 < leaf < 2 ^ 32 -> cpuid leaf r = cpuid 2 r) /\
  (* family 6, model 8, stepping 10 *)
  (q_eax (fst (cpuid 1 r)) / 256) mod 16 = 6 /\ (q_eax (fst (cpuid 1 r)) / 16) mod 16 = 8 /\ q_eax (fst (cpuid 1 r)) mod 16 = 10 /\
  q_eax (fst (cpuid 1 r)) < 4096.
Proof.
  intro r. split; [reflexivity |]. split; [reflexivity |]. split; [| repeat split; reflexivity].
  intros leaf L. unfold cpuid. destruct (Z.eqb_spec leaf 1); [lia |]. destruct (Z.eqb_spec leaf 0); [lia | reflexivity].
Qed.
Print Assumptions C97_cpuid.

(** CPUID changes no model specific register but the revision, and that only with leaf 1. *)
Theorem C97_only : forall leaf c r, (c <> 0x8B \/ leaf <> 1) -> read c (snd (cpuid leaf r)) = read c r.
Proof.
  intros leaf c r H. unfold cpuid. destruct (Z.eqb_spec leaf 1) as [L | L].
  - destruct H as [H | H]; [| contradiction]. cbn [snd]. destruct (updated r); [| reflexivity].
    unfold read, set_sign_id. cbn [sign_id base mask fixed def_type pat sys_cs sys_esp sys_eip mcg_cap mcg_status mcg_ctl banks ebl].
    destruct (Z.eqb_spec c 0x8B); [contradiction | reflexivity].
  - destruct (leaf =? 0); reflexivity.
Qed.
Print Assumptions C97_only.

(** After an update was triggered, CPUID with leaf 1 puts its revision, 1, in the upper
    half of the register, where it stays until the register is written. *)
Theorem C97_revision : forall h1 h2 r r1 v, In (Wr 0x79 v) h1 -> (forall w, ~ In (Wr 0x8B w) h2) ->
  grun (h1 ++ Cpuid 1 :: h2) r = Some r1 -> read 0x8B r1 = MOk (2 ^ 32).
Proof.
  intros h1 h2 r r1 v I N H. rewrite grun_app in H. destruct (grun h1 r) as [r2 |] eqn:E; [| discriminate H].
  pose proof (updated_by h1 r r2 v E I) as U. cbn [grun gstep] in H.
  assert (S : sign_id (snd (cpuid 1 r2)) = 2 ^ 32) by (unfold cpuid; cbn [Z.eqb Pos.eqb snd]; rewrite U; reflexivity).
  assert (U2 : updated (snd (cpuid 1 r2)) = true) by (now rewrite cpuid_updated).
  change (read 0x8B r1) with (MOk (sign_id r1)). f_equal. revert S U2 H N. generalize (snd (cpuid 1 r2)). clear.
  induction h2 as [| e h2 IH]; intros r S U H N; cbn [grun] in H; [assert (r1 = r) by congruence; now subst |].
  destruct (gstep e r) as [r2 |] eqn:G; [| discriminate H].
  assert (K : sign_id r2 = 2 ^ 32 /\ updated r2 = true).
  { split; [| apply (updated_kept [e] r); [cbn [grun]; now rewrite G | exact U]]. destruct e as [l | c w]; cbn [gstep] in G.
    - assert (r2 = snd (cpuid l r)) by congruence. subst r2. unfold cpuid. rewrite U. destruct (l =? 1), (l =? 0); try exact S; reflexivity.
    - destruct (write c w r) as [r3 | |] eqn:W; [| | discriminate G].
      + assert (r3 = r2) by congruence. subst r3. rewrite <- S. apply (write_other c w r r2 W). intros ->. apply (N w). now left.
      + assert (r2 = r) by congruence. now subst. }
  apply (IH r2); [apply K | apply K | exact H |]. intros w B. apply (N w). now right.
Qed.
Print Assumptions C97_revision.

(** Without an update the revision is 0, if the guest writes nothing but zero to the
    register, as it is told to before it asks.  What is missing: other values, below. *)
Theorem C97_none_partial : forall h r1, (forall v, ~ In (Wr 0x79 v) h) -> (forall v, In (Wr 0x8B v) h -> v = 0) ->
  grun h reset_msrs = Some r1 -> read 0x8B r1 = MOk 0.
Proof.
  intros h r1 N Z0 H. change (read 0x8B r1) with (MOk (sign_id r1)). f_equal.
  assert (S : sign_id reset_msrs = 0) by reflexivity. assert (U : updated reset_msrs = false) by reflexivity.
  revert S U H N Z0. generalize reset_msrs. induction h as [| e h IH]; intros r S U H N Z0; cbn [grun] in H; [assert (r1 = r) by congruence; now subst |].
  destruct (gstep e r) as [r2 |] eqn:G; [| discriminate H].
  assert (K : sign_id r2 = 0 /\ updated r2 = false).
  { destruct e as [l | c w]; cbn [gstep] in G.
    - assert (r2 = snd (cpuid l r)) by congruence. subst r2. rewrite cpuid_updated. split; [| exact U].
      unfold cpuid. rewrite U. destruct (l =? 1), (l =? 0); exact S.
    - destruct (write c w r) as [r3 | |] eqn:W; [| | discriminate G].
      + assert (r3 = r2) by congruence. subst r3. split.
        * destruct (Z.eq_dec c 0x8B) as [-> | D]; [| rewrite <- S; exact (write_other c w r r2 W D)].
          assert (w = 0) by (apply Z0; now left). subst w. change (write 0x8B 0 r) with (MOk (set_sign_id 0 r)) in W. inversion W. reflexivity.
        * rewrite (write_updated c w r r2 W), U. destruct (Z.eqb_spec c 0x79) as [-> | _]; [exfalso; apply (N w); now left | reflexivity].
      + assert (r2 = r) by congruence. subst r2. split; assumption. }
  apply (IH r2); [apply K | apply K | exact H | |].
  - intros w B. apply (N w). now right.
  - intros w B. apply Z0. now right.
Qed.
Print Assumptions C97_none_partial.

(** A guest that was never updated can make up a revision: CPUID does not put the real one
    in its place. *)
Theorem C97_refuted_revision : forall k, 0 <= k < 2 ^ 32 ->
  exists r1, grun [Wr 0x8B (k * 2 ^ 32); Cpuid 1] reset_msrs = Some r1 /\ read 0x8B r1 = MOk (k * 2 ^ 32).
Proof.
  intros k K. exists (set_sign_id (k * 2 ^ 32) reset_msrs). split; [| reflexivity].
  assert (L : Z.land (k * 2 ^ 32) BIOS_SIGN_ID_RES = 0).
  { change BIOS_SIGN_ID_RES with (Z.ones 32). rewrite Z.land_ones by lia. apply Z.mod_mul. lia. }
  cbn [grun gstep]. unfold write. cbv zeta. cbn [Z.eqb Pos.eqb]. rewrite L. reflexivity.
Qed.
Print Assumptions C97_refuted_revision.

Example C97_example : exists r1, grun ([Wr 0x79 0x1000; Wr 0x8B 0] ++ Cpuid 1 :: [Wr 0x2FF 0x800; Cpuid 0; Wr 0xFE 3]) reset_msrs = Some r1 /\
  read 0x8B r1 = MOk 0x100000000.
Proof. eexists. split; reflexivity. Qed.
