(** * Port accesses obey IOPL and the I/O permission bitmap (C39) *)

From Coq Require Import ZArith Bool Lia.
From Verif Require Import IoPrivModel.
Local Open Scope Z_scope.

(** ** Specification *)
Definition bytes (m : Z -> Z) : Prop := forall a, 0 <= m a < 256.
Definition wf (e : env) : Prop :=
  bytes (t_mem e) /\ 0 <= e_cpl e < 4 /\ 0 <= e_iopl e < 4 /\ 0 <= t_base e < 2 ^ 32 /\ 0 <= t_limit e < 2 ^ 32.
(** the offset of the bitmap, stored at offset 102 of the TSS *)
Definition bitmap (e : env) : Z := t_mem e ((t_base e + 102) mod 2 ^ 32) + 256 * t_mem e ((t_base e + 103) mod 2 ^ 32).
(** the bit of port [p] is inside the limit, and clear *)
Definition port_free (e : env) (p : Z) : Prop :=
  bitmap e + p / 8 <= t_limit e /\ Z.testbit (t_mem e ((t_base e + bitmap e + p / 8) mod 2 ^ 32)) (p mod 8) = false.
Definition may_access (e : env) (port size : Z) : Prop :=
  (e_cpl e <= e_iopl e /\ e_vm e = false) \/
  (103 <= t_limit e /\ forall p, port <= p < port + size -> port_free e p).

(** ** Proofs *)
Theorem C39_privileged : forall e imm port size r10 r11, e_cpl e <= e_iopl e -> e_vm e = false -> check e imm port size r10 r11 = true.
Proof.
  intros e imm port size r10 r11 H V. unfold check, restricted. rewrite V, (proj2 (Z.ltb_ge (e_iopl e) (e_cpl e)) H). reflexivity.
Qed.
Print Assumptions C39_privileged.

Theorem C39_small_tss : forall e imm port size r10 r11, e_iopl e < e_cpl e \/ e_vm e = true -> t_limit e < 103 -> check e imm port size r10 r11 = false.
Proof.
  intros e imm port size r10 r11 H L. unfold check, restricted. rewrite (proj2 (Z.ltb_lt (t_limit e) 103) L).
  destruct H as [H | ->]; [rewrite (proj2 (Z.ltb_lt _ _) H); reflexivity | rewrite orb_true_r; reflexivity].
Qed.
Print Assumptions C39_small_tss.

Lemma bit_of_word lo hi n : 0 <= lo < 256 -> 0 <= n -> Z.testbit (lo + 256 * hi) n = if n <? 8 then Z.testbit lo n else Z.testbit hi (n - 8).
Proof.
  intros L Hn. replace (lo + 256 * hi) with (lo + hi * 2 ^ 8) by lia. destruct (Z.ltb_spec n 8).
  - rewrite <- (Z.mod_pow2_bits_low (lo + hi * 2 ^ 8) 8 n) by lia. rewrite Z.mod_add by lia. now rewrite Z.mod_small.
  - replace n with (n - 8 + 8) at 1 by lia. rewrite <- Z.div_pow2_bits by lia. rewrite Z.div_add, Z.div_small by lia. reflexivity.
Qed.
Lemma mask_zero w b n : 0 <= b -> 0 <= n -> (Z.land (Z.shiftr w b) (Z.shiftl 1 n - 1) =? 0) = true <-> forall j, 0 <= j < n -> Z.testbit w (b + j) = false.
Proof.
  intros Hb Hn. rewrite Z.eqb_eq. rewrite Z.shiftl_1_l. replace (2 ^ n - 1) with (Z.ones n) by (rewrite Z.ones_equiv; lia). split.
  - intros E j Hj. apply (f_equal (fun x => Z.testbit x j)) in E. rewrite Z.land_spec, Z.ones_spec_low, andb_true_r, Z.shiftr_spec, Z.bits_0 in E by lia. now rewrite Z.add_comm.
  - intros A. apply Z.bits_inj'. intros j Hj. rewrite Z.land_spec, Z.bits_0. destruct (Z.ltb_spec j n).
    + rewrite Z.shiftr_spec by lia. rewrite Z.add_comm, A by lia. reflexivity.
    + rewrite Z.ones_spec_high by lia. apply andb_false_r.
Qed.
(** the test of the word at [a] is the test of the bits of the ports in the two bytes there *)
Lemma word_test m a port size : bytes m -> 0 <= port -> 1 <= size <= 8 ->
  (Z.land (Z.shiftr (mem16 m a) (Z.land port 7)) (Z.shiftl 1 size - 1) =? 0) = true <->
  forall p, port <= p < port + size -> Z.testbit (if p / 8 =? port / 8 then m a else m (wrap (a + 1))) (p mod 8) = false.
Proof.
  intros B Hp Hs. change 7 with (Z.ones 3). rewrite Z.land_ones by lia. change (2 ^ 3) with 8.
  pose proof (Z.mod_pos_bound port 8 ltac:(lia)). rewrite mask_zero by lia. unfold mem16. split.
  - intros A p Hp'. specialize (A (p - port) ltac:(lia)). rewrite bit_of_word in A by (try apply B; lia).
    destruct (Z.ltb_spec (port mod 8 + (p - port)) 8).
    + assert (p / 8 = port / 8) as -> by (Z.div_mod_to_equations; lia). rewrite Z.eqb_refl.
      replace (p mod 8) with (port mod 8 + (p - port)) by (Z.div_mod_to_equations; lia). exact A.
    + assert (p / 8 <> port / 8) by (Z.div_mod_to_equations; lia). rewrite (proj2 (Z.eqb_neq _ _) H1).
      replace (p mod 8) with (port mod 8 + (p - port) - 8) by (Z.div_mod_to_equations; lia). exact A.
  - intros A j Hj. specialize (A (port + j) ltac:(lia)). rewrite bit_of_word by (try apply B; lia).
    destruct (Z.ltb_spec (port mod 8 + j) 8).
    + assert (E : (port + j) / 8 = port / 8) by (Z.div_mod_to_equations; lia). rewrite E, Z.eqb_refl in A.
      replace (port mod 8 + j) with ((port + j) mod 8) by (Z.div_mod_to_equations; lia). exact A.
    + assert ((port + j) / 8 <> port / 8) by (Z.div_mod_to_equations; lia). rewrite (proj2 (Z.eqb_neq _ _) H1) in A.
      replace (port mod 8 + j - 8) with ((port + j) mod 8) by (Z.div_mod_to_equations; lia). exact A.
Qed.

Lemma bitmap_mem16 e : mem16 (t_mem e) (wrap (t_base e + 102)) = bitmap e.
Proof.
  unfold mem16, bitmap, wrap. do 2 f_equal. f_equal. rewrite Zplus_mod_idemp_l. f_equal. lia.
Qed.

(** What the check decides, if the load preserves R10 and R11.  Its bit for port [p] is the
    bitmap bit of port [p + 816], or [p + 824] for an immediate, since the address of the bitmap
    starts at offset 102 of the TSS instead of its base. *)
Theorem C39_effect_partial : forall e (imm : bool) port size, wf e -> 0 <= port < 2 ^ 16 -> 1 <= size <= 4 -> e_iopl e < e_cpl e \/ e_vm e = true ->
  let shift := if imm then 1 else 0 in
  check_kept e imm port size = true <->
    103 <= t_limit e /\ bitmap e + port / 8 + shift <= t_limit e /\
    forall p, port <= p < port + size ->
      Z.testbit (t_mem e ((t_base e + bitmap e + (p + 816 + 8 * shift) / 8) mod 2 ^ 32)) (p mod 8) = false.
Proof.
  intros e imm port size (B & C & I & TB & TL) Hp Hs R shift. unfold check_kept, check, restricted.
  assert (((e_iopl e <? e_cpl e) || e_vm e) = true) as ->.
  { destruct R as [R | ->]; [rewrite (proj2 (Z.ltb_lt _ _) R); reflexivity | apply orb_true_r]. }
  rewrite bitmap_mem16. fold shift. rewrite Z.shiftr_div_pow2 by lia. change (2 ^ 3) with 8.
  assert (BM : 0 <= bitmap e < 65536).
  { unfold bitmap. pose proof (B ((t_base e + 102) mod 2 ^ 32)). pose proof (B ((t_base e + 103) mod 2 ^ 32)). lia. }
  assert (SH : shift = 0 \/ shift = 1) by (unfold shift; destruct imm; lia).
  assert (PD : 0 <= port / 8 < 8192) by (Z.div_mod_to_equations; lia).
  assert (wrap (bitmap e + port / 8 + shift) = bitmap e + port / 8 + shift) as -> by (unfold wrap; apply Z.mod_small; lia).
  destruct (Z.ltb_spec (t_limit e) 103); [split; [discriminate | lia] |].
  destruct (Z.ltb_spec (t_limit e) (bitmap e + port / 8 + shift)); [split; [discriminate | lia] |].
  rewrite word_test by (assumption || lia).
  assert (E0 : wrap (bitmap e + port / 8 + shift + wrap (t_base e + 102)) = (t_base e + bitmap e + port / 8 + shift + 102) mod 2 ^ 32).
  { unfold wrap. rewrite Zplus_mod_idemp_r. f_equal. lia. }
  assert (E1 : forall p, (p + 816 + 8 * shift) / 8 = p / 8 + 102 + shift) by (intros; destruct SH as [-> | ->]; Z.div_mod_to_equations; lia).
  assert (E2 : forall p, port <= p < port + size -> (if p / 8 =? port / 8 then t_mem e (wrap (bitmap e + port / 8 + shift + wrap (t_base e + 102))) else
     t_mem e (wrap (wrap (bitmap e + port / 8 + shift + wrap (t_base e + 102)) + 1))) = t_mem e ((t_base e + bitmap e + (p + 816 + 8 * shift) / 8) mod 2 ^ 32)).
  { intros p Hp'. rewrite E1, E0. destruct (Z.eqb_spec (p / 8) (port / 8)) as [-> | N]; [f_equal; f_equal; lia |].
    unfold wrap. rewrite Zplus_mod_idemp_l. f_equal. f_equal. assert (p / 8 = port / 8 + 1) by (Z.div_mod_to_equations; lia). lia. }
  split.
  - intros A. split; [lia |]. split; [lia |]. intros p Hp'. rewrite <- E2 by exact Hp'. now apply A.
  - intros (_ & _ & A) p Hp'. rewrite E2 by exact Hp'. now apply A.
Qed.
Print Assumptions C39_effect_partial.

(** ** Where the code differs *)
Definition tss (bad : Z) : Z -> Z := fun a => if a =? 0x1066 then 0x68 else if a =? bad then 0xFF else 0.
Definition user (bad : Z) : env := mkenv 3 0 false 0x1000 0x20FF (tss bad).
Lemma user_wf bad : wf (user bad).
Proof. unfold wf, user, bytes, tss. cbn. repeat split; try lia; intros; destruct (_ =? _); try lia; destruct (_ =? _); lia. Qed.

(** Even if the registers survived, a forbidden port is accessible and a permitted one is not. *)
Theorem C39_refuted : forall imm,
  (exists e, wf e /\ ~ may_access e 0x60 1 /\ check_kept e imm 0x60 1 = true) /\
  (exists e, wf e /\ may_access e 0x60 1 /\ check_kept e imm 0x60 1 = false).
Proof.
  intros imm. split.
  - exists (user 0x1074). split; [apply user_wf |]. split; [| destruct imm; reflexivity].
    intros [[H _] | [_ H]]; [cbn in H; lia |]. destruct (H 0x60 ltac:(lia)) as [_ X]. vm_compute in X. discriminate.
  - exists (user (if imm then 0x10DB else 0x10DA)). split; [apply user_wf |]. split; [| destruct imm; reflexivity].
    right. split; [cbn; lia |]. intros p Hp. replace p with 0x60 by lia. destruct imm; split; vm_compute; congruence.
Qed.
Print Assumptions C39_refuted.

(** The decision really depends on what the load leaves in the registers: any forbidden access
    is let through by some values, as soon as two zero bytes exist anywhere. *)
Theorem C39_refuted_registers : forall e imm port size z, wf e -> 0 <= port < 2 ^ 16 -> 1 <= size <= 4 -> 103 <= t_limit e ->
  0 <= z < 2 ^ 32 -> t_mem e z = 0 -> t_mem e ((z + 1) mod 2 ^ 32) = 0 ->
  exists r10 r11, 0 <= r10 < 2 ^ 32 /\ 0 <= r11 < 2 ^ 32 /\ check e imm port size r10 r11 = true.
Proof.
  intros e imm port size z W Hp Hs L Hz Z0 Z1. unfold check. destruct (restricted e); [| exists 0, 0; repeat split; lia].
  set (off := wrap (mem16 (t_mem e) (wrap (t_base e + 102)) + Z.shiftr port 3 + (if imm then 1 else 0))).
  assert (0 <= off < 2 ^ 32) by (apply Z.mod_pos_bound; lia).
  exists ((z - off) mod 2 ^ 32), (2 ^ 32 - 1). pose proof (Z.mod_pos_bound (z - off) (2 ^ 32) ltac:(lia)). split; [assumption |]. split; [lia |].
  rewrite (proj2 (Z.ltb_ge (t_limit e) 103)) by lia. cbv zeta. fold off. rewrite (proj2 (Z.ltb_ge (2 ^ 32 - 1) off)) by lia.
  assert (wrap (off + (z - off) mod 2 ^ 32) = z) as ->.
  { unfold wrap. rewrite Zplus_mod_idemp_r. replace (off + (z - off)) with z by lia. now apply Z.mod_small. }
  unfold mem16, wrap. rewrite Z0, Z1. rewrite Z.shiftr_0_l. reflexivity.
Qed.
Print Assumptions C39_refuted_registers.

(** a user mode access to a permitted port and to a forbidden one *)
Example C39_example : wf (user 0x1074) /\ may_access (user 0x1074) 0x80 2 /\ ~ may_access (user 0x1074) 0x5F 2 /\ (e_iopl (user 0) < e_cpl (user 0)).
Proof.
  split; [apply user_wf |]. split; [| split].
  - right. split; [cbn; lia |]. intros p Hp. assert (p = 0x80 \/ p = 0x81) as [-> | ->] by lia; split; vm_compute; congruence.
  - intros [[H _] | [_ H]]; [cbn in H; lia |]. destruct (H 0x60 ltac:(lia)) as [_ X]. vm_compute in X. discriminate.
  - cbn. lia.
Qed.
