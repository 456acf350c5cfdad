(** * Properties of the ram buffer *)

From Coq Require Import ZArith Bool List Lia.
From Verif Require Import RamModel RamSpec.
Import ListNotations.
Local Open Scope Z_scope.

Lemma w64_word : forall x, word (w64 x).
Proof. intro x. unfold word, w64. apply Z.mod_pos_bound. lia. Qed.

Lemma w64_id : forall x, word x -> w64 x = x.
Proof. intros x H. unfold w64. apply Z.mod_small. exact H. Qed.

Lemma align_up_eq : forall p k, 0 <= k -> align_up p (2 ^ k) = w64 (p + 2 ^ k - 1) / 2 ^ k * 2 ^ k.
Proof.
  intros p k K. unfold align_up. set (x := w64 (p + 2 ^ k - 1)).
  assert (W : Z.land x (Z.ones 64) = x).
  { rewrite Z.land_ones by lia. apply Z.mod_small. apply w64_word. }
  unfold w64 at 1. rewrite <- (Z.land_ones (Z.lnot (2 ^ k - 1)) 64) by lia.
  rewrite (Z.land_comm (Z.lnot _)), Z.land_assoc, W.
  replace (2 ^ k - 1) with (Z.ones k) by (rewrite Z.ones_equiv; lia).
  rewrite <- Z.ldiff_land, Z.ldiff_ones_r by lia.
  rewrite Z.shiftl_mul_pow2, Z.shiftr_div_pow2 by lia. reflexivity.
Qed.

(** Rounding up: the first multiple of the alignment that is not below *)
Lemma align_up_least : forall p k, 0 <= k -> 0 <= p -> p + 2 ^ k - 1 < 2 ^ 64 ->
  align_up p (2 ^ k) mod 2 ^ k = 0 /\ p <= align_up p (2 ^ k) < p + 2 ^ k.
Proof.
  intros p k K P B. assert (0 < 2 ^ k) by (apply Z.pow_pos_nonneg; lia).
  rewrite align_up_eq, w64_id by (try (split; lia); lia). split.
  - apply Z.mod_mul. lia.
  - pose proof (Z.div_mod (p + 2 ^ k - 1) (2 ^ k) ltac:(lia)). pose proof (Z.mod_pos_bound (p + 2 ^ k - 1) (2 ^ k) ltac:(lia)). lia.
Qed.

Lemma align_ok_pow : forall a, word a -> align_ok a = true -> a = 0 \/ power_of_two a.
Proof.
  intros a [L H] O. unfold align_ok in O. apply orb_true_iff in O. rewrite !Z.eqb_eq in O.
  destruct (Z.eq_dec a 0) as [-> | N]; [now left | right].
  destruct O as [-> | O]; [exists 0; split; [lia | reflexivity] |].
  rewrite w64_id in O by (unfold word; lia).
  exists (Z.log2 a). pose proof (Z.log2_nonneg a) as G. split; [exact G |].
  destruct (Z.log2_spec a ltac:(lia)) as [S1 S2].
  destruct (Z.eq_dec a (2 ^ Z.log2 a)) as [E | E]; [exact E | exfalso].
  assert (L2 : Z.log2 (a - 1) = Z.log2 a).
  { apply Z.log2_unique; [exact G |]. lia. }
  assert (0 < 2 ^ Z.log2 a) by (apply Z.pow_pos_nonneg; lia).
  assert (T : Z.testbit (Z.land a (a - 1)) (Z.log2 a) = true).
  { rewrite Z.land_spec. rewrite <- L2 at 2. rewrite !Z.bit_log2 by lia. reflexivity. }
  rewrite O, Z.bits_0 in T. discriminate T.
Qed.

Lemma pow_align_ok : forall a, word a -> power_of_two a -> align_ok a = true.
Proof.
  intros a W (k & K & ->). unfold align_ok. apply orb_true_iff. right. apply Z.eqb_eq.
  assert (0 < 2 ^ k) by (apply Z.pow_pos_nonneg; lia). destruct W.
  rewrite w64_id by (unfold word; lia). replace (2 ^ k - 1) with (Z.ones k) by (rewrite Z.ones_equiv; lia).
  rewrite Z.land_ones by lia. apply Z.mod_same. lia.
Qed.

(** ** C93: the ram buffer is usable, and cpu_free gives back what cpu_new took *)

(** A cpu made with a size and an alignment as documented: its ram begins at a multiple
    of the alignment, and the bytes of ram and 16 more lie in the block that was
    allocated for it.  The block is all the allocator was asked for. *)
Theorem C93_buffer_partial : forall ramsize align p jit c tr, 0 < ramsize -> word align -> power_of_two align ->
  ramsize + 16 + align - 1 < 2 ^ 64 -> 0 < p -> p + (ramsize + 16 + align - 1) <= 2 ^ 64 ->
  cpu_new ramsize align (Some p) jit = (Some c, tr) ->
  exists n, tr = [Get (Heap p n)] /\ c_ram c mod align = 0 /\ inside (c_ram c) (c_ram c + ramsize + 16) p n.
Proof.
  intros r a p jit c tr R W (k & K & ->) B P PB E.
  assert (0 < 2 ^ k) by (apply Z.pow_pos_nonneg; lia).
  unfold cpu_new in E. replace (r =? 0) with false in E by (symmetry; apply Z.eqb_neq; lia).
  rewrite (pow_align_ok _ W) in E by (exists k; auto). cbn [negb init c_guard c_alias c_cont c_tiled c_size] in E.
  destruct jit; cbn [andb] in E; [| discriminate E].
  assert (E1 : c = Cpu 0 (align_up p (2 ^ k)) 0 0 0 (ram_size r (2 ^ k)) (w64 (align_up p (2 ^ k) - p))) by congruence.
  assert (E2 : tr = [Get (Heap p (ram_size r (2 ^ k)))]) by congruence.
  exists (ram_size r (2 ^ k)). subst c tr. cbn [c_ram]. unfold ram_size. rewrite w64_id by (unfold word; lia).
  destruct (align_up_least p k K ltac:(lia) ltac:(lia)) as (M & U). unfold inside. repeat split; [exact M | lia | lia].
Qed.
Print Assumptions C93_buffer_partial.

(** For all sizes and alignments, documented or not, and wherever creation fails: a
    failed cpu_new leaves nothing behind and releases nothing else, and after a
    successful one cpu_free does. *)
Theorem C93_free : forall ramsize align a jit c tr, (forall p, a = Some p -> 0 < p < 2 ^ 64) ->
  cpu_new ramsize align a jit = (c, tr) ->
  match c with None => clean tr | Some c => clean (tr ++ free c) end.
Proof.
  intros r a o jit c tr O E. unfold clean.
  assert (N : forall n, holds [] (free (Cpu 0 0 0 0 0 n 0)) []) by (intro n; apply holds_null, holds_end).
  unfold cpu_new in E. destruct (r =? 0); [replace c with (@None cpu) by congruence; replace tr with (free blank) by congruence; apply N |].
  destruct (negb (align_ok a)); [replace c with (@None cpu) by congruence; replace tr with (free (Cpu 0 0 0 0 0 (ram_size r a) 0)) by congruence; apply N |].
  destruct o as [p |]; cbn [init c_guard c_alias c_cont c_tiled c_size] in E.
  - specialize (O p eq_refl). set (c1 := Cpu _ _ _ _ _ _ _) in E. set (n := ram_size r a) in *.
    assert (F : free c1 = [Delete p]).
    { unfold free, c1. cbn [c_ram c_bias]. unfold w64 at 1 2. rewrite Zminus_mod_idemp_r.
      replace (align_up p a - (align_up p a - p)) with p by lia. rewrite Z.mod_small by lia. reflexivity. }
    assert (H : holds [] ([Get (Heap p n)] ++ [Delete p]) []).
    { apply holds_get. apply (holds_delete p n [] []). apply holds_end. }
    destruct (true && jit); [replace c with (Some c1) by congruence | replace c with (@None cpu) by congruence].
    + replace tr with [Get (Heap p n)] by congruence. rewrite F. exact H.
    + replace tr with ([Get (Heap p n)] ++ free c1) by congruence. rewrite F. exact H.
  - cbn [andb app] in E. replace c with (@None cpu) by congruence. replace tr with (free (Cpu 0 0 0 0 0 (ram_size r a) 0)) by congruence. apply N.
Qed.
Print Assumptions C93_free.

(** A size of zero and an alignment that is neither zero nor a power of two are refused;
    a documented request fails only when the allocator or the translator does. *)
Theorem C93_refused : forall ramsize align a jit, word align -> ramsize = 0 \/ align <> 0 /\ ~ power_of_two align ->
  fst (cpu_new ramsize align a jit) = None.
Proof.
  intros r a o jit W H. unfold cpu_new. destruct (Z.eqb_spec r 0) as [_ | N]; [reflexivity |].
  destruct (align_ok a) eqn:E; [exfalso | reflexivity]. apply (align_ok_pow a W) in E. intuition.
Qed.
Print Assumptions C93_refused.

Theorem C93_granted : forall ramsize align p, 0 < ramsize -> word align -> power_of_two align ->
  exists c, fst (cpu_new ramsize align (Some p) true) = Some c.
Proof.
  intros r a p R W H. unfold cpu_new. destruct (Z.eqb_spec r 0) as [E | _]; [lia |].
  rewrite (pow_align_ok a W H). cbn [negb init andb fst]. eexists. reflexivity.
Qed.
Print Assumptions C93_granted.

(** No success is reported for a cpu whose memory or translator could not be had. *)
Theorem C93_reported : forall ramsize align a jit c tr, cpu_new ramsize align a jit = (Some c, tr) -> a <> None /\ jit = true.
Proof.
  intros r a o jit c tr E. unfold cpu_new in E. destruct (r =? 0); [discriminate E |].
  destruct (negb (align_ok a)); [discriminate E |]. destruct o; cbn [init andb] in E; [| discriminate E].
  destruct jit; [split; [discriminate | reflexivity] | discriminate E].
Qed.
Print Assumptions C93_reported.

Example C93_example : exists c, cpu_new 65536 4096 (Some 5000) true = (Some c, [Get (Heap 5000 69647)]) /\ c_ram c = 8192 /\ c_bias c = 3192.
Proof. eexists. vm_compute. repeat split. Qed.

(** Refuted: an alignment of zero is taken, and ram begins at the null pointer. *)
Theorem C93_refuted_zero_alignment : forall ramsize p, 0 < ramsize -> exists c,
  fst (cpu_new ramsize 0 (Some p) true) = Some c /\ c_ram c = 0.
Proof.
  intros r p R. unfold cpu_new. destruct (Z.eqb_spec r 0) as [E | _]; [lia |].
  change (negb (align_ok 0)) with false. cbn [init andb fst c_guard c_alias c_cont c_tiled c_size]. eexists. split; [reflexivity |]. cbn [c_ram].
  unfold align_up. change (w64 (Z.lnot (0 - 1))) with 0. apply Z.land_0_r.
Qed.
Print Assumptions C93_refuted_zero_alignment.

(** Refuted: the size of the block is computed without regard to overflow; close to 2^64
    bytes of ram are granted with a block of 0 to 15 bytes. *)
Theorem C93_refuted_wrap : forall ramsize p, 2 ^ 64 - 16 <= ramsize < 2 ^ 64 -> exists c n,
  cpu_new ramsize 1 (Some p) true = (Some c, [Get (Heap p n)]) /\ n < 16.
Proof.
  intros r p R. unfold cpu_new. destruct (Z.eqb_spec r 0) as [E | _]; [lia |].
  change (negb (align_ok 1)) with false. cbn [init andb c_size]. eexists. eexists. split; [reflexivity |].
  unfold ram_size, w64. replace (r + 16 + 1 - 1) with (r + 16 - 2 ^ 64 + 1 * 2 ^ 64) by lia. rewrite Z.mod_add by lia.
  rewrite Z.mod_small by lia. lia.
Qed.
Print Assumptions C93_refuted_wrap.

(** A snapshot reads, and a restore writes, only bytes of the block, as long as the
    allocator happens to return a block with the alignment asked for ... *)
Theorem C93_snapshot_partial : forall ramsize align p jit c tr, 0 < ramsize -> word align -> power_of_two align ->
  ramsize + 16 + align - 1 < 2 ^ 64 -> 0 < p -> p + (ramsize + 16 + align - 1) <= 2 ^ 64 -> p mod align = 0 ->
  cpu_new ramsize align (Some p) jit = (Some c, tr) ->
  exists n, tr = [Get (Heap p n)] /\ inside (fst (snapshot c)) (snd (snapshot c)) p n.
Proof.
  intros r a p jit c tr R W H B P PB M E. pose proof (C93_buffer_partial r a p jit c tr R W H B P PB E) as (n & T & A & I1 & I2).
  exists n. split; [exact T |].
  unfold cpu_new in E. replace (r =? 0) with false in E by (symmetry; apply Z.eqb_neq; lia).
  rewrite (pow_align_ok _ W H) in E. cbn [negb init c_guard c_alias c_cont c_tiled c_size] in E. destruct jit; cbn [andb] in E; [| discriminate E].
  assert (E1 : c = Cpu 0 (align_up p a) 0 0 0 (ram_size r a) (w64 (align_up p a - p))) by congruence.
  assert (E2 : tr = [Get (Heap p (ram_size r a))]) by congruence.
  assert (En : n = ram_size r a) by congruence.
  destruct H as (k & K & ->). assert (0 < 2 ^ k) by (apply Z.pow_pos_nonneg; lia).
  destruct (align_up_least p k K ltac:(lia) ltac:(lia)) as (_ & U1 & U2).
  assert (Q : align_up p (2 ^ k) = p).
  { rewrite align_up_eq, w64_id by (try (split; lia); lia).
    pose proof (Z.div_mod p (2 ^ k) ltac:(lia)) as D. rewrite M in D.
    replace (p + 2 ^ k - 1) with (2 ^ k - 1 + p / 2 ^ k * 2 ^ k) by lia.
    rewrite Z.div_add, (Z.div_small (2 ^ k - 1)) by lia. lia. }
  subst c. unfold snapshot, inside. cbn [fst snd c_ram c_size]. rewrite Q, En. lia.
Qed.
Print Assumptions C93_snapshot_partial.

(** ... and refuted in all other cases: they go past the end of it. *)
Theorem C93_refuted_snapshot : forall ramsize align p c tr, 0 < ramsize -> word align -> power_of_two align ->
  ramsize + 16 + align - 1 < 2 ^ 64 -> 0 < p -> p + (ramsize + 16 + align - 1) <= 2 ^ 64 -> p mod align <> 0 ->
  cpu_new ramsize align (Some p) true = (Some c, tr) ->
  exists n, tr = [Get (Heap p n)] /\ p + n < snd (snapshot c).
Proof.
  intros r a p c tr R W H B P PB M E. pose proof (C93_buffer_partial r a p true c tr R W H B P PB E) as (n & T & A & I1 & I2).
  exists n. split; [exact T |].
  assert (N : c_ram c <> p) by (intros Q; rewrite Q in A; contradiction).
  unfold cpu_new in E. replace (r =? 0) with false in E by (symmetry; apply Z.eqb_neq; lia).
  rewrite (pow_align_ok _ W H) in E. cbn [negb init andb c_guard c_alias c_cont c_tiled c_size] in E.
  assert (E1 : c = Cpu 0 (align_up p a) 0 0 0 (ram_size r a) (w64 (align_up p a - p))) by congruence.
  assert (E2 : tr = [Get (Heap p (ram_size r a))]) by congruence.
  assert (En : n = ram_size r a) by congruence.
  unfold snapshot. cbn [snd]. replace (c_size c) with n by (rewrite E1; exact En). lia.
Qed.
Print Assumptions C93_refuted_snapshot.

Example C93_refuted_snapshot_example : exists c, cpu_new 65536 4096 (Some 5008) true = (Some c, [Get (Heap 5008 69647)]) /\
  5008 + 69647 < snd (snapshot c).
Proof. eexists. vm_compute. repeat split. Qed.

(** ** The xbox build on Linux *)

Lemma page_aligned : forall p k, 0 <= k <= 12 -> 0 < p < 2 ^ 64 -> p mod 4096 = 0 -> align_up p (2 ^ k) = p.
Proof.
  intros p k K P M. assert (0 < 2 ^ k) by (apply Z.pow_pos_nonneg; lia).
  assert (S : 4096 = 2 ^ (12 - k) * 2 ^ k) by (rewrite <- Z.pow_add_r by lia; replace (12 - k + k) with 12 by lia; reflexivity).
  pose proof (Z.div_mod p 4096 ltac:(lia)) as D. rewrite M in D.
  assert (L : 2 ^ k <= 4096) by (change 4096 with (2 ^ 12); apply Z.pow_le_mono_r; lia).
  rewrite align_up_eq by lia.
  assert (U : p <= 2 ^ 64 - 4096).
  { assert (p / 4096 < 2 ^ 52) by (apply Z.div_lt_upper_bound; lia). lia. }
  rewrite w64_id by (unfold word; lia). set (q := p / 4096) in *.
  replace (p + 2 ^ k - 1) with (2 ^ k - 1 + q * 2 ^ (12 - k) * 2 ^ k) by (rewrite <- Z.mul_assoc, <- S; lia).
  rewrite Z.div_add, (Z.div_small (2 ^ k - 1)) by lia. rewrite Z.add_0_l, <- Z.mul_assoc, <- S. lia.
Qed.

Lemma put_nth : forall k r l tr l', nth_error l k = Some r -> holds (firstn k l ++ skipn (S k) l) tr l' -> holds l (Put r :: tr) l'.
Proof.
  intros k r l tr l' N H. destruct (nth_error_split l k N) as (l1 & l2 & -> & <-).
  apply holds_put. rewrite firstn_app, Nat.sub_diag, firstn_all, firstn_O, app_nil_r in H.
  replace (skipn (S (length l1)) (l1 ++ r :: l2)) with l2 in H; [exact H |].
  clear. induction l1 as [| x l1 IH]; [reflexivity | exact IH].
Qed.

Ltac put := first [ eapply (put_nth 0); [reflexivity |] | eapply (put_nth 1); [reflexivity |] | eapply (put_nth 2); [reflexivity |]
  | eapply (put_nth 3); [reflexivity |] | eapply (put_nth 4); [reflexivity |] | eapply (put_nth 5); [reflexivity |]
  | eapply (put_nth 6); [reflexivity |] ]; cbn [firstn skipn app].
Ltac play := cbn [app]; repeat apply holds_get; repeat put; repeat apply holds_get; repeat put; try apply holds_end.

Ltac fin := cbn [andb c_guard c_ram c_alias c_cont c_tiled c_size ram_fd updated] in *;
  repeat match goal with H : (_ =? _) = _ |- _ => rewrite H in * end; change (-1 =? -1) with true in *; cbn [andb app] in *;
  match goal with E : (_, _, _) = (_, _, _) |- _ => injection E as <- <- <- end;
  cbn [c_guard c_ram c_alias c_cont c_tiled c_size ram_fd updated];
  repeat match goal with H : (_ =? _) = _ |- _ => rewrite H end; play.

(** Sizes of the xbox and an alignment up to that of a page: wherever creation fails, and
    whatever earlier cpus left in the variables of the library, a failed cpu_new leaves
    nothing behind and releases nothing else, and after a successful one cpu_free does. *)
Theorem C93_xbox_free_partial : forall ramsize k a jit s c s' tr, ramsize = 64 * 2 ^ 20 \/ ramsize = 128 * 2 ^ 20 ->
  0 <= k <= 12 -> page_or_failed (a_guard a) -> page_or_failed (a_ram a) -> page_or_failed (a_alias a) ->
  page_or_failed (a_cont a) -> page_or_failed (a_tiled a) ->
  cpu_new_x ramsize (2 ^ k) a jit s = (c, s', tr) ->
  match c with None => clean tr | Some c => clean (tr ++ free_x c s') end.
Proof.
  intros r k a jit s c s' tr R K G P1 P2 P3 P4 E. unfold clean.
  assert (W : word (2 ^ k)).
  { assert (0 < 2 ^ k) by (apply Z.pow_pos_nonneg; lia). assert (2 ^ k <= 2 ^ 12) by (apply Z.pow_le_mono_r; lia). unfold word. lia. }
  unfold cpu_new_x in E. replace (r =? 0) with false in E by (symmetry; apply Z.eqb_neq; lia).
  rewrite (pow_align_ok _ W) in E by (exists k; split; [lia | reflexivity]). cbn [negb] in E.
  set (n := ram_size r (2 ^ k)) in E. clearbody n.
  unfold init_x in E. cbn [c_size c_bias] in E.
  replace ((r =? 64 * 1024 * 1024) || (r =? 128 * 1024 * 1024)) with true in E by (destruct R; subst r; reflexivity).
  cbn [negb] in E. destruct a as [ag af at_ ar aa ac ati asg]. cbn [a_guard a_fd a_trunc a_ram a_alias a_cont a_tiled a_sig] in *.
  unfold mapped, opened in E. unfold free_x, unmapped in *.
  assert (FF : failed =? failed = true) by apply Z.eqb_refl.
  assert (Q : ar =? failed = false -> align_up ar (2 ^ k) = ar /\ w64 (ar - ar) = 0).
  { intro N. apply Z.eqb_neq in N. destruct P1 as [P1 | [P1 M1]]; [contradiction |]. split; [now apply page_aligned | now rewrite Z.sub_diag]. }
  assert (Z0 : forall p, page_or_failed p -> w64 (p + 0) = p).
  { intros p [-> | [Pp _]]; rewrite Z.add_0_r; apply w64_id; [unfold word, failed; lia | unfold word; lia]. }
  assert (V : forall p, page_or_failed p -> p =? 0 = false).
  { intros p [-> | [Pp _]]; apply Z.eqb_neq; [unfold failed; lia | lia]. }
  rewrite (V _ G) in E.
  clear G R W V K.
  destruct (ag =? failed) eqn:Eg; (destruct (af =? -1) eqn:Ef; [fin |]; destruct at_; cbn [negb] in E; [| fin];
    destruct (ar =? failed) eqn:Er; [fin |]; destruct (Q eq_refl) as [Q1 Q2]; rewrite Q1, Q2 in E; clear Q;
    destruct (aa =? failed) eqn:Ea; [fin |]; destruct (ac =? failed) eqn:Ec; [fin |]; destruct (ati =? failed) eqn:Et; [fin |];
    rewrite (Z0 _ P2), (Z0 _ P3), (Z0 _ P4) in E; destruct asg; [destruct jit; fin | fin]).
Qed.
Print Assumptions C93_xbox_free_partial.

(** A cpu of that build: each of its four pointers to ram is at the same distance from
    the start of its own view of the file, so that they name the same bytes, the first
    of them is aligned, and the bytes of ram and 16 more lie in each view.  All sizes but
    the two of the xbox are refused. *)
Theorem C93_xbox_views_partial : forall ramsize k a jit s c s' tr, word (2 ^ k) -> 0 <= k ->
  0 < a_ram a -> a_ram a + ram_size ramsize (2 ^ k) <= 2 ^ 64 -> 0 < a_alias a -> a_alias a + ram_size ramsize (2 ^ k) <= 2 ^ 64 ->
  0 < a_cont a -> a_cont a + ram_size ramsize (2 ^ k) <= 2 ^ 64 -> 0 < a_tiled a -> a_tiled a + ram_size ramsize (2 ^ k) <= 2 ^ 64 ->
  cpu_new_x ramsize (2 ^ k) a jit s = (Some c, s', tr) -> ramsize + 16 + 2 ^ k - 1 < 2 ^ 64 ->
  (ramsize = 64 * 2 ^ 20 \/ ramsize = 128 * 2 ^ 20) /\ c_ram c mod 2 ^ k = 0 /\
  exists d n, c_ram c = a_ram a + d /\ c_alias c = a_alias a + d /\ c_cont c = a_cont a + d /\ c_tiled c = a_tiled a + d /\
    0 <= d /\ d + ramsize + 16 <= n /\
    In (Get (View (a_ram a) n)) tr /\ In (Get (View (a_alias a) n)) tr /\ In (Get (View (a_cont a) n)) tr /\ In (Get (View (a_tiled a) n)) tr.
Proof.
  intros r k a jit s c s' tr W K R1 R2 A1 A2 C1 C2 T1 T2 E B.
  assert (Pk : 0 < 2 ^ k) by (apply Z.pow_pos_nonneg; lia).
  unfold cpu_new_x in E. destruct (r =? 0); [discriminate E |].
  rewrite (pow_align_ok _ W) in E by (exists k; split; [lia | reflexivity]). cbn [negb] in E.
  unfold init_x in E. cbn [c_size c_bias] in E.
  destruct ((r =? 64 * 1024 * 1024) || (r =? 128 * 1024 * 1024)) eqn:Er; cbn [negb] in E; [| discriminate E].
  assert (R : r = 64 * 2 ^ 20 \/ r = 128 * 2 ^ 20) by (apply orb_true_iff in Er; rewrite !Z.eqb_eq in Er; lia).
  assert (Rn : ram_size r (2 ^ k) = r + 16 + 2 ^ k - 1) by (unfold ram_size; apply w64_id; unfold word; lia).
  rewrite Rn in *. set (n := r + 16 + 2 ^ k - 1) in *.
  destruct a as [ag af at_ ar aa ac ati asg]. cbn [a_guard a_fd a_trunc a_ram a_alias a_cont a_tiled a_sig] in *.
  destruct (align_up_least ar k K ltac:(lia) ltac:(lia)) as (M & U). set (q := align_up ar (2 ^ k)) in *. clearbody q.
  assert (D : w64 (q - ar) = q - ar) by (apply w64_id; unfold word; lia). rewrite D in E.
  rewrite !w64_id in E by (unfold word; lia).
  destruct (ag =? 0); [discriminate E |]. destruct (af =? -1); [discriminate E |]. destruct at_; cbn [negb] in E; [| discriminate E].
  unfold mapped in E. destruct (ar =? failed); [discriminate E |]. destruct (aa =? failed); [discriminate E |].
  destruct (ac =? failed); [discriminate E |]. destruct (ati =? failed); [discriminate E |].
  destruct asg; [| discriminate E]. destruct jit; cbn [andb] in E; [| discriminate E].
  injection E as <- <- <-. cbn [c_ram c_alias c_cont c_tiled]. split; [exact R | split; [exact M |]].
  exists (q - ar), n. repeat (split; [lia |]). repeat rewrite in_app_iff. cbn [In]. intuition.
Qed.
Print Assumptions C93_xbox_views_partial.

(** That build makes a cpu exactly when the parameters are right, the file, its size, the
    four views and the handler could be had, and the translator could be made.  The guard
    page is left out: see [C93_refuted_xbox_guard]. *)
Theorem C93_xbox_reported_partial : forall ramsize align a jit s, word align -> align <> 0 -> page_or_failed (a_guard a) ->
  fst (fst (cpu_new_x ramsize align a jit s)) <> None <->
  (ramsize = 64 * 2 ^ 20 \/ ramsize = 128 * 2 ^ 20) /\ power_of_two align /\ a_fd a <> -1 /\ a_trunc a = true /\ a_ram a <> failed /\
  a_alias a <> failed /\ a_cont a <> failed /\ a_tiled a <> failed /\ a_sig a = true /\ jit = true.
Proof.
  intros r al a jit s W N G.
  assert (V : a_guard a =? 0 = false) by (apply Z.eqb_neq; destruct G as [G | G]; [rewrite G; unfold failed |]; lia).
  destruct a as [ag af at_ ar aa ac ati asg]. cbn [a_guard a_fd a_trunc a_ram a_alias a_cont a_tiled a_sig] in *.
  unfold cpu_new_x. destruct (Z.eqb_spec r 0) as [Z0 | Z0]; [cbn [fst]; split; [congruence | lia] |].
  destruct (align_ok al) eqn:A; cbn [negb].
  2: { cbn [fst]. split; [congruence |]. intros (_ & P & _). rewrite (pow_align_ok al W P) in A. discriminate A. }
  assert (P : power_of_two al) by (destruct (align_ok_pow al W A); [contradiction | assumption]).
  unfold init_x. cbn [c_size c_bias a_guard a_fd a_trunc a_ram a_alias a_cont a_tiled a_sig].
  destruct ((r =? 64 * 1024 * 1024) || (r =? 128 * 1024 * 1024)) eqn:Er; cbn [negb].
  2: { cbn [andb fst]. apply orb_false_iff in Er. rewrite !Z.eqb_neq in Er. split; [congruence | lia]. }
  assert (R : r = 64 * 2 ^ 20 \/ r = 128 * 2 ^ 20) by (apply orb_true_iff in Er; rewrite !Z.eqb_eq in Er; lia).
  rewrite V. clear Er V. unfold failed in *.
  destruct (Z.eqb_spec af (-1)) as [E | E1]; [cbn [andb fst]; split; [congruence | tauto] |].
  destruct at_; cbn [negb]; [| cbn [andb fst]; split; [congruence | intros (_ & _ & _ & F & _); discriminate F]].
  destruct (Z.eqb_spec ar (2 ^ 64 - 1)) as [E | E2]; [cbn [andb fst]; split; [congruence | tauto] |].
  destruct (Z.eqb_spec aa (2 ^ 64 - 1)) as [E | E3]; [cbn [andb fst]; split; [congruence | tauto] |].
  destruct (Z.eqb_spec ac (2 ^ 64 - 1)) as [E | E4]; [cbn [andb fst]; split; [congruence | tauto] |].
  destruct (Z.eqb_spec ati (2 ^ 64 - 1)) as [E | E5]; [cbn [andb fst]; split; [congruence | tauto] |].
  destruct asg; [destruct jit |]; cbn [andb fst]; (split; [| try (intros; discriminate)]); try congruence; try tauto.
  - intros (_ & _ & _ & _ & _ & _ & _ & _ & _ & F). discriminate F.
  - intros (_ & _ & _ & _ & _ & _ & _ & _ & F & _). discriminate F.
Qed.
Print Assumptions C93_xbox_reported_partial.

Definition all_well : answers := Answers 4096 3 true 8192 (2 ^ 30) (2 ^ 31) (2 ^ 32) true.
Example C93_xbox_example : exists c s tr, cpu_new_x (64 * 2 ^ 20) 4096 all_well true boot = (Some c, s, tr) /\ length tr = 8%nat /\
  c_ram c = 8192 /\ c_tiled c = 2 ^ 32.
Proof. do 3 eexists. split; [vm_compute; reflexivity |]. vm_compute. repeat split. Qed.

(** Refuted: a first cpu_new that is given another size closes file 0, that is the
    standard input of the program. *)
Theorem C93_refuted_xbox_size : forall ramsize a jit, ramsize <> 0 -> ramsize <> 64 * 2 ^ 20 -> ramsize <> 128 * 2 ^ 20 ->
  cpu_new_x ramsize 1 a jit boot = (None, boot, [Put (File 0)]) /\ forall l, ~ holds [] [Put (File 0)] l.
Proof.
  intros r a jit N0 N1 N2. split.
  - unfold cpu_new_x. apply Z.eqb_neq in N0. rewrite N0. change (negb (align_ok 1)) with false.
    unfold init_x. replace ((r =? 64 * 1024 * 1024) || (r =? 128 * 1024 * 1024)) with false.
    + cbn [negb ram_fd boot andb app]. unfold free_x, unmapped. cbn [c_guard c_ram c_alias c_cont c_tiled c_size ram_fd updated].
      rewrite Z.eqb_refl. reflexivity.
    + symmetry. apply orb_false_iff. rewrite !Z.eqb_neq. lia.
  - intros l H. inversion H as [| | r0 l1 l2 tr l' H0 Hl | |]. destruct l1; discriminate Hl.
Qed.
Print Assumptions C93_refuted_xbox_size.

(** Refuted: with an alignment that is not a power of two it also unmaps the range of ram
    at address zero, whatever the program has there. *)
Theorem C93_refuted_xbox_alignment : forall a jit, exists s tr, cpu_new_x (64 * 2 ^ 20) 3 a jit boot = (None, s, tr) /\
  In (Put (View 0 (64 * 2 ^ 20 + 18))) tr.
Proof.
  intros a jit. exists boot, (free_x (Cpu 0 0 0 0 0 (ram_size (64 * 2 ^ 20) 3) 0) boot). split; [reflexivity |].
  vm_compute. right. left. reflexivity.
Qed.
Print Assumptions C93_refuted_xbox_alignment.

(** Refuted: with an alignment above that of a page cpu_free unmaps ranges that begin and
    end past those that were mapped. *)
Theorem C93_refuted_xbox_free : exists a c s tr, cpu_new_x (64 * 2 ^ 20) 8192 a true boot = (Some c, s, tr) /\
  (exists n, In (Get (View (a_ram a) n)) tr /\ In (Put (View (a_ram a + 4096) n)) (free_x c s)) /\
  forall l, ~ holds [] (tr ++ free_x c s) l.
Proof.
  exists (Answers 4096 3 true 12288 (2 ^ 30) (2 ^ 31) (2 ^ 32) true). do 3 eexists. split; [vm_compute; reflexivity |]. split.
  - eexists. split; [right; right; left; reflexivity | vm_compute; right; left; reflexivity].
  - intros l H. match type of H with holds _ ?t _ => let t' := eval vm_compute in t in change t with t' in H end.
    assert (G : forall r l tr l', holds l (Get r :: tr) l' -> holds (r :: l) tr l') by (intros ? ? ? ? X; inversion X; assumption).
    assert (P : forall r l tr l', holds l (Put r :: tr) l' -> exists l1 l2, l = l1 ++ r :: l2 /\ holds (l1 ++ l2) tr l').
    { intros ? ? ? ? X; inversion X; subst; eauto. }
    do 6 apply G in H. apply P in H. destruct H as (l1 & l2 & E & H). apply G in H.
    apply P in H. destruct H as (l3 & l4 & E1 & H). apply P in H. destruct H as (l5 & l6 & E2 & H).
    assert (I : forall x, In x (l5 ++ View 16384 67117071 :: l6) -> x = Handler \/ In x (l1 ++ File 3 :: l2)).
    { intros x I. rewrite <- E2 in I. assert (I1 : In x (Handler :: l1 ++ l2)).
      { rewrite E1. rewrite in_app_iff in *. cbn [In]. intuition. }
      destruct I1 as [<- | I1]; [now left | right]. rewrite in_app_iff in *. cbn [In]. intuition. }
    specialize (I (View 16384 67117071)). rewrite <- E in I. destruct I as [I | I]; [rewrite in_app_iff; right; now left | discriminate I |].
    cbn [In] in I. repeat (destruct I as [I | I]; [discriminate I |]). exact I.
Qed.
Print Assumptions C93_refuted_xbox_free.

(** Refuted: a guard page that cannot be mapped is not noticed, the result is success. *)
Theorem C93_refuted_xbox_guard : exists a c s tr, a_guard a = failed /\
  cpu_new_x (64 * 2 ^ 20) 4096 a true boot = (Some c, s, tr) /\ c_guard c = failed.
Proof.
  exists (Answers failed 3 true 8192 (2 ^ 30) (2 ^ 31) (2 ^ 32) true). do 3 eexists. split; [reflexivity |].
  split; [vm_compute; reflexivity | reflexivity].
Qed.
Print Assumptions C93_refuted_xbox_guard.

(** Refuted: the descriptor of a cpu that could not be made is closed a second time by
    the next cpu_new that is refused. *)
Theorem C93_refuted_xbox_twice : exists a s tr, cpu_new_x (64 * 2 ^ 20) 4096 a true boot = (None, s, tr) /\ clean tr /\
  fst (fst (cpu_new_x 4096 4096 a true s)) = None /\ snd (cpu_new_x 4096 4096 a true s) = [Put (File 3)].
Proof.
  exists (Answers 4096 3 false 8192 (2 ^ 30) (2 ^ 31) (2 ^ 32) true). do 2 eexists. split; [vm_compute; reflexivity |].
  split; [unfold clean; play |]. split; reflexivity.
Qed.
Print Assumptions C93_refuted_xbox_twice.
