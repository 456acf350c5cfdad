(** * Debug registers (C26, C53) *)

From Coq Require Import ZArith Bool List Lia.
From Verif Require Import DrModel.
Import ListNotations.
Local Open Scope Z_scope.

(** ** Specification *)

(** L or G bit of register [i] *)
Definition armed (d7 i : Z) : bool := Z.testbit d7 (2 * i) || Z.testbit d7 (2 * i + 1).
(** R/W and LEN fields *)
Definition rw (d7 i : Z) : Z := (d7 / 2 ^ (16 + 4 * i)) mod 4.
Definition len (d7 i : Z) : Z := match (d7 / 2 ^ (18 + 4 * i)) mod 4 with 0 => 1 | 1 => 2 | 2 => 8 | _ => 4 end.
Definition covers (t : Z) (k : kind) : Prop :=
  match k with Write => t = 1 \/ t = 3 | Read => t = 3 | Fetch => t = 0 | Port => t = 2 end.
(** the access of [n] bytes at [a] touches the LEN sized, LEN aligned range at DRi *)
Definition touches (s : dbg) (a n i : Z) : Prop := exists x, a <= x < a + n /\ x / len (dr7 s) i = dr s i / len (dr7 s) i.
Definition configured (s : dbg) (k : kind) (a n i : Z) : Prop := armed (dr7 s) i = true /\ covers (rw (dr7 s) i) k /\ touches s a n i.

Definition u32 (v : Z) : Prop := 0 <= v < 2 ^ 32.
(** Histories of a processor since it was created.  With [strict] no enabled I/O breakpoint has
    its address rewritten while CR4.DE is clear. *)
Inductive reach (strict : bool) : dbg -> Prop :=
| r_reset : reach strict reset
| r_mov : forall s cpl n v s', reach strict s -> 0 <= n < 8 -> u32 v -> mov_to cpl n v s = DOk s' ->
    (strict = true -> n < 4 -> armed (dr7 s) n = true -> rw (dr7 s) n = 2 -> de s = true) -> reach strict s'
| r_db : forall s cpl n v s', reach strict s -> 0 <= n < 8 -> u32 v -> mov_to cpl n v s = DDb s' -> reach strict s'
| r_de : forall s b, reach strict s -> reach strict (set_de b s)
| r_rf : forall s b, reach strict s -> reach strict (set_rf b s)
| r_trap : forall s, reach strict s -> reach strict (set_trap false s)
| r_gd : forall s, reach strict s -> reach strict (clear_gd s)
| r_data : forall s k a n, reach strict s -> reach strict (fst (check_data k a n s))
| r_io : forall s p n, reach strict s -> reach strict (fst (check_io p n s)).

(** ** Proofs *)
Definition idx4 (i : Z) : Prop := 0 <= i < 4.
Definition four : list Z := [0; 1; 2; 3].

Lemma land3 x : Z.land x 3 = x mod 4.
Proof. change 3 with (Z.ones 2). now rewrite Z.land_ones. Qed.
Lemma enabled_armed d i : 0 <= i -> enabled d i = armed d i.
Proof.
  intros Hi. unfold enabled, armed. rewrite land3, Z.shiftr_div_pow2 by lia. replace (i * 2) with (2 * i) by lia.
  rewrite !Z.testbit_eqb by lia. rewrite Z.pow_add_r, <- Z.div_div by lia. change (2 ^ 1) with 2.
  set (q := d / 2 ^ (2 * i)). destruct (Z.eqb_spec (q mod 4) 0), (Z.eqb_spec (q mod 2) 1), (Z.eqb_spec (q / 2 mod 2) 1); cbn; try reflexivity; exfalso; Z.div_mod_to_equations; lia.
Qed.
Lemma wtype_rw d i : 0 <= i -> wtype d i = rw d i.
Proof. intros. unfold wtype, rw. rewrite land3, Z.shiftr_div_pow2 by lia. now replace (i * 4) with (4 * i) by lia. Qed.
Lemma wlen_len d i : 0 <= i -> wlen d i = len d i.
Proof.
  intros. unfold wlen, len. rewrite land3, Z.shiftr_div_pow2 by lia. replace (i * 4) with (4 * i) by lia.
  set (q := (d / 2 ^ (18 + 4 * i)) mod 4). assert (0 <= q < 4) by (apply Z.mod_pos_bound; lia).
  assert (q = 0 \/ q = 1 \/ q = 2 \/ q = 3) as [-> | [-> | [-> | ->]]] by lia; reflexivity.
Qed.
Lemma len_pow d i : exists k, 0 <= k <= 3 /\ len d i = 2 ^ k.
Proof.
  unfold len. set (q := (d / 2 ^ (18 + 4 * i)) mod 4). assert (0 <= q < 4) by (apply Z.mod_pos_bound; lia).
  assert (q = 0 \/ q = 1 \/ q = 2 \/ q = 3) as [-> | [-> | [-> | ->]]] by lia;
  [exists 0 | exists 1 | exists 3 | exists 2]; split; try lia; reflexivity.
Qed.
Lemma align_mul v k : u32 v -> 0 <= k <= 3 -> align v (2 ^ k) = v / 2 ^ k * 2 ^ k.
Proof.
  intros Hv Hk. unfold align. rewrite <- Z.shiftl_mul_pow2, <- Z.shiftr_div_pow2 by lia.
  rewrite <- Z.ldiff_ones_r by lia. change 0xFFFFFFFF with (Z.ones 32).
  replace (2 ^ k - 1) with (Z.ones k) by (rewrite Z.ones_equiv; lia).
  apply Z.bits_inj'. intros n Hn. rewrite Z.land_spec, Z.ldiff_spec, Z.lxor_spec.
  destruct (Z.ltb_spec n 32).
  - rewrite (Z.ones_spec_low 32) by lia. destruct (Z.testbit (Z.ones k) n); reflexivity.
  - rewrite !Z.ones_spec_high by lia. cbn. rewrite andb_false_r, andb_true_r. symmetry.
    destruct (Z.eq_dec v 0) as [-> |]; [apply Z.bits_0 |]. apply Z.bits_above_log2; [apply Hv |].
    apply Z.log2_lt_pow2; [unfold u32 in Hv; lia |]. apply Z.lt_le_trans with (2 ^ 32); [apply Hv | apply Z.pow_le_mono_r; lia].
Qed.

(** ranges *)
Lemma overlap a n v L : 0 < L -> 1 <= n -> ((exists x, a <= x < a + n /\ x / L = v / L) <-> v / L * L <= a + n - 1 /\ a <= v / L * L + L - 1).
Proof.
  intros HL Hn. split.
  - intros (x & Hx & E). pose proof (Z.div_mod x L ltac:(lia)). pose proof (Z.mod_pos_bound x L HL). rewrite E in *. lia.
  - intros [A B]. exists (Z.max a (v / L * L)). split; [lia |]. symmetry. apply Z.div_unique with (Z.max a (v / L * L) - v / L * L); lia.
Qed.
Lemma top_of_range v k M : 0 <= k <= 3 -> (M = 16 \/ M = 32) -> 0 <= v < 2 ^ M -> 0 <= v / 2 ^ k * 2 ^ k /\ v / 2 ^ k * 2 ^ k + 2 ^ k <= 2 ^ M.
Proof.
  intros Hk HM Hv. assert (k = 0 \/ k = 1 \/ k = 2 \/ k = 3) as [-> | [-> | [-> | ->]]] by lia; cbn;
  destruct HM as [-> | ->]; cbn in *; split; Z.div_mod_to_equations; lia.
Qed.
Lemma data_wp_range d v i : 0 <= i -> u32 v -> data_wp d v i = mkwp i (v / len d i * len d i) (v / len d i * len d i + len d i - 1).
Proof.
  intros Hi Hv. unfold data_wp. rewrite wlen_len by exact Hi. destruct (len_pow d i) as (k & Hk & ->). rewrite align_mul by assumption.
  f_equal. pose proof (top_of_range v k 32 Hk ltac:(lia) Hv). assert (0 < 2 ^ k) by (apply Z.pow_pos_nonneg; lia). rewrite Z.mod_small by lia. reflexivity.
Qed.
Lemma io_wp_range d v i : 0 <= i -> u32 v ->
  io_wp d v i = mkwp i (v mod 2 ^ 16 / len d i * len d i) (v mod 2 ^ 16 / len d i * len d i + len d i - 1).
Proof.
  intros Hi Hv. unfold io_wp. rewrite wlen_len by exact Hi. destruct (len_pow d i) as (k & Hk & ->). rewrite align_mul by assumption.
  assert (E : (v / 2 ^ k * 2 ^ k) mod 2 ^ 16 = v mod 2 ^ 16 / 2 ^ k * 2 ^ k).
  { assert (k = 0 \/ k = 1 \/ k = 2 \/ k = 3) as [-> | [-> | [-> | ->]]] by lia; cbn; Z.div_mod_to_equations; lia. }
  rewrite E. pose proof (Z.mod_pos_bound v (2 ^ 16) ltac:(lia)).
  f_equal. pose proof (top_of_range (v mod 2 ^ 16) k 16 Hk ltac:(lia) ltac:(lia)). assert (0 < 2 ^ k) by (apply Z.pow_pos_nonneg; lia). rewrite Z.mod_small by lia. reflexivity.
Qed.

(** the loops *)
Definition cond (k : kind) (a last : Z) (s : dbg) (w : wp) : bool :=
  (w_lo w <=? last) && (a <=? w_hi w) && matches k (wtype (dr7 s) (w_idx w)) s.
Definition regs_eq (s s' : dbg) : Prop :=
  dr s' = dr s /\ dr7 s' = dr7 s /\ de s' = de s /\ rf s' = rf s /\ io s' = io s /\ data s' = data s.
Lemma regs_eq_refl s : regs_eq s s.
Proof. repeat split. Qed.
Lemma cond_eq k a last s s' w : regs_eq s s' -> cond k a last s' w = cond k a last s w.
Proof. intros (A & B & C & D & _). unfold cond, matches. now rewrite B, D. Qed.
Lemma hit_bit s i j : 0 <= i -> 0 <= j -> Z.testbit (dr6 (hit i s)) j = Z.testbit (dr6 s) j || (i =? j).
Proof.
  intros Hi Hj. cbn. rewrite Z.lor_spec. f_equal. rewrite Z.shiftl_1_l, Z.pow2_bits_eqb by lia. reflexivity.
Qed.
Lemma check_nf k a last l s : k <> Fetch -> Forall (fun w => 0 <= w_idx w) l ->
  snd (check k a last l s) = false /\ regs_eq s (fst (check k a last l s)) /\
  trap (fst (check k a last l s)) = trap s || existsb (cond k a last s) l /\
  forall j, 0 <= j -> Z.testbit (dr6 (fst (check k a last l s))) j = Z.testbit (dr6 s) j || existsb (fun w => (w_idx w =? j) && cond k a last s w) l.
Proof.
  intros HK. revert s. induction l as [| w l IH]; intros s HF.
  - cbn. repeat split; now rewrite ?orb_false_r; intros; rewrite ?orb_false_r.
  - apply Forall_cons_iff in HF as [Hw HF]. cbn [check existsb]. fold (cond k a last s w). destruct (cond k a last s w) eqn:C.
    + assert (E : (match k with Fetch => (hit (w_idx w) s, true) | _ => check k a last l (set_trap true (hit (w_idx w) s)) end) = check k a last l (set_trap true (hit (w_idx w) s)))
        by (destruct k; congruence). rewrite E.
      set (s1 := set_trap true (hit (w_idx w) s)). assert (R : regs_eq s s1) by repeat split.
      destruct (IH s1 HF) as (A & B & T & D). split; [exact A |]. split; [| split].
      * destruct R as (? & ? & ? & ? & ? & ?), B as (? & ? & ? & ? & ? & ?). repeat split; congruence.
      * rewrite T. cbn [trap s1 set_trap]. cbn. now rewrite orb_true_r.
      * intros j Hj. rewrite D by exact Hj. cbn [s1 set_trap dr6]. change (dr6 s1) with (dr6 (hit (w_idx w) s)). rewrite hit_bit by assumption.
        rewrite andb_true_r, orb_assoc. reflexivity.
    + destruct (IH s HF) as (A & B & T & D). repeat split; try assumption; try apply B. intros j Hj. rewrite D by exact Hj. now rewrite andb_false_r.
Qed.
Lemma check_f a last l s :
  match find (cond Fetch a last s) l with
  | Some w => check Fetch a last l s = (hit (w_idx w) s, true)
  | None => check Fetch a last l s = (s, false)
  end.
Proof.
  induction l as [| w l IH]; [reflexivity |]. cbn [find check]. fold (cond Fetch a last s w). destruct (cond Fetch a last s w); [reflexivity | exact IH].
Qed.

(** the lists agree with the registers *)
Definition dataf (s : dbg) (i : Z) : bool := enabled (dr7 s) i && negb (wtype (dr7 s) i =? 2).
Definition iof (s : dbg) (i : Z) : bool := enabled (dr7 s) i && (wtype (dr7 s) i =? 2).
Definition Idata (s : dbg) : Prop := data s = map (fun i => data_wp (dr7 s) (dr s i) i) (filter (dataf s) four).
Definition Iio (s : dbg) : Prop := io s = map (fun i => io_wp (dr7 s) (dr s i) i) (filter (iof s) four).
Definition Iregs (s : dbg) : Prop := (forall i, u32 (dr s i)) /\ u32 (dr7 s).

Lemma replace_map i w (g : Z -> wp) f l : (forall k, w_idx (g k) = k) -> NoDup l -> (In i l -> f i = true) ->
  replace i w (map g (filter f l)) = map (fun k => if k =? i then w else g k) (filter f l).
Proof.
  intros G N F. induction l as [| x l IH]; [reflexivity |]. apply NoDup_cons_iff in N as [NI N]. cbn [filter].
  assert (IH' := IH N (fun H => F (or_intror H))). destruct (f x) eqn:E; [| exact IH'].
  cbn [map replace]. rewrite G. destruct (Z.eqb_spec x i) as [-> |]; [| now rewrite IH'].
  f_equal. clear - NI. induction l as [| y l IH]; [reflexivity |]. cbn [filter]. destruct (f y); [| apply IH; intros H; apply NI; now right].
  cbn [map]. rewrite IH by (intros H; apply NI; now right). f_equal. destruct (Z.eqb_spec y i); [| reflexivity]. subst. exfalso. apply NI. now left.
Qed.
Lemma map_if_out {A} i (w : A) g f l : f i = false -> map (fun k => if k =? i then w else g k) (filter f l) = map g (filter f l).
Proof.
  intros F. apply map_ext_in. intros k I. apply filter_In in I as [_ I]. destruct (Z.eqb_spec k i); [subst; congruence | reflexivity].
Qed.
Lemma four_nodup : NoDup four.
Proof. unfold four. repeat constructor; cbn; lia. Qed.
Lemma gd_bits d sh : 0 <= sh -> sh + 2 <= 32 -> (sh + 2 <= 13 \/ 13 < sh) -> Z.land (Z.shiftr (Z.land d (Z.lxor 0xFFFFFFFF 0x2000)) sh) 3 = Z.land (Z.shiftr d sh) 3.
Proof.
  intros H H' C. apply Z.bits_inj'. intros n Hn. change 3 with (Z.ones 2). rewrite !Z.land_spec. destruct (Z.ltb_spec n 2).
  - rewrite !Z.shiftr_spec, Z.land_spec by lia. f_equal. change 0xFFFFFFFF with (Z.ones 32). change 0x2000 with (2 ^ 13).
    rewrite Z.lxor_spec, Z.ones_spec_low, Z.pow2_bits_false by lia. apply andb_true_r.
  - rewrite Z.ones_spec_high by lia. now rewrite !andb_false_r.
Qed.
Lemma gd_same d i : idx4 i -> enabled (Z.land d (Z.lxor 0xFFFFFFFF 0x2000)) i = enabled d i /\ wtype (Z.land d (Z.lxor 0xFFFFFFFF 0x2000)) i = wtype d i /\
  wlen (Z.land d (Z.lxor 0xFFFFFFFF 0x2000)) i = wlen d i.
Proof.
  intros Hi. unfold idx4 in Hi. unfold enabled, wtype, wlen. rewrite !gd_bits by lia. repeat split.
Qed.
Lemma land_u32 v m : u32 v -> 0 <= m -> u32 (Z.land v m).
Proof.
  intros [A B] M. split; [apply Z.land_nonneg; lia |]. apply Z.le_lt_trans with v; [| exact B].
  rewrite <- (Z.land_diag v) at 2. rewrite Z.land_comm. 
  assert (Z.land v m = v - Z.ldiff v m). { pose proof (Z.sub_nocarry_ldiff v (Z.ldiff v m)) as S. rewrite S.
    - apply Z.bits_inj'. intros n Hn. rewrite Z.land_spec, !Z.ldiff_spec. destruct (Z.testbit v n), (Z.testbit m n); reflexivity.
    - apply Z.bits_inj'. intros n Hn. rewrite !Z.ldiff_spec, Z.bits_0. destruct (Z.testbit v n), (Z.testbit m n); reflexivity. }
  rewrite Z.land_diag, Z.land_comm, H. assert (0 <= Z.ldiff v m) by (apply Z.ldiff_nonneg; lia). lia.
Qed.
Lemma in_four i : In i four <-> idx4 i.
Proof. unfold four, idx4. cbn. lia. Qed.

Lemma swap_map (h : Z -> Z -> wp) (d : Z -> Z) i v l :
  map (fun k => h (if k =? i then v else d k) k) l = map (fun k => if k =? i then h v i else h (d k) k) l.
Proof. apply map_ext. intros k. destruct (Z.eqb_spec k i); [now subst | reflexivity]. Qed.
Lemma swap_out (h : Z -> Z -> wp) (d : Z -> Z) i v f l : f i = false ->
  map (fun k => h (if k =? i then v else d k) k) (filter f l) = map (fun k => h (d k) k) (filter f l).
Proof. intros F. rewrite swap_map. now apply map_if_out. Qed.
Lemma swap_in (h : Z -> Z -> wp) (d : Z -> Z) i v f : (forall x k, w_idx (h x k) = k) -> f i = true ->
  replace i (h v i) (map (fun k => h (d k) k) (filter f four)) = map (fun k => h (if k =? i then v else d k) k) (filter f four).
Proof. intros H F. rewrite swap_map. apply replace_map; [intros; apply H | apply four_nodup | now intros]. Qed.

Lemma write_dri_inv i v s : idx4 i -> u32 v -> Iregs s -> Idata s ->
  Iregs (write_dri i v s) /\ Idata (write_dri i v s) /\
  (Iio s -> (armed (dr7 s) i = true -> rw (dr7 s) i = 2 -> de s = true) -> Iio (write_dri i v s)).
Proof.
  intros Hi Hv [R R7] D. unfold idx4 in Hi.
  rewrite <- enabled_armed, <- wtype_rw by lia.
  assert (RR : forall k, u32 (if k =? i then v else dr s k)) by (intros k; destruct (k =? i); [exact Hv | apply R]).
  unfold write_dri, Idata, Iio in *. unfold dataf, iof in *. destruct (Z.eqb_spec (wtype (dr7 s) i) 2) as [E | E]; cbn [dr dr7 data io].
  - split; [split; [exact RR | exact R7] |]. split.
    + rewrite D. symmetry. apply (swap_out (data_wp (dr7 s))). now rewrite E, andb_false_r.
    + intros I A. destruct (enabled (dr7 s) i) eqn:EN; cbn [andb].
      * rewrite (A eq_refl E), I. apply (swap_in (io_wp (dr7 s))); [reflexivity |]. now rewrite EN, E.
      * rewrite I. symmetry. apply (swap_out (io_wp (dr7 s))). now rewrite EN.
  - split; [split; [exact RR | exact R7] |]. split.
    + destruct (enabled (dr7 s) i) eqn:EN.
      * rewrite D. apply (swap_in (data_wp (dr7 s))); [reflexivity |]. now rewrite EN, (proj2 (Z.eqb_neq _ _) E).
      * rewrite D. symmetry. apply (swap_out (data_wp (dr7 s))). now rewrite EN.
    + intros I _. rewrite I. symmetry. apply (swap_out (io_wp (dr7 s))). now rewrite (proj2 (Z.eqb_neq _ _) E), andb_false_r.
Qed.

Lemma clear_gd_inv s : Iregs s -> Idata s -> Iregs (clear_gd s) /\ Idata (clear_gd s) /\ (Iio s -> Iio (clear_gd s)).
Proof.
  intros [R R7] D. unfold Idata, Iio, Iregs, clear_gd in *. cbn [dr dr7 data io]. split; [split; [exact R | apply land_u32; [exact R7 | now vm_compute]] |].
  unfold dataf, iof in *. cbn [dr7] in *. set (d := Z.land (dr7 s) (Z.lxor 0xFFFFFFFF 0x2000)).
  assert (EQ : forall i, idx4 i -> enabled d i = enabled (dr7 s) i /\ wtype d i = wtype (dr7 s) i /\ wlen d i = wlen (dr7 s) i) by (intros; now apply gd_same).
  split; [rewrite D | intros I; rewrite I].
  - rewrite (filter_ext_in (fun i => enabled d i && negb (wtype d i =? 2)) (fun i => enabled (dr7 s) i && negb (wtype (dr7 s) i =? 2))).
    + apply map_ext_in. intros i Hi. apply filter_In in Hi as [Hi _]. apply in_four, EQ in Hi as (_ & _ & E). unfold data_wp. now rewrite E.
    + intros i Hi. apply in_four, EQ in Hi as (E1 & E2 & _). now rewrite E1, E2.
  - rewrite (filter_ext_in (fun i => enabled d i && (wtype d i =? 2)) (fun i => enabled (dr7 s) i && (wtype (dr7 s) i =? 2))).
    + apply map_ext_in. intros i Hi. apply filter_In in Hi as [Hi _]. apply in_four, EQ in Hi as (_ & _ & E). unfold io_wp. now rewrite E.
    + intros i Hi. apply in_four, EQ in Hi as (E1 & E2 & _). now rewrite E1, E2.
Qed.

Definition Inv (strict : bool) (s : dbg) : Prop := Iregs s /\ Idata s /\ (strict = true -> Iio s).
Lemma inv_regs_eq strict s s' : regs_eq s s' -> Inv strict s -> Inv strict s'.
Proof.
  intros (A & B & C & D & E & F) (I1 & I2 & I3). unfold Inv, Iregs, Idata, Iio, dataf, iof in *. rewrite A, B, E, F. split; [exact I1 | split; [exact I2 | exact I3]].
Qed.
Lemma check_regs_eq k a last l s : regs_eq s (fst (check k a last l s)).
Proof.
  revert s. induction l as [| w l IH]; intros s; [apply regs_eq_refl |]. cbn [check]. destruct (_ && _ && _); [| apply IH].
  assert (X : forall s1, regs_eq s s1 -> regs_eq s (fst (check k a last l s1))).
  { intros s1 (? & ? & ? & ? & ? & ?). destruct (IH s1) as (? & ? & ? & ? & ? & ?). repeat split; congruence. }
  destruct k; try (apply X; repeat split). repeat split.
Qed.
Lemma reach_inv strict s : reach strict s -> Inv strict s.
Proof.
  induction 1 as [| s cpl n v s' HR IH Hn Hv E G | s cpl n v s' HR IH Hn Hv E | s b HR IH | s b HR IH | s HR IH | s HR IH | s k a n HR IH | s p n HR IH].
  - split; [split; [intros i; unfold u32; cbn; lia | unfold u32; cbn; lia] | split; [reflexivity | intros _; reflexivity]].
  - unfold mov_to, guard in E. destruct (negb (Z.land (dr7 s) 8192 =? 0)); [discriminate |]. destruct (negb (cpl =? 0)); [discriminate |].
    destruct (_ && de s); [discriminate |]. assert (E' : (if n <? 4 then write_dri n v s else if (n =? 4) || (n =? 6) then set_dr6 (Z.lor v 0xFFFF0FF0) s else write_dr7 v s) = s') by congruence.
    clear E. subst s'. destruct IH as (I1 & I2 & I3). destruct (Z.ltb_spec n 4).
    + destruct (write_dri_inv n v s ltac:(unfold idx4; lia) Hv I1 I2) as (A & B & C). split; [exact A | split; [exact B |]]. intros S. apply C; [exact (I3 S) | now apply G].
    + destruct ((n =? 4) || (n =? 6)); [apply (inv_regs_eq _ s); [repeat split | split; [exact I1 | split; [exact I2 | exact I3]]] |].
      split; [split; [apply I1 | exact Hv] | split; [reflexivity | intros _; reflexivity]].
  - unfold mov_to, guard in E. destruct (negb (Z.land (dr7 s) 8192 =? 0)); [| destruct (negb (cpl =? 0)); [discriminate |]; destruct (_ && de s); discriminate].
    assert (E' : set_dr6 (Z.lor (dr6 s) 0x2000) s = s') by congruence. subst s'. apply (inv_regs_eq _ s); [repeat split | exact IH].
  - destruct IH as (I1 & I2 & I3). split; [exact I1 | split; [exact I2 | exact I3]].
  - destruct IH as (I1 & I2 & I3). split; [exact I1 | split; [exact I2 | exact I3]].
  - destruct IH as (I1 & I2 & I3). split; [exact I1 | split; [exact I2 | exact I3]].
  - destruct IH as (I1 & I2 & I3). destruct (clear_gd_inv s I1 I2) as (A & B & C). split; [exact A | split; [exact B |]]. intros S. apply C, I3, S.
  - apply (inv_regs_eq _ s); [apply check_regs_eq | exact IH].
  - apply (inv_regs_eq _ s); [apply check_regs_eq | exact IH].
Qed.

Lemma existsb_four (P : Z -> wp -> bool) g f : existsb (fun w => P (w_idx w) w) (map g (filter f four)) = true <->
  (exists i, idx4 i /\ f i = true /\ P (w_idx (g i)) (g i) = true).
Proof.
  rewrite existsb_exists. split.
  - intros (w & I & T). apply in_map_iff in I as (i & <- & I). apply filter_In in I as [I F]. exists i. split; [now apply in_four |]. now split.
  - intros (i & Hi & F & T). exists (g i). split; [| exact T]. apply in_map_iff. exists i. split; [reflexivity |]. apply filter_In. split; [now apply in_four | exact F].
Qed.

Lemma data_cond s a n i : Iregs s -> idx4 i -> 0 <= a -> 1 <= n -> a + n <= 2 ^ 32 ->
  ((w_lo (data_wp (dr7 s) (dr s i) i) <=? (a + n - 1) mod 2 ^ 32) && (a <=? w_hi (data_wp (dr7 s) (dr s i) i)) = true <-> touches s a n i).
Proof.
  intros [R _] Hi Ha Hn HA. unfold idx4 in Hi. rewrite data_wp_range by (lia || apply R). cbn [w_lo w_hi]. rewrite Z.mod_small by lia.
  rewrite andb_true_iff, !Z.leb_le. unfold touches. assert (0 < len (dr7 s) i) by (destruct (len_pow (dr7 s) i) as (k' & Hk & ->); apply Z.pow_pos_nonneg; lia).
  symmetry. now apply overlap.
Qed.

Lemma bool_eq_iff a b : (a = true <-> b = true) -> a = b.
Proof. destruct a, b; intuition congruence. Qed.

(** After any history, a data access that does not run past the top of the address space
    reports exactly the data breakpoints that DR7 and DR0-3 describe: it sets their bits of DR6,
    leaves the other bits, and requests a trap if there is one. *)
Theorem C26_data : forall strict s k a n, reach strict s -> (k = Read \/ k = Write) -> 0 <= a -> 1 <= n -> a + n <= 2 ^ 32 ->
  let r := check_data k a n s in
  snd r = false /\
  (forall i, 0 <= i < 4 -> (Z.testbit (dr6 (fst r)) i = true <-> Z.testbit (dr6 s) i = true \/ configured s k a n i)) /\
  (forall j, 4 <= j -> Z.testbit (dr6 (fst r)) j = Z.testbit (dr6 s) j) /\
  (trap (fst r) = true <-> trap s = true \/ exists i, 0 <= i < 4 /\ configured s k a n i) /\
  (forall i, dr (fst r) i = dr s i) /\ dr7 (fst r) = dr7 s.
Proof.
  intros strict s k a n HR HK Ha Hn HA r. apply reach_inv in HR as (I1 & I2 & _). unfold Idata in I2.
  assert (NF : k <> Fetch) by (destruct HK; congruence).
  assert (HF : Forall (fun w => 0 <= w_idx w) (data s)).
  { rewrite I2. apply Forall_map, Forall_forall. intros i Hi. apply filter_In in Hi as [Hi _]. apply in_four in Hi. unfold idx4 in Hi. cbn. lia. }
  destruct (check_nf k a ((a + n - 1) mod 2 ^ 32) (data s) s NF HF) as (A & B & T & D). subst r. unfold check_data.
  set (r := check k a ((a + n - 1) mod 2 ^ 32) (data s) s) in *.
  assert (CF : forall i, idx4 i -> (dataf s i = true /\ cond k a ((a + n - 1) mod 2 ^ 32) s (data_wp (dr7 s) (dr s i) i) = true <-> configured s k a n i)).
  { intros i Hi. unfold cond. rewrite andb_true_iff, data_cond by assumption. unfold configured, dataf. cbn [w_idx data_wp].
    unfold idx4 in Hi. rewrite enabled_armed, wtype_rw by lia. rewrite andb_true_iff, negb_true_iff, Z.eqb_neq.
    destruct HK as [-> | ->]; cbn [matches covers]; rewrite ?orb_true_iff, !Z.eqb_eq; intuition lia. }
  split; [exact A |]. split; [| split; [| split; [| split]]].
  - intros i Hi. rewrite D by lia. rewrite orb_true_iff. rewrite I2.
    rewrite (existsb_four (fun x w => (x =? i) && cond k a ((a + n - 1) mod 2 ^ 32) s w)). split; (intros [H | H]; [now left | right]).
    + destruct H as (j & Hj & F & C). apply andb_prop in C as [C1 C]. cbn in C1. apply Z.eqb_eq in C1. subst j. now apply CF.
    + apply CF in H as [F C]; [| exact Hi]. exists i. split; [exact Hi |]. split; [exact F |]. cbn [w_idx data_wp]. rewrite C. apply andb_true_intro. split; [apply Z.eqb_refl | reflexivity].
  - intros j Hj. rewrite D by lia. assert (existsb (fun w => (w_idx w =? j) && cond k a ((a + n - 1) mod 2 ^ 32) s w) (data s) = false) as ->; [| apply orb_false_r].
    apply Bool.not_true_is_false. intros E. rewrite I2 in E. rewrite (existsb_four (fun x w => (x =? j) && cond k a ((a + n - 1) mod 2 ^ 32) s w)) in E.
    destruct E as (i & Hi & _ & C). apply andb_prop in C as [C _]. cbn in C. apply Z.eqb_eq in C. unfold idx4 in Hi. lia.
  - rewrite T, orb_true_iff. rewrite I2. rewrite (existsb_four (fun _ w => cond k a ((a + n - 1) mod 2 ^ 32) s w)).
    split; (intros [H | (i & Hi & H)]; [now left | right; exists i; split; [exact Hi | now apply CF]]).
  - intros i. destruct B as (-> & _). reflexivity.
  - apply B.
Qed.
Print Assumptions C26_data.

(** After any history in which no enabled I/O breakpoint is moved while CR4.DE is clear, a
    port access reports exactly the I/O breakpoints that DR7 and DR0-3 describe, if the addresses
    of the I/O breakpoints are ports. *)
Theorem C26_io_partial : forall s p n, reach true s -> 0 <= p < 2 ^ 16 -> 1 <= n ->
  (forall i, 0 <= i < 4 -> armed (dr7 s) i = true -> rw (dr7 s) i = 2 -> dr s i < 2 ^ 16) ->
  let r := check_io p n s in
  snd r = false /\
  (forall i, 0 <= i < 4 -> (Z.testbit (dr6 (fst r)) i = true <-> Z.testbit (dr6 s) i = true \/ configured s Port p n i)) /\
  (forall j, 4 <= j -> Z.testbit (dr6 (fst r)) j = Z.testbit (dr6 s) j) /\
  (trap (fst r) = true <-> trap s = true \/ exists i, 0 <= i < 4 /\ configured s Port p n i) /\
  (forall i, dr (fst r) i = dr s i) /\ dr7 (fst r) = dr7 s.
Proof.
  intros s p n HR Hp Hn HP r. apply reach_inv in HR as (I1 & _ & I2). specialize (I2 eq_refl). unfold Iio in I2.
  assert (HF : Forall (fun w => 0 <= w_idx w) (io s)).
  { rewrite I2. apply Forall_map, Forall_forall. intros i Hi. apply filter_In in Hi as [Hi _]. apply in_four in Hi. unfold idx4 in Hi. cbn. lia. }
  destruct (check_nf Port p (p + n - 1) (io s) s ltac:(discriminate) HF) as (A & B & T & D). subst r. unfold check_io.
  set (r := check Port p (p + n - 1) (io s) s) in *.
  assert (CF : forall i, idx4 i -> (iof s i = true /\ cond Port p (p + n - 1) s (io_wp (dr7 s) (dr s i) i) = true <-> configured s Port p n i)).
  { intros i Hi. unfold cond. unfold configured, iof. cbn [w_idx io_wp]. unfold idx4 in Hi. rewrite !enabled_armed, !wtype_rw by lia. cbn [matches covers].
    rewrite !andb_true_iff, Z.eqb_eq, !Z.leb_le. specialize (HP i Hi).
    assert (X : armed (dr7 s) i = true -> rw (dr7 s) i = 2 -> (w_lo (io_wp (dr7 s) (dr s i) i) <= p + n - 1 /\ p <= w_hi (io_wp (dr7 s) (dr s i) i) <-> touches s p n i)).
    { intros X Y. specialize (HP X Y). destruct I1 as [R _]. specialize (R i). rewrite io_wp_range by (lia || exact R). cbn [w_lo w_hi].
      unfold u32 in R. rewrite (Z.mod_small (dr s i)) by lia.
      assert (0 < len (dr7 s) i) by (destruct (len_pow (dr7 s) i) as (k' & Hk & ->); apply Z.pow_pos_nonneg; lia).
      unfold touches. symmetry. now apply overlap. }
    tauto. }
  split; [exact A |]. split; [| split; [| split; [| split]]].
  - intros i Hi. rewrite D by lia. rewrite orb_true_iff. rewrite I2.
    rewrite (existsb_four (fun x w => (x =? i) && cond Port p (p + n - 1) s w)). split; (intros [H | H]; [now left | right]).
    + destruct H as (j & Hj & F & C). apply andb_prop in C as [C1 C]. cbn in C1. apply Z.eqb_eq in C1. subst j. now apply CF.
    + apply CF in H as [F C]; [| exact Hi]. exists i. split; [exact Hi |]. split; [exact F |]. cbn [w_idx io_wp]. rewrite C. apply andb_true_intro. split; [apply Z.eqb_refl | reflexivity].
  - intros j Hj. rewrite D by lia. assert (existsb (fun w => (w_idx w =? j) && cond Port p (p + n - 1) s w) (io s) = false) as ->; [| apply orb_false_r].
    apply Bool.not_true_is_false. intros E. rewrite I2 in E. rewrite (existsb_four (fun x w => (x =? j) && cond Port p (p + n - 1) s w)) in E.
    destruct E as (i & Hi & _ & C). apply andb_prop in C as [C _]. cbn in C. apply Z.eqb_eq in C. unfold idx4 in Hi. lia.
  - rewrite T, orb_true_iff. rewrite I2. rewrite (existsb_four (fun _ w => cond Port p (p + n - 1) s w)).
    split; (intros [H | (i & Hi & H)]; [now left | right; exists i; split; [exact Hi | now apply CF]]).
  - intros i. destruct B as (-> & _). reflexivity.
  - apply B.
Qed.
Print Assumptions C26_io_partial.

Lemma find_four (P : wp -> bool) g f : (forall i, w_idx (g i) = i) ->
  match find P (map g (filter f four)) with
  | Some w => exists i, w = g i /\ idx4 i /\ f i = true /\ P (g i) = true /\ forall j, 0 <= j < i -> f j && P (g j) = false
  | None => forall i, idx4 i -> f i && P (g i) = false
  end.
Proof.
  intros G. unfold four, idx4. cbn [filter].
  destruct (f 0) eqn:F0; [destruct (P (g 0)) eqn:P0 |]; [cbn [map find]; rewrite P0; exists 0; repeat split; try assumption; try lia; intros; lia | |].
  all: assert (Q0 : f 0 && P (g 0) = false) by (now rewrite ?F0, ?P0).
  all: destruct (f 1) eqn:F1; [destruct (P (g 1)) eqn:P1 |].
  all: try (cbn [map find]; rewrite ?P0, ?P1; exists 1; repeat split; try assumption; try lia; intros j Hj; replace j with 0 by lia; assumption).
  all: assert (Q1 : f 1 && P (g 1) = false) by (now rewrite ?F1, ?P1).
  all: destruct (f 2) eqn:F2; [destruct (P (g 2)) eqn:P2 |].
  all: try (cbn [map find]; rewrite ?P0, ?P1, ?P2; exists 2; repeat split; try assumption; try lia; intros j Hj; assert (j = 0 \/ j = 1) as [-> | ->] by lia; assumption).
  all: assert (Q2 : f 2 && P (g 2) = false) by (now rewrite ?F2, ?P2).
  all: destruct (f 3) eqn:F3; [destruct (P (g 3)) eqn:P3 |].
  all: try (cbn [map find]; rewrite ?P0, ?P1, ?P2, ?P3; exists 3; repeat split; try assumption; try lia; intros j Hj; assert (j = 0 \/ j = 1 \/ j = 2) as [-> | [-> | ->]] by lia; assumption).
  all: assert (Q3 : f 3 && P (g 3) = false) by (now rewrite ?F3, ?P3).
  all: cbn [map find]; rewrite ?P0, ?P1, ?P2, ?P3; intros i Hi; assert (i = 0 \/ i = 1 \/ i = 2 \/ i = 3) as [-> | [-> | [-> | ->]]] by lia; assumption.
Qed.

(** What a fetch at [pc] does exactly, after any history: it throws when RF is clear and some
    enabled register that is not an I/O breakpoint covers [pc], whatever its type, and marks the
    first such register in DR6. *)
Definition fetch_cover (s : dbg) (pc i : Z) : Prop := armed (dr7 s) i = true /\ rw (dr7 s) i <> 2 /\ touches s pc 1 i.
Theorem C26_fetch_partial : forall strict s pc, reach strict s -> u32 pc ->
  let r := check_data Fetch pc 1 s in
  (snd r = true <-> rf s = false /\ exists i, 0 <= i < 4 /\ fetch_cover s pc i) /\
  (snd r = false -> fst r = s) /\
  (forall i, 0 <= i < 4 -> rf s = false -> fetch_cover s pc i -> (forall j, 0 <= j < i -> ~ fetch_cover s pc j) ->
     forall b, 0 <= b -> Z.testbit (dr6 (fst r)) b = Z.testbit (dr6 s) b || (b =? i)).
Proof.
  intros strict s pc HR Hpc r. apply reach_inv in HR as (I1 & I2 & _). unfold u32 in Hpc. unfold Idata in I2.
  subst r. unfold check_data. pose proof (check_f pc ((pc + 1 - 1) mod 2 ^ 32) (data s) s) as CF. set (P := cond Fetch pc ((pc + 1 - 1) mod 2 ^ 32) s) in *.
  assert (CC : forall i, idx4 i -> (dataf s i && P (data_wp (dr7 s) (dr s i) i) = true <-> rf s = false /\ fetch_cover s pc i)).
  { intros i Hi. unfold P, cond, dataf, fetch_cover. cbn [matches]. pose proof (data_cond s pc 1 i I1 Hi ltac:(lia) ltac:(lia) ltac:(lia)) as DC.
    rewrite !andb_true_iff in *. unfold idx4 in Hi. rewrite enabled_armed, wtype_rw by lia. rewrite !negb_true_iff, Z.eqb_neq. tauto. }
  pose proof (find_four P (fun i => data_wp (dr7 s) (dr s i) i) (dataf s) ltac:(reflexivity)) as FF. rewrite <- I2 in FF.
  destruct (find P (data s)) as [w |].
  - destruct FF as (i & -> & Hi & F & PI & L). rewrite CF. cbn [fst snd]. assert (C : rf s = false /\ fetch_cover s pc i) by (apply CC; [exact Hi | now rewrite F, PI]).
    split; [split; [intros _; split; [apply C | exists i; split; [exact Hi | apply C]] | reflexivity] |]. split; [discriminate |].
    intros j Hj RF CJ LJ b Hb. assert (i = j).
    { destruct (Z.lt_trichotomy i j) as [H | [H | H]]; [exfalso; apply (LJ i); [unfold idx4 in Hi; lia | apply C] | exact H |].
      exfalso. assert (X : dataf s j && P (data_wp (dr7 s) (dr s j) j) = true) by (apply CC; [exact Hj | now split]). rewrite L in X by lia. discriminate. }
    subst j. cbn [w_idx data_wp]. unfold idx4 in Hi. rewrite hit_bit by lia. now rewrite Z.eqb_sym.
  - rewrite CF. cbn [fst snd]. split; [| split; [reflexivity |]].
    + split; [discriminate |]. intros (RF & i & Hi & C). assert (X : dataf s i && P (data_wp (dr7 s) (dr s i) i) = true) by (apply CC; [exact Hi | now split]).
      rewrite FF in X by exact Hi. discriminate.
    + intros i Hi RF C _. assert (X : dataf s i && P (data_wp (dr7 s) (dr s i) i) = true) by (apply CC; [exact Hi | now split]).
      rewrite FF in X by exact Hi. discriminate.
Qed.
Print Assumptions C26_fetch_partial.

(** So no configured instruction breakpoint is missed. *)
Theorem C26_fetch_complete : forall strict s pc i, reach strict s -> u32 pc -> 0 <= i < 4 -> rf s = false ->
  configured s Fetch pc 1 i -> snd (check_data Fetch pc 1 s) = true.
Proof.
  intros strict s pc i HR Hpc Hi RF (A & C & T). destruct (C26_fetch_partial strict s pc HR Hpc) as [[_ H] _]. apply H.
  split; [exact RF |]. exists i. split; [exact Hi |]. split; [exact A |]. split; [cbn in C; lia | exact T].
Qed.
Print Assumptions C26_fetch_complete.

(** ** Where the code differs *)
Ltac step c n v := eapply (r_mov _ _ c n v); [| lia | unfold u32; lia | reflexivity | try (intros; discriminate)].

(** A data watchpoint stops a fetch from the watched address. *)
Theorem C26_refuted_fetch : exists s pc i, reach true s /\ armed (dr7 s) i = true /\ rw (dr7 s) i = 1 /\
  (forall j, 0 <= j < 4 -> ~ configured s Fetch pc 1 j) /\ snd (check_data Fetch pc 1 s) = true.
Proof.
  set (s1 := write_dri 0 0x1000 reset). set (s2 := write_dr7 0x10002 s1). exists s2, 0x1000, 0.
  split; [| split; [reflexivity | split; [reflexivity | split; [| reflexivity]]]].
  - eapply (r_mov _ s1 0 7 0x10002); [| lia | unfold u32; lia | reflexivity | lia].
    eapply (r_mov _ reset 0 0 0x1000); [constructor | lia | unfold u32; lia | reflexivity | discriminate].
  - intros j Hj (A & C & _). assert (j = 0 \/ j = 1 \/ j = 2 \/ j = 3) as [-> | [-> | [-> | ->]]] by lia; vm_compute in A, C; congruence.
Qed.
Print Assumptions C26_refuted_fetch.

(** An access that wraps past the top of the address space misses its watchpoints. *)
Theorem C26_refuted_wrap : exists s a n, reach true s /\ configured s Write a n 0 /\ a < 2 ^ 32 < a + n /\ fst (check_data Write a n s) = s.
Proof.
  set (s1 := write_dri 0 0xFFFFFFFC reset). set (s2 := write_dr7 0xD0002 s1). exists s2, 0xFFFFFFFE, 4.
  split; [| split; [| split; [lia | reflexivity]]].
  - eapply (r_mov _ s1 0 7 0xD0002); [| lia | unfold u32; lia | reflexivity | lia].
    eapply (r_mov _ reset 0 0 0xFFFFFFFC); [constructor | lia | unfold u32; lia | reflexivity | discriminate].
  - split; [reflexivity |]. split; [left; reflexivity |]. exists 0xFFFFFFFE. split; [lia | reflexivity].
Qed.
Print Assumptions C26_refuted_wrap.

(** An I/O breakpoint moved while CR4.DE is clear keeps watching the old port, even after DE is set. *)
Theorem C26_refuted_io_stale : exists s, reach false s /\ de s = true /\
  configured s Port 0x80 1 0 /\ fst (check_io 0x80 1 s) = s /\
  (forall j, 0 <= j < 4 -> ~ configured s Port 0x60 1 j) /\ trap (fst (check_io 0x60 1 s)) = true.
Proof.
  set (s1 := write_dri 0 0x60 reset). set (s2 := write_dr7 0x20002 s1). set (s3 := write_dri 0 0x80 s2). exists (set_de true s3).
  split; [| split; [reflexivity | split; [| split; [reflexivity | split; [| reflexivity]]]]].
  - constructor. eapply (r_mov _ s2 0 0 0x80); [| lia | unfold u32; lia | reflexivity | discriminate].
    eapply (r_mov _ s1 0 7 0x20002); [| lia | unfold u32; lia | reflexivity | lia].
    eapply (r_mov _ reset 0 0 0x60); [constructor | lia | unfold u32; lia | reflexivity | discriminate].
  - split; [reflexivity |]. split; [reflexivity |]. exists 0x80. split; [lia | reflexivity].
  - intros j Hj (A & C & T). assert (j = 0 \/ j = 1 \/ j = 2 \/ j = 3) as [-> | [-> | [-> | ->]]] by lia; try (vm_compute in A; congruence).
    destruct T as (x & Hx & E). replace x with 0x60 in E by lia. vm_compute in E. congruence.
Qed.
Print Assumptions C26_refuted_io_stale.

(** The upper half of the address of an I/O breakpoint is ignored. *)
Theorem C26_refuted_io_high : exists s, reach true s /\ de s = true /\
  (forall j, 0 <= j < 4 -> ~ configured s Port 0x60 1 j) /\ trap (fst (check_io 0x60 1 s)) = true.
Proof.
  set (s0 := set_de true reset). set (s1 := write_dri 0 0x10060 s0). set (s2 := write_dr7 0x20002 s1). exists s2.
  split; [| split; [reflexivity | split; [| reflexivity]]].
  - eapply (r_mov _ s1 0 7 0x20002); [| lia | unfold u32; lia | reflexivity | lia].
    eapply (r_mov _ s0 0 0 0x10060); [constructor; constructor | lia | unfold u32; lia | reflexivity | reflexivity].
  - intros j Hj (A & C & T). assert (j = 0 \/ j = 1 \/ j = 2 \/ j = 3) as [-> | [-> | [-> | ->]]] by lia; try (vm_compute in A; congruence).
    destruct T as (x & Hx & E). replace x with 0x60 in E by lia. vm_compute in E. congruence.
Qed.
Print Assumptions C26_refuted_io_high.

(** If two instruction breakpoints cover the address, only the first is reported. *)
Theorem C26_refuted_fetch_all : exists s, reach true s /\ configured s Fetch 0x1000 1 0 /\ configured s Fetch 0x1000 1 1 /\ rf s = false /\
  Z.testbit (dr6 (fst (check_data Fetch 0x1000 1 s))) 1 = false.
Proof.
  set (s0 := write_dri 0 0x1000 reset). set (s1 := write_dri 1 0x1000 s0). set (s2 := write_dr7 0xA s1). exists s2.
  split; [| split; [| split; [| split; reflexivity]]].
  - eapply (r_mov _ s1 0 7 0xA); [| lia | unfold u32; lia | reflexivity | lia].
    eapply (r_mov _ s0 0 1 0x1000); [| lia | unfold u32; lia | reflexivity | discriminate].
    eapply (r_mov _ reset 0 0 0x1000); [constructor | lia | unfold u32; lia | reflexivity | discriminate].
  - split; [reflexivity |]. split; [reflexivity |]. exists 0x1000. split; [lia | reflexivity].
  - split; [reflexivity |]. split; [reflexivity |]. exists 0x1000. split; [lia | reflexivity].
Qed.
Print Assumptions C26_refuted_fetch_all.

(** ** Access to the debug registers themselves (C53) *)

(** Access to a debug register: DR7.GD traps any access, with DR6.BD set and nothing else
    changed; otherwise only CPL 0 may access; DR4 and DR5 do not exist if CR4.DE is set and are
    DR6 and DR7 if not; a read after a write returns the value, with the fixed bits of DR6. *)
Theorem C53_gd : forall cpl n v s, Z.testbit (dr7 s) 13 = true ->
  exists s', mov_to cpl n v s = DDb s' /\ mov_from cpl n s = DDb s' /\
    (forall b, 0 <= b -> Z.testbit (dr6 s') b = Z.testbit (dr6 s) b || (b =? 13)) /\ regs_eq s s' /\ trap s' = trap s.
Proof.
  intros cpl n v s G. exists (set_dr6 (Z.lor (dr6 s) 0x2000) s). unfold mov_to, mov_from, guard.
  assert (negb (Z.land (dr7 s) 0x2000 =? 0) = true) as ->.
  { apply negb_true_iff, Z.eqb_neq. intros E. apply (f_equal (fun x => Z.testbit x 13)) in E. rewrite Z.land_spec, G in E. discriminate. }
  repeat split. intros b Hb. cbn. rewrite Z.lor_spec. f_equal. change 0x2000 with (2 ^ 13). rewrite Z.pow2_bits_eqb by lia. apply Z.eqb_sym.
Qed.
Print Assumptions C53_gd.

Lemma no_gd s : Z.testbit (dr7 s) 13 = false -> Z.land (dr7 s) 0x2000 = 0.
Proof.
  intros G. apply Z.bits_inj'. intros n Hn. change 0x2000 with (2 ^ 13). rewrite Z.land_spec, Z.pow2_bits_eqb, Z.bits_0 by lia.
  destruct (Z.eqb_spec 13 n); [subst; now rewrite G | apply andb_false_r].
Qed.
Theorem C53_privilege : forall cpl n v s, Z.testbit (dr7 s) 13 = false ->
  (cpl <> 0 -> mov_to cpl n v s = DGp /\ mov_from cpl n s = DGp) /\
  (cpl = 0 -> (n = 4 \/ n = 5) -> de s = true -> mov_to cpl n v s = DUd /\ mov_from cpl n s = DUd).
Proof.
  intros cpl n v s G. unfold mov_to, mov_from, guard. rewrite (no_gd s G). cbn [Z.eqb negb]. split.
  - intros C. rewrite (proj2 (Z.eqb_neq cpl 0) C). split; reflexivity.
  - intros -> [-> | ->] ->; split; reflexivity.
Qed.
Print Assumptions C53_privilege.

(** the register an encoding names *)
Definition alias (n : Z) : Z := if n =? 4 then 6 else if n =? 5 then 7 else n.
Theorem C53_readback : forall n m v s s', 0 <= n < 8 -> 0 <= m < 8 -> u32 v -> mov_to 0 n v s = DOk s' ->
  Z.testbit (dr7 s') 13 = false -> (de s = false \/ m <> 4 /\ m <> 5) ->
  if alias m =? alias n then
    if alias n =? 6 then exists w, mov_from 0 m s' = DOk w /\ forall b, 0 <= b < 32 ->
      Z.testbit w b = if (4 <=? b) && (b <=? 11) || (16 <=? b) then true else Z.testbit v b
    else mov_from 0 m s' = DOk v
  else mov_from 0 m s' = mov_from 0 m s.
Proof.
  intros n m v s s' Hn Hm Hv E G D. unfold mov_to, guard in E. destruct (Z.land (dr7 s) 0x2000 =? 0) eqn:GD; [| discriminate]. cbn [negb Z.eqb] in E.
  destruct (((n =? 4) || (n =? 5)) && de s) eqn:U; [discriminate |].
  assert (E' : s' = (if n <? 4 then write_dri n v s else if (n =? 4) || (n =? 6) then set_dr6 (Z.lor v 0xFFFF0FF0) s else write_dr7 v s)) by congruence. clear E.
  assert (DE : de s' = de s). { rewrite E'. destruct (n <? 4); [unfold write_dri; destruct (wtype (dr7 s) n =? 2); reflexivity |]. destruct ((n =? 4) || (n =? 6)); reflexivity. }
  assert (GR : forall k, guard 0 m s' k = (k : dout Z)).
  { intros k. unfold guard. rewrite (no_gd s' G), DE. cbn [Z.eqb negb]. destruct D as [-> | [D1 D2]]; [now rewrite andb_false_r |].
    now rewrite (proj2 (Z.eqb_neq m 4) D1), (proj2 (Z.eqb_neq m 5) D2). }
  assert (GS : forall k, guard 0 m s k = (k : dout Z)).
  { intros k. unfold guard. rewrite GD. cbn [Z.eqb negb]. destruct D as [-> | [D1 D2]]; [now rewrite andb_false_r |].
    now rewrite (proj2 (Z.eqb_neq m 4) D1), (proj2 (Z.eqb_neq m 5) D2). }
  unfold mov_from. rewrite GR, GS. clear GR GS U D.
  assert (SD : n < 4 -> (forall k, dr s' k = if k =? n then v else dr s k) /\ dr6 s' = dr6 s /\ dr7 s' = dr7 s).
  { intros L. rewrite E'. rewrite (proj2 (Z.ltb_lt n 4) L). unfold write_dri. destruct (wtype (dr7 s) n =? 2); repeat split. }
  destruct (Z.ltb_spec n 4) as [L | L].
  - destruct (SD L) as (S1 & S2 & S3). rewrite S1, S2, S3. unfold alias.
    assert (n = 0 \/ n = 1 \/ n = 2 \/ n = 3) as Cn by lia.
    assert (m = 0 \/ m = 1 \/ m = 2 \/ m = 3 \/ m = 4 \/ m = 5 \/ m = 6 \/ m = 7) as Cm by lia.
    destruct Cn as [-> | [-> | [-> | ->]]]; destruct Cm as [-> | [-> | [-> | [-> | [-> | [-> | [-> | ->]]]]]]]; reflexivity.
  - assert (W : forall b, 0 <= b < 32 -> Z.testbit (Z.lor v 0xFFFF0FF0) b = if (4 <=? b) && (b <=? 11) || (16 <=? b) then true else Z.testbit v b).
    { intros b Hb. rewrite Z.lor_spec. assert (B : Z.testbit 0xFFFF0FF0 b = (4 <=? b) && (b <=? 11) || (16 <=? b)).
      { assert (X : forallb (fun b => Bool.eqb (Z.testbit 0xFFFF0FF0 b) ((4 <=? b) && (b <=? 11) || (16 <=? b))) (map Z.of_nat (seq 0 32)) = true) by reflexivity.
        rewrite forallb_forall in X. apply eqb_prop, X. apply in_map_iff. exists (Z.to_nat b). split; [lia |]. apply in_seq. lia. }
      rewrite B. destruct ((4 <=? b) && (b <=? 11) || (16 <=? b)); [apply orb_true_r | apply orb_false_r]. }
    assert (m = 0 \/ m = 1 \/ m = 2 \/ m = 3 \/ m = 4 \/ m = 5 \/ m = 6 \/ m = 7) as Cm by lia.
    assert (n = 4 \/ n = 5 \/ n = 6 \/ n = 7) as [-> | [-> | [-> | ->]]] by lia; cbn [Z.eqb Pos.eqb orb] in E'; subst s';
    destruct Cm as [-> | [-> | [-> | [-> | [-> | [-> | [-> | ->]]]]]]]; cbn; try reflexivity;
    (eexists; split; [reflexivity | exact W]).
Qed.
Print Assumptions C53_readback.

(** a history with every kind of breakpoint that meets the hypotheses *)
Example C26_example : exists s, reach true s /\
  configured s Write 0x2002 4 1 /\ trap (fst (check_data Write 0x2002 4 s)) = true /\ Z.testbit (dr6 (fst (check_data Write 0x2002 4 s))) 1 = true /\
  configured s Port 0x61 1 2 /\ trap (fst (check_io 0x61 1 s)) = true /\ snd (check_data Fetch 0x1000 1 s) = true /\
  fst (check_data Read 0x2000 4 s) = s.
Proof.
  set (s0 := write_dri 0 0x1000 (set_de true reset)). set (s1 := write_dri 1 0x2004 s0). set (s2 := write_dri 2 0x60 s1). set (s3 := write_dr7 0x06D0002A s2). exists s3.
  split; [| split; [| split; [| split; [| split; [| split; [| split]]]]]]; try reflexivity.
  - eapply (r_mov _ s2 0 7 0x06D0002A); [| lia | unfold u32; lia | reflexivity | lia].
    eapply (r_mov _ s1 0 2 0x60); [| lia | unfold u32; lia | reflexivity | reflexivity].
    eapply (r_mov _ s0 0 1 0x2004); [| lia | unfold u32; lia | reflexivity | reflexivity].
    eapply (r_mov _ (set_de true reset) 0 0 0x1000); [constructor; constructor | lia | unfold u32; lia | reflexivity | reflexivity].
  - split; [reflexivity |]. split; [left; reflexivity |]. exists 0x2004. split; [lia | reflexivity].
  - split; [reflexivity |]. split; [reflexivity |]. exists 0x61. split; [lia | reflexivity].
Qed.
