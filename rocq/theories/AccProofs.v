(** Lemmas behind the theorems of AccProps. *)
From Coq Require Import ZArith List Bool Lia.
From Verif Require Import AddrSpaceModel BlockModel BlockSpec BlockProofs AccModel AccSpec.
Import ListNotations.
Open Scope Z_scope.

Ltac Zify.zify_post_hook ::= Z.to_euclidean_division_equations.

Lemma size_range n : size n -> 1 <= n <= 16.
Proof. unfold size. cbn [In]. lia. Qed.

(** ** Words *)
Lemma word_app l1 l2 : word (l1 ++ l2) = word l1 + 256 ^ Z.of_nat (length l1) * word l2.
Proof.
  induction l1 as [|b l1 IH]; [cbn [app word length]; rewrite Z.pow_0_r; lia|].
  cbn [app word length]. rewrite IH, Nat2Z.inj_succ, Z.pow_succ_r by lia. ring.
Qed.
Lemma word_range l : Forall (fun b => 0 <= b < 256) l -> 0 <= word l < 256 ^ Z.of_nat (length l).
Proof.
  induction 1 as [|b l H _ IH]; [cbn; lia|].
  cbn [word length]. rewrite Nat2Z.inj_succ, Z.pow_succ_r by lia.
  set (p := 256 ^ Z.of_nat (length l)) in *. lia.
Qed.
Lemma byte_of_word l : Forall (fun b => 0 <= b < 256) l ->
  forall i, (i < length l)%nat -> byte_of (word l) (Z.of_nat i) = nth i l 0.
Proof.
  induction 1 as [|b l H F IH]; intros i Hi; [cbn in Hi; lia|].
  destruct i as [|i]; cbn [word nth].
  - unfold byte_of. change (8 * Z.of_nat 0) with 0. rewrite Z.pow_0_r, Z.div_1_r. lia.
  - rewrite <- (IH i) by (cbn in Hi; lia). unfold byte_of.
    replace (8 * Z.of_nat (S i)) with (8 + 8 * Z.of_nat i) by lia.
    rewrite Z.pow_add_r by lia. change (2 ^ 8) with 256.
    rewrite <- Z.div_div by lia. f_equal. f_equal. lia.
Qed.
Lemma word_bytes v n : 0 <= v < 256 ^ Z.of_nat n -> word (map (fun i => byte_of v (Z.of_nat i)) (seq 0 n)) = v.
Proof.
  revert v. induction n as [|n IH]; intros v H; [cbn in *; lia|].
  cbn [seq map word]. rewrite <- seq_shift, map_map.
  rewrite (map_ext _ (fun i => byte_of (v / 256) (Z.of_nat i))).
  - rewrite IH.
    + unfold byte_of. change (8 * Z.of_nat 0) with 0. rewrite Z.pow_0_r, Z.div_1_r. lia.
    + rewrite Nat2Z.inj_succ, Z.pow_succ_r in H by lia. set (p := 256 ^ Z.of_nat n) in *.
      split; [apply Z.div_pos; lia|apply Z.div_lt_upper_bound; lia].
  - intros i. unfold byte_of. replace (8 * Z.of_nat (S i)) with (8 + 8 * Z.of_nat i) by lia.
    rewrite Z.pow_add_r by lia. change (2 ^ 8) with 256. rewrite <- Z.div_div by lia. reflexivity.
Qed.

Lemma bytes_from_map f i n : bytes_from f i n = map (fun j => f (i + Z.of_nat j)) (seq 0 n).
Proof.
  revert i. induction n as [|n IH]; intros i; [reflexivity|].
  cbn [bytes_from seq map]. rewrite <- seq_shift, map_map, IH. f_equal; [f_equal; lia|].
  apply map_ext. intros j. f_equal. lia.
Qed.

Section Access.
Variable s : aspace.
Variable fuel : nat.
Variable dev : device.
Variable tr : Z -> Z.
Hypothesis Co : coherent s.
Hypothesis Na : no_alias s.
Hypothesis Pg : pages tr.

Lemma no_alias_resolve a r : 0 <= a < 2 ^ 32 -> search s a = Some r ->
  dispatch_resolve fuel (nodes s) r a = Some (r, a) /\ correct_phys fuel (nodes s) r a = Some (r, a).
Proof.
  intros Ha E. destruct (Na a r Ha E) as (N1 & N2).
  unfold dispatch_resolve, correct_phys. destruct (i_type (r_info r)); try congruence; auto.
Qed.

(** ** The states that are reached *)
Definition same_size (m0 m : hmem) : Prop :=
  h_ram_size m = h_ram_size m0 /\ h_rom_size m = h_rom_size m0.
Definition line_ok (p : Z) (l : line) : Prop :=
  l_page l = tr p /\
  (l_kind l = LSub \/
   r_start (l_reg l) <= tr p * 4096 /\ tr p * 4096 + 4095 <= r_end (l_reg l) /\
   (forall a, tr p * 4096 <= a <= tr p * 4096 + 4095 -> search s a = Some (l_reg l)) /\
   l_kind l = match i_type (r_info (l_reg l)) with ram => LRam | unmapped => LNone | mmio => LMmio | _ => LRom end).
Definition lines_ok (t : Z -> option line) : Prop :=
  forall p l, 0 <= p < 2 ^ 20 -> t p = Some l -> line_ok p l.
Definition inv (m0 : hmem) (x : st) : Prop := same_size m0 (hm x) /\ lines_ok (tlb x).

Lemma page_range va : 0 <= va < 2 ^ 32 -> 0 <= page va < 2 ^ 20.
Proof. unfold page. change (2 ^ 32) with 4294967296. change (2 ^ 20) with 1048576. lia. Qed.
Lemma pa_range va : 0 <= va < 2 ^ 32 -> 0 <= tr (page va) * 4096 + va mod 4096 < 2 ^ 32.
Proof.
  intros H. pose proof (Pg _ (page_range va H)) as P. revert P. generalize (tr (page va)).
  change (2 ^ 32) with 4294967296. change (2 ^ 20) with 1048576. lia.
Qed.
Lemma page_pa va : page (tr (page va) * 4096 + va mod 4096) = tr (page va).
Proof. unfold page at 1. generalize (tr (page va)). lia. Qed.

Definition set_tlb (x : st) (t : Z -> option line) : st := mkst (hm x) (calls x) t.

Lemma fill_spec va x : 0 <= va < 2 ^ 32 -> lines_ok (tlb x) ->
  exists t, fill s fuel tr va x = Ok (tr (page va) * 4096 + va mod 4096, set_tlb x t) /\ lines_ok t.
Proof.
  intros Hva L. pose proof (pa_range va Hva) as Hp. pose proof (page_pa va) as Hq.
  unfold fill. set (pa := tr (page va) * 4096 + va mod 4096) in *.
  destruct (Co pa Hp) as (r & S0 & B0 & B1 & B2 & All).
  rewrite S0. cbn [of_opt bind]. destruct (no_alias_resolve pa r Hp S0) as (_ & ->). cbn [of_opt bind].
  eexists. split; [reflexivity|].
  intros p l Hpp. destruct (p =? page va) eqn:E; [|apply L, Hpp].
  apply Z.eqb_eq in E. subst p. intros [= <-]. split; cbn [l_page l_kind l_reg]; [exact Hq|].
  unfold kind_of, covers_page. rewrite Hq.
  destruct (r_start r <=? tr (page va) * 4096) eqn:E1; [|left; reflexivity].
  destruct (tr (page va) * 4096 + 4095 <=? r_end r) eqn:E2; [|left; reflexivity].
  right. apply Z.leb_le in E1, E2. split; [exact E1|split; [exact E2|split; [|reflexivity]]].
  intros a Ha. apply All. lia.
Qed.

(** ** An access inside one region *)
Lemma index_small r a : 0 <= i_buff_off (r_info r) <= a -> a < 2 ^ 32 -> host_index r a = a - i_buff_off (r_info r).
Proof. intros. unfold host_index. apply Z.mod_small. lia. Qed.

Lemma read_hit_in l va n x r :
  0 <= va < 2 ^ 32 -> 1 <= n -> line_ok (page va) l ->
  search s (tr (page va) * 4096 + va mod 4096) = Some r ->
  tr (page va) * 4096 + va mod 4096 + n - 1 <= r_end r ->
  read_hit s fuel dev l va n x = read_in s dev r (tr (page va) * 4096 + va mod 4096) n x.
Proof.
  intros Hva Hn (Hp & K) S0 Hend. pose proof (pa_range va Hva) as Hpr.
  unfold read_hit. rewrite Hp. set (pa := tr (page va) * 4096 + va mod 4096) in *.
  destruct K as [K|(K1 & K2 & K3 & K4)].
  - rewrite K, S0. cbn [of_opt bind]. unfold dispatch_read.
    destruct (no_alias_resolve pa r Hpr S0) as (-> & _). reflexivity.
  - assert (l_reg l = r) as Er.
    { rewrite K3 in S0; [congruence|]. unfold pa. lia. }
    rewrite Er in *. destruct (Na pa r Hpr S0) as (N1 & N2). unfold read_in.
    rewrite K4. destruct (i_type (r_info r)); try congruence; try reflexivity.
    replace (r_end r <? pa + n - 1) with false by (symmetry; apply Z.ltb_ge; lia). reflexivity.
Qed.
Lemma write_hit_in l va n v x r :
  0 <= va < 2 ^ 32 -> 1 <= n -> line_ok (page va) l ->
  search s (tr (page va) * 4096 + va mod 4096) = Some r ->
  write_hit s fuel l va n v x = write_in r (tr (page va) * 4096 + va mod 4096) n v x.
Proof.
  intros Hva Hn (Hp & K) S0. pose proof (pa_range va Hva) as Hpr.
  unfold write_hit. rewrite Hp. set (pa := tr (page va) * 4096 + va mod 4096) in *.
  destruct K as [K|(K1 & K2 & K3 & K4)].
  - rewrite K, S0. cbn [of_opt bind]. unfold dispatch_write.
    destruct (no_alias_resolve pa r Hpr S0) as (-> & _). reflexivity.
  - assert (l_reg l = r) as Er.
    { rewrite K3 in S0; [congruence|]. unfold pa. lia. }
    rewrite Er in *. destruct (Na pa r Hpr S0) as (N1 & N2). unfold write_in.
    rewrite K4. destruct (i_type (r_info r)); try congruence; reflexivity.
Qed.

Lemma crosses_false va n : in_page va n -> crosses va n = false.
Proof. unfold in_page, crosses, page. intros ->. rewrite Z.eqb_refl. reflexivity. Qed.
Lemma crosses_true va n : ~ in_page va n -> crosses va n = true.
Proof. unfold in_page, crosses, page. intros H. apply negb_true_iff, Z.eqb_neq, H. Qed.

(** In one page and one region, with the line or without it. *)
Lemma mem_read_in h va n x r :
  0 <= va < 2 ^ 32 -> 1 <= n -> lines_ok (tlb x) -> in_page va n ->
  search s (tr (page va) * 4096 + va mod 4096) = Some r ->
  tr (page va) * 4096 + va mod 4096 + n - 1 <= r_end r ->
  exists t, lines_ok t /\
  mem_read s fuel dev tr h va n x = read_in s dev r (tr (page va) * 4096 + va mod 4096) n (set_tlb x t).
Proof.
  intros Hva Hn L Hin S0 Hend.
  assert (exists t, lines_ok t /\ read_slow s fuel dev tr va n x = read_in s dev r (tr (page va) * 4096 + va mod 4096) n (set_tlb x t)) as Slow.
  { destruct (fill_spec va x Hva L) as (t & Ef & Lt). exists t. split; [exact Lt|].
    unfold read_slow. rewrite (crosses_false va n Hin), Ef. cbn [bind]. rewrite S0. cbn [of_opt bind].
    unfold dispatch_read. destruct (no_alias_resolve _ r (pa_range va Hva) S0) as (-> & _). reflexivity. }
  unfold mem_read. destruct (tlb x (page va)) as [l|] eqn:El; [|exact Slow].
  destruct (h && negb (crosses va n)); [|exact Slow].
  exists (tlb x). split; [exact L|].
  rewrite (read_hit_in l va n x r Hva Hn (L _ _ (page_range va Hva) El) S0 Hend).
  destruct x; reflexivity.
Qed.
Lemma mem_write_in h va n v x r :
  0 <= va < 2 ^ 32 -> 1 <= n -> lines_ok (tlb x) -> in_page va n ->
  search s (tr (page va) * 4096 + va mod 4096) = Some r ->
  exists t, lines_ok t /\
  mem_write s fuel tr h va n v x = write_in r (tr (page va) * 4096 + va mod 4096) n v (set_tlb x t).
Proof.
  intros Hva Hn L Hin S0.
  assert (exists t, lines_ok t /\ write_slow s fuel tr va n v x = write_in r (tr (page va) * 4096 + va mod 4096) n v (set_tlb x t)) as Slow.
  { destruct (fill_spec va x Hva L) as (t & Ef & Lt). exists t. split; [exact Lt|].
    unfold write_slow. rewrite (crosses_false va n Hin), Ef. cbn [bind]. rewrite S0. cbn [of_opt bind].
    unfold dispatch_write. destruct (no_alias_resolve _ r (pa_range va Hva) S0) as (-> & _). reflexivity. }
  unfold mem_write. destruct (tlb x (page va)) as [l|] eqn:El; [|exact Slow].
  destruct (h && negb (crosses va n)); [|exact Slow].
  exists (tlb x). split; [exact L|].
  rewrite (write_hit_in l va n v x r Hva Hn (L _ _ (page_range va Hva) El) S0).
  destruct x; reflexivity.
Qed.

(** ** What a region answers *)
Lemma read_in_mem m r a n x :
  backed s m -> same_size m (hm x) -> 0 <= a -> 1 <= n -> search s a = Some r -> a < 2 ^ 32 ->
  a + n - 1 <= r_end r -> device_at s a = None ->
  read_in s dev r a n x = Ok (word (map (fun i => content s (hm x) (a + i)) (upto n)), x).
Proof.
  intros Hb (Z1 & Z2) Ha Hn S0 Ha' Hend D. destruct (Na a r (conj Ha Ha') S0) as (N1 & N2).
  specialize (Hb a r (conj Ha Ha') S0).
  destruct (Co a (conj Ha Ha')) as (r' & S1 & B0 & B1 & B2 & All).
  assert (r' = r) as -> by congruence.
  unfold device_at in D. rewrite S0 in D.
  assert (forall i, 0 <= i < n -> search s (a + i) = Some r) as Si by (intros; apply All; lia).
  unfold read_in, upto. rewrite map_map.
  destruct (i_type (r_info r)) eqn:T; try congruence.
  - do 2 f_equal. rewrite (map_ext_in _ (fun _ => 0)).
    + generalize 0%nat. induction (Z.to_nat n) as [|k IH]; intros k0; [reflexivity|]. cbn [seq map word]. rewrite <- IH. lia.
    + intros j Hj. apply in_seq in Hj. unfold content. rewrite Si by lia. rewrite T. reflexivity.
  - destruct Hb as (H1 & H2). unfold host_read. rewrite T, (index_small r a) by lia.
    replace (a - i_buff_off (r_info r) + n <=? h_ram_size (hm x)) with true by (symmetry; apply Z.leb_le; lia).
    cbn [of_opt bind]. rewrite bytes_from_map. do 3 f_equal. apply map_ext_in.
    intros j Hj. apply in_seq in Hj. unfold content. rewrite Si by lia. rewrite T. f_equal. lia.
  - destruct Hb as (H1 & H2).
    replace (r_end r <? a + n - 1) with false by (symmetry; apply Z.ltb_ge; lia).
    unfold host_read. rewrite T, (index_small r a) by lia. rewrite Z2.
    replace (a - i_buff_off (r_info r) + n <=? h_rom_size m (i_rom_ptr (r_info r))) with true by (symmetry; apply Z.leb_le; lia).
    cbn [of_opt bind]. rewrite bytes_from_map. do 3 f_equal. apply map_ext_in.
    intros j Hj. apply in_seq in Hj. unfold content. rewrite Si by lia. rewrite T. f_equal. lia.
Qed.
Lemma read_in_dev r a n x h o :
  search s a = Some r -> device_at s a = Some (h, o) -> handled n = true ->
  read_in s dev r a n x = Ok (call_read dev h o a n x).
Proof.
  intros S0 D Hh. unfold device_at in D. rewrite S0 in D. unfold read_in.
  destruct (i_type (r_info r)); try discriminate. rewrite Hh. congruence.
Qed.

(** a store of a byte changes nothing but one byte of ram *)
Lemma stored_sizes m a b : same_size m (stored s m a b).
Proof.
  unfold stored. destruct (search s a) as [r|]; [|split; reflexivity].
  destruct (i_type (r_info r)); split; reflexivity.
Qed.

Lemma write_in_dev r a n v x h o :
  search s a = Some r -> device_at s a = Some (h, o) -> handled n = true ->
  write_in r a n v x = Ok (call_write h o a n v x).
Proof.
  intros S0 D Hh. unfold device_at in D. rewrite S0 in D. unfold write_in.
  destruct (i_type (r_info r)); try discriminate. rewrite Hh. congruence.
Qed.
Lemma write_in_mem m r a n v x :
  backed s m -> same_size m (hm x) -> 0 <= a -> 1 <= n -> search s a = Some r -> a < 2 ^ 32 ->
  a + n - 1 <= r_end r -> device_at s a = None ->
  exists m', write_in r a n v x = Ok (mkst m' (calls x) (tlb x)) /\ same_size (hm x) m' /\ h_rom m' = h_rom (hm x) /\
    forall j, h_ram m' j =
      (if match i_type (r_info r) with ram => true | _ => false end &&
          ((a - i_buff_off (r_info r) <=? j) && (j <? a - i_buff_off (r_info r) + n))
       then byte_of v (j - (a - i_buff_off (r_info r))) else h_ram (hm x) j).
Proof.
  intros Hb (Z1 & Z2) Ha Hn S0 Ha' Hend D. destruct (Na a r (conj Ha Ha') S0) as (N1 & N2).
  specialize (Hb a r (conj Ha Ha') S0).
  destruct (Co a (conj Ha Ha')) as (r' & S1 & B0 & B1 & B2 & All).
  assert (r' = r) as -> by congruence.
  unfold device_at in D. rewrite S0 in D. unfold write_in.
  destruct (i_type (r_info r)) eqn:T; try congruence.
  - exists (hm x). destruct x; split; [reflexivity|split; [split; reflexivity|split; [reflexivity|reflexivity]]].
  - destruct Hb as (H1 & H2). unfold host_write. rewrite T, (index_small r a) by lia.
    replace (a - i_buff_off (r_info r) + n <=? h_ram_size (hm x)) with true by (symmetry; apply Z.leb_le; lia).
    cbn [of_opt bind]. eexists. split; [reflexivity|]. split; [split; reflexivity|]. split; [reflexivity|].
    intros j. reflexivity.
  - exists (hm x). destruct x; split; [reflexivity|split; [split; reflexivity|split; [reflexivity|reflexivity]]].
Qed.

(** ** Byte by byte *)
Lemma read_bytes_spec m left a2 (A : Z -> Z) n :
  backed s m -> (forall j, 0 <= j < n -> 0 <= A j < 2 ^ 32) ->
  (forall j, 0 <= j -> j + 1 < n -> A (j + 1) = if j + 1 =? left then a2 else A j + 1) ->
  forall k i x, 0 <= i -> i + Z.of_nat k = n -> same_size m (hm x) ->
  forall a, (k <> 0%nat -> a = A i) ->
  exists bs c, each_read s dev (hm x) (map (fun j => A (i + Z.of_nat j)) (seq 0 k)) (calls x) = (bs, c) /\
  read_bytes s fuel dev k a left a2 i x = Ok (2 ^ (8 * i) * word bs, mkst (hm x) c (tlb x)).
Proof.
  intros Hb HA Hs. induction k as [|k IH]; intros i x Hi Hk Hz a Ea.
  - exists [], (calls x). split; [reflexivity|]. cbn [read_bytes word]. rewrite Z.mul_0_r. destruct x; reflexivity.
  - rewrite Ea by discriminate. cbn [seq map]. rewrite <- seq_shift, map_map.
    rewrite (map_ext _ (fun j => A (i + 1 + Z.of_nat j))) by (intros; f_equal; lia).
    rewrite Z.add_0_r. cbn [each_read read_bytes].
    assert (0 <= A i < 2 ^ 32) as Hr by (apply HA; lia).
    destruct (Co (A i) Hr) as (r & S0 & B0 & B1 & B2 & _). rewrite S0. cbn [of_opt bind].
    unfold dispatch_read. destruct (no_alias_resolve _ r Hr S0) as (-> & _). cbn [of_opt bind].
    destruct (device_at s (A i)) as [(h, o)|] eqn:D.
    + rewrite (read_in_dev r (A i) 1 x h o S0 D eq_refl). cbn [bind call_read].
      set (x1 := mkst (hm x) (calls x ++ [DRead h o (A i) 1]) (tlb x)).
      destruct (IH (i + 1) x1) with (a := if i + 1 =? left then a2 else A i + 1) as (bs & c & E1 & E2);
        [lia|lia|exact Hz|intros K; symmetry; apply Hs; lia|].
      cbn [hm calls x1] in E1. rewrite E1. unfold call_read. fold x1. rewrite E2. cbn [bind].
      eexists _, c. split; [reflexivity|]. cbn [word hm tlb x1].
      change (2 ^ (8 * 1)) with 256. replace (8 * (i + 1)) with (8 * i + 8) by lia.
      rewrite Z.pow_add_r by lia. change (2 ^ 8) with 256.
      generalize (2 ^ (8 * i)) (dev (calls x) h o (A i) 1 mod 256) (word bs). intros. do 2 f_equal. ring.
    + rewrite (read_in_mem m r (A i) 1 x Hb Hz) by (auto; lia). cbn [bind].
      destruct (IH (i + 1) x) with (a := if i + 1 =? left then a2 else A i + 1) as (bs & c & E1 & E2);
        [lia|lia|exact Hz|intros K; symmetry; apply Hs; lia|].
      rewrite E1, E2. cbn [bind]. eexists _, c. split; [reflexivity|].
      change (upto 1) with [0]. cbn [map word]. rewrite !Z.add_0_r.
      replace (8 * (i + 1)) with (8 * i + 8) by lia.
      rewrite Z.pow_add_r by lia. change (2 ^ 8) with 256.
      generalize (2 ^ (8 * i)) (content s (hm x) (A i)) (word bs). intros. do 2 f_equal. ring.
Qed.

Lemma same_mem_refl m : same_mem m m.
Proof. repeat split. Qed.
Lemma stored_same m m' a b : same_mem m m' -> same_mem (stored s m a b) (stored s m' a b).
Proof.
  intros (H1 & H2 & H3 & H4). unfold stored.
  destruct (search s a) as [r|]; [|exact (conj H1 (conj H2 (conj H3 H4)))].
  destruct (i_type (r_info r)); try exact (conj H1 (conj H2 (conj H3 H4))).
  split; [|exact (conj H2 (conj H3 H4))]. intros j. cbn [set_ram h_ram]. rewrite H1. reflexivity.
Qed.
Lemma each_write_same l : forall m m' c m1 c1 m2 c2, same_mem m m' ->
  each_write s m l c = (m1, c1) -> each_write s m' l c = (m2, c2) -> same_mem m1 m2 /\ c1 = c2.
Proof.
  induction l as [|(a, b) l IH]; intros m m' c m1 c1 m2 c2 Hm E1 E2; cbn [each_write] in *.
  - inversion E1. inversion E2. subst. auto.
  - destruct (device_at s a) as [(h, o)|]; [exact (IH _ _ _ _ _ _ _ Hm E1 E2)|].
    exact (IH _ _ _ _ _ _ _ (stored_same _ _ a b Hm) E1 E2).
Qed.

Lemma write_bytes_spec m left a2 v (A : Z -> Z) n :
  backed s m -> (forall j, 0 <= j < n -> 0 <= A j < 2 ^ 32) ->
  (forall j, 0 <= j -> j + 1 < n -> A (j + 1) = if j + 1 =? left then a2 else A j + 1) ->
  forall k i x, 0 <= i -> i + Z.of_nat k = n -> same_size m (hm x) ->
  forall a, (k <> 0%nat -> a = A i) ->
  exists m' m'' c, each_write s (hm x) (map (fun j => (A (i + Z.of_nat j), byte_of v (i + Z.of_nat j))) (seq 0 k)) (calls x) = (m'', c) /\
  write_bytes s fuel k a left a2 i v x = Ok (mkst m' c (tlb x)) /\ same_mem m' m'' /\ same_size m m'.
Proof.
  intros Hb HA Hs. induction k as [|k IH]; intros i x Hi Hk Hz a Ea.
  - exists (hm x), (hm x), (calls x). split; [reflexivity|]. cbn [write_bytes]. destruct x.
    split; [reflexivity|]. split; [apply same_mem_refl|exact Hz].
  - rewrite Ea by discriminate. cbn [seq map]. rewrite <- seq_shift, map_map.
    rewrite (map_ext _ (fun j => (A (i + 1 + Z.of_nat j), byte_of v (i + 1 + Z.of_nat j)))) by (intros; f_equal; f_equal; lia).
    rewrite Z.add_0_r. cbn [each_write write_bytes].
    assert (0 <= A i < 2 ^ 32) as Hr by (apply HA; lia).
    destruct (Co (A i) Hr) as (r & S0 & B0 & B1 & B2 & _). rewrite S0. cbn [of_opt bind].
    unfold dispatch_write. destruct (no_alias_resolve _ r Hr S0) as (-> & _). cbn [of_opt bind].
    destruct (device_at s (A i)) as [(h, o)|] eqn:D.
    + rewrite (write_in_dev r (A i) 1 _ x h o S0 D eq_refl). cbn [bind]. unfold call_write.
      set (x1 := mkst (hm x) (calls x ++ [DWrite h o (A i) 1 (byte_of v i)]) (tlb x)).
      destruct (IH (i + 1) x1) with (a := if i + 1 =? left then a2 else A i + 1) as (m' & m'' & c & E1 & E2 & E3 & E4);
        [lia|lia|exact Hz|intros K; symmetry; apply Hs; lia|].
      exists m', m'', c. split; [exact E1|]. split; [exact E2|]. split; [exact E3|exact E4].
    + destruct (write_in_mem m r (A i) 1 (byte_of v i) x Hb Hz) as (m1 & Ew & (Y1 & Y2) & Y3 & Y4); try (auto; lia).
      rewrite Ew. cbn [bind].
      set (x1 := mkst m1 (calls x) (tlb x)).
      destruct (IH (i + 1) x1) with (a := if i + 1 =? left then a2 else A i + 1) as (m' & m'' & c & E1 & E2 & E3 & E4);
        [lia|lia|destruct Hz as (Z1 & Z2); split; cbn [hm x1]; congruence|intros K; symmetry; apply Hs; lia|].
      assert (same_mem m1 (stored s (hm x) (A i) (byte_of v i))) as Sm.
      { split; [|split; [|split]].
        - intros j. rewrite Y4. unfold stored. rewrite S0.
          destruct (i_type (r_info r)); cbn [andb set_ram h_ram]; try reflexivity.
          destruct (j =? A i - i_buff_off (r_info r)) eqn:Ej.
          + apply Z.eqb_eq in Ej. subst j.
            rewrite (proj2 (Z.leb_le _ _)), (proj2 (Z.ltb_lt _ _)) by lia. cbn [andb].
            unfold byte_of. rewrite Z.sub_diag. change (8 * 0) with 0. rewrite Z.pow_0_r, Z.div_1_r, Z.mod_mod by lia. reflexivity.
          + apply Z.eqb_neq in Ej.
            destruct (A i - i_buff_off (r_info r) <=? j) eqn:L1; [|reflexivity].
            destruct (j <? A i - i_buff_off (r_info r) + 1) eqn:L2; [|reflexivity].
            apply Z.leb_le in L1. apply Z.ltb_lt in L2. lia.
        - rewrite (proj1 (stored_sizes (hm x) (A i) (byte_of v i))). exact Y1.
        - unfold stored. rewrite S0. destruct (i_type (r_info r)); exact Y3.
        - rewrite (proj2 (stored_sizes (hm x) (A i) (byte_of v i))). exact Y2. }
      destruct (each_write s (stored s (hm x) (A i) (byte_of v i))
        (map (fun j => (A (i + 1 + Z.of_nat j), byte_of v (i + 1 + Z.of_nat j))) (seq 0 k)) (calls x)) as (m3, c3) eqn:E5.
      cbn [hm calls x1] in E1.
      destruct (each_write_same _ _ _ _ _ _ _ _ Sm E1 E5) as (Sm2 & <-).
      exists m', m3, c. split; [reflexivity|]. split; [exact E2|]. split; [|exact E4].
      destruct E3 as (q1 & q2 & q3 & q4), Sm2 as (w1 & w2 & w3 & w4).
      split; [intros j; rewrite q1; apply w1|]. split; [congruence|split; congruence].
Qed.

(** ** Addresses of a crossing access *)
Lemma phys_first va : 0 <= va < 2 ^ 32 -> phys tr va 0 = tr (page va) * 4096 + va mod 4096.
Proof. intros H. unfold phys. rewrite Z.add_0_r, Z.mod_small by lia. reflexivity. Qed.
Lemma phys_range va i : 0 <= phys tr va i < 2 ^ 32.
Proof.
  unfold phys. assert (0 <= (va + i) mod 2 ^ 32 < 2 ^ 32) as H by (apply Z.mod_pos_bound; lia).
  apply (pa_range _ H).
Qed.
Lemma phys_step va n j :
  0 <= va < 2 ^ 32 -> 1 <= n <= 4096 -> ~ in_page va n -> 0 <= j -> j + 1 < n ->
  phys tr va (j + 1) = if j + 1 =? page (va + n - 1) * 4096 - va
                       then page (tr (page ((va + n - 1) mod 2 ^ 32)) * 4096 + ((va + n - 1) mod 2 ^ 32) mod 4096) * 4096
                       else phys tr va j + 1.
Proof.
  intros Hva Hn Hc Hj Hj2. rewrite page_pa. unfold phys, page, in_page in *.
  change (2 ^ 32) with 4294967296 in *.
  destruct (j + 1 =? (va + n - 1) / 4096 * 4096 - va) eqn:E.
  - apply Z.eqb_eq in E.
    assert (((va + (j + 1)) mod 4294967296) mod 4096 = 0) as -> by lia.
    assert ((va + (j + 1)) mod 4294967296 / 4096 = (va + n - 1) mod 4294967296 / 4096) as -> by lia. lia.
  - apply Z.eqb_neq in E.
    assert ((va + (j + 1)) mod 4294967296 / 4096 = (va + j) mod 4294967296 / 4096) as -> by lia.
    assert (((va + (j + 1)) mod 4294967296) mod 4096 = ((va + j) mod 4294967296) mod 4096 + 1) as -> by lia. lia.
Qed.

Lemma mem_read_cross m h va n x :
  backed s m -> inv m x -> 0 <= va < 2 ^ 32 -> 1 <= n <= 4096 -> ~ in_page va n ->
  exists bs c t, each_read s dev (hm x) (map (phys tr va) (upto n)) (calls x) = (bs, c) /\ lines_ok t /\
  mem_read s fuel dev tr h va n x = Ok (word bs, mkst (hm x) c t).
Proof.
  intros Hb (Hz & L) Hva Hn Hc.
  assert (mem_read s fuel dev tr h va n x = read_slow s fuel dev tr va n x) as ->.
  { unfold mem_read. rewrite (crosses_true va n Hc). cbn [negb]. rewrite andb_false_r. destruct (tlb x (page va)); reflexivity. }
  unfold read_slow. rewrite (crosses_true va n Hc).
  destruct (fill_spec va x Hva L) as (t1 & E1 & L1). rewrite E1. cbn [bind].
  assert (0 <= (va + n - 1) mod 2 ^ 32 < 2 ^ 32) as Hl by (apply Z.mod_pos_bound; lia).
  destruct (fill_spec _ (set_tlb x t1) Hl L1) as (t2 & E2 & L2). rewrite E2. cbn [bind].
  set (x2 := set_tlb (set_tlb x t1) t2).
  destruct (read_bytes_spec m (page (va + n - 1) * 4096 - va)
    (page (tr (page ((va + n - 1) mod 2 ^ 32)) * 4096 + ((va + n - 1) mod 2 ^ 32) mod 4096) * 4096)
    (phys tr va) n Hb (fun j _ => phys_range va j) (fun j => phys_step va n j Hva Hn Hc)
    (Z.to_nat n) 0 x2) with (a := tr (page va) * 4096 + va mod 4096) as (bs & c & E3 & E4);
    [lia|lia|exact Hz|intros _; symmetry; apply phys_first, Hva|].
  exists bs, c, t2. split.
  - unfold upto. rewrite map_map. exact E3.
  - split; [exact L2|]. rewrite E4. change (8 * 0) with 0. rewrite Z.pow_0_r, Z.mul_1_l. reflexivity.
Qed.
Lemma mem_write_cross m h va n v x :
  backed s m -> inv m x -> 0 <= va < 2 ^ 32 -> 1 <= n <= 4096 -> ~ in_page va n ->
  exists m' m'' c t, each_write s (hm x) (map (fun i => (phys tr va i, byte_of v i)) (upto n)) (calls x) = (m'', c) /\ lines_ok t /\
  mem_write s fuel tr h va n v x = Ok (mkst m' c t) /\ same_mem m' m'' /\ same_size m m'.
Proof.
  intros Hb (Hz & L) Hva Hn Hc.
  assert (mem_write s fuel tr h va n v x = write_slow s fuel tr va n v x) as ->.
  { unfold mem_write. rewrite (crosses_true va n Hc). cbn [negb]. rewrite andb_false_r. destruct (tlb x (page va)); reflexivity. }
  unfold write_slow. rewrite (crosses_true va n Hc).
  destruct (fill_spec va x Hva L) as (t1 & E1 & L1). rewrite E1. cbn [bind].
  assert (0 <= (va + n - 1) mod 2 ^ 32 < 2 ^ 32) as Hl by (apply Z.mod_pos_bound; lia).
  destruct (fill_spec _ (set_tlb x t1) Hl L1) as (t2 & E2 & L2). rewrite E2. cbn [bind].
  set (x2 := set_tlb (set_tlb x t1) t2).
  destruct (write_bytes_spec m (page (va + n - 1) * 4096 - va)
    (page (tr (page ((va + n - 1) mod 2 ^ 32)) * 4096 + ((va + n - 1) mod 2 ^ 32) mod 4096) * 4096) v
    (phys tr va) n Hb (fun j _ => phys_range va j) (fun j => phys_step va n j Hva Hn Hc)
    (Z.to_nat n) 0 x2) with (a := tr (page va) * 4096 + va mod 4096) as (m' & m'' & c & E3 & E4 & E5 & E6);
    [lia|lia|exact Hz|intros _; symmetry; apply phys_first, Hva|].
  exists m', m'', c, t2. split.
  - unfold upto. rewrite map_map. exact E3.
  - split; [exact L2|]. split; [exact E4|]. split; [exact E5|exact E6].
Qed.

(** ** Any history keeps the lines right *)
Lemma read_in_keeps r a n x v y : read_in s dev r a n x = Ok (v, y) -> hm y = hm x /\ tlb y = tlb x.
Proof.
  unfold read_in. destruct (i_type (r_info r)); try discriminate.
  - intros [= _ <-]. auto.
  - destruct (host_read _ _ _ _); cbn [of_opt bind]; [|discriminate]. intros H. assert (y = x) by congruence. subst; auto.
  - destruct (handled n); [|discriminate]. intros H. unfold call_read in H.
    assert (y = mkst (hm x) (calls x ++ [DRead (i_handlers (r_info r)) (i_opaque (r_info r)) a n]) (tlb x)) by congruence.
    subst; auto.
  - destruct (r_end r <? a + n - 1).
    + destruct (rom_loop _ _ _ _ _); cbn [bind]; try discriminate. intros H. assert (y = x) by congruence. subst; auto.
    + destruct (host_read _ _ _ _); cbn [of_opt bind]; [|discriminate]. intros H. assert (y = x) by congruence. subst; auto.
Qed.
Lemma write_in_keeps r a n v x y : write_in r a n v x = Ok y -> same_size (hm x) (hm y) /\ tlb y = tlb x.
Proof.
  assert (same_size (hm x) (hm x)) as Rf by (split; reflexivity).
  unfold write_in. destruct (i_type (r_info r)) eqn:T; try discriminate.
  - intros [= <-]. auto.
  - unfold host_write. rewrite T. destruct (_ <=? _); cbn [of_opt bind]; [|discriminate].
    intros H. assert (exists f, y = mkst (set_ram (hm x) f) (calls x) (tlb x)) as (f & ->) by (eexists; symmetry; injection H as H; exact H).
    split; [split; reflexivity|reflexivity].
  - destruct (handled n); [|discriminate]. intros H. assert (y = call_write (i_handlers (r_info r)) (i_opaque (r_info r)) a n v x) by congruence.
    subst. split; [split; reflexivity|reflexivity].
  - intros [= <-]. auto.
Qed.

(** the events the guest can cause *)
Definition ev_ok (e : ev) : Prop :=
  match e with
  | Read _ va n => 0 <= va < 2 ^ 32 /\ size n
  | Write _ va n _ => 0 <= va < 2 ^ 32 /\ size n
  | Drop _ => True
  end.

Lemma in_page_dec va n : in_page va n \/ ~ in_page va n.
Proof. unfold in_page. lia. Qed.

Lemma mem_read_keeps m h va n x v y :
  backed s m -> inv m x -> 0 <= va < 2 ^ 32 -> size n -> mem_read s fuel dev tr h va n x = Ok (v, y) ->
  hm y = hm x /\ inv m y.
Proof.
  intros Hb I Hva Hn E. apply size_range in Hn. destruct (in_page_dec va n) as [Hp|Hp].
  - assert (forall r a n x z, read_in s dev r a n x = Ok (v, z) -> inv m x -> hm z = hm x /\ inv m z) as K.
    { intros r a n0 x0 z E0 (I1 & I2). destruct (read_in_keeps r a n0 x0 v z E0) as (K1 & K2).
      split; [exact K1|]. unfold inv. rewrite K1, K2. auto. }
    assert (read_slow s fuel dev tr va n x = Ok (v, y) -> hm y = hm x /\ inv m y) as Slow.
    { unfold read_slow. rewrite (crosses_false va n Hp).
      destruct (fill_spec va x Hva (proj2 I)) as (t & -> & Lt). cbn [bind].
      destruct (Co _ (pa_range va Hva)) as (r & S0 & _). rewrite S0. cbn [of_opt bind]. unfold dispatch_read.
      destruct (no_alias_resolve _ r (pa_range va Hva) S0) as (-> & _). cbn [of_opt bind].
      intros E1. apply (K _ _ _ _ _ E1). split; [exact (proj1 I)|exact Lt]. }
    unfold mem_read in E. destruct (tlb x (page va)) as [l|] eqn:El; [|auto].
    destruct (h && negb (crosses va n)); [|auto].
    destruct (proj2 I _ _ (page_range va Hva) El) as (Hl & _).
    unfold read_hit in E. rewrite Hl in E. destruct (l_kind l).
    + destruct (host_read _ _ _ _); cbn [of_opt bind] in E; [|discriminate]. assert (y = x) by congruence. subst; auto.
    + destruct (host_read _ _ _ _); cbn [of_opt bind] in E; [|discriminate]. assert (y = x) by congruence. subst; auto.
    + destruct (handled n); [|discriminate].
      set (pa := tr (page va) * 4096 + va mod 4096) in *.
      unfold call_read in E.
      assert (y = mkst (hm x) (calls x ++ [DRead (i_handlers (r_info (l_reg l))) (i_opaque (r_info (l_reg l))) pa n]) (tlb x)) by congruence.
      subst y. split; [reflexivity|exact I].
    + destruct (Co _ (pa_range va Hva)) as (r & S0 & _). rewrite S0 in E. cbn [of_opt bind] in E. unfold dispatch_read in E.
      destruct (no_alias_resolve _ r (pa_range va Hva) S0) as (Q & _). rewrite Q in E. cbn [of_opt bind] in E.
      exact (K _ _ _ _ _ E I).
    + assert (y = x) by congruence. subst; auto.
  - destruct (mem_read_cross m h va n x Hb I Hva) as (bs & c & t & _ & Lt & E2); [lia|exact Hp|].
    assert (y = mkst (hm x) c t) by congruence. subst y. split; [reflexivity|]. split; [exact (proj1 I)|exact Lt].
Qed.
Lemma mem_write_keeps m h va n v x y :
  backed s m -> inv m x -> 0 <= va < 2 ^ 32 -> size n -> mem_write s fuel tr h va n v x = Ok y -> inv m y.
Proof.
  intros Hb I Hva Hn E. apply size_range in Hn. destruct (in_page_dec va n) as [Hp|Hp].
  - destruct (Co _ (pa_range va Hva)) as (r & S0 & _).
    destruct (mem_write_in h va n v x r Hva ltac:(lia) (proj2 I) Hp S0) as (t & Lt & E1).
    rewrite E1 in E. apply write_in_keeps in E. destruct E as ((K1 & K2) & K3).
    destruct I as ((I1 & I2) & _). cbn [hm set_tlb tlb] in *.
    split; [split; congruence|]. rewrite K3. exact Lt.
  - destruct (mem_write_cross m h va n v x Hb I Hva) as (m' & m'' & c & t & _ & Lt & E2 & _ & Sz); [lia|exact Hp|].
    assert (y = mkst m' c t) by congruence. subst y. split; [exact Sz|exact Lt].
Qed.
Lemma run_inv m l : backed s m -> Forall ev_ok l -> forall x y, inv m x -> run s fuel dev tr x l = Ok y -> inv m y.
Proof.
  intros Hb F. induction F as [|e l H F IH]; intros x y I E; cbn [run] in E; [congruence|].
  destruct (step s fuel dev tr x e) as [z| |] eqn:Es; cbn [bind] in E; try discriminate.
  apply (IH z y); [|exact E]. destruct e as [h va n|h va n v|p]; cbn [step ev_ok] in *.
  - destruct (mem_read s fuel dev tr h va n x) as [(v, w)| |] eqn:Em; cbn [bind] in Es; try discriminate.
    assert (z = w) by congruence. subst w.
    exact (proj2 (mem_read_keeps m h va n x v z Hb I (proj1 H) (proj2 H) Em)).
  - exact (mem_write_keeps m h va n v x z Hb I (proj1 H) (proj2 H) Es).
  - assert (z = mkst (hm x) (calls x) (fun q => if q =? p then None else tlb x q)) by congruence. subst z.
    split; [exact (proj1 I)|]. intros q l0 Hq. cbn [tlb]. destruct (q =? p); [discriminate|]. apply (proj2 I), Hq.
Qed.
Lemma init_inv m : inv m (init m).
Proof. split; [split; reflexivity|]. intros p l _. discriminate. Qed.
End Access.
