(** Lemmas behind the theorems of BlockProps. *)
From Coq Require Import ZArith List Bool Lia.
From Verif Require Import AddrSpaceModel AddrSpaceSpec AddrSpaceProofs RegionApiProofs BlockModel BlockSpec.
Import ListNotations.
Open Scope Z_scope.

Ltac Zify.zify_post_hook ::= Z.to_euclidean_division_equations.

Lemma api_coherent g cs s oks :
  unit_ok g -> Forall (call_ok g) cs -> api_run (as_create MEM_MAX) cs = Some (s, oks) -> coherent s.
Proof.
  intros Hu H E. pose proof (proj1 (api_reach g cs s oks Hu H E)) as I.
  intros a Ha. destruct (locate MEM_MAX s a (proj1 I)) as (l1 & n & l2 & En & _ & _ & B & _ & Gi);
    [unfold MEM_MAX; lia|].
  assert (In n (nodes s)) as In_ by (rewrite En; apply in_or_app; right; left; reflexivity).
  pose proof (seg_bounds _ _ _ (proj1 I)) as Bn. rewrite Forall_forall in Bn. specialize (Bn n In_).
  unfold MEM_MAX in Bn.
  exists (n_reg n). unfold rs, re in *. split; [unfold search; rewrite Gi; reflexivity|].
  split; [lia|]. split; [exact B|]. split; [lia|].
  intros b Hb. apply search_in; auto.
Qed.

(** The cell of a byte of region [r] at index [i]. *)
Definition host_cell (r : region) (i : Z) : cell :=
  match i_type (r_info r) with
  | rom => CellRom (i_rom_ptr (r_info r)) i
  | _ => CellRam i
  end.

Lemma idx_step x b j : 0 <= j -> (x - b) mod 2 ^ 32 + j < 2 ^ 32 ->
  ((x + j) - b) mod 2 ^ 32 = (x - b) mod 2 ^ 32 + j.
Proof.
  intros Hj H. replace (x + j - b) with (x - b + j) by lia.
  rewrite <- Z.add_mod_idemp_l by lia. apply Z.mod_small.
  pose proof (Z.mod_pos_bound (x - b) (2 ^ 32)). lia.
Qed.

Lemma chunk_type fuel s p n r q :
  chunk fuel s p n = Some (WHost r q) -> i_type (r_info r) = ram \/ i_type (r_info r) = rom.
Proof.
  unfold chunk. destruct (search s p) as [r0|]; [|discriminate].
  destruct (inside r0 p n); [|discriminate].
  destruct (i_type (r_info r0)) eqn:T; try discriminate.
  - intros [= <- <-]. auto.
  - destruct (resolve_loop _ _ _ _) as [[r1 o]|]; [|discriminate].
    destruct (inside r1 _ n); [|discriminate].
    destruct (i_type (r_info r1)) eqn:T1; try discriminate; intros [= <- <-]; auto.
  - intros [= <- <-]. auto.
Qed.

Lemma chunk_cells fuel s p n r q j :
  coherent s -> 0 <= p < 2 ^ 32 -> p mod 4096 + n <= 4096 -> 0 <= j < n ->
  chunk fuel s p n = Some (WHost r q) -> host_index r q + n <= 2 ^ 32 ->
  cell_of fuel s (p + j) = Some (host_cell r (host_index r q + j)).
Proof.
  intros C Hp Hn Hj E Hi. unfold chunk in E.
  destruct (C p Hp) as (r0 & S0 & B0 & B1 & B2 & All). rewrite S0 in E.
  destruct (inside r0 p n) eqn:In0; [|discriminate].
  unfold inside in In0. apply andb_prop in In0 as [_ In0]. apply Z.leb_le in In0.
  rewrite Z.mod_small in In0 by lia.
  assert (search s (p + j) = Some r0) as Sj by (apply All; lia).
  unfold cell_of, dispatch, dispatch_resolve. rewrite Sj.
  destruct (i_type (r_info r0)) eqn:T; try discriminate.
  - assert (r0 = r /\ p = q) as [<- <-] by (injection E as -> ->; auto).
    rewrite T. unfold host_cell, host_index in *. rewrite T. f_equal. f_equal. apply idx_step; lia.
  - destruct (resolve_loop _ _ _ _) as [[r1 o]|] eqn:R; [|discriminate].
    destruct (inside r1 _ n); [|discriminate].
    assert (r1 = r /\ (r_start r1 + o + (p - r_start r0)) mod 2 ^ 32 = q /\ (i_type (r_info r1) = ram \/ i_type (r_info r1) = rom)) as (<- & <- & T1).
    { destruct (i_type (r_info r1)) eqn:T1; try discriminate; (split; [congruence|split; [congruence|auto]]). }
    unfold host_cell, host_index in *. rewrite Zminus_mod_idemp_l in Hi. rewrite !Zminus_mod_idemp_l.
    replace (r_start r1 + o + (p + j - r_start r0)) with (r_start r1 + o + (p - r_start r0) + j) by lia.
    rewrite idx_step by lia.
    destruct T1 as [-> | ->]; reflexivity.
  - assert (r0 = r /\ p = q) as [<- <-] by (injection E as -> ->; auto).
    rewrite T. unfold host_cell, host_index in *. rewrite T. f_equal. f_equal. apply idx_step; lia.
Qed.

Lemma bytes_from_length f n : forall i, length (bytes_from f i n) = n.
Proof. induction n; intros; cbn; auto. Qed.

Lemma bytes_from_nth f n : forall i j, (j < n)%nat -> nth j (bytes_from f i n) 0 = f (i + Z.of_nat j).
Proof.
  induction n as [|n IH]; intros i j H; [lia|]. cbn [bytes_from]. destruct j; cbn [nth].
  - f_equal. lia.
  - rewrite IH by lia. f_equal. lia.
Qed.

Lemma host_read_spec m r p n bs :
  sized m -> i_type (r_info r) = ram \/ i_type (r_info r) = rom -> 0 <= n ->
  host_read m r p n = Some bs ->
  host_index r p + n <= 2 ^ 32 /\ length bs = Z.to_nat n /\
  forall j, 0 <= j < n -> nth (Z.to_nat j) bs 0 = peek m (host_cell r (host_index r p + j)).
Proof.
  intros (S1 & S2) T Hn H. unfold host_read, host_cell in *. destruct T as [T|T]; rewrite T in *.
  - destruct (host_index r p + n <=? h_ram_size m) eqn:L; [|discriminate].
    apply Z.leb_le in L. assert (bs = bytes_from (h_ram m) (host_index r p) (Z.to_nat n)) as -> by congruence.
    split; [lia|]. rewrite bytes_from_length. split; [reflexivity|].
    intros j Hj. rewrite bytes_from_nth by lia. rewrite Z2Nat.id by lia. reflexivity.
  - destruct (host_index r p + n <=? _) eqn:L; [|discriminate].
    apply Z.leb_le in L. specialize (S2 (i_rom_ptr (r_info r))).
    assert (bs = bytes_from (h_rom m (i_rom_ptr (r_info r))) (host_index r p) (Z.to_nat n)) as -> by congruence.
    split; [lia|]. rewrite bytes_from_length. split; [reflexivity|].
    intros j Hj. rewrite bytes_from_nth by lia. rewrite Z2Nat.id by lia. reflexivity.
Qed.

Lemma addr_step addr vec n : ((addr + vec) mod 2 ^ 32 + n) mod 2 ^ 32 = (addr + (vec + n)) mod 2 ^ 32.
Proof. rewrite Zplus_mod_idemp_l. f_equal. lia. Qed.

(** The chunk that starts at offset [vec] of the request. *)
Lemma piece_bounds (addr size vec po : Z) :
  0 <= vec < size -> po = (addr + vec) mod 4096 ->
  0 < Z.min (4096 - po) (size - vec) /\ Z.min (4096 - po) (size - vec) <= 4096 - po /\
  0 <= po < 4096.
Proof. intros. pose proof (Z.mod_pos_bound (addr + vec) 4096). lia. Qed.

Lemma mod_page x : (x mod 2 ^ 32) mod 4096 = x mod 4096.
Proof. change (2 ^ 32) with 4294967296. lia. Qed.

Lemma next_page (addr vec size po n : Z) :
  po = (addr + vec) mod 4096 -> n = Z.min (4096 - po) (size - vec) -> 0 < size - (vec + n) ->
  0 = (addr + (vec + n)) mod 4096.
Proof.
  intros -> -> H. pose proof (Z.mod_pos_bound (addr + vec) 4096).
  assert (Z.min (4096 - (addr + vec) mod 4096) (size - vec) = 4096 - (addr + vec) mod 4096) as -> by lia.
  replace (addr + (vec + (4096 - (addr + vec) mod 4096))) with ((addr + vec - (addr + vec) mod 4096) + 1 * 4096) by lia.
  rewrite Z.mod_add by lia. rewrite Zminus_mod_idemp_r. rewrite Z.sub_diag. reflexivity.
Qed.

(** Bytes of the chunk at [vec], found by address. *)
Lemma chunk_bytes fuel s tr addr vec n p r q i :
  coherent s -> paged tr -> 0 <= vec -> n <= 4096 - (addr + vec) mod 4096 ->
  tr ((addr + vec) mod 2 ^ 32) = Some p -> chunk fuel s p n = Some (WHost r q) ->
  host_index r q + n <= 2 ^ 32 -> vec <= i < vec + n ->
  byte_cell fuel s tr addr i = Some (host_cell r (host_index r q + (i - vec))).
Proof.
  intros C P Hv Hn T Ch Hi H.
  assert (0 <= (addr + vec) mod 2 ^ 32 < 2 ^ 32) as Ba by (apply Z.mod_pos_bound; lia).
  destruct (P _ _ Ba T) as (Bp & Pp & Tj). rewrite mod_page in *.
  unfold byte_cell.
  assert ((addr + i) mod 2 ^ 32 = (addr + vec) mod 2 ^ 32 + (i - vec)) as ->.
  { replace (addr + i) with (addr + vec + (i - vec)) by lia.
    rewrite <- (Zplus_mod_idemp_l (addr + vec)). apply Z.mod_small.
    pose proof (mod_page (addr + vec)). pose proof (Z.mod_pos_bound (addr + vec) 4096). lia. }
  rewrite Tj by lia. apply chunk_cells with n; auto; lia.
Qed.

Lemma read_loop_spec fuel s tr m addr size :
  coherent s -> paged tr -> sized m ->
  forall k vec out st a o,
  0 <= vec <= size -> length out = Z.to_nat vec ->
  (forall i, 0 <= i < vec -> exists c, byte_cell fuel s tr addr i = Some c /\ nth (Z.to_nat i) out 0 = peek m c) ->
  read_loop k fuel s tr m ((addr + vec) mod 2 ^ 32) (if vec <? size then (addr + vec) mod 4096 else 0) (size - vec) vec out = Some (st, a, o) ->
  0 <= a <= size /\ length o = Z.to_nat a /\
  (forall i, 0 <= i < a -> exists c, byte_cell fuel s tr addr i = Some c /\ nth (Z.to_nat i) o 0 = peek m c) /\
  (st = BSuccess -> a = size) /\
  (st <> BSuccess -> a < size /\ (a = vec \/ (addr + a) mod 4096 = 0)) /\
  (st = BGuestExp -> tr ((addr + a) mod 2 ^ 32) = None) /\
  (st = BInternal -> exists p, tr ((addr + a) mod 2 ^ 32) = Some p /\
     chunk fuel s p (piece addr size a) = Some WFail).
Proof.
  intros C P Sz. induction k as [|k IH]; intros vec out st a o Hv Lo Ok; cbn [read_loop].
  - destruct (size - vec =? 0) eqn:E0; [|discriminate]. apply Z.eqb_eq in E0.
    intros [= <- <- <-]. split; [lia|]. split; [exact Lo|]. split; [exact Ok|].
    repeat split; intros; try congruence; lia.
  - destruct (size - vec =? 0) eqn:E0.
    { apply Z.eqb_eq in E0. intros [= <- <- <-]. split; [lia|]. split; [exact Lo|]. split; [exact Ok|].
      repeat split; intros; try congruence; lia. }
    apply Z.eqb_neq in E0. destruct (vec <? size) eqn:Lv; [|lia].
    set (n := Z.min (4096 - (addr + vec) mod 4096) (size - vec)).
    destruct (piece_bounds addr size vec _ ltac:(lia) eq_refl) as (N1 & N2 & N3). fold n in N1, N2.
    destruct (tr ((addr + vec) mod 2 ^ 32)) as [p|] eqn:T.
    2:{ intros [= <- <- <-]. split; [lia|]. split; [exact Lo|]. split; [exact Ok|].
        repeat split; intros; try congruence; try lia; auto. }
    destruct (chunk fuel s p n) as [[r q|]|] eqn:Ch; [| |discriminate].
    2:{ intros [= <- <- <-]. split; [lia|]. split; [exact Lo|]. split; [exact Ok|].
        repeat split; intros; try congruence; try lia; auto. exists p. auto. }
    destruct (host_read m r q n) as [bs|] eqn:Hr; [|discriminate].
    destruct (host_read_spec m r q n bs Sz (chunk_type _ _ _ _ _ _ Ch) ltac:(lia) Hr) as (Hi & Lb & Hb).
    rewrite addr_step. intros H.
    replace (size - vec - n) with (size - (vec + n)) in H by lia.
    assert (vec + n <= size) as Vn by (subst n; lia).
    assert (0 = if vec + n <? size then (addr + (vec + n)) mod 4096 else 0) as Z0.
    { destruct (vec + n <? size) eqn:L; [|reflexivity]. eapply next_page; [reflexivity|reflexivity|fold n; lia]. }
    rewrite Z0 in H.
    specialize (IH (vec + n) (out ++ bs) st a o).
    destruct IH as (A1 & A2 & A3 & A4 & A5 & A6 & A7); auto.
    + lia.
    + rewrite app_length. lia.
    + intros i Hi'. destruct (Z.lt_ge_cases i vec) as [L|L].
      * destruct (Ok i ltac:(lia)) as (c & Ec & Vc). exists c. split; [exact Ec|].
        rewrite app_nth1 by lia. exact Vc.
      * exists (host_cell r (host_index r q + (i - vec))). split.
        -- apply chunk_bytes with n p; auto; lia.
        -- rewrite app_nth2 by lia. replace (Z.to_nat i - length out)%nat with (Z.to_nat (i - vec)) by lia.
           apply Hb. lia.
    + split; [exact A1|]. split; [exact A2|]. split; [exact A3|]. split; [exact A4|].
      split; [|split; auto]. intros Ns. destruct (A5 Ns) as (B1 & [->|B2]); split; auto.
      right. destruct (vec + n <? size) eqn:L; [congruence|lia].
Qed.

Lemma read_block_spec fuel s tr m addr size st a o :
  coherent s -> paged tr -> sized m -> 0 <= addr < 2 ^ 32 -> 0 <= size ->
  read_block fuel s tr m addr size = Some (st, a, o) ->
  0 <= a <= size /\ length o = Z.to_nat a /\
  (forall i, 0 <= i < a -> exists c, byte_cell fuel s tr addr i = Some c /\ nth (Z.to_nat i) o 0 = peek m c) /\
  (st = BSuccess -> a = size) /\
  (st <> BSuccess -> a < size /\ (a = 0 \/ (addr + a) mod 4096 = 0)) /\
  (st = BGuestExp -> tr ((addr + a) mod 2 ^ 32) = None) /\
  (st = BInternal -> exists p, tr ((addr + a) mod 2 ^ 32) = Some p /\
     chunk fuel s p (piece addr size a) = Some WFail).
Proof.
  intros C P Sz Ha Hs H. unfold read_block in H.
  destruct (Z.eq_dec size 0) as [->|Ns].
  - change (Some (BSuccess, 0, @nil Z) = Some (st, a, o)) in H. assert (st = BSuccess /\ a = 0 /\ o = []) as (-> & -> & ->) by (injection H as <- <- <-; auto).
    repeat split; intros; try congruence; try lia.
  - eapply (read_loop_spec fuel s tr m addr size C P Sz _ 0 [] st a o); auto; try lia.
    rewrite Z.add_0_r. rewrite (Z.mod_small addr) by lia. destruct (0 <? size) eqn:L; [|lia].
    rewrite Z.sub_0_r. exact H.
Qed.

Lemma host_write_spec m r p n src tot m' :
  sized m -> i_type (r_info r) = ram \/ i_type (r_info r) = rom -> 0 <= n ->
  host_write m r p n src tot = Some m' ->
  h_ram_size m' = h_ram_size m /\ h_rom m' = h_rom m /\ h_rom_size m' = h_rom_size m /\
  (i_type (r_info r) = rom /\ m' = m \/
   i_type (r_info r) = ram /\ host_index r p + n <= 2 ^ 32 /\
   forall x, h_ram m' x = if (host_index r p <=? x) && (x <? host_index r p + n)
                          then src (tot + (x - host_index r p)) else h_ram m x).
Proof.
  intros (S1 & S2) T Hn H. unfold host_write in H. destruct T as [T|T]; rewrite T in *.
  - destruct (host_index r p + n <=? h_ram_size m) eqn:L; [|discriminate]. apply Z.leb_le in L.
    injection H as <-. cbn [set_ram h_ram h_ram_size h_rom h_rom_size].
    repeat split; auto. right. repeat split; auto. lia.
  - injection H as <-. repeat split; auto.
Qed.

(** Cells of a chunk of a rom region are rom cells, whatever the index. *)
Lemma chunk_rom fuel s p n r q j :
  coherent s -> 0 <= p < 2 ^ 32 -> p mod 4096 + n <= 4096 -> 0 <= j < n ->
  chunk fuel s p n = Some (WHost r q) -> i_type (r_info r) = rom ->
  exists i, cell_of fuel s (p + j) = Some (CellRom (i_rom_ptr (r_info r)) i).
Proof.
  intros C Hp Hn Hj E Tr. unfold chunk in E.
  destruct (C p Hp) as (r0 & S0 & B0 & B1 & B2 & All). rewrite S0 in E.
  destruct (inside r0 p n) eqn:In0; [|discriminate].
  unfold inside in In0. apply andb_prop in In0 as [_ In0]. apply Z.leb_le in In0.
  rewrite Z.mod_small in In0 by lia.
  assert (search s (p + j) = Some r0) as Sj by (apply All; lia).
  unfold cell_of, dispatch, dispatch_resolve. rewrite Sj.
  destruct (i_type (r_info r0)) eqn:T; try discriminate.
  - assert (r0 = r) by (injection E as -> ->; auto). congruence.
  - destruct (resolve_loop _ _ _ _) as [[r1 o]|] eqn:R; [|discriminate].
    destruct (inside r1 _ n); [|discriminate].
    assert (r1 = r) as -> by (destruct (i_type (r_info r1)) eqn:T1; try discriminate; congruence).
    rewrite Tr. eauto.
  - assert (r0 = r) as -> by (injection E as -> ->; auto). rewrite T. eauto.
Qed.

Lemma chunk_bytes_rom fuel s tr addr vec n p r q i :
  coherent s -> paged tr -> 0 <= vec -> n <= 4096 - (addr + vec) mod 4096 ->
  tr ((addr + vec) mod 2 ^ 32) = Some p -> chunk fuel s p n = Some (WHost r q) ->
  i_type (r_info r) = rom -> vec <= i < vec + n ->
  exists x, byte_cell fuel s tr addr i = Some (CellRom (i_rom_ptr (r_info r)) x).
Proof.
  intros C P Hv Hn T Ch Hi H.
  assert (0 <= (addr + vec) mod 2 ^ 32 < 2 ^ 32) as Ba by (apply Z.mod_pos_bound; lia).
  destruct (P _ _ Ba T) as (Bp & Pp & Tj). rewrite mod_page in *.
  unfold byte_cell.
  assert ((addr + i) mod 2 ^ 32 = (addr + vec) mod 2 ^ 32 + (i - vec)) as ->.
  { replace (addr + i) with (addr + vec + (i - vec)) by lia.
    rewrite <- (Zplus_mod_idemp_l (addr + vec)). apply Z.mod_small.
    pose proof (mod_page (addr + vec)). pose proof (Z.mod_pos_bound (addr + vec) 4096). lia. }
  rewrite Tj by lia. apply chunk_rom with n q; auto; lia.
Qed.

Lemma last_store_rom f src k n c old v :
  0 <= n -> last_store f src k (CellRam c) old v ->
  (forall i, k <= i < k + n -> f i <> Some (CellRam c)) -> last_store f src (k + n) (CellRam c) old v.
Proof.
  intros Hn [(i & H1 & H2 & H3 & H4)|(H1 & H2)] H.
  - left. exists i. repeat split; auto; try lia. intros j Hj.
    destruct (Z.lt_ge_cases j k); [apply H4|apply H]; lia.
  - right. split; auto. intros i Hi. destruct (Z.lt_ge_cases i k); [apply H1|apply H]; lia.
Qed.

Lemma write_loop_spec fuel s tr src addr size :
  coherent s -> paged tr ->
  forall k vec m0 m st a m',
  sized m -> 0 <= vec <= size ->
  (forall x, last_store (byte_cell fuel s tr addr) src vec (CellRam x) (h_ram m0 x) (h_ram m x)) ->
  write_loop k fuel s tr src m ((addr + vec) mod 2 ^ 32) (if vec <? size then (addr + vec) mod 4096 else 0) (size - vec) vec = Some (st, a, m') ->
  h_ram_size m' = h_ram_size m /\ h_rom m' = h_rom m /\ h_rom_size m' = h_rom_size m /\
  0 <= a <= size /\
  (forall i, vec <= i < a -> exists c, byte_cell fuel s tr addr i = Some c) /\
  (forall x, last_store (byte_cell fuel s tr addr) src a (CellRam x) (h_ram m0 x) (h_ram m' x)) /\
  (st = BSuccess -> a = size) /\
  (st <> BSuccess -> a < size /\ (a = vec \/ (addr + a) mod 4096 = 0)) /\
  (st = BGuestExp -> tr ((addr + a) mod 2 ^ 32) = None) /\
  (st = BInternal -> exists p, tr ((addr + a) mod 2 ^ 32) = Some p /\
     chunk fuel s p (piece addr size a) = Some WFail).
Proof.
  intros C P. induction k as [|k IH]; intros vec m0 m st a m' Sz Hv Ok; cbn [write_loop].
  - destruct (size - vec =? 0) eqn:E0; [|discriminate]. apply Z.eqb_eq in E0.
    intros [= <- <- <-].
    repeat split; intros; try congruence; try lia. apply Ok.
  - destruct (size - vec =? 0) eqn:E0.
    { apply Z.eqb_eq in E0. intros [= <- <- <-].
      repeat split; intros; try congruence; try lia. apply Ok. }
    apply Z.eqb_neq in E0. destruct (vec <? size) eqn:Lv; [|lia].
    set (n := Z.min (4096 - (addr + vec) mod 4096) (size - vec)).
    destruct (piece_bounds addr size vec _ ltac:(lia) eq_refl) as (N1 & N2 & N3). fold n in N1, N2.
    destruct (tr ((addr + vec) mod 2 ^ 32)) as [p|] eqn:T.
    2:{ intros [= <- <- <-].
        repeat split; intros; try congruence; try lia; auto. }
    destruct (chunk fuel s p n) as [[r q|]|] eqn:Ch; [| |discriminate].
    2:{ intros [= <- <- <-].
        repeat split; intros; try congruence; try lia; auto. exists p. auto. }
    destruct (host_write m r q n src vec) as [m1|] eqn:Hr; [|discriminate].
    destruct (host_write_spec m r q n src vec m1 Sz (chunk_type _ _ _ _ _ _ Ch) ltac:(lia) Hr) as (W1 & W2 & W3 & W4).
    rewrite addr_step. intros H.
    replace (size - vec - n) with (size - (vec + n)) in H by lia.
    assert (vec + n <= size) as Vn by (subst n; lia).
    assert (0 <= vec + n <= size) as Vb by lia.
    assert (0 = if vec + n <? size then (addr + (vec + n)) mod 4096 else 0) as Z0.
    { destruct (vec + n <? size) eqn:L; [|reflexivity]. eapply next_page; [reflexivity|reflexivity|fold n; lia]. }
    rewrite Z0 in H.
    assert (sized m1) as Sz1 by (destruct Sz; split; [lia|intros; rewrite W3; auto]).
    assert (forall i, vec <= i < vec + n -> exists c, byte_cell fuel s tr addr i = Some c) as Cs.
    { intros i Hi. destruct W4 as [(Tr & _)|(Tr & Hx & _)].
      - destruct (chunk_bytes_rom fuel s tr addr vec n p r q i) as (x & Ex); auto; try lia. eauto.
      - eexists. apply (chunk_bytes fuel s tr addr vec n p r q i); auto; lia. }
    specialize (IH (vec + n) m0 m1 st a m' Sz1 Vb).
    destruct IH as (A1 & A2 & A3 & A4 & A4' & A5 & A6 & A7 & A8); auto.
    + intros x. destruct W4 as [(Tr & ->)|(Tr & Hx & W)].
      * apply last_store_rom; [lia|apply Ok|]. intros i Hi.
        destruct (chunk_bytes_rom fuel s tr addr vec n p r q i) as (y & Ey); auto; try lia. congruence.
      * assert (forall i, vec <= i < vec + n -> byte_cell fuel s tr addr i = Some (CellRam (host_index r q + (i - vec)))) as B.
        { intros i Hi. rewrite (chunk_bytes fuel s tr addr vec n p r q i); auto; try lia.
          unfold host_cell. rewrite Tr. reflexivity. }
        rewrite W. destruct ((host_index r q <=? x) && (x <? host_index r q + n)) eqn:Bx.
        -- apply andb_prop in Bx as [L1 L2]. apply Z.leb_le in L1. apply Z.ltb_lt in L2.
           left. exists (vec + (x - host_index r q)). split; [lia|]. split; [|split; [f_equal; lia|]].
           ++ rewrite B by lia. f_equal. f_equal. lia.
           ++ intros j Hj. rewrite B by lia. intros [= Hc]. lia.
        -- apply last_store_rom; [lia|apply Ok|]. intros i Hi. rewrite B by lia. intros [= Hc]. lia.
    + split; [congruence|]. split; [congruence|]. split; [congruence|].
      split; [exact A4|]. split.
      { intros i Hi. destruct (Z.lt_ge_cases i (vec + n)); [apply Cs|apply A4']; lia. }
      split; [exact A5|]. split; [exact A6|]. split; [|exact A8].
      intros Ns. destruct (A7 Ns) as (B1 & [->|B2]); split; auto.
      right. destruct (vec + n <? size) eqn:L; [congruence|lia].
Qed.

Lemma last_store_init f src c v : last_store f src 0 c v v.
Proof. right. split; [intros; lia|reflexivity]. Qed.

Lemma write_handler_spec fuel s tr src m addr size st a m' :
  coherent s -> paged tr -> sized m -> 0 <= addr < 2 ^ 32 -> 0 <= size ->
  write_handler fuel s tr src m addr size = Some (st, a, m') ->
  h_ram_size m' = h_ram_size m /\ h_rom m' = h_rom m /\ h_rom_size m' = h_rom_size m /\
  0 <= a <= size /\
  (forall i, 0 <= i < a -> exists c, byte_cell fuel s tr addr i = Some c) /\
  (forall x, last_store (byte_cell fuel s tr addr) src a (CellRam x) (h_ram m x) (h_ram m' x)) /\
  (st = BSuccess -> a = size) /\
  (st <> BSuccess -> a < size /\ (a = 0 \/ (addr + a) mod 4096 = 0)) /\
  (st = BGuestExp -> tr ((addr + a) mod 2 ^ 32) = None) /\
  (st = BInternal -> exists p, tr ((addr + a) mod 2 ^ 32) = Some p /\
     chunk fuel s p (piece addr size a) = Some WFail).
Proof.
  intros C P Sz Ha Hs H. unfold write_handler in H.
  destruct (Z.eq_dec size 0) as [->|Ns].
  - change (Some (BSuccess, 0, m) = Some (st, a, m')) in H.
    assert (st = BSuccess /\ a = 0 /\ m' = m) as (-> & -> & ->) by (injection H as <- <- <-; auto).
    repeat split; intros; try congruence; try lia. apply last_store_init.
  - eapply (write_loop_spec fuel s tr src addr size C P _ 0 m m st a m'); auto; try lia.
    + intros x. apply last_store_init.
    + rewrite Z.add_0_r. rewrite (Z.mod_small addr) by lia. destruct (0 <? size) eqn:L; [|lia].
      rewrite Z.sub_0_r. exact H.
Qed.

Lemma phys_paged : paged phys_tr.
Proof.
  intros a p Ha [= <-]. split; [exact Ha|]. split; [reflexivity|]. intros j _. reflexivity.
Qed.

(** A piece held by one ram or rom region is served. *)
Lemma chunk_served fuel s p n r :
  search s p = Some r -> i_type (r_info r) = ram \/ i_type (r_info r) = rom ->
  r_start r <= p -> 0 < n -> 0 <= p -> p + n - 1 <= r_end r -> r_end r < 2 ^ 32 ->
  chunk fuel s p n = Some (WHost r p).
Proof.
  intros S T H1 H2 H0 H3 H4. unfold chunk, inside. rewrite S.
  rewrite (Z.mod_small (p + n - 1)) by lia.
  destruct (r_start r <=? p) eqn:A; [|lia]. destruct (p + n - 1 <=? r_end r) eqn:B; [|lia].
  cbn [andb]. destruct T as [-> | ->]; reflexivity.
Qed.

Lemma read_loop_total fuel s tr m addr size :
  served s tr m addr size ->
  forall k vec out,
  0 <= vec <= size -> (vec = 0 \/ vec = size \/ (addr + vec) mod 4096 = 0) ->
  (if vec <? size then (addr + vec) mod 4096 else 0) + (size - vec) <= 4096 * Z.of_nat k ->
  exists o, read_loop k fuel s tr m ((addr + vec) mod 2 ^ 32) (if vec <? size then (addr + vec) mod 4096 else 0)
              (size - vec) vec out = Some (BSuccess, size, o).
Proof.
  intros Sv. induction k as [|k IH]; intros vec out Hv Al Hk; cbn [read_loop].
  - assert (vec = size) as ->. { pose proof (Z.mod_pos_bound (addr + vec) 4096). destruct (vec <? size) eqn:L; lia. }
    rewrite Z.sub_diag. cbn. eauto.
  - destruct (size - vec =? 0) eqn:E0.
    { apply Z.eqb_eq in E0. assert (vec = size) as -> by lia. eauto. }
    apply Z.eqb_neq in E0. destruct (vec <? size) eqn:Lv; [|lia].
    destruct (Sv vec) as (p & r & T & S & Ty & B0 & B1 & B2 & B3 & B4); [lia|lia|]. rewrite T.
    destruct (piece_bounds addr size vec _ ltac:(lia) eq_refl) as (N1 & N2 & N3).
    change (Z.min (4096 - (addr + vec) mod 4096) (size - vec)) with (piece addr size vec) in *.
    set (n := piece addr size vec) in *.
    rewrite (chunk_served fuel s p n r) by (auto; lia).
    unfold host_read. rewrite Ty. destruct (host_index r p + n <=? h_ram_size m) eqn:L; [|lia].
    rewrite addr_step.
    replace (size - vec - n) with (size - (vec + n)) by lia.
    assert (0 <= vec + n <= size) as Vn by (subst n; unfold piece in *; lia).
    assert (0 = if vec + n <? size then (addr + (vec + n)) mod 4096 else 0) as Z0.
    { destruct (vec + n <? size) eqn:L'; [|reflexivity].
      eapply next_page; [reflexivity|reflexivity|]. change (Z.min (4096 - (addr + vec) mod 4096) (size - vec)) with n. lia. }
    assert (forall po o1, po = (if vec + n <? size then (addr + (vec + n)) mod 4096 else 0) ->
      exists o, read_loop k fuel s tr m ((addr + (vec + n)) mod 2 ^ 32) po (size - (vec + n)) (vec + n) o1 = Some (BSuccess, size, o)) as G;
      [intros po o1 ->; apply IH; [exact Vn| |]|apply G; exact Z0].
    + destruct (vec + n <? size) eqn:L'; [right; right; congruence|right; left; lia].
    + rewrite <- Z0. subst n. unfold piece in *. lia.
Qed.

Lemma write_loop_total fuel s tr src addr size :
  forall k vec m,
  served s tr m addr size ->
  0 <= vec <= size -> (vec = 0 \/ vec = size \/ (addr + vec) mod 4096 = 0) ->
  (if vec <? size then (addr + vec) mod 4096 else 0) + (size - vec) <= 4096 * Z.of_nat k ->
  exists m', write_loop k fuel s tr src m ((addr + vec) mod 2 ^ 32) (if vec <? size then (addr + vec) mod 4096 else 0)
              (size - vec) vec = Some (BSuccess, size, m').
Proof.
  induction k as [|k IH]; intros vec m Sv Hv Al Hk; cbn [write_loop].
  - assert (vec = size) as ->. { pose proof (Z.mod_pos_bound (addr + vec) 4096). destruct (vec <? size) eqn:L; lia. }
    rewrite Z.sub_diag. cbn. eauto.
  - destruct (size - vec =? 0) eqn:E0.
    { apply Z.eqb_eq in E0. assert (vec = size) as -> by lia. eauto. }
    apply Z.eqb_neq in E0. destruct (vec <? size) eqn:Lv; [|lia].
    destruct (Sv vec) as (p & r & T & S & Ty & B0 & B1 & B2 & B3 & B4); [lia|lia|]. rewrite T.
    destruct (piece_bounds addr size vec _ ltac:(lia) eq_refl) as (N1 & N2 & N3).
    change (Z.min (4096 - (addr + vec) mod 4096) (size - vec)) with (piece addr size vec) in *.
    set (n := piece addr size vec) in *.
    rewrite (chunk_served fuel s p n r) by (auto; lia).
    unfold host_write. rewrite Ty. destruct (host_index r p + n <=? h_ram_size m) eqn:L; [|lia].
    rewrite addr_step.
    replace (size - vec - n) with (size - (vec + n)) by lia.
    assert (0 <= vec + n <= size) as Vn by (subst n; unfold piece in *; lia).
    assert (0 = if vec + n <? size then (addr + (vec + n)) mod 4096 else 0) as Z0.
    { destruct (vec + n <? size) eqn:L'; [|reflexivity].
      eapply next_page; [reflexivity|reflexivity|]. change (Z.min (4096 - (addr + vec) mod 4096) (size - vec)) with n. lia. }
    assert (forall po m1, h_ram_size m1 = h_ram_size m -> po = (if vec + n <? size then (addr + (vec + n)) mod 4096 else 0) ->
      exists o, write_loop k fuel s tr src m1 ((addr + (vec + n)) mod 2 ^ 32) po (size - (vec + n)) (vec + n) = Some (BSuccess, size, o)) as G;
      [intros po m1 Em ->; apply IH; [unfold served; rewrite Em; exact Sv|exact Vn| |]|apply G; [reflexivity|exact Z0]].
    + destruct (vec + n <? size) eqn:L'; [right; right; congruence|right; left; lia].
    + rewrite <- Z0. subst n. unfold piece in *. lia.
Qed.

Lemma iterations_enough addr size : 0 <= size ->
  (if 0 <? size then (addr + 0) mod 4096 else 0) + (size - 0) <= 4096 * Z.of_nat (iterations size).
Proof.
  intros H. unfold iterations. rewrite Z2Nat.id by lia.
  pose proof (Z.mod_pos_bound (addr + 0) 4096). destruct (0 <? size); lia.
Qed.

Lemma transfers_total fuel s tr src m addr size :
  0 <= addr < 2 ^ 32 -> 0 <= size -> served s tr m addr size ->
  (exists o, read_block fuel s tr m addr size = Some (BSuccess, size, o)) /\
  (exists m', write_handler fuel s tr src m addr size = Some (BSuccess, size, m')).
Proof.
  intros Ha Hs Sv. pose proof (iterations_enough addr size Hs) as It.
  destruct (Z.eq_dec size 0) as [->|N].
  { split; eexists; reflexivity. }
  split.
  - destruct (read_loop_total fuel s tr m addr size Sv (iterations size) 0 [] ltac:(lia) ltac:(auto) It) as (o & E).
    exists o. unfold read_block. rewrite Z.add_0_r, (Z.mod_small addr (2 ^ 32)), Z.sub_0_r in E by lia.
    destruct (0 <? size) eqn:L; [exact E|lia].
  - destruct (write_loop_total fuel s tr src addr size (iterations size) 0 m Sv ltac:(lia) ltac:(auto) It) as (o & E).
    exists o. unfold write_handler. rewrite Z.add_0_r, (Z.mod_small addr (2 ^ 32)), Z.sub_0_r in E by lia.
    destruct (0 <? size) eqn:L; [exact E|lia].
Qed.

(** Status and size of a read do not depend on the contents of memory. *)
Lemma read_loop_same fuel s tr m1 m2 :
  h_ram_size m1 = h_ram_size m2 -> h_rom_size m1 = h_rom_size m2 ->
  forall k addr po sl vec o1 o2 st a o,
  read_loop k fuel s tr m1 addr po sl vec o1 = Some (st, a, o) ->
  exists o', read_loop k fuel s tr m2 addr po sl vec o2 = Some (st, a, o').
Proof.
  intros E1 E2. induction k as [|k IH]; intros addr po sl vec o1 o2 st a o; cbn [read_loop].
  - destruct (sl =? 0); [|discriminate]. intros [= <- <- <-]. eauto.
  - destruct (sl =? 0). { intros [= <- <- <-]. eauto. }
    destruct (tr addr) as [p|]. 2:{ intros [= <- <- <-]. eauto. }
    destruct (chunk fuel s p (Z.min (4096 - po) sl)) as [[r q|]|]; [| |discriminate].
    2:{ intros [= <- <- <-]. eauto. }
    unfold host_read. rewrite <- E1, <- E2.
    destruct (i_type (r_info r));
      (match goal with |- context [if ?b then _ else _] => destruct b end); try discriminate; apply IH.
Qed.

Lemma plain_unshared g cs s oks st fuel :
  unit_ok g -> Forall (call_ok g) cs -> Forall (plain st) cs ->
  api_run (as_create MEM_MAX) cs = Some (s, oks) -> unshared fuel s.
Proof.
  intros Hu H Pl E.
  destruct (api_most_recent g cs Hu H) as (s' & oks' & E' & Ln & V).
  assert (s' = s /\ oks' = oks) as [-> ->] by (rewrite E in E'; injection E' as -> ->; auto).
  assert (forall a r, 0 <= a < 2 ^ 32 -> search s a = Some r ->
            i_type (r_info r) <> alias /\ (i_type (r_info r) = ram -> i_buff_off (r_info r) = st)) as K.
  { intros a r Ha Sa. specialize (V a Ha).
    unfold lookup in V. rewrite Sa in V. cbn [option_map] in V.
    assert (forall c, most_recent (combine cs oks) a = Some c -> plain st c) as Pc.
    { intros c Hc. unfold most_recent in Hc.
      destruct (find _ _) as [[c' b]|] eqn:F; [|discriminate]. injection Hc as <-.
      apply find_some in F as [F _]. apply in_rev in F. apply in_combine_l in F.
      rewrite Forall_forall in Pl. apply Pl, F. }
    unfold visible in V. destruct (most_recent (combine cs oks) a) as [c|].
    - specialize (Pc c eq_refl). destruct c; cbn [call_effect plain] in *;
        destruct (i_type (r_info r)); split; try discriminate; intros; congruence.
    - destruct (i_type (r_info r)); split; try discriminate; intros; congruence. }
  intros a b i Ha Hb. unfold cell_of, dispatch.
  destruct (search s a) as [ra|] eqn:Sa; [|discriminate]. destruct (K a ra Ha Sa) as (K1 & K2).
  destruct (search s b) as [rb|] eqn:Sb; [|discriminate]. destruct (K b rb Hb Sb) as (K3 & K4).
  unfold dispatch_resolve.
  destruct (i_type (r_info ra)) eqn:Ta; rewrite ?Ta; try discriminate; try congruence.
  destruct (i_type (r_info rb)) eqn:Tb; rewrite ?Tb; try discriminate; try congruence.
  intros E1 E2. injection E1 as E1. injection E2 as E2. rewrite K2 in E1 by auto. rewrite K4 in E2 by auto.
  rewrite <- E2 in E1. clear - E1 Ha Hb. change (2 ^ 32) with 4294967296 in *. change (Z.pow_pos 2 32) with 4294967296 in *. lia.
Qed.
