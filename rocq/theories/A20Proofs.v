(** * Lemmas for the A20 gate: the mask, the request machine, the regions *)

From Coq Require Import ZArith Bool List Lia ZifyBool.
From Verif Require Import AddrSpaceModel AddrSpaceSpec AddrSpaceProofs RegionApiProofs AddrSpaceProps MmuModel MmuSpec A20Model A20Spec.
From Verif Require TlbHist.
Import ListNotations.
Local Open Scope Z_scope.

(** ** The mask *)

Definition mask_of (closed : bool) : Z := if closed then 0xFFFFFFFF else 0xFFEFFFFF.

Lemma want_eq (closed : bool) : Z.lxor 0xFFFFFFFF (Z.shiftl (if closed then 0 else 1) 20) = mask_of closed.
Proof. destruct closed; reflexivity. Qed.

Lemma bit20 p : Z.testbit p 20 = (p / 2 ^ 20 mod 2 =? 1).
Proof.
  destruct (Z.testbit p 20) eqn:B.
  - apply Z.testbit_true in B; [| lia]. rewrite B. reflexivity.
  - apply Z.testbit_false in B; [| lia]. rewrite B. reflexivity.
Qed.

Lemma land_mask c p : 0 <= p < 2 ^ 32 -> Z.land p (mask_of c) = gated c p.
Proof.
  intros H. unfold mask_of, gated. destruct c.
  - change 0xFFFFFFFF with (Z.ones 32). rewrite Z.land_ones by lia. now apply Z.mod_small.
  - assert (L : Z.land p 0xFFEFFFFF = p - Z.land p (2 ^ 20)).
    { assert (S : Z.ldiff (Z.land p (2 ^ 20)) p = 0).
      { apply Z.bits_inj'. intros n Hn. rewrite Z.ldiff_spec, Z.land_spec, Z.bits_0. destruct (Z.testbit p n), (Z.testbit (2 ^ 20) n); reflexivity. }
      rewrite Z.sub_nocarry_ldiff by exact S. apply Z.bits_inj'. intros n Hn.
      rewrite Z.ldiff_spec, !Z.land_spec, Z.pow2_bits_eqb by lia.
      destruct (Z.ltb_spec n 32) as [Lt | Ge].
      - change 0xFFEFFFFF with (Z.lxor (Z.ones 32) (2 ^ 20)). rewrite Z.lxor_spec, Z.ones_spec_low, Z.pow2_bits_eqb by lia.
        destruct (Z.testbit p n), (20 =? n); reflexivity.
      - assert (T : Z.testbit p n = false).
        { destruct (Z.eq_dec p 0) as [-> | N]; [apply Z.bits_0 |]. apply Z.bits_above_log2; [lia |].
          apply Z.lt_le_trans with 32; [apply Z.log2_lt_pow2; lia | exact Ge]. }
        rewrite T. reflexivity. }
    rewrite L, <- bit20. destruct (Z.testbit p 20) eqn:B.
    + f_equal. apply Z.bits_inj'. intros n Hn. rewrite Z.land_spec, Z.pow2_bits_eqb by lia. destruct (Z.eqb_spec 20 n) as [<- | N]; [rewrite B; reflexivity | apply andb_false_r].
    + replace (Z.land p (2 ^ 20)) with 0; [lia |]. symmetry. apply Z.bits_inj'. intros n Hn. rewrite Z.land_spec, Z.pow2_bits_eqb, Z.bits_0 by lia.
      destruct (Z.eqb_spec 20 n) as [<- | N]; [rewrite B; reflexivity | apply andb_false_r].
Qed.

Lemma gated_range c p : 0 <= p < 2 ^ 32 -> 0 <= gated c p < 2 ^ 32.
Proof. unfold gated. destruct c; [auto |]. destruct (Z.eqb_spec (p / 2 ^ 20 mod 2) 1); [| auto]. Z.div_mod_to_equations. lia. Qed.

(** ** Requests *)

Lemma gate_inv l : forall E junk s,
  let x := grun E (mkgm (gate0 junk) s) l in
  mask (gt x) = mask_of (fst (gate_after l)) /\
  (pending (gt x) = true -> wanted (gt x) = mask_of (snd (gate_after l))) /\
  (pending (gt x) = false -> fst (gate_after l) = snd (gate_after l)).
Proof.
  induction l as [| o l IH] using rev_ind; intros E junk s.
  - cbn. repeat split; auto; try discriminate.
  - cbv zeta. unfold grun, gate_after. rewrite !fold_left_app. cbn [fold_left].
    change (fold_left (gstep E) l _) with (grun E (mkgm (gate0 junk) s) l).
    change (fold_left gate_step l _) with (gate_after l).
    destruct (IH E junk s) as (IM & IW & IP). clear IH.
    set (x := grun E (mkgm (gate0 junk) s) l) in *. set (y := gate_after l) in *. clearbody x y.
    destruct y as [now last]. cbn [fst snd] in *.
    assert (MI : forall a b, mask_of a = mask_of b -> a = b) by (intros [] []; cbn; congruence).
    destruct o as [o | c i |]; cbn [gstep gate_step].
    + repeat split; auto.
    + unfold cpu_set_a20. rewrite want_eq, IM. destruct (mask_of now =? mask_of c) eqn:Q.
      * apply Z.eqb_eq, MI in Q. subst c. destruct i; cbn; repeat split; auto.
      * assert (now <> c) by (intros ->; rewrite Z.eqb_refl in Q; discriminate).
        destruct i; cbn; repeat split; auto; try discriminate.
    + unfold do_a20, int_apply, int_clear. destruct (pending (gt x)) eqn:P; cbn.
      * repeat split; auto; try discriminate.
      * rewrite P. specialize (IP eq_refl). subst last. repeat split; auto; congruence.
Qed.

(** ** Regions *)

Definition map_ok (s : aspace) : Prop := forall a, 0 <= a < 2 ^ 32 ->
  exists r, search s a = Some r /\ r_start r <= a <= r_end r /\ i_type (r_info r) <> alias /\
    forall b, r_start r <= b <= r_end r -> search s b = Some r.

Lemma api_map_ok g cs s oks :
  unit_ok g -> Forall (call_ok g) cs -> api_run (as_create MEM_MAX) cs = Some (s, oks) ->
  (forall c, In c cs -> match c with CallAlias _ _ _ => False | _ => True end) -> map_ok s.
Proof.
  intros Hg Hc R NA a Ha. destruct (C01_memory_api g cs Hg Hc) as (s' & oks' & R' & _ & V).
  rewrite R in R'. assert (s' = s /\ oks' = oks) as (-> & ->) by (split; congruence). clear R'. specialize (V a Ha).
  destruct (api_reach g cs s oks Hg Hc R) as ((G & _) & _).
  assert (SR : forall n, In n (nodes s) -> forall b, r_start (n_reg n) <= b <= r_end (n_reg n) -> search s b = Some (n_reg n)).
  { intros n HI b Hb. destruct (good_partition MEM_MAX s G) as (P1 & P2). pose proof (P1 n HI) as (_ & B1 & B2).
    destruct (locate MEM_MAX s b G) as (l1 & n' & l2 & E & _ & _ & B & _ & GI); [lia |].
    destruct (P2 b ltac:(lia)) as (n0 & _ & _ & U). unfold search. rewrite GI.
    assert (In n' (nodes s)) by (rewrite E; apply in_or_app; right; now left).
    rewrite (U n HI Hb), (U n' H B). reflexivity. }
  destruct (locate MEM_MAX s a G) as (l1 & n & l2 & E & _ & _ & B & _ & GI); [unfold MEM_MAX; lia |].
  assert (HI : In n (nodes s)) by (rewrite E; apply in_or_app; right; now left).
  exists (n_reg n). split; [unfold search; now rewrite GI |]. split; [exact B |]. split; [| exact (SR n HI)].
  intros T. unfold lookup, search in V. rewrite GI in V. cbn [option_map] in V. unfold visible in V. rewrite T in V.
  destruct (most_recent (combine cs oks) a) as [c |] eqn:MR; [| discriminate].
  unfold most_recent in MR. destruct (find _ _) as [[c' ok] |] eqn:F; [| discriminate]. cbn in MR.
  assert (c' = c) by congruence. subst c'. apply find_some in F. destruct F as (F & _). apply in_rev in F.
  apply in_combine_l in F. specialize (NA c F). destruct c; [discriminate | discriminate | discriminate | contradiction | discriminate].
Qed.

Lemma corrected_ok s fuel c p : map_ok s -> 0 <= p < 2 ^ 32 ->
  exists r, search s p = Some r /\ corrected s fuel (mask_of c) p = Some (r, gated c p).
Proof.
  intros H Hp. destruct (H p Hp) as (r & S & _ & T & _). exists r. split; [exact S |]. unfold corrected. rewrite S.
  unfold correct_phys. rewrite <- land_mask by exact Hp. destruct (i_type (r_info r)); congruence.
Qed.

Lemma page_floor q : 0 <= q < 2 ^ 32 -> Z.land q NOT_PAGE_MASK = q / 2 ^ 12 * 2 ^ 12.
Proof. exact (TlbHist.page_eq q). Qed.
Lemma floor64 q : 0 <= q -> Z.land q (Z.lnot 0xFFF) = q / 2 ^ 12 * 2 ^ 12.
Proof.
  intros H. change 0xFFF with (Z.ones 12). rewrite <- Z.ldiff_land, Z.ldiff_ones_r by lia.
  now rewrite Z.shiftl_mul_pow2, Z.shiftr_div_pow2 by lia.
Qed.

Lemma touch_ok s fuel c p : map_ok s -> 0 <= p < 2 ^ 32 ->
  exists r, search s (gated c p) = Some r /\
    touch_miss s fuel (mask_of c) p = Some (r, gated c p) /\ touch_hit s fuel (mask_of c) p = Some (r, gated c p).
Proof.
  intros H Hp. pose proof (gated_range c p Hp) as Hq. destruct (H (gated c p) Hq) as (r & S & B & _ & _).
  destruct (corrected_ok s fuel c p H Hp) as (r0 & S0 & C). exists r. split; [exact S |].
  unfold touch_miss, touch_hit. rewrite C, S. split; [reflexivity |].
  destruct (covers_page r0 (gated c p)) eqn:CP; [| reflexivity].
  unfold covers_page in CP. rewrite page_floor, floor64 in CP by lia.
  destruct (H p Hp) as (r0' & S0' & _ & _ & U). rewrite S0 in S0'. assert (r0' = r0) by congruence. subst r0'.
  rewrite (U (gated c p)) in S; [congruence |]. clear - CP Hq. change (2 ^ 12) with 4096 in *. Z.div_mod_to_equations. lia.
Qed.
