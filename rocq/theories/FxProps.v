(** * FXSAVE and FXRSTOR (C30) *)

From Coq Require Import ZArith Bool List Lia.
From Verif Require Import FpuModel FpuSpec FpuProofs FpuProps FpuProps2 FpuProps3 FxModel.
Import ListNotations.
Local Open Scope Z_scope.

(** ** Specification *)

(** memory holds the [n] byte little endian value [v] at offset [o] of the image at [a] *)
Definition holds (P : pages) (m : Z -> Z) (a o n v : Z) : Prop :=
  forall i, 0 <= i < n -> m (phys P (a + o + i)) = (v / 256 ^ i) mod 256.

(** The documented image of the state: [slot i] is the register kept in the i-th 16 byte
    slot at offset 32. *)
Definition image (slot : Z -> Z) (osfxsr : bool) (P : pages) (m : Z -> Z) (a : Z) (s : fpu) : Prop :=
  holds P m a 0 2 (fctrl s) /\ holds P m a 2 2 (read_fstatus s) /\
  (forall k, 0 <= k < 8 -> Z.testbit (m (phys P (a + 4))) k = negb (ftag s k =? 3)) /\
  holds P m a 6 2 (fop (ptr s)) /\ holds P m a 8 4 (fip (ptr s)) /\ holds P m a 12 2 (fcs (ptr s)) /\
  holds P m a 16 4 (fdp (ptr s)) /\ holds P m a 20 2 (fds (ptr s)) /\
  (forall i, 0 <= i < 8 -> holds P m a (32 + 16 * i) 10 (fr s (slot i))) /\
  (osfxsr = true -> holds P m a 24 4 (mxcsr s) /\ forall i, 0 <= i < 8 -> holds P m a (160 + 16 * i) 16 (xmm s i)).
(** as saved by this implementation: by register number *)
Definition by_number (i : Z) : Z := i.
(** as documented: by position in the stack *)
Definition by_position (s : fpu) (i : Z) : Z := (ftop s + i) mod 8.

(** The bytes of the image that FXSAVE is documented to write: the control fields, the low
    ten bytes of each x87 slot and, with CR4.OSFXSR set, MXCSR, its mask and the XMM
    registers. *)
Definition saved_byte (osfxsr : bool) (o : Z) : Prop :=
  0 <= o < 5 \/ 6 <= o < 14 \/ 16 <= o < 22 \/
  (exists i, 0 <= i < 8 /\ 32 + 16 * i <= o < 42 + 16 * i) \/
  osfxsr = true /\ (24 <= o < 32 \/ 160 <= o < 288).

(** the registers are within their widths *)
Definition ranged (s : fpu) : Prop :=
  0 <= ftop s < 8 /\ 0 <= fctrl s < 2 ^ 16 /\ (forall k, 0 <= k < 8 -> 0 <= fr s k < 2 ^ 80) /\
  (forall k, 0 <= k < 8 -> 0 <= xmm s k < 2 ^ 128) /\ 0 <= mxcsr s < 2 ^ 32 /\
  0 <= fop (ptr s) < 2 ^ 11 /\ 0 <= fip (ptr s) < 2 ^ 32 /\ 0 <= fcs (ptr s) < 2 ^ 16 /\
  0 <= fdp (ptr s) < 2 ^ 32 /\ 0 <= fds (ptr s) < 2 ^ 16.

(** ** Bytes *)
Lemma phys_inj P a i j : 0 <= i < 288 -> 0 <= j < 288 -> phys P (a + i) = phys P (a + j) -> i = j.
Proof.
  intros Hi Hj E. assert (E2 : w32 (a + i) mod 4096 = w32 (a + j) mod 4096).
  { unfold phys in E. apply (f_equal (fun x => x mod 4096)) in E.
    rewrite !(Z.add_comm (_ * 4096)), !Z.mod_add, !Z.mod_mod in E by lia. exact E. }
  unfold w32 in E2. change (2 ^ 32) with (4096 * 1048576) in E2.
  rewrite <- !(Znumtheory.Zmod_div_mod 4096 (4096 * 1048576)) in E2 by (try lia; now exists 1048576).
  pose proof (Z.div_mod (a + i) 4096 ltac:(lia)). pose proof (Z.div_mod (a + j) 4096 ltac:(lia)). lia.
Qed.

Lemma out_false o e j : ~ (o <= j < e) -> (o <=? j) && (j <? e) = false.
Proof. intros H. destruct (Z.leb_spec o j), (Z.ltb_spec j e); try reflexivity. exfalso. lia. Qed.
Section Bytes.
Variables (P : pages) (a : Z).
Lemma put_at : forall n o v m j, 0 <= o -> o + Z.of_nat n <= 288 -> 0 <= j < 288 ->
  put_bytes P n (a + o) v m (phys P (a + j)) =
  if (o <=? j) && (j <? o + Z.of_nat n) then (v / 256 ^ (j - o)) mod 256 else m (phys P (a + j)).
Proof.
  induction n as [| n IH]; intros o v m j Ho Hn Hj; cbn [put_bytes].
  - replace ((o <=? j) && (j <? o + Z.of_nat 0)) with false; [reflexivity |]. symmetry. apply out_false. lia.
  - replace (a + o + 1) with (a + (o + 1)) by lia. rewrite IH by lia. unfold upd.
    destruct (Z.leb_spec (o + 1) j), (Z.ltb_spec j (o + 1 + Z.of_nat n)), (Z.leb_spec o j), (Z.ltb_spec j (o + Z.of_nat (S n))); try lia; cbn [andb].
    + f_equal. rewrite Z.div_div by (try lia; apply Z.pow_pos_nonneg; lia). f_equal.
      replace (j - o) with (1 + (j - (o + 1))) by lia. rewrite Z.pow_add_r by lia. reflexivity.
    + destruct (Z.eqb_spec (phys P (a + j)) (phys P (a + o))) as [E | E]; [apply phys_inj in E; lia | reflexivity].
    + assert (j = o) by lia. subst j. rewrite Z.eqb_refl, Z.sub_diag, Z.pow_0_r, Z.div_1_r. reflexivity.
    + destruct (Z.eqb_spec (phys P (a + j)) (phys P (a + o))) as [E | E]; [apply phys_inj in E; lia | reflexivity].
Qed.
Lemma put_out : forall n o v m p, (forall j, o <= j < o + Z.of_nat n -> p <> phys P (a + j)) -> put_bytes P n (a + o) v m p = m p.
Proof.
  induction n as [| n IH]; intros o v m p H; cbn [put_bytes]; [reflexivity |].
  replace (a + o + 1) with (a + (o + 1)) by lia. rewrite IH by (intros j Hj; apply H; lia). unfold upd.
  destruct (Z.eqb_spec p (phys P (a + o))) as [E | E]; [| reflexivity]. exfalso. apply (H o); [lia | exact E].
Qed.
Lemma get_from : forall n o v m, (forall i, 0 <= i < Z.of_nat n -> m (phys P (a + o + i)) = (v / 256 ^ i) mod 256) ->
  get_bytes P n (a + o) m = v mod 256 ^ Z.of_nat n.
Proof.
  induction n as [| n IH]; intros o v m H; cbn [get_bytes]; [now rewrite Z.mod_1_r |].
  replace (a + o + 1) with (a + (o + 1)) by lia. rewrite (IH (o + 1) (v / 256)).
  - specialize (H 0 ltac:(lia)). rewrite Z.add_0_r, Z.pow_0_r, Z.div_1_r in H. rewrite H.
    replace (Z.of_nat (S n)) with (1 + Z.of_nat n) by lia. rewrite Z.pow_add_r by lia.
    rewrite Z.rem_mul_r by (try lia; apply Z.pow_pos_nonneg; lia). reflexivity.
  - intros i Hi. specialize (H (1 + i) ltac:(lia)). replace (a + (o + 1) + i) with (a + o + (1 + i)) by lia. rewrite H.
    rewrite Z.pow_add_r, Z.pow_1_r, Z.div_div by (try lia; apply Z.pow_pos_nonneg; lia). reflexivity.
Qed.
Lemma get_range : forall n b m, (forall p, 0 <= m p < 256) -> 0 <= get_bytes P n b m < 256 ^ Z.of_nat n.
Proof.
  induction n as [| n IH]; intros b m H; cbn [get_bytes]; [cbn; lia |]. specialize (IH (b + 1) m H). specialize (H (phys P b)).
  replace (Z.of_nat (S n)) with (1 + Z.of_nat n) by lia. rewrite Z.pow_add_r by lia. change (256 ^ 1) with 256. nia.
Qed.

(** ** Sequences of writes *)
Definition fits (e : Z * nat * Z) : Prop := let '(o, n, _) := e in 0 <= o /\ o + Z.of_nat n <= 288 /\ (0 < n)%nat.
Definition apart (e f : Z * nat * Z) : Prop :=
  let '(o, n, _) := e in let '(o', n', _) := f in o + Z.of_nat n <= o' \/ o' + Z.of_nat n' <= o.
Lemma writes_keep l : forall m m' b j, do_writes P a l m = (b, m') -> Forall fits l -> 0 <= j < 288 ->
  (forall o n v, In (o, n, v) l -> ~ (o <= j < o + Z.of_nat n)) -> m' (phys P (a + j)) = m (phys P (a + j)).
Proof.
  induction l as [| [[o n] v] l IH]; intros m m' b j D F Hj H; cbn [do_writes] in D; [injection D as _ <-; reflexivity |].
  inversion F as [| x y Fx Fl]. subst. destruct (writable P _); [| injection D as _ <-; reflexivity].
  rewrite (IH _ _ _ _ D Fl Hj) by (intros o' n' v' I; apply (H o' n' v'); now right).
  destruct Fx as (F1 & F2 & F3). rewrite put_at by lia. specialize (H o n v (or_introl eq_refl)).
  replace ((o <=? j) && (j <? o + Z.of_nat n)) with false; [reflexivity |]. symmetry. apply out_false. lia.
Qed.
Lemma writes_out l : forall m m' b p, do_writes P a l m = (b, m') -> Forall fits l ->
  (forall j, 0 <= j < 288 -> p <> phys P (a + j)) -> m' p = m p.
Proof.
  induction l as [| [[o n] v] l IH]; intros m m' b p D F H; cbn [do_writes] in D; [injection D as _ <-; reflexivity |].
  inversion F as [| x y Fx Fl]. subst. destruct (writable P _); [| injection D as _ <-; reflexivity].
  rewrite (IH _ _ _ _ D Fl H). destruct Fx as (F1 & F2 & F3). apply put_out. intros j Hj. apply H. lia.
Qed.
Lemma writes_hold l : forall m m', do_writes P a l m = (true, m') -> Forall fits l -> ForallOrdPairs apart l ->
  forall o n v, In (o, n, v) l -> holds P m' a o (Z.of_nat n) v.
Proof.
  induction l as [| [[o n] v] l IH]; intros m m' D F A o' n' v' I i Hi; [contradiction |].
  cbn [do_writes] in D. inversion F as [| x y Fx Fl]. inversion A as [| x' y' Ax Al]. subst.
  destruct (writable P _); [| discriminate]. destruct I as [I | I]; [| exact (IH _ _ D Fl Al _ _ _ I i Hi)].
  injection I as -> -> ->. destruct Fx as (F1 & F2 & F3). rewrite <- Z.add_assoc.
  rewrite (writes_keep _ _ _ _ _ D Fl) by (try lia; intros o n v J; rewrite Forall_forall in Ax; specialize (Ax _ J); cbn in Ax; lia).
  rewrite put_at by lia. rewrite (proj2 (Z.leb_le o' (o' + i))), (proj2 (Z.ltb_lt (o' + i) (o' + Z.of_nat n'))) by lia. cbn [andb].
  do 2 f_equal. f_equal. lia.
Qed.
Lemma writes_done l : forall m, (forall o n v, In (o, n, v) l -> writable P (vpage (a + o)) = true) -> fst (do_writes P a l m) = true.
Proof.
  induction l as [| [[o n] v] l IH]; intros m H; cbn [do_writes]; [reflexivity |].
  rewrite (H o n v (or_introl eq_refl)). apply IH. intros o' n' v' I. apply (H o' n' v'). now right.
Qed.
Lemma writes_fault l : forall m, fst (do_writes P a l m) = false -> exists o n v, In (o, n, v) l /\ writable P (vpage (a + o)) = false.
Proof.
  induction l as [| [[o n] v] l IH]; intros m H; cbn [do_writes] in H; [discriminate |].
  destruct (writable P (vpage (a + o))) eqn:E; [| exists o, n, v; split; [now left | exact E]].
  destruct (IH _ H) as (o' & n' & v' & I & E'). exists o', n', v'. split; [now right | exact E'].
Qed.
End Bytes.

Lemma saved_fits x s : Forall fits (fxsave_writes x s).
Proof. destruct x; cbn; repeat (apply Forall_cons; [cbn; lia |]); apply Forall_nil. Qed.
Lemma saved_apart x s : ForallOrdPairs apart (fxsave_writes x s).
Proof. destruct x; cbn; repeat (apply FOP_cons; [repeat (apply Forall_cons; [cbn; lia |]); apply Forall_nil |]); apply FOP_nil. Qed.

Lemma abridged_bit s k : 0 <= k < 8 -> Z.testbit (abridged s mod 256) k = negb (ftag s k =? 3).
Proof.
  intros Hk. change 256 with (2 ^ 8). rewrite Z.mod_pow2_bits_low by lia. unfold abridged, TAG_EMPTY. cbn [fold_left].
  assert (S : forall c i, 0 <= i < 8 -> Z.testbit (Z.shiftl (if c : bool then 0 else 1) i) k = (k =? i) && negb c).
  { intros c i Hi. destruct c; [now rewrite Z.shiftl_0_l, Z.bits_0, andb_false_r |]. rewrite Z.shiftl_1_l, andb_true_r.
    rewrite Z.pow2_bits_eqb by lia. apply Z.eqb_sym. }
  rewrite !Z.lor_spec, !S, Z.bits_0 by lia. assert (k = 0 \/ k = 1 \/ k = 2 \/ k = 3 \/ k = 4 \/ k = 5 \/ k = 6 \/ k = 7) as Q by lia.
  repeat (destruct Q as [-> | Q]; [cbn [Z.eqb Pos.eqb andb orb]; rewrite ?orb_false_r; reflexivity |]). subst. reflexivity.
Qed.

Lemma aligned_nz a : nz (Z.land a 15) = negb (a mod 16 =? 0).
Proof. unfold nz. change 15 with (Z.ones 4). rewrite Z.land_ones by lia. reflexivity. Qed.

(** FXSAVE of a state writes its image, with the registers by number, and nothing else. *)
Theorem C30_save : forall x P a s m, a mod 16 = 0 -> (forall o, 0 <= o < 288 -> writable P (vpage (a + o)) = true) ->
  exists m', fxsave false x P a s m = XDone s m' /\ image by_number x P m' a s /\
    forall p, (forall o, 0 <= o < 288 -> p <> phys P (a + o)) -> m' p = m p.
Proof.
  intros x P a s m Ha Hw. unfold fxsave. rewrite aligned_nz, Ha. cbn [Z.eqb negb].
  assert (D : fst (do_writes P a (fxsave_writes x s) m) = true).
  { apply writes_done. intros o n v I. apply Hw. pose proof (saved_fits x s) as F. rewrite Forall_forall in F. specialize (F _ I). cbn in F. lia. }
  rewrite D. destruct (do_writes _ _ _ _) as [b m'] eqn:E. cbn [fst] in D. subst b. cbn [snd]. exists m'. split; [reflexivity |].
  pose proof (writes_hold P a _ _ _ E (saved_fits x s) (saved_apart x s)) as H.
  assert (HF : forall o n v, In (o, n, v) (firstn 8 (fxsave_writes x s)) -> holds P m' a o (Z.of_nat n) v).
  { intros o n v I. apply H. rewrite <- (firstn_skipn 8 (fxsave_writes x s)). apply in_or_app. now left. }
  change (firstn 8 (fxsave_writes x s)) with
    [(0, 2%nat, fctrl s); (2, 2%nat, read_fstatus s); (4, 1%nat, abridged s); (6, 2%nat, fop (ptr s));
     (8, 4%nat, fip (ptr s)); (12, 2%nat, fcs (ptr s)); (16, 4%nat, fdp (ptr s)); (20, 2%nat, fds (ptr s))] in HF.
  split; [| intros p Hp; exact (writes_out P a _ _ _ _ _ E (saved_fits x s) Hp)].
  unfold image.
  split; [apply (HF 0 2%nat); cbn; tauto |]. split; [apply (HF 2 2%nat); cbn; tauto |].
  split.
  { intros k Hk. pose proof (HF 4 1%nat (abridged s) ltac:(cbn; tauto) 0 ltac:(lia)) as B.
    rewrite Z.add_0_r, Z.pow_0_r, Z.div_1_r in B. rewrite B. now apply abridged_bit. }
  split; [apply (HF 6 2%nat); cbn; tauto |]. split; [apply (HF 8 4%nat); cbn; tauto |]. split; [apply (HF 12 2%nat); cbn; tauto |].
  split; [apply (HF 16 4%nat); cbn; tauto |]. split; [apply (HF 20 2%nat); cbn; tauto |].
  assert (I8 : forall i, 0 <= i < 8 -> In i [0; 1; 2; 3; 4; 5; 6; 7]) by (intros i Hi; cbn; lia).
  split.
  - intros i Hi. apply (H _ 10%nat). unfold fxsave_writes. apply in_or_app. right. apply in_or_app. right. apply in_or_app. left.
    apply (in_map (fun i => (32 + 16 * i, 10%nat, fr s i))). now apply I8.
  - intros ->. split.
    + apply (H _ 4%nat). unfold fxsave_writes. apply in_or_app. right. apply in_or_app. left. now left.
    + intros i Hi. apply (H _ 16%nat). unfold fxsave_writes. apply in_or_app. right. apply in_or_app. right. apply in_or_app. right.
      apply (in_map (fun i => (160 + 16 * i, 16%nat, xmm s i))). now apply I8.
Qed.
Print Assumptions C30_save.

(** An FXSAVE that faults leaves the registers and the memory outside the image. *)
Theorem C30_save_fault : forall e x P a s m,
  match fxsave e x P a s m with
  | XDone s' _ => s' = s
  | XPage s' m' => s' = s /\ (exists o, 0 <= o < 288 /\ writable P (vpage (a + o)) = false) /\
      forall p, (forall o, 0 <= o < 288 -> p <> phys P (a + o)) -> m' p = m p
  | XExc n s' m' => s' = s /\ m' = m /\ (n = 7 /\ e = true \/ n = 13 /\ a mod 16 <> 0)
  end.
Proof.
  intros e x P a s m. unfold fxsave. rewrite aligned_nz. destruct e; [now repeat split; left |].
  destruct (Z.eqb_spec (a mod 16) 0) as [A | A]; cbn [negb]; [| now repeat split; right].
  destruct (do_writes P a (fxsave_writes x s) m) as [b m'] eqn:E. destruct b; cbn [fst snd]; [reflexivity |].
  split; [reflexivity |]. split; [| intros p Hp; exact (writes_out P a _ _ _ _ _ E (saved_fits x s) Hp)].
  destruct (writes_fault P a (fxsave_writes x s) m ltac:(now rewrite E)) as (o & n & v & I & W). exists o. split; [| exact W].
  pose proof (saved_fits x s) as F. rewrite Forall_forall in F. specialize (F _ I). cbn in F. lia.
Qed.
Print Assumptions C30_save_fault.

(** FXSAVE, completed or not, writes only the documented bytes of the image: the reserved
    gaps keep their contents, and so does the whole SSE part without CR4.OSFXSR.  *)
Theorem C30_footprint : forall x P a s m p, (forall o, saved_byte x o -> p <> phys P (a + o)) ->
  match fxsave false x P a s m with XDone _ m' | XPage _ m' | XExc _ _ m' => m' p = m p end.
Proof.
  intros x P a s m p Hp. unfold fxsave. destruct (nz _); [reflexivity |].
  assert (H : forall o n v, In (o, n, v) (fxsave_writes x s) -> forall j, o <= j < o + Z.of_nat n -> saved_byte x j).
  { intros o n v I j Hj. unfold fxsave_writes in I.
    apply in_app_or in I. destruct I as [I | I].
    - unfold saved_byte. cbn [In] in I. repeat (destruct I as [I | I]; [injection I as <- <- _; lia |]). contradiction.
    - apply in_app_or in I. destruct I as [I | I].
      + destruct x; [| contradiction]. unfold saved_byte. right. right. right. right. split; [reflexivity |]. cbn [In] in I.
        repeat (destruct I as [I | I]; [injection I as <- <- _; lia |]). contradiction.
      + apply in_app_or in I. destruct I as [I | I].
        * apply in_map_iff in I. destruct I as (i & E & I). apply pair_equal_spec in E. destruct E as (E & _).
          apply pair_equal_spec in E. destruct E as (<- & <-). right. right. right. left. exists i.
          cbn [In] in I. lia.
        * destruct x; [| contradiction]. apply in_map_iff in I. destruct I as (i & E & I). apply pair_equal_spec in E. destruct E as (E & _).
          apply pair_equal_spec in E. destruct E as (<- & <-).
          right. right. right. right. split; [reflexivity |]. cbn [In] in I. lia. }
  revert H. generalize (fxsave_writes x s) as l. intros l H.
  enough (K : forall m, snd (do_writes P a l m) p = m p) by (cbv zeta; destruct (fst _); apply K).
  induction l as [| [[o n] v] l IH]; intros m0; cbn [do_writes]; [reflexivity |].
  destruct (writable P _); [| reflexivity].
  rewrite IH by (intros o' n' v' I; apply (H o' n' v'); now right).
  apply put_out. intros j Hj. apply Hp. exact (H o n v (or_introl eq_refl) j Hj).
Qed.
Print Assumptions C30_footprint.
(** a byte of the SSE part is not documented without OSFXSR *)
Example C30_footprint_sse : ~ saved_byte false 160 /\ ~ saved_byte false 28 /\ ~ saved_byte true 14.
Proof. unfold saved_byte. repeat split; intros [| [| [| [(i & H1 & H2) | [H1 H2]]]]]; try discriminate; lia. Qed.

(** The slots hold the registers by number; the documented image has them by position,
    which is the same only with TOP = 0. *)
Theorem C30_refuted_layout : forall x P a s m m' i,
  0 <= i < 8 -> ranged s -> fxsave false x P a s m = XDone s m' -> fr s i <> fr s (by_position s i) ->
  ~ image (by_position s) x P m' a s.
Proof.
  intros x P a s m m' i Hi R H N (_ & _ & _ & _ & _ & _ & _ & _ & L & _).
  unfold fxsave in H. rewrite aligned_nz in H. destruct (Z.eqb_spec (a mod 16) 0) as [A | A]; [| discriminate]. cbn [negb] in H.
  destruct (do_writes P a (fxsave_writes x s) m) as [b mm] eqn:E. destruct b; cbn [fst snd] in H; [| discriminate]. injection H as ->.
  assert (G : holds P m' a (32 + 16 * i) 10 (fr s i)).
  { apply (writes_hold P a _ _ _ E (saved_fits x s) (saved_apart x s) _ 10%nat). unfold fxsave_writes. apply in_or_app. right. apply in_or_app. right. apply in_or_app. left.
    apply (in_map (fun i => (32 + 16 * i, 10%nat, fr s i))). cbn. lia. }
  specialize (L i Hi). apply (get_from P a 10) in G. apply (get_from P a 10) in L. rewrite G in L.
  destruct R as (_ & _ & R & _). assert (K : 0 <= by_position s i < 8) by (apply Z.mod_pos_bound; lia).
  change (256 ^ Z.of_nat 10) with (2 ^ 80) in L. rewrite !Z.mod_small in L by now apply R. now apply N.
Qed.
Print Assumptions C30_refuted_layout.

Theorem C30_layout_partial : forall x P a s m, a mod 16 = 0 -> (forall o, 0 <= o < 288 -> writable P (vpage (a + o)) = true) -> ftop s = 0 ->
  exists m', fxsave false x P a s m = XDone s m' /\ image (by_position s) x P m' a s.
Proof.
  intros x P a s m Ha Hw T. destruct (C30_save x P a s m Ha Hw) as (m' & E & (I1 & I2 & I3 & I4 & I5 & I6 & I7 & I8 & I9 & I10) & _).
  exists m'. split; [exact E |]. unfold image. repeat (split; [assumption |]). split; [| exact I10]. intros i Hi. unfold by_position. rewrite T, Z.add_0_l, Z.mod_small by exact Hi.
  now apply I9.
Qed.
Print Assumptions C30_layout_partial.

(** ** Restoring *)
Lemma pages_two P a o : a mod 16 = 0 -> 0 <= o < 288 -> readable P (vpage a) = true -> readable P (vpage (a + 287)) = true ->
  readable P (vpage (a + o)) = true.
Proof.
  intros Ha Ho R1 R2. assert (V : forall x, vpage x = (x / 4096) mod 2 ^ 20).
  { intros x. unfold vpage, w32. change (2 ^ 32) with (4096 * 2 ^ 20). rewrite Z.rem_mul_r by lia.
    rewrite Z.add_comm, Z.mul_comm, Z.div_add_l by lia. rewrite (Z.div_small (x mod 4096)) by (apply Z.mod_pos_bound; lia). lia. }
  assert (C : (a + o) / 4096 = a / 4096 \/ (a + o) / 4096 = (a + 287) / 4096) by (Z.div_mod_to_equations; lia).
  destruct C as [C | C]; rewrite V in *; rewrite C; assumption.
Qed.

Section Restored.
Variables (P : pages) (a : Z) (m : Z -> Z) (x : bool).
Hypothesis Hr : forall o, 0 <= o < 288 -> readable P (vpage (a + o)) = true.
Let g (o : Z) (n : nat) := get_bytes P n (a + o) m.
Lemma rd_ok o n : 0 <= o < 288 -> rd P a o n m = Some (g o n).
Proof. intros H. unfold rd. now rewrite Hr. Qed.
Lemma then_ok o n f s : 0 <= o < 288 -> rd_then P a m o n f (true, s) = (true, f (g o n) s).
Proof. intros H. unfold rd_then. cbn [fst snd]. now rewrite rd_ok. Qed.

Lemma words_ok s : restore_words (rd_then P a m) (true, s) =
  (true, write_fstatus (g 2 2) (set_frp (Z.lor (Z.lor (g 0 2) 0x40) EXP_ALL) (set_fctrl (Z.lor (g 0 2) 0x40) s))).
Proof. unfold restore_words. rewrite !then_ok by lia. reflexivity. Qed.
Lemma ptrs_ok s : restore_ptrs (rd_then P a m) (true, s) =
  (true, set_ptr (mkptrs (g 12 2) (g 8 4) (Z.land (g 6 2) 0x7FF) (g 20 2) (g 16 4)) s).
Proof. unfold restore_ptrs. rewrite !then_ok by lia. reflexivity. Qed.
Lemma loop_ok (off : Z -> Z) n (f : Z -> Z -> fpu -> fpu) l : (forall i, In i l -> 0 <= off i < 288) -> forall s,
  fold_left (fun r i => rd_then P a m (off i) n (f i) r) l (true, s) = (true, fold_left (fun s i => f i (g (off i) n) s) l s).
Proof.
  induction l as [| i l IH]; intros H s; [reflexivity |]. cbn [fold_left]. rewrite then_ok by (apply H; now left).
  apply IH. intros j Hj. apply H. now right.
Qed.
Lemma fr_ok s : restore_fr (rd_then P a m) (true, s) = (true, fold_left (fun s i => set_fr (upd (fr s) i (g (32 + 16 * i) 10)) s) eight s).
Proof. unfold restore_fr. apply (loop_ok (fun i => 32 + 16 * i) 10%nat (fun i v s => set_fr (upd (fr s) i v) s)). intros i Hi. cbn in Hi. lia. Qed.
Lemma xmm_ok s : restore_xmm (rd_then P a m) (true, s) = (true, fold_left (fun s i => set_xmm (upd (xmm s) i (g (160 + 16 * i) 16)) s) eight s).
Proof. unfold restore_xmm. apply (loop_ok (fun i => 160 + 16 * i) 16%nat (fun i v s => set_xmm (upd (xmm s) i v) s)). intros i Hi. cbn in Hi. lia. Qed.

Lemma restored s : exists s', restore P a m x s = (true, s') /\
  fctrl s' = Z.lor (g 0 2) 0x40 /\ frp s' = Z.lor (Z.lor (g 0 2) 0x40) EXP_ALL /\
  fstatus s' = g 2 2 /\ ftop s' = Z.shiftr (Z.land (g 2 2) SW_TOP) 11 /\
  (forall k, 0 <= k < 8 -> ftag s' k = if Z.testbit (g 4 1) k then class (g (32 + 16 * k) 10) else 3) /\
  ptr s' = mkptrs (g 12 2) (g 8 4) (Z.land (g 6 2) 0x7FF) (g 20 2) (g 16 4) /\
  (forall k, 0 <= k < 8 -> fr s' k = g (32 + 16 * k) 10) /\
  (forall k, 0 <= k < 8 -> xmm s' k = if x then g (160 + 16 * k) 16 else xmm s k) /\
  mxcsr s' = mxcsr s /\ shadow s' = shadow s.
Proof.
  unfold restore. rewrite words_ok. cbv beta zeta. rewrite rd_ok by lia. rewrite ptrs_ok, fr_ok.
  set (p := fold_left _ eight _). set (mid := if x then fold_left (fun s i => set_xmm (upd (xmm s) i (g (160 + 16 * i) 16)) s) eight p else p).
  assert (X : (if x then restore_xmm (rd_then P a m) (true, p) else (true, p)) = (true, mid)) by (unfold mid; destruct x; [apply xmm_ok | reflexivity]).
  rewrite X. cbn [fst snd]. eexists. split; [reflexivity |].
  assert (Q : forall (R : Z -> Prop) k, 0 <= k < 8 -> R 0 -> R 1 -> R 2 -> R 3 -> R 4 -> R 5 -> R 6 -> R 7 -> R k).
  { intros R k Hk. intros. assert (k = 0 \/ k = 1 \/ k = 2 \/ k = 3 \/ k = 4 \/ k = 5 \/ k = 6 \/ k = 7) as C by lia. intuition subst; assumption. }
  assert (M : fctrl mid = Z.lor (g 0 2) 0x40 /\ frp mid = Z.lor (Z.lor (g 0 2) 0x40) EXP_ALL /\ fstatus mid = g 2 2 /\
    ftop mid = Z.shiftr (Z.land (g 2 2) SW_TOP) 11 /\ ptr mid = mkptrs (g 12 2) (g 8 4) (Z.land (g 6 2) 0x7FF) (g 20 2) (g 16 4) /\
    (forall k, 0 <= k < 8 -> fr mid k = g (32 + 16 * k) 10) /\ (forall k, 0 <= k < 8 -> xmm mid k = if x then g (160 + 16 * k) 16 else xmm s k) /\
    mxcsr mid = mxcsr s /\ shadow mid = shadow s).
  { subst mid p. clear X. destruct x; repeat (split; [reflexivity |]);
      (split; [intros k Hk; pattern k; apply (Q _ k Hk); reflexivity |]); (split; [intros k Hk; pattern k; apply (Q _ k Hk); reflexivity |]); split; reflexivity. }
  clearbody mid. destruct M as (M1 & M2 & M3 & M4 & M5 & M6 & M7 & M8 & M9).
  split; [exact M1 |]. split; [exact M2 |]. split; [exact M3 |]. split; [exact M4 |].
  split; [| repeat (split; [assumption |]); exact M9].
  intros k Hk. rewrite <- M6 by exact Hk. rewrite <- tag_for_class.
  assert (T : ftag (retag (g 4 1) (set_ftop 0 mid)) k = if nz (Z.land (g 4 1) (Z.shiftl 1 k)) then tag_for (fr mid k) else 3).
  { pattern k. apply (Q _ k Hk); reflexivity. }
  change (ftag (set_ftop (ftop mid) (retag (g 4 1) (set_ftop 0 mid))) k) with (ftag (retag (g 4 1) (set_ftop 0 mid)) k). rewrite T.
  replace (nz (Z.land (g 4 1) (Z.shiftl 1 k))) with (Z.testbit (g 4 1) k); [reflexivity |]. rewrite Z.shiftl_1_l. symmetry. apply nz_bit. lia.
Qed.
End Restored.

(** FXRSTOR either completes or changes nothing; it faults with #GP exactly for a misaligned
    operand or reserved bits in MXCSR, and with a page fault exactly if a byte of the image
    cannot be read.  Memory is never changed. *)
Theorem C30_restore_atomic : forall x P a s m t,
  holds P m a 24 4 t -> 0 <= t < 2 ^ 32 ->
  match fxrstor false x P a s m with
  | XDone _ m' => m' = m /\ a mod 16 = 0 /\ (forall o, 0 <= o < 288 -> readable P (vpage (a + o)) = true) /\
      (x = true -> Z.land t 0xFFFF0040 = 0)
  | XPage s' m' => s' = s /\ m' = m /\ exists o, 0 <= o < 288 /\ readable P (vpage (a + o)) = false
  | XExc n s' m' => s' = s /\ m' = m /\ n = 13 /\ (a mod 16 <> 0 \/ x = true /\ Z.land t 0xFFFF0040 <> 0)
  end.
Proof.
  intros x P a s m t Ht Rt. unfold fxrstor. rewrite aligned_nz. destruct (Z.eqb_spec (a mod 16) 0) as [A | A]; cbn [negb]; [| now repeat split; left].
  destruct (readable P (vpage a)) eqn:R1; cbn [negb orb]; [| split; [reflexivity |]; split; [reflexivity |]; exists 0; split; [lia | now rewrite Z.add_0_r]].
  destruct (readable P (vpage (a + 287))) eqn:R2; cbn [negb]; [| split; [reflexivity |]; split; [reflexivity |]; exists 287; split; [lia | exact R2]].
  pose proof (fun o H => pages_two P a o A H R1 R2) as Hr. destruct x.
  - rewrite (rd_ok P a m Hr) by lia. rewrite (get_from P a 4 24 t m Ht). change (256 ^ Z.of_nat 4) with (2 ^ 32). rewrite Z.mod_small by exact Rt.
    change (Z.lxor 0xFFFFFFFF MXCSR_MASK) with 0xFFFF0040. unfold nz. destruct (Z.eqb_spec (Z.land t 0xFFFF0040) 0) as [E | E]; cbn [negb].
    + destruct (restored P a m true Hr (set_mxcsr t (Z.land (Z.lor t (Z.shiftl EXP_ALL 7)) (Z.lxor 0xFFFFFFFF EXP_ALL)) s)) as (s' & -> & _).
      cbn [fst snd]. repeat (split; [first [reflexivity | assumption] |]). intros _. exact E.
    + repeat (split; [reflexivity |]). now right.
  - destruct (restored P a m false Hr s) as (s' & -> & _). cbn [fst snd]. repeat (split; [first [reflexivity | assumption] |]). discriminate.
Qed.
Print Assumptions C30_restore_atomic.

(** FXRSTOR of the image of a state, from any address and mapping and in any state,
    restores that state; the tags come from the abridged tag word and the values. *)
Theorem C30_roundtrip : forall x P a s1 s2 m,
  a mod 16 = 0 -> (forall o, 0 <= o < 288 -> readable P (vpage (a + o)) = true) ->
  ranged s1 -> Z.testbit (fctrl s1) 6 = true -> Z.land (mxcsr s1) 0xFFFF0040 = 0 ->
  image by_number x P m a s1 -> (forall p, 0 <= m p < 256) ->
  exists s', fxrstor false x P a s2 m = XDone s' m /\
    fctrl s' = fctrl s1 /\ frp s' = Z.lor (fctrl s1) 0x3F /\ read_fstatus s' = read_fstatus s1 /\ ftop s' = ftop s1 /\ ptr s' = ptr s1 /\
    (forall k, 0 <= k < 8 -> fr s' k = fr s1 k) /\
    (forall k, 0 <= k < 8 -> ftag s' k = if ftag s1 k =? 3 then 3 else class (fr s1 k)) /\
    (forall k, 0 <= k < 8 -> xmm s' k = if x then xmm s1 k else xmm s2 k) /\
    mxcsr s' = (if x then mxcsr s1 else mxcsr s2) /\
    shadow s' = (if x then Z.land (Z.lor (mxcsr s1) 0x1F80) 0xFFFFFFC0 else shadow s2).
Proof.
  intros x P a s1 s2 m A Hr (Rt & Rc & Rf & Rx & Rm & Ro & Ri & Rcs & Rdp & Rds) B6 Mx (I1 & I2 & I3 & I4 & I5 & I6 & I7 & I8 & I9 & I10) Bm.
  unfold fxrstor. rewrite aligned_nz, A. cbn [Z.eqb negb]. pose proof (Hr 0 ltac:(lia)) as Hr0. rewrite Z.add_0_r in Hr0. rewrite Hr0, (Hr 287) by lia. cbn [negb orb].
  set (gb := fun o n => get_bytes P n (a + o) m).
  assert (RF : 0 <= read_fstatus s1 < 2 ^ 16) by (apply Z.mod_pos_bound; lia).
  assert (G0 : gb 0 2%nat = fctrl s1) by (unfold gb; rewrite (get_from P a 2 0 _ m I1); apply Z.mod_small; exact Rc).
  assert (G2 : gb 2 2%nat = read_fstatus s1) by (unfold gb; rewrite (get_from P a 2 2 _ m I2); apply Z.mod_small; exact RF).
  assert (G6 : gb 6 2%nat = fop (ptr s1)) by (unfold gb; rewrite (get_from P a 2 6 _ m I4); apply Z.mod_small; change (256 ^ Z.of_nat 2) with (2 ^ 16); lia).
  assert (G8 : gb 8 4%nat = fip (ptr s1)) by (unfold gb; rewrite (get_from P a 4 8 _ m I5); apply Z.mod_small; exact Ri).
  assert (G12 : gb 12 2%nat = fcs (ptr s1)) by (unfold gb; rewrite (get_from P a 2 12 _ m I6); apply Z.mod_small; exact Rcs).
  assert (G16 : gb 16 4%nat = fdp (ptr s1)) by (unfold gb; rewrite (get_from P a 4 16 _ m I7); apply Z.mod_small; exact Rdp).
  assert (G20 : gb 20 2%nat = fds (ptr s1)) by (unfold gb; rewrite (get_from P a 2 20 _ m I8); apply Z.mod_small; exact Rds).
  assert (GR : forall k, 0 <= k < 8 -> gb (32 + 16 * k) 10%nat = fr s1 k)
    by (intros k Hk; unfold gb; rewrite (get_from P a 10 _ _ m (I9 k Hk)); apply Z.mod_small; now apply Rf).
  assert (G4 : gb 4 1%nat = m (phys P (a + 4))) by (unfold gb; cbn [get_bytes]; lia).
  assert (C6 : Z.lor (fctrl s1) 0x40 = fctrl s1).
  { change 0x40 with (2 ^ 6). apply Z.bits_inj'. intros n Hn. rewrite Z.lor_spec, Z.pow2_bits_eqb by lia.
    destruct (Z.eqb_spec 6 n); [subst; now rewrite B6 | apply orb_false_r]. }
  assert (O7 : Z.land (fop (ptr s1)) 0x7FF = fop (ptr s1)) by (change 0x7FF with (Z.ones 11); rewrite Z.land_ones by lia; apply Z.mod_small; exact Ro).
  set (s0 := if x then set_mxcsr (mxcsr s1) (Z.land (Z.lor (mxcsr s1) (Z.shiftl EXP_ALL 7)) (Z.lxor 0xFFFFFFFF EXP_ALL)) s2 else s2).
  destruct (restored P a m x Hr s0) as (s' & RS & F1 & F2 & F3 & F4 & F5 & F6 & F7 & F8 & F9 & F10).
  change (fctrl s' = Z.lor (gb 0 2%nat) 64) in F1. change (frp s' = Z.lor (Z.lor (gb 0 2%nat) 64) EXP_ALL) in F2.
  change (fstatus s' = gb 2 2%nat) in F3. change (ftop s' = Z.shiftr (Z.land (gb 2 2%nat) SW_TOP) 11) in F4.
  change (forall k, 0 <= k < 8 -> ftag s' k = if Z.testbit (gb 4 1%nat) k then class (gb (32 + 16 * k) 10%nat) else 3) in F5.
  change (ptr s' = mkptrs (gb 12 2%nat) (gb 8 4%nat) (Z.land (gb 6 2%nat) 0x7FF) (gb 20 2%nat) (gb 16 4%nat)) in F6.
  change (forall k, 0 <= k < 8 -> fr s' k = gb (32 + 16 * k) 10%nat) in F7.
  change (forall k, 0 <= k < 8 -> xmm s' k = if x then gb (160 + 16 * k) 16%nat else xmm s0 k) in F8.
  rewrite G0, C6 in F1, F2.
  exists s'. split.
  { destruct x; [| change s0 with s2 in RS; now rewrite RS]. destruct (I10 eq_refl) as [J1 J2]. rewrite (rd_ok P a m Hr) by lia. rewrite (get_from P a 4 24 _ m J1).
    change (256 ^ Z.of_nat 4) with (2 ^ 32). rewrite Z.mod_small by exact Rm. change (Z.lxor 0xFFFFFFFF MXCSR_MASK) with 0xFFFF0040. rewrite Mx.
    change (nz 0) with false. cbv iota. unfold s0 in RS. now rewrite RS. }
  split; [exact F1 |]. split; [exact F2 |].
  assert (TOP : ftop s' = ftop s1).
  { pose proof (C29_status_word (read_fstatus s1) s1 RF) as (_ & T & _). rewrite F4, G2. cbn [ftop write_fstatus set_fstatus set_ftop] in T. rewrite T.
    unfold read_fstatus. apply Z.bits_inj'. intros n Hn. change 8 with (2 ^ 3). destruct (Z.ltb_spec n 3).
    - rewrite Z.mod_pow2_bits_low, <- Z.shiftr_div_pow2, Z.shiftr_spec, w16_bit, Z.lor_spec, Z.land_spec, Z.shiftl_spec by lia.
      replace (n + 11 - 11) with n by lia. unfold SW_TOP, not16. change (Z.lxor 0xFFFF 0x3800) with 0xC7FF.
      assert (n = 0 \/ n = 1 \/ n = 2) as [-> | [-> | ->]] by lia; rewrite andb_false_r; reflexivity.
    - rewrite Z.mod_pow2_bits_high by lia. symmetry. apply hi_bit; [lia |]. split; [lia |]. apply Z.lt_le_trans with (2 ^ 3); [lia | apply Z.pow_le_mono_r; lia]. }
  split.
  { unfold read_fstatus at 1. rewrite F3, TOP, G2. pose proof (C29_status_word (read_fstatus s1) s1 RF) as (T & U & _).
    unfold read_fstatus at 1 in T. cbn [fstatus write_fstatus set_fstatus] in T.
    assert (TT : ftop (write_fstatus (read_fstatus s1) s1) = ftop s1) by (rewrite <- TOP, F4, G2; reflexivity). rewrite TT in T. exact T. }
  split; [exact TOP |].
  split; [rewrite F6, G12, G8, G6, O7, G20, G16; now destruct (ptr s1) |].
  split; [intros k Hk; rewrite F7, GR by exact Hk; reflexivity |].
  split; [intros k Hk; rewrite F5, G4, I3, GR by exact Hk; now destruct (ftag s1 k =? 3) |].
  split; [intros k Hk; rewrite F8 by exact Hk; destruct x; [| reflexivity] |].
  { destruct (I10 eq_refl) as [J1 J2]. unfold gb. rewrite (get_from P a 16 _ _ m (J2 k Hk)). apply Z.mod_small. now apply Rx. }
  split; [rewrite F9 | rewrite F10]; unfold s0; destruct x; reflexivity.
Qed.
Print Assumptions C30_roundtrip.

(** If the tags agree with the registers the whole state comes back. *)
Theorem C30_roundtrip_tags : forall P a s1 s2 m m',
  a mod 16 = 0 -> (forall o, 0 <= o < 288 -> readable P (vpage (a + o)) = true /\ writable P (vpage (a + o)) = true) ->
  ranged s1 -> Z.testbit (fctrl s1) 6 = true -> Z.land (mxcsr s1) 0xFFFF0040 = 0 -> tags_agree s1 ->
  fxsave false true P a s1 m = XDone s1 m' -> (forall p, 0 <= m' p < 256) ->
  exists s', fxrstor false true P a s2 m' = XDone s' m' /\ fctrl s' = fctrl s1 /\ read_fstatus s' = read_fstatus s1 /\ ptr s' = ptr s1 /\
    mxcsr s' = mxcsr s1 /\ (forall k, 0 <= k < 8 -> fr s' k = fr s1 k /\ ftag s' k = ftag s1 k /\ xmm s' k = xmm s1 k /\ st s' k = st s1 k).
Proof.
  intros P a s1 s2 m m' A Hp R B M T Sv Bm.
  destruct (C30_save true P a s1 m A (fun o H => proj2 (Hp o H))) as (m2 & E & I & _). rewrite Sv in E. injection E as <-.
  destruct (C30_roundtrip true P a s1 s2 m' A (fun o H => proj1 (Hp o H)) R B M I Bm) as (s' & E & F1 & F2 & F3 & F4 & F5 & F6 & F7 & F8 & F9 & F10).
  exists s'. repeat (split; [assumption |]).
  assert (TG : forall k, 0 <= k < 8 -> ftag s' k = ftag s1 k).
  { intros k Hk. rewrite F7 by exact Hk. destruct (Z.eqb_spec (ftag s1 k) 3); [lia |]. destruct (T k Hk); congruence. }
  intros k Hk. split; [now apply F6 |]. split; [now apply TG |]. split; [now apply F8 |].
  unfold st. rewrite F4. assert (K : 0 <= (ftop s1 + k) mod 8 < 8) by (apply Z.mod_pos_bound; lia). rewrite TG, F6 by exact K. reflexivity.
Qed.
Print Assumptions C30_roundtrip_tags.

(** an image across a page boundary into a frame that is not the next one *)
Definition two_pages : pages := mkpages (fun p => if p =? 2 then 9 else 4) (fun _ => true) (fun p => (p =? 1) || (p =? 2)).
Example C30_example : exists m', fxsave false true two_pages 0x1FF0 (write_fstatus 0x3800 fpu_init) (fun _ => 0) = XDone (write_fstatus 0x3800 fpu_init) m' /\
  m' 0x4FF0 = 0x40 /\ m' 0x4FF3 = 0x38 /\ m' 0x9009 = 0x1F /\ ranged (write_fstatus 0x3800 fpu_init) /\ tags_agree (write_fstatus 0x3800 fpu_init).
Proof.
  destruct (C30_save true two_pages 0x1FF0 (write_fstatus 0x3800 fpu_init) (fun _ => 0) eq_refl) as (m' & E & (I1 & I2 & _ & _ & _ & _ & _ & _ & _ & I10) & _).
  { intros o Ho. cbn [writable two_pages]. unfold vpage, w32. rewrite (Z.mod_small (8176 + o)) by lia.
    destruct (Z.eqb_spec ((8176 + o) / 4096) 1), (Z.eqb_spec ((8176 + o) / 4096) 2); try reflexivity. exfalso. Z.div_mod_to_equations. lia. }
  exists m'. split; [exact E |]. split; [exact (I1 0 ltac:(lia)) |]. split; [exact (I2 1 ltac:(lia)) |]. split; [exact (proj1 (I10 eq_refl) 1 ltac:(lia)) |].
  split; [unfold ranged; cbn; repeat split; intros; try lia; discriminate |]. intros k _. now right.
Qed.
