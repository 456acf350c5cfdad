(** * Interrupts and IRET: the interrupted program goes on *)

From Coq Require Import ZArith Bool List Lia ZifyBool.
From Verif Require Import SegModel SegSpec SegBits SegProofs SegFar SegRet SegCall SegProps ExcSpec ExcProofs ExcDel ExcProps FarSpec FarProofs FarProps IntModel IntProps.
From Verif Require HostModel AluModel AluSpec LazyFlagsProofs FlagsApiProofs.
Import ListNotations.
Local Open Scope Z_scope.

(** ** Flags after IRET *)
Definition vm86_mask : Z := TF_MASK .| AC_MASK .| ID_MASK .| IF_MASK .| IOPL_MASK .| VM_MASK .| NT_MASK .| VIF_MASK .| VIP_MASK.

Lemma wef_read X v m s i : clean X s -> 0 <= m < 2 ^ 32 -> Z.land m 0x8D5 = 0 -> 0 <= i -> i <> 1 ->
  Z.testbit (Z.lor m 0x8D5) i = true -> Z.testbit (read_eflags X (write_eflags_helper X v m s)) i = Z.testbit v i.
Proof.
  intros C Hm Hs Hi H1 B. pose proof (FlagsApiProofs.helper_read v m (flagctx X s) Hm Hs C) as R.
  change (read_eflags X (write_eflags_helper X v m s)) with (AluModel.read_eflags (AluModel.write_eflags_helper v m (flagctx X s))). rewrite R.
  change AluSpec.STATUS with 0x8D5. set (q := Z.lor m 0x8D5) in *. unfold HostModel.w32.
  rewrite !Z.lor_spec, !Z.land_spec, Z.lnot_spec, B by exact Hi. rewrite andb_true_r. cbn [negb]. rewrite andb_false_l, andb_false_r, orb_false_r.
  change 2 with (2 ^ 1). rewrite Z.pow2_bits_eqb by lia. destruct (Z.eqb_spec 1 i); [congruence | apply orb_false_r].
Qed.

Lemma iret_flags X s s' u : vm X s = false -> iret_pe X 4 s = Ok X _ u s' ->
  exists ip cs fl m s4, pops X s 4 0 [ip; cs; fl] (mem X s) m /\ ef X s4 = ef X s /\
    read_eflags X s' = read_eflags X (write_eflags_helper X fl (if Z.testbit fl 17 then vm86_mask else iret_mask X s 4) s4) /\
    ring X s' = if Z.testbit fl 17 then 3 else rpl (cs mod 2 ^ 16).
Proof.
  intros V H. unfold iret_pe in H. unfold bind at 1, get at 1 in H. rewrite vm_eq, V in H.
  destruct (nz (ef X s .& NT_MASK)); [discriminate |]. assert (Hn : 4 = 2 \/ 4 = 4) by (right; reflexivity).
  apply bind_ok in H as ([ip e1] & s1 & P1 & H). apply bind_ok in H as ([cs e2] & s2 & P2 & H). apply bind_ok in H as ([fl e3] & s3 & P3 & H). cbn [fst snd] in *.
  assert (E0 : esp X s mod stack_mod X s 4 = (esp X s + 4 * 0) mod stack_mod X s 4) by (f_equal; lia).
  destruct (pop_inv _ _ _ _ _ _ _ 0 Hn E0 P1) as (m1 & -> & R1 & E1).
  destruct (pop_inv _ _ _ (set_mem X m1 s) _ _ _ (0 + 1) Hn E1 P2) as (m2 & -> & R2 & E2).
  destruct (pop_inv _ _ _ (set_mem X m2 s) _ _ _ (0 + 1 + 1) Hn E2 P3) as (m3 & -> & R3 & E3).
  change (set_mem X m3 (set_mem X m2 (set_mem X m1 s))) with (set_mem X m3 s) in H.
  assert (Hcs : 0 <= cs mod 2 ^ 16 < 2 ^ 16) by (apply Z.mod_pos_bound; lia).
  assert (PP : pops X s 4 0 [ip; cs; fl] (mem X s) m3). { exists m1. split; [exact R1 |]. exists m2. split; [exact R2 |]. exists m3. now split. }
  change VM_MASK with (1 << 17) in H at 1. rewrite nz_fld in H by lia. exists ip, cs, fl, m3. destruct (Z.testbit fl 17) eqn:VF.
  - repeat (apply bind_ok in H as ([? ?] & ? & ?P & H)).
    repeat match goal with P : stack_pop X 4 _ ?t = Ok X _ _ ?s2 |- _ =>
      let m := fresh "mm" in destruct (memonly_ok _ _ _ _ _ P (memonly_pop _ _ _ _)) as [m ->]; clear P end.
    apply upd_inv in H. subst s'. exists s. split; [exact PP |]. split; [reflexivity |]. split; [reflexivity |].
    rewrite ring_hfl. rewrite land3, Z.land_lor_distr_l, <- Z.land_assoc. change (not32 HFLG_CPL .& 3) with 0. now rewrite Z.land_0_r.
  - cbv zeta in H. apply bind_ok in H as (u1 & s4 & HT & H). apply upd_inv in H.
    destruct (tail_sum _ _ _ _ _ _ _ _ Hcs HT) as (m & d & CC & R & SG & IP & EF).
    exists s4. split; [exact PP |]. split; [exact EF |]. split; [| rewrite H; exact R].
    rewrite H. do 2 f_equal. rewrite cpl_mod, iopl_eq. unfold iret_mask. change (4 =? 2) with false.
    destruct (ring X s <=? iopl X s), (ring X s =? 0); rewrite ?Z.lor_0_r; reflexivity.
Qed.

(** ** The frame on flat memory *)
Definition word_at (m : Z -> Z) (a : Z) : Z := le 4 a m mod 2 ^ 32.

(** pushing does not reach [a], if [a] is at least as far above the stack pointer as the
    pushed words are below it *)
Lemma pushed_other c p b vs : forall e m m' a, pushed flat c p 4 (2 ^ 32) b vs e m m' ->
  (forall j, 0 <= j < 4 -> 4 * Z.of_nat (length vs) <= (a + j - (b + e - 4 * Z.of_nat (length vs))) mod 2 ^ 32) ->
  le 4 a m' = le 4 a m.
Proof.
  induction vs as [| v vs IH]; intros e m m' a P D; [cbn [pushed] in P; now rewrite P |].
  destruct P as (m1 & W & P). cbn [length] in D. rewrite Nat2Z.inj_succ in D. set (l := Z.of_nat (length vs)) in *.
  assert (Hl : 0 <= l) by (unfold l; lia).
  rewrite (IH _ _ _ _ P).
  - apply (f_equal fst) in W. cbn [wr flat fst] in W. rewrite <- W. apply le_miss. intros j Hj. change (Z.of_nat 4) with 4 in Hj. specialize (D j Hj).
    rewrite (item_ring 0). rewrite Zminus_mod_idemp_r.
    pose proof (Z.mod_pos_bound (a + j - (b + e - 4 * Z.succ l)) (2 ^ 32) ltac:(lia)) as B.
    replace (a + j - (b + e - 4)) with (a + j - (b + e - 4 * Z.succ l) - 4 * l) by lia. set (q := a + j - _) in *.
    rewrite <- Zminus_mod_idemp_l, Z.mod_small; lia.
  - intros j Hj. specialize (D j Hj). fold l.
    replace (a + j - (b + (e - 4) - 4 * l)) with (a + j - (b + e - 4 * Z.succ l)) by lia. lia.
Qed.

(** the words of the frame, from the last one pushed up *)
Lemma pushed_words c p b vs : forall e m m', pushed flat c p 4 (2 ^ 32) b vs e m m' -> 4 * Z.of_nat (length vs) <= 2 ^ 31 ->
  forall k, (k < length vs)%nat -> word_at m' (b + e - 4 * (Z.of_nat k + 1)) = nth k vs 0 mod 2 ^ 32.
Proof.
  induction vs as [| v vs IH]; intros e m m' P L k Hk; [cbn in Hk; lia |].
  destruct P as (m1 & W & P). cbn [length] in *. destruct k as [| k].
  - cbn [nth]. unfold word_at. rewrite (pushed_other _ _ _ _ _ _ _ _ P).
    + apply (f_equal fst) in W. cbn [wr flat fst] in W. rewrite <- W. rewrite (item_ring 0).
      rewrite <- le_mod. replace (b + e - 4 * (Z.of_nat 0 + 1)) with (b + e - 4) by lia. rewrite <- (Z.add_0_r ((b + e - 4) mod 2 ^ 32)) at 1.
      rewrite le_hit by (cbn; lia). change (8 * 0) with 0. rewrite Z.pow_0_r, Z.div_1_r. change (8 * Z.of_nat 4) with 32. change (8 * 4) with 32. now rewrite !Z.mod_mod by lia.
    + intros j Hj. replace (b + e - 4 * (Z.of_nat 0 + 1) + j - (b + (e - 4) - 4 * Z.of_nat (length vs))) with (4 * Z.of_nat (length vs) + j) by lia.
      rewrite Z.mod_small; lia.
  - cbn [nth]. rewrite <- (IH _ _ _ P) by lia. f_equal. lia.
Qed.

(** popping reads them back *)
Lemma pops_words s vs : forall k m m', Z.testbit (hfl flat s) 3 = true -> pops flat s 4 k vs m m' ->
  m' = m /\ forall i, (i < length vs)%nat -> nth i vs 0 = word_at m (base (seg flat s SS) + esp flat s + 4 * (k + Z.of_nat i)).
Proof.
  induction vs as [| v vs IH]; intros k m m' B P; [split; [exact P | intros i Hi; cbn in Hi; lia] |].
  destruct P as (m1 & R & P). apply flat_rd4 in R as [-> R]. destruct (IH _ _ _ B P) as [-> N]. split; [reflexivity |].
  intros [| i] Hi; cbn [nth].
  - rewrite <- R. unfold word_at, stack_item, stack_mod. rewrite B. change (4 =? 4) with true. cbn [andb]. cbv iota.
    rewrite Zplus_mod_idemp_l, le_mod. do 2 f_equal. lia.
  - cbn [length] in Hi. rewrite N by lia. f_equal. lia.
Qed.

Lemma word_mod m a a' : a mod 2 ^ 32 = a' mod 2 ^ 32 -> word_at m a = word_at m a'.
Proof. intros E. unfold word_at. rewrite <- (le_mod 4 a), <- (le_mod 4 a'), E. reflexivity. Qed.
Lemma word_same m m' a : (forall j, 0 <= j < 4 -> m ((a + j) mod 2 ^ 32) = m' ((a + j) mod 2 ^ 32)) -> word_at m a = word_at m' a.
Proof.
  intros H. unfold word_at. f_equal. cbn [le].
  replace (a + 1 + 1) with (a + 2) by lia. replace (a + 2 + 1) with (a + 3) by lia.
  pose proof (H 0 ltac:(lia)) as H0. rewrite Z.add_0_r in H0. rewrite H0, (H 1), (H 2), (H 3) by lia. reflexivity.
Qed.

(** ** What is assumed and what is promised *)

(** the interrupted program: registers within their width; outside VM86 mode the level
    is that of CS and the stack width that of SS *)
Definition runnable (s : st flat) : Prop :=
  0 <= esp flat s < 2 ^ 32 /\ 0 <= eip flat s < 2 ^ 32 /\ (forall r, 0 <= sel (seg flat s r) < 2 ^ 16) /\
  if vm flat s then ring flat s = 3
  else rpl (sel (seg flat s CS)) = ring flat s /\ Z.testbit (hfl flat s) 3 = Z.testbit (sflags (seg flat s SS)) 22.
(** the bytes of the frame, without error code *)
Definition frame_size (s s1 : st flat) : Z := if vm flat s then 36 else if ring flat s1 <? ring flat s then 20 else 12.
(** [h] is a state in which a handler entered in [s1] may execute IRET: [c] bytes of error
    code have been dropped, and the frame and the stack segment (with 32 bits) are as
    they were.  Everything else is up to the handler. *)
Definition handled (s s1 : st flat) (c : Z) (h : st flat) : Prop :=
  seg flat h SS = seg flat s1 SS /\ ring flat h = ring flat s1 /\ vm flat h = false /\ clean flat h /\
  Z.testbit (hfl flat h) 3 = true /\ Z.testbit (sflags (seg flat h SS)) 22 = true /\
  esp flat h = (esp flat s1 + c) mod 2 ^ 32 /\
  forall i, 0 <= i < frame_size s s1 ->
    mem flat h ((base (seg flat s1 SS) + esp flat h + i) mod 2 ^ 32) = mem flat s1 ((base (seg flat s1 SS) + esp flat h + i) mod 2 ^ 32).

(** the flags that come back: all but IOPL, IF, VM, VIF and VIP, these too if the handler
    is at level 0 *)
Definition restored (s s1 : st flat) : list Z :=
  [0; 2; 4; 6; 7; 11; 8; 14; 18; 21] ++ (if vm flat s then [] else [10; 16]) ++ (if ring flat s1 =? 0 then [9; 12; 13; 17; 19; 20] else []).

Lemma frame_words c p b vs cds e m s s1 h k ws m' : (length vs <= 9)%nat -> (length cds <= 1)%nat -> frame_size s s1 = 4 * Z.of_nat (length vs) ->
  pushed flat c p 4 (2 ^ 32) b (vs ++ cds) e m (mem flat s1) -> esp flat s1 mod 2 ^ 32 = (e - 4 * Z.of_nat (length (vs ++ cds))) mod 2 ^ 32 ->
  base (seg flat s1 SS) = b -> handled s s1 (4 * Z.of_nat (length cds)) h -> (k + length ws <= length vs)%nat ->
  pops flat h 4 (Z.of_nat k) ws (mem flat h) m' ->
  m' = mem flat h /\ forall i, (i < length ws)%nat -> nth i ws 0 = nth (length vs - 1 - k - i) vs 0 mod 2 ^ 32.
Proof.
  intros L1 L2 FS P E B H K Q. destruct H as (SSE & _ & _ & _ & B3 & _ & EH & KEEP).
  apply pops_words in Q as [-> Q]; [| exact B3]. split; [reflexivity |]. intros i Hi. rewrite Q by exact Hi.
  rewrite SSE, B in *. rewrite app_length in *.
  assert (AD : (b + esp flat h + 4 * (Z.of_nat k + Z.of_nat i)) mod 2 ^ 32 = (b + e - 4 * (Z.of_nat (length vs - 1 - k - i) + 1)) mod 2 ^ 32).
  { rewrite EH. replace (b + (esp flat s1 + 4 * Z.of_nat (length cds)) mod 2 ^ 32 + 4 * (Z.of_nat k + Z.of_nat i))
      with ((esp flat s1 + 4 * Z.of_nat (length cds)) mod 2 ^ 32 + (b + 4 * (Z.of_nat k + Z.of_nat i))) by lia.
    rewrite Zplus_mod_idemp_l. rewrite <- Z.add_assoc, <- Zplus_mod_idemp_l, E, Zplus_mod_idemp_l. f_equal. lia. }
  rewrite (word_same _ (mem flat s1)).
  - rewrite (word_mod _ _ _ AD). rewrite (pushed_words _ _ _ _ _ _ _ P) by (rewrite ?app_length; lia). now rewrite app_nth1 by lia.
  - intros j Hj. replace (b + esp flat h + 4 * (Z.of_nat k + Z.of_nat i) + j) with (b + esp flat h + (4 * (Z.of_nat k + Z.of_nat i) + j)) by lia.
    apply KEEP. rewrite FS. lia.
Qed.

Lemma codes_len intn hw c i : (length (codes intn hw c i) <= 1)%nat.
Proof. unfold codes. destruct (_ && _); cbn; lia. Qed.
Lemma read_vm s : Z.testbit (read_eflags flat s) 17 = vm flat s.
Proof.
  pose proof (LazyFlagsProofs.control_read (flagctx flat s)) as R. apply (f_equal (fun x => Z.testbit x 17)) in R. cbv beta in R.
  unfold AluSpec.control_bits in R. rewrite !Z.land_spec in R. change (Z.testbit (Z.lnot AluSpec.STATUS) 17) with true in R. rewrite !andb_true_r in R.
  unfold read_eflags. rewrite R. unfold HostModel.w32. rewrite Z.land_spec. change (Z.testbit _ 17) with true at 2. apply andb_true_r.
Qed.

Lemma flat_descriptor m s sl m' d : descriptor flat (set_mem flat m s) sl m' d -> m' = m.
Proof. intros H. apply (f_equal fst) in H. symmetry. exact H. Qed.
Lemma big_flag d : Z.testbit (d / 2 ^ 32) 22 = is_big d.
Proof. unfold is_big. rewrite <- Z.shiftr_div_pow2 by lia. now rewrite Z.shiftr_spec by lia. Qed.

Lemma ltn a b : Nat.ltb a b = true -> (a < b)%nat. Proof. apply PeanoNat.Nat.ltb_lt. Qed.
Ltac pick N k H := pose proof (N k) as H; match type of H with ?A -> _ => let Q := fresh in assert (Q : A) by (apply ltn; reflexivity); specialize (H Q); clear Q end.
Lemma mod_in a : 0 <= a mod 2 ^ 32 < 2 ^ 32. Proof. apply Z.mod_pos_bound. lia. Qed.
Lemma back x l c : l = Z.succ (Z.succ (Z.succ c)) -> (((x - 4 * l) mod 2 ^ 32 + 4 * c) mod 2 ^ 32 + 4 * 3) mod 2 ^ 32 = x mod 2 ^ 32.
Proof. intros ->. rewrite Zplus_mod_idemp_l, <- Z.add_assoc, Zplus_mod_idemp_l. f_equal. lia. Qed.
Lemma mod_idem a : (a mod 2 ^ 32) mod 2 ^ 32 = a mod 2 ^ 32. Proof. apply Z.mod_mod. lia. Qed.
Lemma mod_16_32 a : 0 <= a < 2 ^ 16 -> a mod 2 ^ 32 = a. Proof. intros H. apply Z.mod_small. lia. Qed.
Lemma bit_32 a i : 0 <= i < 32 -> Z.testbit (a mod 2 ^ 32) i = Z.testbit a i. Proof. intros H. apply Z.mod_pow2_bits_low. lia. Qed.
Lemma new_esp_32 o e : 0 <= o < 2 ^ 32 -> new_esp (2 ^ 32) o e = e mod 2 ^ 32.
Proof. intros H. unfold new_esp. now rewrite Z.div_small, Z.mul_0_l, Z.add_0_l by exact H. Qed.
Lemma iopl_nonneg s : (0 <=? iopl flat s) = true. Proof. apply Z.leb_le. unfold iopl. apply Z.mod_pos_bound. lia. Qed.
Lemma new_esp_mod w o e : 0 < w -> new_esp w o e mod w = e mod w.
Proof. intros W. unfold new_esp. rewrite Z.add_comm, Z_mod_plus_full. apply Z.mod_mod. lia. Qed.
Lemma width_pos b : 0 < stack_width b. Proof. unfold stack_width. destruct b; lia. Qed.
Lemma restored_range s s1 i : In i (restored s s1) -> 0 <= i < 32 /\ i <> 1.
Proof. unfold restored. intros H. destruct (vm flat s), (ring flat s1 =? 0); cbn [app In] in H; intuition lia. Qed.

(** An interrupted program goes on where it was (missing: DF and RF of a VM86 task, refuted
    below).  Whatever interrupts it through a 32-bit
    gate, and whatever the handler does, as long as the frame and its own stack segment
    are intact: the IRET that completes comes back to the same instruction, code
    segment, level, stack and flags. *)
Theorem C77_resume_partial : forall intn hw s u s1 h v s2, runnable s -> Z.testbit (hfl flat s) 4 = true ->
  (vm flat s = false \/ intn <> 2 \/ Z.testbit (hfl flat s) 19 = false) ->
  (forall m g, idt_gate flat s (xidx flat s) m g -> gate32 g = true) ->
  deliver flat intn hw s = Ok flat _ u s1 ->
  handled s s1 (4 * Z.of_nat (length (codes intn hw (xcode flat s) (xidx flat s)))) h ->
  iret_pe flat 4 h = Ok flat _ v s2 ->
  eip flat s2 = eip flat s /\ ring flat s2 = ring flat s /\
  sel (seg flat s2 CS) = sel (seg flat s CS) /\ sel (seg flat s2 SS) = sel (seg flat s SS) /\
  (let w := if vm flat s then 2 ^ 32 else stack_width (Z.testbit (sflags (seg flat s2 SS)) 22) in esp flat s2 mod w = esp flat s mod w) /\
  (vm flat s = true -> forall r, In r [CS; SS; ES; DS; FS; GS] ->
     sel (seg flat s2 r) = sel (seg flat s r) /\ base (seg flat s2 r) = sel (seg flat s r) * 16 /\ limit (seg flat s2 r) = 0xFFFF) /\
  (forall i, In i (restored s s1) -> Z.testbit (read_eflags flat s2) i = Z.testbit (read_eflags flat s) i).
Proof.
  intros intn hw s u s1 h v s2 (He & Hi & Hsel & Hm) PE NV G32 HD HH HI.
  pose proof (C24_entry_partial flat intn hw s u s1 He PE NV HD) as EN.
  pose proof (codes_len intn hw (xcode flat s) (xidx flat s)) as CL. set (cds := codes intn hw (xcode flat s) (xidx flat s)) in *.
  destruct EN as (m & g & m1 & c & m2 & IG & GU & GN & DC & PC & DP & AC & EF & _ & _ & _ & RL & RG & REST).
  specialize (G32 _ _ IG). assert (NS : item_size g = 4) by (unfold item_size; now rewrite G32). rewrite NS in REST.
  pose proof HH as (SSE & RGH & VH & CLN & B3 & B22 & EH & KEEP).
  assert (HE : 0 <= esp flat h < 2 ^ 32) by (rewrite EH; apply mod_in).
  assert (HB : Z.testbit (hfl flat h) 3 = true -> 4 = 4) by reflexivity.
  destruct (iret_frame flat 4 h s2 v (or_intror eq_refl) HB HE VH HI) as (ip & cs & fl & mm & P1 & IP & SG & RT).
  destruct (iret_flags flat h s2 v VH HI) as (ip' & cs' & fl' & mm' & s4 & P2 & EF4 & RE & R2).
  set (ofl := read_eflags flat s) in *.
  assert (MSK : forall i, In i [0; 2; 4; 6; 7; 11] \/ Z.testbit (if Z.testbit fl' 17 then vm86_mask else iret_mask flat h 4) i = true -> 0 <= i -> i <> 1 ->
    Z.testbit (read_eflags flat s2) i = Z.testbit fl' i).
  { intros i Hor H0 H1. rewrite RE. apply wef_read; auto.
    - unfold clean in *. now rewrite EF4.
    - destruct (Z.testbit fl' 17); [cbv; split; congruence |]. unfold iret_mask. destruct (ring flat h =? 0), (ring flat h <=? iopl flat h); cbv; split; congruence.
    - destruct (Z.testbit fl' 17); [reflexivity |]. unfold iret_mask. destruct (ring flat h =? 0), (ring flat h <=? iopl flat h); reflexivity.
    - rewrite Z.lor_spec. destruct Hor as [HIn | HM]; [| now rewrite HM]. cbn [In] in HIn. intuition (subst i; rewrite orb_true_r; reflexivity). }
  assert (FLB : forall i, 0 <= i < 32 -> Z.testbit (ofl mod 2 ^ 32) i = Z.testbit ofl i) by (intros i Hx; now apply bit_32).
  assert (V17 : Z.testbit (ofl mod 2 ^ 32) 17 = vm flat s) by (rewrite bit_32 by (split; reflexivity || discriminate); apply read_vm).
  assert (S16 : forall r, sel (seg flat s r) mod 2 ^ 32 = sel (seg flat s r)) by (intros r; apply mod_16_32, Hsel).
  assert (S16' : forall r, sel (seg flat s r) mod 2 ^ 16 = sel (seg flat s r)) by (intros r; apply Z.mod_small; apply Hsel).
  (* the frame: [vs] has been pushed *)
  assert (FR : exists vs p b e m3, pushed flat (ring flat s) p 4 (2 ^ 32) b (vs ++ cds) e m3 (mem flat s1) /\
    esp flat s1 mod 2 ^ 32 = (e - 4 * Z.of_nat (length (vs ++ cds))) mod 2 ^ 32 /\ base (seg flat s1 SS) = b /\
    vs = (if vm flat s then [sel (seg flat s GS); sel (seg flat s FS); sel (seg flat s DS); sel (seg flat s ES)] else []) ++
         (if vm flat s || (ring flat s1 <? ring flat s) then [sel (seg flat s SS); esp flat s] else []) ++ [ofl; sel (seg flat s CS); eip flat s] /\
    frame_size s s1 = 4 * Z.of_nat (length vs)).
  { rewrite SSE in B22. unfold frame_size. rewrite RG. destruct (vm flat s) eqn:VM.
    - destruct REST as (R0 & _ & _ & _ & e & ss & sd & m3 & IS & SS1 & PU & EQ).
      rewrite SS1 in *. unfold decode in B22. cbn [sflags] in B22. rewrite big_flag in B22. rewrite B22 in PU, EQ. change (stack_width true) with (2 ^ 32) in PU, EQ.
      eexists _, _, _, _, _. split; [exact PU |]. split; [rewrite EQ, (new_esp_32 _ _ He); apply mod_idem |].
      split; [reflexivity |]. split; reflexivity.
    - destruct REST as (_ & _ & _ & REST). rewrite orb_false_l. destruct (handler_ring (ring flat s) c <? ring flat s).
      + destruct REST as (e & ss & sd & m3 & IS & SS1 & PU & EQ).
        rewrite SS1 in *. unfold decode in B22. cbn [sflags] in B22. rewrite big_flag in B22. rewrite B22 in PU, EQ. change (stack_width true) with (2 ^ 32) in PU, EQ.
        eexists _, _, _, _, _. split; [exact PU |]. split; [rewrite EQ, (new_esp_32 _ _ He); apply mod_idem |].
        split; [reflexivity |]. split; reflexivity.
      + destruct REST as (SS1 & PU & EQ). rewrite SS1 in *. destruct Hm as [_ HB3]. rewrite HB3, B22 in PU, EQ. change (stack_width true) with (2 ^ 32) in PU, EQ.
        eexists _, _, _, _, _. split; [exact PU |]. split; [rewrite EQ, (new_esp_32 _ _ He); apply mod_idem |].
        split; [reflexivity |]. split; reflexivity. }
  destruct FR as (vs & p & b & e & m3 & PU & EQ & BS & VS & FZ).
  assert (LV : (3 <= length vs <= 9)%nat) by (rewrite VS; destruct (vm flat s), (ring flat s1 <? ring flat s); clear; cbn; lia).
  assert (FW : forall k ws mx, (k + length ws <= length vs)%nat -> pops flat h 4 (Z.of_nat k) ws (mem flat h) mx ->
    mx = mem flat h /\ forall i, (i < length ws)%nat -> nth i ws 0 = nth (length vs - 1 - k - i) vs 0 mod 2 ^ 32).
  { intros k ws mx Hk Hp. eapply frame_words; [apply LV | exact CL | exact FZ | exact PU | exact EQ | exact BS | exact HH | exact Hk | exact Hp]. }
  assert (TOP : nth (length vs - 1 - 0 - 0) vs 0 = eip flat s /\ nth (length vs - 1 - 0 - 1) vs 0 = sel (seg flat s CS) /\ nth (length vs - 1 - 0 - 2) vs 0 = ofl).
  { rewrite VS. destruct (vm flat s), (ring flat s1 <? ring flat s); repeat split. }
  destruct TOP as (T0 & T1 & T2).
  assert (W1 : mm = mem flat h /\ ip = eip flat s /\ cs = sel (seg flat s CS) /\ fl = ofl mod 2 ^ 32).
  { destruct (FW 0%nat [ip; cs; fl] mm (proj1 LV) P1) as [M N]. split; [exact M |].
    pick N 0%nat w0. pick N 1%nat w1. pick N 2%nat w2. cbn [nth] in w0, w1, w2.
    rewrite T0 in w0. rewrite T1 in w1. rewrite T2 in w2. rewrite S16 in w1. rewrite Z.mod_small in w0 by assumption. auto. }
  assert (W2 : cs' = sel (seg flat s CS) /\ fl' = ofl mod 2 ^ 32).
  { destruct (FW 0%nat [ip'; cs'; fl'] mm' (proj1 LV) P2) as [M N].
    pick N 1%nat w1. pick N 2%nat w2. cbn [nth] in w1, w2.
    rewrite T1 in w1. rewrite T2 in w2. rewrite S16 in w1. auto. }
  destruct W1 as (-> & -> & -> & ->). destruct W2 as (-> & ->). rewrite V17 in *. rewrite S16' in *.
  split; [exact IP |].
  assert (RNG : ring flat s2 = ring flat s) by (rewrite R2; destruct (vm flat s); [now symmetry | apply Hm]).
  split; [exact RNG |]. split; [exact SG |].
  assert (FLAGS : forall i, In i (restored s s1) -> Z.testbit (read_eflags flat s2) i = Z.testbit ofl i).
  { intros i Hx. destruct (restored_range _ _ _ Hx) as [BI BN].
    rewrite MSK; [now apply FLB | | apply BI | exact BN]. unfold restored in Hx. apply in_app_or in Hx.
    assert (R0 : vm flat s = true -> ring flat s1 = 0) by (intros Q; rewrite Q in REST; rewrite RG; apply REST).
    unfold iret_mask. change (4 =? 2) with false. cbv iota. rewrite RGH. destruct Hx as [Hx | Hx].
    - assert (K : In i [0; 2; 4; 6; 7; 11] \/ In i [8; 14; 18; 21]) by (cbn [In] in Hx |- *; tauto). destruct K as [K | K]; [now left | right].
      destruct (vm flat s); [| destruct (ring flat s1 =? 0)]; cbn [In] in K; intuition (subst i; rewrite ?Z.lor_spec; reflexivity).
    - right. destruct (vm flat s); [rewrite R0 in Hx by reflexivity; cbn [app Z.eqb In] in Hx; intuition (subst i; reflexivity) |].
      destruct (Z.eqb_spec (ring flat s1) 0) as [Q | Q].
      + rewrite Q. rewrite iopl_nonneg. cbn [app In] in Hx. intuition (subst i; reflexivity).
      + cbn [app In] in Hx. intuition (subst i; rewrite ?Z.lor_spec; reflexivity). }
  destruct (vm flat s) eqn:VM.
  - destruct RT as (nsp & ss & es & ds & fs & gs & m4 & P3 & ESP & SEGS).
    cbn [orb app] in VS. change 3 with (Z.of_nat 3) in P3. assert (L9 : (3 + length [nsp; ss; es; ds; fs; gs] <= length vs)%nat) by (rewrite VS; apply le_n). destruct (FW 3%nat [nsp; ss; es; ds; fs; gs] m4 L9 P3) as [_ N].
    rewrite VS in N. cbn [length app] in N.
    pick N 0%nat w0. pick N 1%nat w1. pick N 2%nat w2.
    pick N 3%nat w3. pick N 4%nat w4. pick N 5%nat w5.
    cbn [nth Nat.sub] in w0, w1, w2, w3, w4, w5. rewrite S16 in w1, w2, w3, w4, w5. rewrite Z.mod_small in w0 by assumption. rewrite w0 in ESP. subst ss es ds fs gs.
    assert (ALL : forall r, In r [CS; SS; ES; DS; FS; GS] ->
      sel (seg flat s2 r) = sel (seg flat s r) /\ base (seg flat s2 r) = sel (seg flat s r) * 16 /\ limit (seg flat s2 r) = 0xFFFF).
    { intros r Hr. specialize (SEGS r (sel (seg flat s r))). rewrite S16' in SEGS. apply SEGS. cbn [In] in Hr |- *. intuition (subst r; tauto). }
    split; [apply ALL; cbn; tauto |]. split; [cbv zeta; now rewrite ESP |]. split; [intros _; exact ALL | exact FLAGS].
  - destruct Hm as [HR HB3]. unfold returned in RT. rewrite HR, RGH in RT. cbn [orb] in VS. destruct (ring flat s1 <? ring flat s) eqn:LT.
    + destruct RT as (ma & mb & mc & nsp & ss & d & sd & D1 & P3 & D2 & _ & _ & SS2 & ESP). apply flat_descriptor in D1. subst ma.
      change 3 with (Z.of_nat 3) in P3. assert (L9 : (3 + length [nsp; ss] <= length vs)%nat) by (rewrite VS; apply le_n). destruct (FW 3%nat [nsp; ss] mb L9 P3) as [_ N]. rewrite VS in N. cbn [length app] in N.
      pick N 0%nat w0. pick N 1%nat w1. cbn [nth Nat.sub] in w0, w1. rewrite S16 in w1. rewrite Z.mod_small in w0 by assumption. subst nsp ss.
      rewrite S16' in SS2. rewrite SS2, ESP. split; [reflexivity |]. split; [| split; [discriminate | exact FLAGS]].
      cbv zeta. unfold decode. cbn [sflags]. rewrite big_flag. apply new_esp_mod, width_pos.
    + destruct RT as [SS2 ESP].
      assert (SSS : seg flat s1 SS = seg flat s SS) by (rewrite <- RG, LT in REST; apply REST).
      rewrite SS2, SSE, SSS in *. split; [reflexivity |]. split; [| split; [discriminate | exact FLAGS]]. cbv zeta. rewrite B22. change (stack_width true) with (2 ^ 32).
      rewrite ESP. unfold own_width. rewrite B3. change (stack_width true) with (2 ^ 32). rewrite (new_esp_32 _ _ HE), mod_idem.
      destruct REST as (_ & _ & _ & REST). rewrite <- RG, LT in REST. destruct REST as (_ & _ & ES1). rewrite HB3, B22 in ES1. change (stack_width true) with (2 ^ 32) in ES1.
      rewrite (new_esp_32 _ _ He) in ES1. rewrite EH, ES1. apply back. cbn [app length]. now rewrite !Nat2Z.inj_succ.
Qed.
Print Assumptions C77_resume_partial.

(** *** A VM86 task does not get its direction flag back *)
Definition task (efl : Z) (m : Z -> Z) : st flat :=
  mkst flat 0x7000 0x100 efl 0 0 0x7E00013
    (fun r => match r with CS => mkseg 0x1B 0x1B0 0xFFFF 0 | LDTR => mkseg 0 0 0 0 | TR => mkseg 0x50 0x3000 0x67 0x8B00 | _ => mkseg 0x23 0x230 0xFFFF 0 end)
    0x1000 0x4F 0x2000 0x7FF 0x11 0 0 0 0x400 0 0 0 EXP_INVALID [] m.
(** the handler executes CLD *)
Definition cld (s : st flat) : st flat := set_ef flat (Z.land (ef flat s) 0xFFFFFBFF) s.

Definition resumes (h s2 : st flat) (df : bool) : bool :=
  negb (vm flat h) && (Z.land (ef flat h) 0x8D5 =? 0) && Z.testbit (hfl flat h) 3 && Z.testbit (sflags (seg flat h SS)) 22 &&
  (0 <=? esp flat h) && (esp flat h <? 2 ^ 32) && vm flat s2 && (eip flat s2 =? 0x100) && Bool.eqb (Z.testbit (read_eflags flat s2) 10) df.

Lemma val_inj a b : MVal a = MVal b -> a = b. Proof. congruence. Qed.
Theorem C77_refuted_vm86_df : exists s u s1 h v s2, runnable s /\ Z.testbit (hfl flat s) 4 = true /\ vm flat s = true /\
  (forall m g, idt_gate flat s (xidx flat s) m g -> gate32 g = true) /\ deliver flat 0 true s = Ok flat _ u s1 /\
  handled s s1 0 h /\ iret_pe flat 4 h = Ok flat _ v s2 /\ vm flat s2 = true /\ eip flat s2 = eip flat s /\
  Z.testbit (read_eflags flat s) 10 = true /\ Z.testbit (read_eflags flat s2) 10 = false.
Proof.
  set (s := raising 32 0 (task 0x20602 m1)).
  destruct (ok_inv (deliver flat 0 true s) (fun s1 => ok (iret_pe flat 4 (cld s1)) (fun s2 => resumes (cld s1) s2 false))) as (u & s1 & E1 & Q); [vm_compute; reflexivity |].
  destruct (ok_inv _ _ Q) as (v & s2 & E2 & R). clear Q. unfold resumes in R.
  repeat (apply andb_true_iff in R; destruct R as [R ?]).
  exists s, u, s1, (cld s1), v, s2.
  split. { split; [vm_compute; split; congruence |]. split; [vm_compute; split; congruence |]. split; [intros r; destruct r; vm_compute; split; congruence | vm_compute; reflexivity]. }
  split; [reflexivity |]. split; [reflexivity |].
  split. { intros m g [_ G]. apply (f_equal snd) in G. change (snd _) with (MVal (le 8 ((0x2000 + 32 * 8) mod 2 ^ 32) m1 mod 2 ^ 64)) in G at 1.
    apply val_inj in G. rewrite <- G. vm_compute. reflexivity. }
  split; [exact E1 |]. split; [| split; [exact E2 |]; split; [assumption |]; split; [change (eip flat s) with 0x100; now apply Z.eqb_eq |]; split; [reflexivity | now apply eqb_prop]].
  - split; [reflexivity |]. split; [reflexivity |]. split; [now apply negb_true_iff |]. split; [now apply Z.eqb_eq |]. split; [assumption |]. split; [assumption |].
    split; [change (esp flat (cld s1)) with (esp flat s1) in *; rewrite Z.add_0_r, Z.mod_small; lia | intros i _; reflexivity].
Qed.
Print Assumptions C77_refuted_vm86_df.

(** the hypotheses of the theorem, met from a user level program, the same level and VM86 mode *)
Example C77_hyp :
  (runnable (machine 3 0x602 m1) /\ runnable (machine 0 2 m1) /\ runnable (task 0x20202 m1)) /\
  forallb (fun s => ok (deliver flat 0 true (raising 32 0 s)) (fun s1 => ok (iret_pe flat 4 (cld s1)) (fun s2 => (eip flat s2 =? 0x100) && (esp flat s2 =? 0x7000) && (ring flat s2 =? ring flat s))))
    [machine 3 0x602 m1; machine 0 2 m1; task 0x20202 m1] = true /\
  ok (deliver flat 0 true (raising 32 0 (machine 3 0x602 m1))) (fun s1 => (ring flat s1 =? 0) && ok (iret_pe flat 4 (cld s1)) (fun s2 => Z.testbit (read_eflags flat s2) 10)) = true.
Proof.
  split; [| vm_compute; auto]. repeat split; try (vm_compute; congruence); intros; repeat match goal with r : sr |- _ => destruct r end; try (vm_compute; congruence).
Qed.
