(** * Properties of the port instructions *)

From Coq Require Import ZArith Bool List Lia ZifyBool.
From Verif Require Import HostModel AluModel AluSpec HostProofs LazyFlagsProofs FlagsApiProofs
  FlagArith SymExec EaProofs AluProofs AluForms UnaryProofs XchgProofs MulProofs StringModel StringSpec
  StringProofs StringRep StringForms AluProps StringProps PortModel PortSpec PortProofs.
From Verif Require IoPrivModel IoPrivProps.
Import ListNotations.
Local Open Scope Z_scope.

(** ** C71 *)

(** The privilege check refused: #GP(0), no port accessed, nothing changed. *)
Definition refuses (r : outcome * list ioev) (s : hst) (t : list ioev) : Prop :=
  exists s', r = (Raise 13 0 s', t) /\ becomes s s' (gprs (ctx s)) (gmem s) (flags_now s).

Lemma becomes_gs s s' g : ctx_ok (ctx s) -> same s s' -> gs s' = g -> becomes s s' (g_regs g) (g_mem g) (g_fl g).
Proof. intros Hok HS <-. now apply same_becomes. Qed.
Lemma becomes_kept s s' : ctx_ok (ctx s) -> same s s' -> gs s' = gs s -> becomes s s' (gprs (ctx s)) (gmem s) (flags_now s).
Proof. intros Hok HS HG. pose proof (becomes_gs _ _ _ Hok HS HG) as B. rewrite <- gs_guest in B by assumption. exact B. Qed.

Lemma fst_gs dev w p s t : ctx_ok (ctx s) -> fst (spec_in dev w p (guest s) t) = fst (spec_in dev w p (gs s) t).
Proof. intros H. now rewrite gs_guest. Qed.

(** IN reads the addressed port once, with the operand's width, and puts the
    value in AL, AX or EAX; nothing else changes *)
Theorem C71_in : forall E w s t (imm : option Z),
  arith_w w -> h_rcx (hr s) = P PCtx -> ctx_ok (ctx s) ->
  (forall p, imm = Some p -> 0 <= p < 256) ->
  let port := match imm with Some p => p | None => gget W16 false EDX (gprs (ctx s)) end in
  let r := prun E (match imm with Some p => in_imm (checked E) p w | None => in_dx (checked E) w end) s t in
  exists ok, permission E (match imm with Some _ => true | None => false end) port w (gmem s) ok /\
  if ok then
    let v := p_dev E t w port mod modulus w in
    exists s', r = (Done s', t ++ [ERead w port v]) /\
      becomes s s' (gput w false EAX v (gprs (ctx s))) (gmem s) (flags_now s)
  else refuses r s t.
Proof.
  intros E w s t imm Hw Hcx Hok Hi. cbv zeta. destruct imm as [p |].
  - specialize (Hi p eq_refl). destruct (imm_ok E p w s t Hcx) as (ok & s1 & PM & (K1 & K2 & _) & R). exists ok. split; [exact PM |].
    unfold in_imm. rewrite R. destruct ok; [| exists s1; split; [reflexivity | now apply becomes_kept]].
    destruct (mov_port (p_host E) p s1 (same_rcx _ _ K1) ltac:(lia)) as (s2 & R2 & (L1 & L2 & _) & D2).
    rewrite (phost_run _ _ _ _ _ _ R2). destruct (in_tail E w s2 t p (same_rcx _ _ L1) Hw D2 ltac:(lia)) as (s3 & R3 & S3 & G3).
    exists s3. split; [exact R3 |].
    pose proof (becomes_gs s s3 _ Hok ltac:(eauto using same_trans) G3) as B.
    replace (gs s2) with (guest s) in B by (rewrite gs_guest by assumption; congruence). exact B.
  - destruct (dx_ok E w s t Hcx) as (ok & s1 & PM & (K1 & K2 & _) & D & R). exists ok. split; [exact PM |].
    unfold in_dx. rewrite R. destruct ok; [| exists s1; split; [reflexivity | now apply becomes_kept]].
    destruct (in_tail E w s1 t _ (same_rcx _ _ K1) Hw (D eq_refl) (dx_range (gs s))) as (s3 & R3 & S3 & G3).
    exists s3. split; [exact R3 |].
    pose proof (becomes_gs s s3 _ Hok ltac:(eauto using same_trans) G3) as B.
    replace (gs s1) with (guest s) in B by (rewrite gs_guest by assumption; congruence). exact B.
Qed.
Print Assumptions C71_in.

(** OUT writes AL, AX or EAX to the addressed port, once; the guest's state does
    not change *)
Theorem C71_out : forall E w s t (imm : option Z),
  arith_w w -> h_rcx (hr s) = P PCtx -> ctx_ok (ctx s) ->
  (forall p, imm = Some p -> 0 <= p < 256) ->
  let port := match imm with Some p => p | None => gget W16 false EDX (gprs (ctx s)) end in
  let r := prun E (match imm with Some p => out_imm (checked E) p w | None => out_dx (checked E) w end) s t in
  exists ok, permission E (match imm with Some _ => true | None => false end) port w (gmem s) ok /\
  if ok then
    exists s', r = (Done s', t ++ [EWrite w port (gget w false EAX (gprs (ctx s)))]) /\
      becomes s s' (gprs (ctx s)) (gmem s) (flags_now s)
  else refuses r s t.
Proof.
  intros E w s t imm Hw Hcx Hok Hi. cbv zeta. destruct imm as [p |].
  - specialize (Hi p eq_refl). destruct (imm_ok E p w s t Hcx) as (ok & s1 & PM & (K1 & K2 & _) & R). exists ok. split; [exact PM |].
    unfold out_imm. rewrite R. destruct ok; [| exists s1; split; [reflexivity | now apply becomes_kept]].
    destruct (mov_port (p_host E) p s1 (same_rcx _ _ K1) ltac:(lia)) as (s2 & R2 & (L1 & L2 & _) & D2).
    change (host [MOV hEDX (i32 p); MOV (Rg w R8) (c_reg w false EAX)] ++ [POut w]) with
      (host [MOV hEDX (i32 p)] ++ (host [MOV (Rg w R8) (c_reg w false EAX)] ++ [POut w])).
    rewrite (phost_run _ _ _ _ _ _ R2). destruct (out_tail E w s2 t p (same_rcx _ _ L1) Hw D2 ltac:(lia)) as (s3 & R3 & S3 & G3).
    exists s3. replace (gs s2) with (gs s) in * by congruence. split; [exact R3 | apply becomes_kept; eauto using same_trans].
  - destruct (dx_ok E w s t Hcx) as (ok & s1 & PM & (K1 & K2 & _) & D & R). exists ok. split; [exact PM |].
    unfold out_dx. rewrite R. destruct ok; [| exists s1; split; [reflexivity | now apply becomes_kept]].
    destruct (out_tail E w s1 t _ (same_rcx _ _ K1) Hw (D eq_refl) (dx_range (gs s))) as (s3 & R3 & S3 & G3).
    exists s3. rewrite K2 in *. split; [exact R3 | apply becomes_kept; eauto using same_trans].
Qed.
Print Assumptions C71_out.

(** the answer of the check, for the state of the guest *)
Definition port_permission (E : penv) (w : width) (g : gst) : bool -> Prop := permission E false (dx g) w (g_mem g).
Definition stopped (w : width) (x : option cause) (s' : hst) : outcome :=
  match x with None => Done s' | Some (CFault wr a) => Fault wr a (wbytes w) s' | Some CGp => Raise 13 0 s' end.

(** INS and OUTS without a prefix transfer one element and move the index, or
    stop with the registers, the flags and the memory as they were *)
Theorem C71_string : forall E k w (a32 : bool) seg z ze s t,
  arith_w w -> h_rcx (hr s) = P PCtx -> ctx_ok (ctx s) -> bases_ok z ze seg s ->
  exists ok, port_permission E w (guest s) ok /\
  let '(r, t') := port_element (p_dev E) (refused (p_host E) w) (segb (ctx s)) w a32 seg (direction s) k ok (guest s) t in
  exists s', prun E (port_body k false (checked E) w a32 seg z ze) s t =
      (stopped w (match r with inl _ => None | inr x => Some x end) s', t') /\
    let g := match r with inl g => g | inr _ => guest s end in becomes s s' (g_regs g) (g_mem g) (g_fl g).
Proof.
  intros E k w a32 seg z ze s t Hw Hcx Hok [Hz Hze]. rewrite direction_bit, gs_guest by assumption.
  destruct (port_pass E k w a32 seg z ze Hw false s t Hcx Hz Hze) as (ok & PM & P0). exists ok. split; [exact PM |].
  change (refused (p_host E) w) with (fault_of (p_host E) w). cbv zeta in *.
  destruct (port_element _ _ _ _ _ _ _ _ _ _ _) as [[g1 | x] t1]; destruct P0 as (s' & R & HS & HG); exists s'.
  - split; [exact R | now apply becomes_gs].
  - split; [rewrite R; now destruct x | now apply becomes_gs].
Qed.
Print Assumptions C71_string.

(** with REP: as many elements as the count says, until one is refused; exactly
    one outcome, with the index and count registers at the refused element *)
Theorem C71_repeat : forall E k w (a32 : bool) seg z ze s t,
  arith_w w -> h_rcx (hr s) = P PCtx -> ctx_ok (ctx s) -> bases_ok z ze seg s ->
  exists g' t' x s',
    port_elements (p_dev E) (refused (p_host E) w) (segb (ctx s)) w a32 seg (direction s) (port_permission E w) k
      (Z.to_nat (index a32 ECX (guest s))) (guest s) t g' t' x /\
    (forall o u, port_rep E k w a32 seg z ze s t o u <-> o = stopped w x s' /\ u = t') /\
    becomes s s' (g_regs g') (g_mem g') (g_fl g').
Proof.
  intros E k w a32 seg z ze s t Hw Hcx Hok [Hz Hze]. rewrite direction_bit, gs_guest by assumption.
  destruct (port_rep_ok E k w a32 seg z ze Hw s t Hcx Hz Hze) as (g' & t' & x & s' & PE & PR & HS & HG).
  exists g', t', x, s'. split; [exact PE |]. split; [| now apply becomes_gs].
  assert (PR' : port_rep E k w a32 seg z ze s t (stopped w x s') t') by (destruct x as [[] |]; exact PR).
  intros o u. split; [intros R; exact (port_rep_fun _ _ _ _ _ _ _ _ _ _ _ _ _ PR' R) | intros (-> & ->); exact PR'].
Qed.
Print Assumptions C71_repeat.

(** code that may use every port is never refused *)
Theorem C71_privileged : forall E imm port w mem ok, p_cpl E <= p_iopl E -> p_vm E = false ->
  permission E imm port w mem ok -> ok = true.
Proof. intros E imm port w mem ok H V (r10 & r11 & <-). apply IoPrivProps.C39_privileged; assumption. Qed.
Print Assumptions C71_privileged.
(** other code is refused all ports when the TSS has no room for the bitmap *)
Theorem C71_small_tss : forall E imm port w mem ok, p_iopl E < p_cpl E \/ p_vm E = true -> snd (p_tr E) < 103 ->
  permission E imm port w mem ok -> ok = false.
Proof. intros E imm port w mem ok H L (r10 & r11 & <-). apply IoPrivProps.C39_small_tss; assumption. Qed.
Print Assumptions C71_small_tss.

(** ** What whole repetitions do, with 32-bit addresses and DF clear *)

Section Closed.
Variables (dev : list ioev -> width -> Z -> Z) (f : bool -> Z -> bool) (base : sreg -> Z) (w : width) (seg : sreg).
Variable perm : gst -> bool -> Prop.
Hypothesis Hw : arith_w w.
Hypothesis Hp : forall g ok, perm g ok -> ok = true.

Lemma ins_closed : forall n g t g' t' x, Z.of_nat n * wbytes w <= 2 ^ 32 ->
  (forall i, 0 <= i < Z.of_nat n -> f true ((dest base true g + i * wbytes w) mod 2 ^ 32) = false) ->
  port_elements dev f base w true seg false perm PIns n g t g' t' x ->
  x = None /\ exists vs, length vs = n /\ t' = t ++ map (ERead w (dx g)) vs /\
    (forall i, (i < n)%nat -> nth i vs 0 = dev (t ++ map (ERead w (dx g)) (firstn i vs)) w (dx g) mod modulus w) /\
    EDIx g' = (EDIx g + Z.of_nat n * wbytes w) mod 2 ^ 32 /\ ECXx g' = (ECXx g - Z.of_nat n) mod 2 ^ 32 /\
    (forall r, r <> EDI -> r <> ECX -> g_regs g' r = g_regs g r) /\ g_fl g' = g_fl g /\
    (forall y, 0 <= y < 2 ^ 32 -> let o := (y - dest base true g) mod 2 ^ 32 in
       g_mem g' y = if o <? Z.of_nat n * wbytes w
                    then (nth (Z.to_nat (o / wbytes w)) vs 0 / 2 ^ (8 * (o mod wbytes w))) mod 256 else g_mem g y).
Proof.
  induction n as [| n IH]; intros g t g' t' x HN HF PE; inversion PE as [| ? ? ? ok ? ? P1 EL | ? ? ? ok g1 t1 ? ? ? P1 EL PE1]; subst.
  - split; [reflexivity |]. exists []. rewrite app_nil_r. unfold EDIx, ECXx. cbn [Z.of_nat]. rewrite Z.mul_0_l, Z.add_0_r, Z.sub_0_r.
    pose proof (gget_range W32 false EDI (g_regs g')). pose proof (gget_range W32 false ECX (g_regs g')).
    rewrite !Z.mod_small by assumption. repeat split; auto; [lia |].
    intros y Hy. cbv zeta. pose proof (Z.mod_pos_bound (y - dest base true g') (2 ^ 32) eq_refl).
    replace (_ <? 0) with false by lia. reflexivity.
  - exfalso. apply Hp in P1. subst ok. unfold port_element in EL. cbv zeta in EL.
    specialize (HF 0 ltac:(lia)). rewrite Z.mul_0_l, Z.add_0_r in HF. unfold dest in *. rewrite Zmod_mod in HF. rewrite HF in EL. discriminate.
  - apply Hp in P1. subst ok. unfold port_element in EL. cbv zeta in EL.
    assert (D : f true (dest base true g) = false).
    { specialize (HF 0 ltac:(lia)). rewrite Z.mul_0_l, Z.add_0_r in HF. unfold dest in *. now rewrite Zmod_mod in HF. }
    rewrite D in EL. set (v := read_port dev w t (dx g)) in *. apply pair_equal_spec in EL. destruct EL as (EL & <-).
    assert (g1 = move w true false EDI (mkgst (g_regs g) (mstore (g_mem g) w (dest base true g) v) (g_fl g))) as -> by congruence. clear EL.
    set (g1 := move w true false EDI _) in *. set (g2 := set_index true ECX (index true ECX g1 - 1) g1) in *.
    assert (E1 : EDIx g2 = (EDIx g + wbytes w) mod 2 ^ 32).
    { unfold EDIx, g2, g1, set_index, move, set_index. cbn [g_regs].
      change (gget W32 false EDI (gput ?a ?b ECX ?c ?d)) with (gget W32 false EDI d).
      unfold index_w. rewrite gget_new, getw_mod, Zmod_mod. reflexivity. }
    assert (E2 : ECXx g2 = (ECXx g - 1) mod 2 ^ 32).
    { unfold ECXx, g2, set_index. cbn [g_regs]. unfold index_w. rewrite gget_new, getw_mod, Zmod_mod. reflexivity. }
    assert (D2 : dest base true g2 = (dest base true g + wbytes w) mod 2 ^ 32).
    { unfold dest. change (index true EDI g2) with (EDIx g2). rewrite E1. rewrite Zplus_mod_idemp_r, Zplus_mod_idemp_l.
      unfold EDIx, index, index_w. f_equal. lia. }
    assert (DX : dx g2 = dx g) by reflexivity.
    pose proof (wbytes_range w Hw) as Wb.
    assert (HF2 : forall i, 0 <= i < Z.of_nat n -> f true ((dest base true g2 + i * wbytes w) mod 2 ^ 32) = false).
    { intros i Hi. rewrite D2, Zplus_mod_idemp_l. specialize (HF (i + 1) ltac:(lia)).
      rewrite <- HF. f_equal. f_equal. lia. }
    destruct (IH _ _ _ _ _ ltac:(lia) HF2 PE1) as (-> & vs & L & T & V & A1 & A2 & A3 & A4 & A5).
    rewrite DX in *. split; [reflexivity |]. exists (v :: vs). split; [cbn [length]; now rewrite L |].
    split; [rewrite T, <- app_assoc; reflexivity |].
    split. { intros [| i] Hi; cbn [nth firstn map]; [rewrite app_nil_r; reflexivity |]. rewrite V by lia. rewrite <- app_assoc. reflexivity. }
    split; [rewrite A1, E1, Zplus_mod_idemp_l; f_equal; lia |].
    split; [rewrite A2, E2, Zminus_mod_idemp_l; f_equal; lia |].
    split; [intros r N1 N2; rewrite A3 by assumption; destruct r; try reflexivity; congruence |].
    split; [rewrite A4; reflexivity |].
    intros y Hy. specialize (A5 y Hy). cbv zeta in *. rewrite A5. rewrite D2.
    change (g_mem g2) with (mstore (g_mem g) w (dest base true g) v).
    rewrite mstore_at by (try assumption; apply Z.mod_pos_bound; reflexivity).
    assert (Ho : (y - (dest base true g + wbytes w) mod 2 ^ 32) mod 2 ^ 32 =
                 ((y - dest base true g) mod 2 ^ 32 - wbytes w) mod 2 ^ 32).
    { rewrite Zminus_mod_idemp_r, Zminus_mod_idemp_l. f_equal. lia. }
    rewrite Ho. clear Ho. pose proof (Z.mod_pos_bound (y - dest base true g) (2 ^ 32) eq_refl) as Bo.
    set (o := (y - dest base true g) mod 2 ^ 32) in *. clearbody o v. clear - HN Bo Hw Wb.
    change (2 ^ 32) with 4294967296 in *. remember (wbytes w) as b eqn:Eb. clear Eb Hw.
    destruct (Z.ltb_spec o b).
    + assert (Q : (o - b) mod 4294967296 = o - b + 4294967296) by (Z.div_mod_to_equations; lia).
      rewrite Q. replace (_ <? _) with false by lia. replace (o <? Z.of_nat (S n) * b) with true by lia.
      rewrite (Z.div_small o b), (Z.mod_small o b) by lia. reflexivity.
    + rewrite (Z.mod_small (o - b)) by lia. replace (o <? Z.of_nat (S n) * b) with (o - b <? Z.of_nat n * b) by lia.
      destruct (o - b <? Z.of_nat n * b); [| reflexivity].
      replace (o / b) with ((o - b) / b + 1) by (replace o with (o - b + 1 * b) at 2 by lia; now rewrite Z.div_add by lia).
      replace (o mod b) with ((o - b) mod b) by (replace o with (o - b + 1 * b) at 2 by lia; now rewrite Z.mod_add by lia).
      assert (0 <= (o - b) / b) by (apply Z.div_pos; lia).
      rewrite Z2Nat.inj_add, Nat.add_1_r by lia. reflexivity.
Qed.

Lemma outs_closed : forall n g t g' t' x,
  (forall i, 0 <= i < Z.of_nat n -> f false ((source base true seg g + i * wbytes w) mod 2 ^ 32) = false) ->
  port_elements dev f base w true seg false perm POuts n g t g' t' x ->
  x = None /\
    t' = t ++ map (fun i => EWrite w (dx g) (mload (g_mem g) w ((source base true seg g + Z.of_nat i * wbytes w) mod 2 ^ 32))) (seq 0 n) /\
    ESIx g' = (ESIx g + Z.of_nat n * wbytes w) mod 2 ^ 32 /\ ECXx g' = (ECXx g - Z.of_nat n) mod 2 ^ 32 /\
    (forall r, r <> ESI -> r <> ECX -> g_regs g' r = g_regs g r) /\ g_fl g' = g_fl g /\ g_mem g' = g_mem g.
Proof.
  induction n as [| n IH]; intros g t g' t' x HF PE; inversion PE as [| ? ? ? ok ? ? P1 EL | ? ? ? ok g1 t1 ? ? ? P1 EL PE1]; subst.
  - split; [reflexivity |]. rewrite app_nil_r. unfold ESIx, ECXx. cbn [Z.of_nat]. rewrite Z.mul_0_l, Z.add_0_r, Z.sub_0_r.
    pose proof (gget_range W32 false ESI (g_regs g')). pose proof (gget_range W32 false ECX (g_regs g')).
    rewrite !Z.mod_small by assumption. repeat split; auto.
  - exfalso. apply Hp in P1. subst ok. unfold port_element in EL. cbv zeta in EL.
    specialize (HF 0 ltac:(lia)). rewrite Z.mul_0_l, Z.add_0_r in HF. unfold source in *. rewrite Zmod_mod in HF. rewrite HF in EL. discriminate.
  - apply Hp in P1. subst ok. unfold port_element in EL. cbv zeta in EL.
    assert (D0 : source base true seg g mod 2 ^ 32 = source base true seg g) by (unfold source; now rewrite Zmod_mod).
    assert (D : f false (source base true seg g) = false).
    { specialize (HF 0 ltac:(lia)). rewrite Z.mul_0_l, Z.add_0_r, D0 in HF. exact HF. }
    rewrite D in EL. apply pair_equal_spec in EL. destruct EL as (EL & <-).
    assert (g1 = move w true false ESI g) as -> by congruence. clear EL.
    set (g1 := move w true false ESI g) in *. set (g2 := set_index true ECX (index true ECX g1 - 1) g1) in *.
    assert (E1 : ESIx g2 = (ESIx g + wbytes w) mod 2 ^ 32).
    { unfold ESIx, g2, g1, set_index, move, set_index. cbn [g_regs].
      change (gget W32 false ESI (gput ?a ?b ECX ?c ?d)) with (gget W32 false ESI d).
      unfold index_w. rewrite gget_new, getw_mod, Zmod_mod. reflexivity. }
    assert (E2 : ECXx g2 = (ECXx g - 1) mod 2 ^ 32).
    { unfold ECXx, g2, set_index. cbn [g_regs]. unfold index_w. rewrite gget_new, getw_mod, Zmod_mod. reflexivity. }
    assert (D2 : source base true seg g2 = (source base true seg g + wbytes w) mod 2 ^ 32).
    { unfold source. change (index true ESI g2) with (ESIx g2). rewrite E1. rewrite Zplus_mod_idemp_r, Zplus_mod_idemp_l.
      unfold ESIx, index, index_w. f_equal. lia. }
    assert (DX : dx g2 = dx g) by reflexivity. assert (MM : g_mem g2 = g_mem g) by reflexivity.
    assert (HF2 : forall i, 0 <= i < Z.of_nat n -> f false ((source base true seg g2 + i * wbytes w) mod 2 ^ 32) = false).
    { intros i Hi. rewrite D2, Zplus_mod_idemp_l. specialize (HF (i + 1) ltac:(lia)).
      replace (source base true seg g + wbytes w + i * wbytes w) with (source base true seg g + (i + 1) * wbytes w) by lia. exact HF. }
    destruct (IH _ _ _ _ _ HF2 PE1) as (-> & T & A1 & A2 & A3 & A4 & A5).
    split; [reflexivity |]. split.
    { rewrite T, DX, MM, D2, <- app_assoc. cbn [seq map app Z.of_nat]. rewrite Z.mul_0_l, Z.add_0_r, D0. do 2 f_equal.
      rewrite <- seq_shift, map_map. apply map_ext. intros i. do 2 f_equal. rewrite Zplus_mod_idemp_l. f_equal. lia. }
    split; [rewrite A1, E1, Zplus_mod_idemp_l; f_equal; lia |].
    split; [rewrite A2, E2, Zminus_mod_idemp_l; f_equal; lia |].
    split; [intros r N1 N2; rewrite A3 by assumption; destruct r; try reflexivity; congruence |].
    split; [rewrite A4; reflexivity | rewrite A5; reflexivity].
Qed.
End Closed.

(** REP INS reads the port [ECX] times and stores the values, in the order in
    which the device gave them, at ES:EDI; it touches nothing else *)
Theorem C71_rep_ins : forall E w seg z ze s t,
  arith_w w -> h_rcx (hr s) = P PCtx -> ctx_ok (ctx s) -> bases_ok z ze seg s -> direction s = false ->
  p_cpl E <= p_iopl E -> p_vm E = false ->
  let n := r32 ECX s in let b := to_linear (segb (ctx s) ES) (r32 EDI s) in
  let port := gget W16 false EDX (gprs (ctx s)) in
  n * wbytes w <= 2 ^ 32 ->
  (forall i, 0 <= i < n -> refused (p_host E) w true ((b + i * wbytes w) mod 2 ^ 32) = false) ->
  exists vs s', Z.of_nat (length vs) = n /\
    (forall i, (i < length vs)%nat -> nth i vs 0 = p_dev E (t ++ map (ERead w port) (firstn i vs)) w port mod modulus w) /\
    port_rep E PIns w true seg z ze s t (Done s') (t ++ map (ERead w port) vs) /\
    r32 EDI s' = (r32 EDI s + n * wbytes w) mod 2 ^ 32 /\ r32 ECX s' = 0 /\
    (forall r, r <> EDI -> r <> ECX -> gprs (ctx s') r = gprs (ctx s) r) /\
    flags_now s' = flags_now s /\ frame s s' /\
    (forall x, 0 <= x < 2 ^ 32 -> let o := (x - b) mod 2 ^ 32 in
       gmem s' x = if o <? n * wbytes w
                   then (nth (Z.to_nat (o / wbytes w)) vs 0 / 2 ^ (8 * (o mod wbytes w))) mod 256 else gmem s x).
Proof.
  intros E w seg z ze s t Hw Hcx Hok HB HD HC HV n b port HN HF.
  destruct (C71_repeat E PIns w true seg z ze s t Hw Hcx Hok HB) as (g' & t' & x & s' & PE & PR & B).
  rewrite HD in PE.
  assert (Rn : 0 <= n < 2 ^ 32) by apply (gget_range W32).
  assert (EN : Z.of_nat (Z.to_nat (index true ECX (guest s))) = n) by (apply Z2Nat.id; apply Rn).
  destruct (ins_closed (p_dev E) (refused (p_host E) w) (segb (ctx s)) w seg (port_permission E w) Hw
    (fun g ok => C71_privileged E _ _ _ _ ok HC HV) (Z.to_nat (index true ECX (guest s))) (guest s) t g' t' x
    ltac:(rewrite EN; exact HN) ltac:(rewrite EN; exact HF) PE)
    as (-> & vs & L & T & V & A1 & A2 & A3 & A4 & A5).
  rewrite EN in *. exists vs, s'. split; [rewrite L; exact EN |]. split; [rewrite L; exact V |].
  split; [apply PR; split; [reflexivity | now rewrite T] |].
  destruct B as (_ & FR & B1 & B2 & B3).
  unfold r32 at 1 3. rewrite (gget_at W32 EDI _ _ (B1 EDI)), (gget_at W32 ECX _ _ (B1 ECX)). unfold EDIx, ECXx in *.
  split; [exact A1 |]. split; [rewrite A2; change (gget W32 false ECX (g_regs (guest s))) with n; now rewrite Z.sub_diag |].
  split; [intros r N1 N2; rewrite B1; now apply A3 |].
  split; [rewrite B3; exact A4 |]. split; [exact FR |].
  intros y Hy. rewrite B2. exact (A5 y Hy).
Qed.
Print Assumptions C71_rep_ins.

(** REP OUTS writes the [ECX] elements at [seg:ESI], in order, to the port; it
    touches nothing else *)
Theorem C71_rep_outs : forall E w seg z ze s t,
  arith_w w -> h_rcx (hr s) = P PCtx -> ctx_ok (ctx s) -> bases_ok z ze seg s -> direction s = false ->
  p_cpl E <= p_iopl E -> p_vm E = false ->
  let n := r32 ECX s in let a := to_linear (segb (ctx s) seg) (r32 ESI s) in
  let port := gget W16 false EDX (gprs (ctx s)) in
  (forall i, 0 <= i < n -> refused (p_host E) w false ((a + i * wbytes w) mod 2 ^ 32) = false) ->
  exists s', port_rep E POuts w true seg z ze s t (Done s')
      (t ++ map (fun i => EWrite w port (mload (gmem s) w ((a + Z.of_nat i * wbytes w) mod 2 ^ 32))) (seq 0 (Z.to_nat n))) /\
    r32 ESI s' = (r32 ESI s + n * wbytes w) mod 2 ^ 32 /\ r32 ECX s' = 0 /\
    (forall r, r <> ESI -> r <> ECX -> gprs (ctx s') r = gprs (ctx s) r) /\
    flags_now s' = flags_now s /\ frame s s' /\ (forall x, gmem s' x = gmem s x).
Proof.
  intros E w seg z ze s t Hw Hcx Hok HB HD HC HV n a port HF.
  destruct (C71_repeat E POuts w true seg z ze s t Hw Hcx Hok HB) as (g' & t' & x & s' & PE & PR & B).
  rewrite HD in PE.
  assert (Rn : 0 <= n < 2 ^ 32) by apply (gget_range W32).
  assert (EN : Z.of_nat (Z.to_nat (index true ECX (guest s))) = n) by (apply Z2Nat.id; apply Rn).
  destruct (outs_closed (p_dev E) (refused (p_host E) w) (segb (ctx s)) w seg (port_permission E w)
    (fun g ok => C71_privileged E _ _ _ _ ok HC HV) (Z.to_nat (index true ECX (guest s))) (guest s) t g' t' x
    ltac:(rewrite EN; exact HF) PE)
    as (-> & T & A1 & A2 & A3 & A4 & A5).
  rewrite EN in *. exists s'. split; [apply PR; split; [reflexivity | now rewrite T] |].
  destruct B as (_ & FR & B1 & B2 & B3).
  unfold r32 at 1 3. rewrite (gget_at W32 ESI _ _ (B1 ESI)), (gget_at W32 ECX _ _ (B1 ECX)). unfold ESIx, ECXx in *.
  split; [exact A1 |]. split; [rewrite A2; change (gget W32 false ECX (g_regs (guest s))) with n; now rewrite Z.sub_diag |].
  split; [intros r N1 N2; rewrite B1; now apply A3 |].
  split; [rewrite B3; exact A4 |]. split; [exact FR |].
  intros y. rewrite B2, A5. reflexivity.
Qed.
Print Assumptions C71_rep_outs.

(** A device that counts the accesses; CPL 3 without IOPL and a TSS without a
    bitmap in [penv3], ring 0 in [penv0]. *)
Definition penv0 : penv := mkpenv env0 (fun t _ p => p + Z.of_nat (length t)) 0 0 false (0, 0).
Definition penv3 : penv := mkpenv env0 (fun t _ p => p + Z.of_nat (length t)) 3 0 false (0, 102).

Example C71_example :
  checked penv0 = false /\ checked penv3 = true /\
  snd (prun penv0 (in_imm (checked penv0) 0x60 W8) (sts 4 0x202) []) = [ERead W8 0x60 0x60] /\
  snd (prun penv3 (in_imm (checked penv3) 0x60 W8) (sts 4 0x202) []) = [] /\
  snd (prun penv0 (out_dx (checked penv0) W16) (sts 4 0x202) [ERead W8 0x60 0x60]) = [ERead W8 0x60 0x60; EWrite W16 0 0x3344].
Proof. vm_compute. repeat split. Qed.
(** an element refused by the memory after its value was read *)
Example C71_fault_example :
  port_element (p_dev penv0) (refused (p_host penv0) W32) (fun _ => 0) W32 true DS false PIns true
    (mkgst (fun _ => 0x5000) (fun _ => 0) (flags_now st0)) [] = (inr (CFault true 0x5000), [ERead W32 0x5000 0x5000]).
Proof. reflexivity. Qed.
(** the hypotheses of the closed forms hold for two words *)
Example C71_closed_example :
  let s := sts 2 0x202 in
  bases_ok false true DS s /\ direction s = false /\ p_cpl penv0 <= p_iopl penv0 /\ r32 ECX s * wbytes W32 <= 2 ^ 32 /\
  (forall i, 0 <= i < r32 ECX s ->
     refused (p_host penv0) W32 true ((to_linear (segb (ctx s) ES) (r32 EDI s) + i * wbytes W32) mod 2 ^ 32) = false /\
     refused (p_host penv0) W32 false ((to_linear (segb (ctx s) DS) (r32 ESI s) + i * wbytes W32) mod 2 ^ 32) = false).
Proof.
  cbv zeta. change (r32 ECX (sts 2 0x202)) with 2. split; [split; [discriminate | reflexivity] |]. split; [reflexivity |].
  split; [discriminate |]. split; [cbn; lia |]. intros i Hi. assert (i = 0 \/ i = 1) as [-> | ->] by lia; split; reflexivity.
Qed.
