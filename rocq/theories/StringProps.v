(** * Properties of the string instructions *)

From Coq Require Import ZArith Bool List Lia ZifyBool.
From Verif Require Import HostModel AluModel AluSpec HostProofs LazyFlagsProofs FlagsApiProofs
  FlagArith SymExec EaProofs AluProofs AluForms UnaryProofs XchgProofs MulProofs StringModel StringSpec
  StringProofs StringRep StringForms AluProps.
Import ListNotations.
Local Open Scope Z_scope.

(** ** C61 *)

(** DF as the API shows it *)
Definition direction (s : hst) : bool := Z.testbit (read_eflags (ctx s)) 10.
(** the accesses of [w] bytes the memory refuses *)
Definition refused (E : henv) (w : width) (wr : bool) (a : Z) : bool := e_fault E wr a (wbytes w).
(** a base that the translator has left out is zero *)
Definition bases_ok (z ze : bool) (seg : sreg) (s : hst) : Prop :=
  (z = true -> segb (ctx s) seg = 0) /\ (ze = true -> segb (ctx s) ES = 0).
Definition ended (w : width) (f : option (bool * Z)) (s' : hst) : outcome :=
  match f with None => Done s' | Some (wr, a) => Fault wr a (wbytes w) s' end.

Lemma direction_bit s : direction s = Z.testbit (eflags (ctx s)) 10.
Proof.
  unfold direction. pose proof (control_read (ctx s)) as C. apply (f_equal (fun v => Z.testbit v 10)) in C.
  unfold control_bits in C. rewrite !Z.land_spec in C. unfold w32, getw in C.
  change (Z.testbit (Z.lnot STATUS) 10) with true in C. rewrite !andb_true_r in C. rewrite C.
  unfold w32. rewrite Z.land_spec. change 0xFFFFFFFF with (Z.ones 32).
  rewrite Z.testbit_ones_nonneg by lia. apply andb_true_r.
Qed.

(** MOVS, STOS, LODS, CMPS, SCAS without a prefix: one element, or the fault of
    its first refused access with nothing changed *)
Theorem C61_string : forall E k w (a32 : bool) seg z ze s,
  arith_w w -> h_rcx (hr s) = P PCtx -> ctx_ok (ctx s) -> bases_ok z ze seg s ->
  match element (refused E w) (segb (ctx s)) w a32 seg (direction s) k (guest s) with
  | inl g' => exists s', run E (str_body k None w a32 seg z ze) s = Done s' /\
                becomes s s' (g_regs g') (g_mem g') (g_fl g')
  | inr (wr, a) => exists s', run E (str_body k None w a32 seg z ze) s = Fault wr a (wbytes w) s' /\
                becomes s s' (gprs (ctx s)) (gmem s) (flags_now s)
  end.
Proof.
  intros E k w a32 seg z ze s Hw Hcx Hok [Hz Hze]. rewrite direction_bit, gs_guest by assumption.
  pose proof (pass_ok E k w a32 seg z ze Hw None s Hcx Hz Hze) as P0. change (refused E w) with (fault_of E w).
  destruct (element _ _ _ _ _ _ _ _) as [g1 | [wr a]]; destruct P0 as (s' & R & HS & HG); exists s';
  (split; [exact R |]); pose proof (same_becomes _ _ Hok HS) as B; rewrite HG in B; [exact B |].
  rewrite <- gs_guest in B by assumption. exact B.
Qed.
Print Assumptions C61_string.

(** with a repeat prefix: as many elements as the count register says, ended
    early by ZF or by a refused access.  There is exactly one outcome.  When it
    is a fault, the index and count registers stand at the faulting element. *)
Theorem C61_repeat : forall E k p w (a32 : bool) seg z ze s,
  arith_w w -> h_rcx (hr s) = P PCtx -> ctx_ok (ctx s) -> bases_ok z ze seg s ->
  let '(g', f) := repeated (refused E w) (segb (ctx s)) w a32 seg (direction s) k p
                    (Z.to_nat (index a32 ECX (guest s))) (guest s) in
  exists s', (forall o, rep_instr E k p w a32 seg z ze s o <-> o = ended w f s') /\
             becomes s s' (g_regs g') (g_mem g') (g_fl g').
Proof.
  intros E k p w a32 seg z ze s Hw Hcx Hok [Hz Hze]. rewrite direction_bit, gs_guest by assumption.
  pose proof (instr_ok E k w a32 seg z ze Hw p s Hcx Hok Hz Hze) as P0. change (refused E w) with (fault_of E w).
  destruct (repeated _ _ _ _ _ _ _ _ _ _) as [g' f]. destruct P0 as (s' & R & HS & HG). exists s'.
  change (match f with Some (wr, a) => Fault wr a (wbytes w) s' | None => Done s' end) with (ended w f s') in R.
  split.
  - intros o. split; [intros R'; exact (rep_instr_fun _ _ _ _ _ _ _ _ _ _ _ R' R) | intros ->; exact R].
  - pose proof (same_becomes _ _ Hok HS) as B. rewrite HG in B. exact B.
Qed.
Print Assumptions C61_repeat.

(** the guest cannot tell the two states apart *)
Definition looks_like (s s' : hst) : Prop :=
  (forall r, gprs (ctx s') r = gprs (ctx s) r) /\ (forall x, gmem s' x = gmem s x) /\
  flags_now s' = flags_now s /\ control_bits (read_eflags (ctx s')) = control_bits (read_eflags (ctx s)) /\
  segb (ctx s') = segb (ctx s) /\ eip (ctx s') = eip (ctx s).

Lemma guest_fields s g : ctx_ok (ctx s) -> gs s = g ->
  gprs (ctx s) = g_regs g /\ gmem s = g_mem g /\ flags_now s = g_fl g.
Proof. intros Hok <-. rewrite <- gs_guest by assumption. auto. Qed.

(** a repeated instruction that faulted part way, started again after the cause
    of the fault is gone, ends as if it had never faulted.  [s1'] is the state at
    the restart: the guest state of the fault with any contents of the host's
    scratch registers and frame. *)
Theorem C61_restart : forall E E' k p w (a32 : bool) seg z ze s wr a n s1 s1',
  arith_w w -> h_rcx (hr s) = P PCtx -> ctx_ok (ctx s) -> bases_ok z ze seg s ->
  (forall wr' a' n', e_fault E' wr' a' n' = false) ->
  rep_instr E k p w a32 seg z ze s (Fault wr a n s1) ->
  h_rcx (hr s1') = P PCtx -> ctx s1' = ctx s1 -> gmem s1' = gmem s1 ->
  exists s2 s3, rep_instr E' k p w a32 seg z ze s1' (Done s2) /\
                rep_instr E' k p w a32 seg z ze s (Done s3) /\ looks_like s3 s2.
Proof.
  intros E E' k p w a32 seg z ze s wr a n s1 s1' Hw Hcx Hok [Hz Hze] HE R Hcx1 Hc Hm.
  pose proof (instr_ok E k w a32 seg z ze Hw p s Hcx Hok Hz Hze) as P0.
  destruct (repeated _ _ _ _ _ _ _ _ _ _) as [g' f] eqn:RE. destruct P0 as (sx & R0 & HS & HG).
  pose proof (rep_instr_fun _ _ _ _ _ _ _ _ _ _ _ R0 R) as EQ.
  destruct f as [[wr0 a0] |]; [| discriminate]. injection EQ as -> -> _ ->.
  assert (HF : forall wr a, fault_of E' w wr a = false) by (intros; apply HE).
  assert (S1 : segb (ctx s1') = segb (ctx s)) by (rewrite Hc; apply (same_seg _ _ HS)).
  assert (G1 : gs s1' = g') by (rewrite <- HG; unfold gs; now rewrite Hc, Hm).
  assert (Hok1 : ctx_ok (ctx s1')) by (rewrite Hc; exact (same_ok _ _ HS Hok)).
  assert (DF1 : eflags (ctx s1') = eflags (ctx s)) by (rewrite Hc; apply HS).
  pose proof (instr_ok E' k w a32 seg z ze Hw p s1' Hcx1 Hok1) as P1. rewrite S1, DF1, G1 in P1.
  specialize (P1 Hz Hze).
  pose proof (instr_ok E' k w a32 seg z ze Hw p s Hcx Hok Hz Hze) as P2.
  rewrite (resume_ok (fault_of E w) (fault_of E' w) _ w a32 seg _ k p HF _ _ _ _ eq_refl RE) in P2.
  pose proof (nofault_done (fault_of E' w) (segb (ctx s)) w a32 seg (Z.testbit (eflags (ctx s)) 10) k p HF
    (Z.to_nat (index a32 ECX g')) g') as ND.
  destruct (repeated (fault_of E' w) _ _ _ _ _ _ _ _ _) as [g2 f2]. cbn [snd] in ND. subst f2.
  destruct P1 as (s2 & R2 & HS2 & HG2). destruct P2 as (s3 & R3 & HS3 & HG3).
  exists s2, s3. split; [exact R2 |]. split; [exact R3 |].
  pose proof (same_becomes _ _ Hok1 HS2) as (_ & (F1 & F2 & _ & _ & _ & _ & F3) & A1 & A2 & A3).
  pose proof (same_becomes _ _ Hok HS3) as (_ & (F1' & F2' & _ & _ & _ & _ & F3') & A1' & A2' & A3').
  pose proof (same_becomes _ _ Hok HS) as (_ & (F1'' & F2'' & _ & _ & _ & _ & F3'') & _).
  unfold looks_like. rewrite HG2 in *. rewrite HG3 in *.
  split; [intros r; rewrite A1, A1'; reflexivity |].
  split; [intros x; rewrite A2, A2'; reflexivity |].
  split; [rewrite A3, A3'; reflexivity |].
  rewrite Hc in *. repeat split; congruence.
Qed.
Print Assumptions C61_restart.

(** ** What whole repetitions do, with 32-bit addresses and DF clear *)

Definition r32 (r : greg) (s : hst) : Z := gget W32 false r (gprs (ctx s)).
Definition to_linear (base off : Z) : Z := (base + off) mod 2 ^ 32.

Lemma gget_at w r (regs regs' : greg -> Z) : regs r = regs' r -> gget w false r regs = gget w false r regs'.
Proof. unfold gget. now intros ->. Qed.

(** REP STOS fills [ECX] elements at ES:EDI with the accumulator, touches
    nothing else *)
Theorem C61_fill : forall E w seg z ze s,
  arith_w w -> h_rcx (hr s) = P PCtx -> ctx_ok (ctx s) -> bases_ok z ze seg s -> direction s = false ->
  let n := r32 ECX s in let b := to_linear (segb (ctx s) ES) (r32 EDI s) in
  (forall i, 0 <= i < n -> refused E w true ((b + i * wbytes w) mod 2 ^ 32) = false) ->
  exists s', rep_instr E SStos KRep w true seg z ze s (Done s') /\
    r32 EDI s' = (r32 EDI s + n * wbytes w) mod 2 ^ 32 /\ r32 ECX s' = 0 /\
    (forall r, r <> EDI -> r <> ECX -> gprs (ctx s') r = gprs (ctx s) r) /\
    flags_now s' = flags_now s /\ frame s s' /\
    (forall x, 0 <= x < 2 ^ 32 -> let o := (x - b) mod 2 ^ 32 in
       gmem s' x = if o <? n * wbytes w
                   then (gget w false EAX (gprs (ctx s)) / 2 ^ (8 * (o mod wbytes w))) mod 256 else gmem s x).
Proof.
  intros E w seg z ze s Hw Hcx Hok [Hz Hze] HD n b HF. rewrite direction_bit in HD.
  pose proof (instr_ok E SStos w true seg z ze Hw KRep s Hcx Hok Hz Hze) as P0. rewrite HD in P0.
  rewrite <- gs_guest in P0 by assumption.
  assert (Rn : 0 <= n < 2 ^ 32) by apply (gget_range W32).
  assert (EN : Z.of_nat (Z.to_nat (index true ECX (guest s))) = n) by (apply Z2Nat.id; apply Rn).
  destruct (fill_ok (fault_of E w) (segb (ctx s)) w seg Hw (Z.to_nat (index true ECX (guest s))) (guest s))
    as (g' & R & A1 & A2 & A3 & A4 & A5).
  { rewrite EN. exact HF. }
  rewrite R in P0. destruct P0 as (s' & R' & HS & HG). exists s'. split; [exact R' |].
  pose proof (same_becomes _ _ Hok HS) as (_ & FR & B1 & B2 & B3). rewrite HG in *. rewrite EN in *.
  unfold r32 at 1 3. rewrite (gget_at W32 EDI _ _ (B1 EDI)), (gget_at W32 ECX _ _ (B1 ECX)).
  unfold EDIx, ECXx in *.
  split; [exact A1 |]. split; [rewrite A2; change (gget W32 false ECX (g_regs (guest s))) with n; now rewrite Z.sub_diag |].
  split; [intros r N1 N2; rewrite B1; now apply A3 |].
  split; [rewrite B3; exact A4 |]. split; [exact FR |].
  intros x Hx. rewrite B2. exact (A5 x Hx).
Qed.
Print Assumptions C61_fill.

(** REP MOVS copies [ECX] elements from [seg:ESI] to ES:EDI when the two areas
    do not overlap *)
Theorem C61_copy : forall E w seg z ze s,
  arith_w w -> h_rcx (hr s) = P PCtx -> ctx_ok (ctx s) -> bases_ok z ze seg s -> direction s = false ->
  let n := r32 ECX s in
  let a := to_linear (segb (ctx s) seg) (r32 ESI s) in let b := to_linear (segb (ctx s) ES) (r32 EDI s) in
  (forall i, 0 <= i < n -> refused E w false ((a + i * wbytes w) mod 2 ^ 32) = false /\
                           refused E w true ((b + i * wbytes w) mod 2 ^ 32) = false) ->
  (forall i j, 0 <= i < n * wbytes w -> 0 <= j < n * wbytes w -> (a + i) mod 2 ^ 32 <> (b + j) mod 2 ^ 32) ->
  exists s', rep_instr E SMovs KRep w true seg z ze s (Done s') /\
    r32 EDI s' = (r32 EDI s + n * wbytes w) mod 2 ^ 32 /\
    r32 ESI s' = (r32 ESI s + n * wbytes w) mod 2 ^ 32 /\ r32 ECX s' = 0 /\
    (forall r, r <> EDI -> r <> ESI -> r <> ECX -> gprs (ctx s') r = gprs (ctx s) r) /\
    flags_now s' = flags_now s /\ frame s s' /\
    (forall x, 0 <= x < 2 ^ 32 -> let o := (x - b) mod 2 ^ 32 in
       gmem s' x = if o <? n * wbytes w then gmem s ((a + o) mod 2 ^ 32) mod 256 else gmem s x).
Proof.
  intros E w seg z ze s Hw Hcx Hok [Hz Hze] HD n a b HF HX. rewrite direction_bit in HD.
  pose proof (instr_ok E SMovs w true seg z ze Hw KRep s Hcx Hok Hz Hze) as P0. rewrite HD in P0.
  rewrite <- gs_guest in P0 by assumption.
  assert (Rn : 0 <= n < 2 ^ 32) by apply (gget_range W32).
  assert (EN : Z.of_nat (Z.to_nat (index true ECX (guest s))) = n) by (apply Z2Nat.id; apply Rn).
  destruct (copy_ok (fault_of E w) (segb (ctx s)) w seg Hw (Z.to_nat (index true ECX (guest s))) (guest s))
    as (g' & R & A1 & A0 & A2 & A3 & A4 & A5).
  { rewrite EN. exact HF. }
  { rewrite EN. exact HX. }
  rewrite R in P0. destruct P0 as (s' & R' & HS & HG). exists s'. split; [exact R' |].
  pose proof (same_becomes _ _ Hok HS) as (_ & FR & B1 & B2 & B3). rewrite HG in *. rewrite EN in *.
  unfold r32 at 1 3 5.
  rewrite (gget_at W32 EDI _ _ (B1 EDI)), (gget_at W32 ESI _ _ (B1 ESI)), (gget_at W32 ECX _ _ (B1 ECX)).
  unfold EDIx, ECXx, ESIx in *.
  split; [exact A1 |]. split; [exact A0 |].
  split; [rewrite A2; change (gget W32 false ECX (g_regs (guest s))) with n; now rewrite Z.sub_diag |].
  split; [intros r N1 N2 N3; rewrite B1; now apply A3 |].
  split; [rewrite B3; exact A4 |]. split; [exact FR |].
  intros x Hx. rewrite B2. exact (A5 x Hx).
Qed.
Print Assumptions C61_copy.

(** REPE/REPNE CMPS and SCAS compare elements until one differs (REPE) or is
    equal (REPNE), or [ECX] have been compared; [m] is how many that is *)
Theorem C61_compare : forall E (cmps repe : bool) w seg z ze s m,
  arith_w w -> h_rcx (hr s) = P PCtx -> ctx_ok (ctx s) -> bases_ok z ze seg s -> direction s = false ->
  let n := r32 ECX s in
  let a i := (to_linear (segb (ctx s) seg) (r32 ESI s) + i * wbytes w) mod 2 ^ 32 in
  let b i := (to_linear (segb (ctx s) ES) (r32 EDI s) + i * wbytes w) mod 2 ^ 32 in
  let left i := if cmps then mload (gmem s) w (a i) else gget w false EAX (gprs (ctx s)) in
  let right i := mload (gmem s) w (b i) in
  0 < m <= n ->
  (forall i, 0 <= i < m - 1 -> if repe then left i = right i else left i <> right i) ->
  (m = n \/ if repe then left (m - 1) <> right (m - 1) else left (m - 1) = right (m - 1)) ->
  (forall i, 0 <= i < m -> refused E w false (b i) = false /\ (cmps = true -> refused E w false (a i) = false)) ->
  exists s', rep_instr E (if cmps then SCmps else SScas) (if repe then KRepz else KRepnz) w true seg z ze s (Done s') /\
    r32 EDI s' = (r32 EDI s + m * wbytes w) mod 2 ^ 32 /\
    r32 ESI s' = (if cmps then (r32 ESI s + m * wbytes w) mod 2 ^ 32 else r32 ESI s) /\
    r32 ECX s' = n - m /\
    (forall r, r <> EDI -> r <> ESI -> r <> ECX -> gprs (ctx s') r = gprs (ctx s) r) /\
    (forall x, gmem s' x = gmem s x) /\ frame s s' /\
    (f_zf (flags_now s') = true <-> left (m - 1) = right (m - 1)).
Proof.
  intros E cmps repe w seg z ze s m Hw Hcx Hok [Hz Hze] HD n a b left right Hm Hne Hend HF.
  rewrite direction_bit in HD. set (p := if repe then KRepz else KRepnz).
  set (k := if cmps then SCmps else SScas).
  pose proof (instr_ok E k w true seg z ze Hw p s Hcx Hok Hz Hze) as P0. rewrite HD in P0.
  rewrite <- gs_guest in P0 by assumption.
  assert (Rn : 0 <= n < 2 ^ 32) by apply (gget_range W32).
  assert (EN : Z.of_nat (Z.to_nat (index true ECX (guest s))) = n) by (apply Z2Nat.id; apply Rn).
  assert (EQ : forall i, equal_at (segb (ctx s)) w seg cmps (guest s) i = (left i =? right i)) by reflexivity.
  assert (Hit : match p with KRepnz => true | _ => false end = negb repe) by (unfold p; now destruct repe).
  destruct (compare_ok (fault_of E w) (segb (ctx s)) w seg cmps p
    ltac:(unfold p; destruct repe; discriminate) (Z.to_nat (index true ECX (guest s))) (guest s) m)
    as (g' & R & A1 & A0 & A2 & A3 & A4 & A5).
  { exact HF. }
  { rewrite EN. exact Hm. }
  { intros i Hi. rewrite Hit, EQ, negb_involutive. specialize (Hne i Hi). destruct repe; lia. }
  { rewrite EN, Hit, EQ. destruct Hend as [-> | Hend]; [now left | right]. destruct repe; cbn [negb]; lia. }
  fold k in R. rewrite R in P0. destruct P0 as (s' & R' & HS & HG). exists s'. split; [exact R' |].
  pose proof (same_becomes _ _ Hok HS) as (_ & FR & B1 & B2 & B3). rewrite HG in *.
  unfold r32 at 1 3 6.
  rewrite (gget_at W32 EDI _ _ (B1 EDI)), (gget_at W32 ESI _ _ (B1 ESI)), (gget_at W32 ECX _ _ (B1 ECX)).
  unfold EDIx, ECXx, ESIx in *.
  split; [exact A1 |]. split; [exact A0 |].
  split; [rewrite A2; change (gget W32 false ECX (g_regs (guest s))) with n; apply Z.mod_small; lia |].
  split; [intros r N1 N2 N3; rewrite B1; now apply A3 |].
  split; [intros x; rewrite B2; now rewrite A4 |]. split; [exact FR |].
  rewrite B3, A5, EQ. lia.
Qed.
Print Assumptions C61_compare.

(** [st0] with a count, indices and the given direction flag: the source starts
    at 0x4000 (DS base 0x1000), the destination at 0x4FF8 *)
Definition sts (cx fl : Z) : hst :=
  mkst (hr st0) (hf st0)
       (mkg (fun r => match r with EAX => 0x11223344 | ECX => cx | ESI => 0x3000 | EDI => 0x4FF8 | _ => 0 end)
            (segb ctx0) fl (eip ctx0) (res ctx0) (aux ctx0) (cr4 ctx0) (gsel ctx0))
       (gmem st0) (loc st0) (ncall st0) (masked st0).

(** one element without a prefix, and a repetition that faults at its third
    element (0x5000 is refused) with two left of the four *)
Example C61_example :
  h_rcx (hr (sts 4 0x202)) = P PCtx /\ ctx_ok (ctx (sts 4 0x202)) /\ bases_ok false true DS (sts 4 0x202) /\
  direction (sts 4 0x202) = false /\ direction (sts 4 0x602) = true /\
  match element (refused env0 W32) (segb (ctx (sts 4 0x602))) W32 true DS true SMovs (guest (sts 4 0x602)) with
  | inl g => g_regs g ESI = 0x2FFC /\ g_regs g EDI = 0x4FF4
  | inr _ => False
  end /\
  (let '(g, f) := repeated (refused env0 W32) (segb (ctx (sts 4 0x202))) W32 true DS false SStos KRep 4 (guest (sts 4 0x202)) in
   f = Some (true, 0x5000) /\ g_regs g ECX = 2 /\ g_regs g EDI = 0x5000).
Proof.
  split; [reflexivity |]. split; [reflexivity |]. split; [split; [discriminate | reflexivity] |].
  split; [reflexivity |]. split; [reflexivity |].
  split; vm_compute; repeat split.
Qed.

(** the closed forms: two words can be filled, copied and compared *)
Example C61_closed_example :
  let s := sts 2 0x202 in
  (forall i, 0 <= i < r32 ECX s ->
     refused env0 W32 true ((to_linear (segb (ctx s) ES) (r32 EDI s) + i * wbytes W32) mod 2 ^ 32) = false) /\
  (forall i j, 0 <= i < r32 ECX s * wbytes W32 -> 0 <= j < r32 ECX s * wbytes W32 ->
     (to_linear (segb (ctx s) DS) (r32 ESI s) + i) mod 2 ^ 32 <> (to_linear (segb (ctx s) ES) (r32 EDI s) + j) mod 2 ^ 32) /\
  (mload (gmem s) W32 (to_linear (segb (ctx s) DS) (r32 ESI s)) <> mload (gmem s) W32 (to_linear (segb (ctx s) ES) (r32 EDI s))).
Proof.
  cbv zeta.
  change (r32 ECX (sts 2 0x202)) with 2. change (to_linear (segb (ctx (sts 2 0x202)) ES) (r32 EDI (sts 2 0x202))) with 0x4FF8.
  change (to_linear (segb (ctx (sts 2 0x202)) DS) (r32 ESI (sts 2 0x202))) with 0x4000. cbn [wbytes].
  split; [| split].
  - intros i Hi. assert (i = 0 \/ i = 1) as [-> | ->] by lia; reflexivity.
  - intros i j Hi Hj. rewrite !Z.mod_small by lia. lia.
  - vm_compute. discriminate.
Qed.
