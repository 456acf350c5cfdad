(** * Properties of snapshots (C33) *)

From Coq Require Import ZArith Bool List Lia.
From Verif Require Import SnapModel.
From Verif Require ClockModel ClockProps DrModel.
Import ListNotations.
Local Open Scope Z_scope.

(** ** What a snapshot should preserve

    Everything a program running on the CPU can observe.  [now] is a host time;
    the counter is the value RDTSC returns then. *)
Definition counter (freq now : Z) (c : cpu) : Z :=
  let '(d, a) := ClockModel.rdtsc freq now (clk c) in d * 2 ^ 32 + a.

Record same_machine (c c' : cpu) : Prop := {
  sm_regs : forall r, regs c' r = regs c r;
  sm_msr : forall n, msr c' n = msr c n;
  sm_flags : res c' = res c /\ aux c' = aux c;
  sm_fpu : ftop c' = ftop c /\ frp c' = frp c /\ shadow_mxcsr c' = shadow_mxcsr c;
  sm_mode : hflags c' = hflags c;
  sm_ucode : microcode c' = microcode c;
  sm_a20 : a20_mask c' = a20_mask c;
  sm_ram : ram c' = ram c
}.

(** the CPU is not running a hooked function through cpu_exec_trampoline (bit 6),
    and the other bits of the mode word are ones the program uses *)
Definition mode_ok (h : Z) : Prop := Z.testbit h 6 = false /\ Z.land h 0x7F88EBF = h.

(** ** Proofs *)

Lemma saved_mask : HFLG_SAVED_MASK = 0x7F88EBF.
Proof. reflexivity. Qed.

Lemma reg_eqb_eq a b : reg_eqb a b = true <-> a = b.
Proof. destruct a, b; cbn; try (split; congruence); rewrite Z.eqb_eq; split; congruence. Qed.
Lemma rset_same f r v : rset f r v r = v.
Proof. unfold rset. now rewrite (proj2 (reg_eqb_eq r r) eq_refl). Qed.
Lemma rset_other f r v x : x <> r -> rset f r v x = f x.
Proof. intros H. unfold rset. destruct (reg_eqb x r) eqn:E; [now apply reg_eqb_eq in E | reflexivity]. Qed.
Lemma rset_back f r v x : rset (rset f r v) r (f r) x = f x.
Proof. unfold rset. destruct (reg_eqb x r) eqn:E; [apply reg_eqb_eq in E; now subst |]. reflexivity. Qed.

Lemma copy_full a b : length a = length b -> copy a b = Some a.
Proof. intros H. unfold copy. rewrite H, Nat.leb_refl, skipn_all, app_nil_r. reflexivity. Qed.

(** Taking a snapshot succeeds when the client's buffer has the size of the ram,
    and changes nothing. *)
Theorem C33_save_changes_nothing : forall sz freq now buf c,
  length buf = length (ram c) ->
  exists k m c', save sz freq now buf c = Some (k, m, c') /\
    same_machine c c' /\ halted c' = halted c /\ clk c' = clk c /\ cpu_flags c' = cpu_flags c /\
    int_pending c' = int_pending c /\ int_data c' = int_data c /\ wp_io c' = wp_io c /\ wp_data c' = wp_data c.
Proof.
  intros sz freq now buf c H. unfold save. destruct (ClockModel.rdtsc freq now (clk c)) as [d a].
  rewrite copy_full by auto. do 3 eexists. split; [reflexivity |]. cbn. repeat split; try reflexivity. cbn. intros r.
  unfold rset. destruct r; reflexivity.
Qed.
Print Assumptions C33_save_changes_nothing.

Lemma counter_tsc freq now c : counter freq now c = ClockProps.tsc (ClockModel.rdtsc freq now (clk c)).
Proof. unfold counter, ClockProps.tsc. destruct (ClockModel.rdtsc freq now (clk c)). reflexivity. Qed.

Lemma dri_dr i v s k : DrModel.dr (DrModel.write_dri i v s) k = if k =? i then v else DrModel.dr s k.
Proof. unfold DrModel.write_dri. destruct (_ =? 2); reflexivity. Qed.
Lemma reload_dr_dr r io data i : DrModel.dr (reload_dr r io data) i = r (DR i).
Proof.
  change (DrModel.dr (reload_dr r io data) i) with
    (DrModel.dr (DrModel.write_dri 3 (r (DR 3)) (DrModel.write_dri 2 (r (DR 2)) (DrModel.write_dri 1 (r (DR 1))
       (DrModel.write_dri 0 (r (DR 0)) (dbg_of r io data))))) i).
  rewrite !dri_dr. destruct (Z.eqb_spec i 3) as [-> | _]; [reflexivity |]. destruct (Z.eqb_spec i 2) as [-> | _]; [reflexivity |].
  destruct (Z.eqb_spec i 1) as [-> | _]; [reflexivity |]. destruct (Z.eqb_spec i 0) as [-> | _]; reflexivity.
Qed.
Lemma reload_lists r io data io' data' :
  let d := DrModel.write_dr7 (r (DR 7)) (dbg_of r io' data') in
  DrModel.io (reload_dr r io data) = DrModel.io d /\ DrModel.data (reload_dr r io data) = DrModel.data d.
Proof.
  cbv zeta. unfold reload_dr. set (x := DrModel.write_dri 3 _ _).
  assert (D : forall i, DrModel.dr x i = r (DR i)) by (intros i; exact (reload_dr_dr r io data i)). clearbody x.
  unfold DrModel.write_dr7. cbn [DrModel.io DrModel.data]. split; apply map_ext; intros i; rewrite D; reflexivity.
Qed.

(** Restoring it, at any later time and whatever the CPU did in between or on
    another CPU with as much ram, gives back the machine, with the counter
    continuing from its saved value, the breakpoints those of the restored debug
    registers, no pending interrupt, and no stale translation. *)
Theorem C33_round_trip_partial : forall sz freq now now' later buf fn c c' k m c1,
  length buf = length (ram c) -> length (ram c') = length (ram c) -> mode_ok (hflags c) ->
  0 < freq -> 0 <= now < 2 ^ 64 -> 0 <= now' <= later -> later < 2 ^ 64 ->
  0 <= ClockModel.last_ticks (clk c) <= now ->
  save sz freq now buf c = Some (k, m, c1) ->
  exists c2, load sz now' k m fn c' = Some (success, c2) /\
    same_machine c c2 /\
    counter freq later c2 = (counter freq now c + (later - now') * 733333333 / freq) mod 2 ^ 64 /\
    (forall io data, let d := DrModel.write_dr7 (regs c (DR 7)) (dbg_of (regs c) io data) in
       wp_io c2 = DrModel.io d /\ wp_data c2 = DrModel.data d) /\
    int_pending c2 = 0 /\ int_data c2 = fn /\ cached c2 = false /\
    ClockModel.timeout (clk c2) = ClockModel.timeout (clk c').
Proof.
  intros sz freq now now' later buf fn c c' k m c1 HB HR (_ & HM) HF HN HN' HL HT S.
  unfold save in S. destruct (ClockModel.rdtsc freq now (clk c)) as [d a] eqn:RD. rewrite copy_full in S by auto.
  match type of S with Some (?x, ?y, ?z) = _ => assert (EK : k = x) by congruence; assert (EM : m = y) by congruence end. clear S.
  unfold load. rewrite EK, EM. cbn [s_id rs_id s_size rs_ram s_regs]. rewrite !Z.eqb_refl. cbn [negb orb]. rewrite copy_full by auto.
  eexists. split; [reflexivity |]. split; [| split].
  - constructor; cbn [regs msr res aux ftop frp shadow_mxcsr hflags microcode a20_mask ram s_regs s_msr s_res s_aux s_ftop s_frp s_mxcsr s_hflags s_microcode s_a20]; auto.
  - rewrite !counter_tsc. cbn [clk s_tsc].
    pose proof (ClockProps.C40_snapshot freq now now' later (clk c) (clk c')) as Q.
    assert (SV : ClockModel.save freq now (clk c) = Z.lor (Z.shiftl d 32) a) by (unfold ClockModel.save; now rewrite RD).
    rewrite SV in Q. unfold ClockProps.cycles, ClockProps.is64 in Q. rewrite (rset_other _ EAX _ EDX), !rset_same by discriminate.
    apply Q; lia.
  - split; [| repeat split]. intros io0 data0. exact (reload_lists (regs c) (wp_io c') (wp_data c') io0 data0).
Qed.
Print Assumptions C33_round_trip_partial.

(** A snapshot with a wrong id or size is refused and changes nothing. *)
Theorem C33_rejected : forall sz now k m fn c,
  s_id k <> 12 \/ rs_id m <> 12 \/ s_size k <> sz -> load sz now k m fn c = Some (invalid_parameter, c).
Proof.
  intros sz now k m fn c H. unfold load, SAVE_STATE_ID.
  destruct (Z.eqb_spec (s_id k) 12), (Z.eqb_spec (rs_id m) 12), (Z.eqb_spec (s_size k) sz); cbn; try reflexivity. tauto.
Qed.
Print Assumptions C33_rejected.

(** ** Where the property fails *)

Definition clk0 : ClockModel.clk := ClockModel.tsc_init 100.
Definition cpu0 (h : bool) (n : nat) : cpu :=
  mkcpu (fun r => match r with DR 7 => 0x401 | DR 0 => 0x1000 | EAX => 5 | _ => 0 end) (fun n => n) 1 2 0 0x37F 0x1F80 h false 0x1C
    0xFFEFFFFF clk0 (map Z.of_nat (seq 1 n)) 0 0 0 [] [] true.

(** the hypotheses can be met *)
Example C33_example :
  exists k m c1 c2, save 1000 1000000000 200 [0; 0; 0] (cpu0 false 3) = Some (k, m, c1) /\
    mode_ok (hflags (cpu0 false 3)) /\
    load 1000 300 k m 7 (cpu0 true 3) = Some (success, c2) /\ ram c2 = [1; 2; 3] /\ a20_mask c2 = 0xFFEFFFFF /\
    wp_data c2 = [DrModel.mkwp 0 0x1000 0x1000].
Proof. do 4 eexists. split; [reflexivity |]. split; [split; reflexivity |]. split; [reflexivity |]. repeat split. Qed.

(** The halted state is not restored: a CPU stopped at HLT is saved as halted, but
    the CPU the snapshot is restored to keeps whatever state it has.  So a
    restored CPU runs past the HLT, or stays stopped although the saved one was
    running. *)
Theorem C33_refuted_halted : forall h : bool,
  exists k m c1 c2, save 1000 1000000000 200 [0; 0; 0] (cpu0 h 3) = Some (k, m, c1) /\ s_halted k = h /\
    load 1000 300 k m 0 (cpu0 (negb h) 3) = Some (success, c2) /\ halted c2 <> halted (cpu0 h 3).
Proof.
  intros h. do 4 eexists. split; [reflexivity |]. split; [reflexivity |]. split; [reflexivity |]. destruct h; discriminate.
Qed.
Print Assumptions C33_refuted_halted.

(** in general: the halted state never changes *)
Theorem C33_halted_kept : forall sz now k m fn c st c2, load sz now k m fn c = Some (st, c2) -> halted c2 = halted c.
Proof.
  intros sz now k m fn c st c2. unfold load. destruct (_ || _); [intros E; assert (c2 = c) by congruence; now subst |].
  destruct (copy _ _); [| discriminate]. intros E. match type of E with Some (_, ?x) = _ => assert (c2 = x) by congruence end. now subst.
Qed.
Print Assumptions C33_halted_kept.

(** The size of the ram is not part of the checks: a snapshot of a CPU with more
    ram is accepted and written past the end of the ram buffer; one of a CPU with
    less ram leaves old bytes. *)
Theorem C33_refuted_ram_size : forall n n' : nat, (n' < n)%nat ->
  exists k m c1, save 1000 1000000000 200 (repeat 0 n) (cpu0 false n) = Some (k, m, c1) /\
    load 1000 300 k m 0 (cpu0 false n') = None.
Proof.
  intros n n' H. unfold save. destruct (ClockModel.rdtsc _ _ _) as [d a].
  rewrite copy_full by (cbn [ram cpu0]; now rewrite map_length, seq_length, repeat_length).
  do 3 eexists. split; [reflexivity |]. unfold load. cbn [s_id rs_id s_size rs_ram]. rewrite !Z.eqb_refl. cbn [negb orb].
  unfold copy. cbn [ram cpu0]. rewrite !map_length, !seq_length. destruct (Nat.leb_spec n n'); [lia | reflexivity].
Qed.
Print Assumptions C33_refuted_ram_size.

(** A request pending when the snapshot is restored (an exit request, a deferred
    region or gate change, a suspend request) is dropped: the interrupt word is
    cleared as a whole. *)
Theorem C33_pending_dropped : forall sz now k m fn c c2, load sz now k m fn c = Some (success, c2) -> int_pending c2 = 0.
Proof.
  intros sz now k m fn c c2. unfold load. destruct (_ || _); [discriminate |].
  destruct (copy _ _); [| discriminate]. intros E. match type of E with Some (_, ?x) = _ => assert (c2 = x) by congruence end. now subst.
Qed.
Print Assumptions C33_pending_dropped.
