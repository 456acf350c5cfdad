(** * The time stamp counter never runs backwards (C40) *)

From Coq Require Import ZArith Bool List Lia.
From Verif Require Import ClockModel.
Import ListNotations.
Local Open Scope Z_scope.

(** ** Specification *)
Definition tsc (r : Z * Z) : Z := fst r * 2 ^ 32 + snd r.
(** cycles of a 733333333 Hz clock in [d] ticks of a host clock *)
Definition cycles (freq d : Z) : Z := d * 733333333 / freq.
(** 64 bit unsigned values *)
Definition is64 (x : Z) : Prop := 0 <= x < 2 ^ 64.

(** ** Proofs *)
Lemma u64_range x : is64 (u64 x).
Proof. apply Z.mod_pos_bound. lia. Qed.
Lemma tsc_value freq now c : 0 < freq -> tsc (rdtsc freq now c) = u64 (muldiv128 (u64 (now - last_ticks c)) cpu_freq freq + offset c).
Proof.
  intros F. unfold tsc, rdtsc. cbn [fst snd]. set (e := u64 _). rewrite Z.shiftr_div_pow2 by lia.
  pose proof (Z.div_mod e (2 ^ 32) ltac:(lia)). lia.
Qed.

(** RDTSC returns the cycles since the counter was set, plus the value it was set to, as a 64
    bit counter, whatever the host frequency is; no intermediate overflow shows. *)
Theorem C40_value : forall freq now c, 0 < freq -> is64 now -> is64 (last_ticks c) -> last_ticks c <= now ->
  tsc (rdtsc freq now c) = (cycles freq (now - last_ticks c) + offset c) mod 2 ^ 64 /\
  0 <= fst (rdtsc freq now c) < 2 ^ 32 /\ 0 <= snd (rdtsc freq now c) < 2 ^ 32.
Proof.
  intros freq now c F N L H. unfold is64 in *. split.
  - rewrite tsc_value by exact F. unfold muldiv128. unfold u64 at 3. rewrite Z.mod_small by lia. unfold u64. rewrite Zplus_mod_idemp_l. reflexivity.
  - cbn [rdtsc fst snd]. set (e := u64 _). assert (is64 e) by apply u64_range. unfold is64 in *. split; [| apply Z.mod_pos_bound; lia].
    rewrite Z.shiftr_div_pow2 by lia. split; [apply Z.div_pos; lia |]. apply Z.div_lt_upper_bound; lia.
Qed.
Print Assumptions C40_value.

Lemma cycles_mono freq a b : 0 < freq -> a <= b -> cycles freq a <= cycles freq b.
Proof. intros. apply Z.div_le_mono; lia. Qed.

(** Reads at non decreasing host times do not decrease, until the 64 bit counter wraps. *)
Theorem C40_monotone : forall freq t1 t2 c, 0 < freq -> is64 t1 -> is64 t2 -> is64 (last_ticks c) -> is64 (offset c) ->
  last_ticks c <= t1 -> t1 <= t2 -> cycles freq (t2 - last_ticks c) + offset c < 2 ^ 64 ->
  tsc (rdtsc freq t1 c) <= tsc (rdtsc freq t2 c).
Proof.
  intros freq t1 t2 c F A B L O H1 H2 W. destruct (C40_value freq t1 c F A L H1) as [-> _]. destruct (C40_value freq t2 c F B L ltac:(lia)) as [-> _].
  pose proof (cycles_mono freq (t1 - last_ticks c) (t2 - last_ticks c) F ltac:(lia)).
  assert (0 <= cycles freq (t1 - last_ticks c)) by (apply Z.div_pos; lia). unfold is64 in *.
  rewrite !Z.mod_small by lia. lia.
Qed.
Print Assumptions C40_monotone.

(** Also across the wrap, the counter advances by the elapsed time, exact to one cycle. *)
Theorem C40_rate : forall freq t1 t2 c, 0 < freq -> is64 t1 -> is64 t2 -> is64 (last_ticks c) -> last_ticks c <= t1 -> t1 <= t2 ->
  exists d, (tsc (rdtsc freq t2 c) - tsc (rdtsc freq t1 c)) mod 2 ^ 64 = d mod 2 ^ 64 /\ 0 <= d /\
    (t2 - t1) * 733333333 - freq < d * freq < (t2 - t1) * 733333333 + freq.
Proof.
  intros freq t1 t2 c F A B L H1 H2. destruct (C40_value freq t1 c F A L H1) as [-> _]. destruct (C40_value freq t2 c F B L ltac:(lia)) as [-> _].
  exists (cycles freq (t2 - last_ticks c) - cycles freq (t1 - last_ticks c)). split; [| split].
  - rewrite <- Zminus_mod. f_equal. lia.
  - pose proof (cycles_mono freq (t1 - last_ticks c) (t2 - last_ticks c) F ltac:(lia)). lia.
  - unfold cycles. set (x := (t2 - last_ticks c) * 733333333). set (y := (t1 - last_ticks c) * 733333333).
    pose proof (Z.div_mod x freq ltac:(lia)). pose proof (Z.mod_pos_bound x freq F). pose proof (Z.div_mod y freq ltac:(lia)). pose proof (Z.mod_pos_bound y freq F).
    assert (x - y = (t2 - t1) * 733333333) by (unfold x, y; lia). rewrite Z.mul_sub_distr_r. split; lia.
Qed.
Print Assumptions C40_rate.

(** A restored snapshot continues at the value the counter had when it was taken. *)
Theorem C40_snapshot : forall freq t1 t2 t3 c c', 0 < freq -> is64 t1 -> is64 t2 -> is64 t3 -> is64 (last_ticks c) -> last_ticks c <= t1 -> t2 <= t3 ->
  tsc (rdtsc freq t3 (load (save freq t1 c) t2 c')) = (tsc (rdtsc freq t1 c) + cycles freq (t3 - t2)) mod 2 ^ 64.
Proof.
  intros freq t1 t2 t3 c c' F A B C L H1 H2.
  destruct (C40_value freq t3 (load (save freq t1 c) t2 c') F C B H2) as [-> _].
  destruct (C40_value freq t1 c F A L H1) as (V & D & E).
  assert (S : save freq t1 c = tsc (rdtsc freq t1 c)).
  { unfold save. destruct (rdtsc freq t1 c) as [d a]. unfold tsc. cbn [fst snd] in *. rewrite Z.shiftl_mul_pow2 by lia.
    rewrite <- Z.lxor_lor, <- Z.add_nocarry_lxor; [reflexivity | |].
    all: apply Z.bits_inj'; intros n Hn; rewrite Z.land_spec, Z.bits_0; destruct (Z.ltb_spec n 32);
      [rewrite Z.mul_pow2_bits_low by lia; reflexivity |];
      assert (Z.testbit a n = false) as ->; [| apply andb_false_r];
      (destruct (Z.eq_dec a 0) as [-> |]; [apply Z.bits_0 |]; apply Z.bits_above_log2; [lia |]; apply Z.log2_lt_pow2; [lia |];
       apply Z.lt_le_trans with (2 ^ 32); [lia | apply Z.pow_le_mono_r; lia]). }
  cbn [last_ticks offset load]. rewrite S. f_equal. lia.
Qed.
Print Assumptions C40_snapshot.

(** RDTSC is privileged exactly when CR4.TSD is set. *)
Theorem C40_privilege : forall cpl tsd freq now c, rdtsc_instr cpl tsd freq now c = None <-> cpl <> 0 /\ tsd = true.
Proof.
  intros. unfold rdtsc_instr. destruct (Z.eqb_spec cpl 0), tsd; cbn; intuition congruence.
Qed.
Print Assumptions C40_privilege.

(** ** Timeouts *)

(** the timeout in force before event [k] *)
Fixpoint in_force (t : Z) (l : list event) : Z :=
  match l with [] => t | SetTimeout x :: r => in_force x r | Check _ :: r => in_force t r end.
(** the run returns at the first check at which the elapsed time reached the timeout in force *)
Definition returns_at (late : Z -> Z -> Prop) (t : Z) (l : list event) (now : Z) : Prop :=
  exists before after, l = before ++ Check now :: after /\ late now (in_force t before) /\
    forall p q n, before = p ++ Check n :: q -> ~ late n (in_force t p).
Definition check_times (t0 : Z) (l : list event) : Prop := Forall (fun e => match e with Check n => t0 <= n < 2 ^ 64 | SetTimeout x => is64 x end) l.

Lemma run_gen (timer : Z -> clk -> clk * bool) (late : Z -> Z -> Prop) t0 :
  (forall now c, t0 <= now < 2 ^ 64 -> last_time c = t0 ->
     (late now (timeout c) /\ snd (timer now c) = true) \/ (~ late now (timeout c) /\ timer now c = (c, false))) ->
  forall l c, last_time c = t0 -> check_times t0 l ->
  match run_until timer l c with
  | Some now => returns_at late (timeout c) l now
  | None => forall p q n, l = p ++ Check n :: q -> ~ late n (in_force (timeout c) p)
  end.
Proof.
  intros T. induction l as [| e l IH]; intros c L W; cbn [run_until].
  - intros p q n E. destruct p; discriminate.
  - apply Forall_cons_iff in W as [We W]. destruct e as [now | x].
    + destruct (T now c We L) as [[LT S] | [LT S]].
      * destruct (timer now c) as [c' b]. cbn in S. subst b. exists [], l. split; [reflexivity |]. split; [exact LT |]. intros p q n E. destruct p; discriminate.
      * rewrite S. specialize (IH c L W). destruct (run_until timer l c) as [r |].
        -- destruct IH as (b & a & -> & Lr & N). exists (Check now :: b), a. split; [reflexivity |]. split; [exact Lr |].
           intros p q n E. destruct p as [| y p]; cbn in E; [injection E as E1 E; subst; assumption |]. injection E as E1 E. subst y. cbn. now apply (N p q).
        -- intros p q n E. destruct p as [| y p]; cbn in E; [injection E as E1 E; subst; assumption |]. injection E as E1 E. subst y. cbn. now apply (IH p q).
    + specialize (IH (set_timeout x c) L W). destruct (run_until timer l (set_timeout x c)) as [r |].
      * destruct IH as (b & a & -> & Lr & N). exists (SetTimeout x :: b), a. split; [reflexivity |]. split; [exact Lr |].
        intros p q n E. destruct p as [| y p]; cbn in E; [discriminate |]. injection E as E1 E. subst y. cbn. now apply (N p q).
      * intros p q n E. destruct p as [| y p]; cbn in E; [discriminate |]. injection E as E1 E. subst y. cbn. now apply (IH p q).
Qed.

(** In host ticks the run returns at exactly the first check at which the timeout has passed. *)
Theorem C40_run_until : forall t t0 l c, is64 t0 -> is64 t -> check_times t0 l ->
  let late now x := x <= now - t0 in
  match run_until timer_linux l (start_until t t0 c) with
  | Some now => returns_at late t l now
  | None => forall p q n, l = p ++ Check n :: q -> ~ late n (in_force t p)
  end.
Proof.
  intros t t0 l c A B W late. apply (run_gen timer_linux late t0) with (c := start_until t t0 c); [| reflexivity | exact W].
  intros now c' Hn L. unfold timer_linux, late. rewrite L. unfold u64. unfold is64 in *. rewrite (Z.mod_small (now - t0)) by lia.
  destruct (Z.leb_spec (timeout c') (now - t0)); [left; split; [assumption | reflexivity] | right; split; [lia | reflexivity]].
Qed.
Print Assumptions C40_run_until.

(** Windows: the multiplication may wrap, so a timeout may come late, but never early. *)
Theorem C40_windows : forall freq now c, 0 < freq -> is64 now -> is64 (last_time c) -> last_time c <= now ->
  (snd (timer_windows freq now c) = true -> timeout c * freq <= (now - last_time c) * 1000000) /\
  ((now - last_time c) * 1000000 < 2 ^ 64 -> timeout c * freq <= (now - last_time c) * 1000000 -> snd (timer_windows freq now c) = true).
Proof.
  intros freq now c F N L H. unfold timer_windows, is64 in *. unfold u64 at 2 4. rewrite (Z.mod_small (now - last_time c)) by lia.
  set (p := (now - last_time c) * 1000000). assert (0 <= p) by (unfold p; lia). split.
  - destruct (Z.leb_spec (timeout c) (u64 p / freq)); [| discriminate]. intros _.
    assert (u64 p <= p) by (apply Z.mod_le; lia). pose proof (Z.mul_div_le (u64 p) freq F). nia.
  - intros W T. unfold u64. rewrite Z.mod_small by lia. rewrite (proj2 (Z.leb_le _ _)); [reflexivity |].
    apply Z.div_le_lower_bound; lia.
Qed.
Print Assumptions C40_windows.

(** In real time (nanoseconds) the host time is cut to microseconds, so a timeout is at most one
    microsecond early. *)
Definition ticks_ns (ns : Z) : Z := linux_ticks (ns / 1000000000) (ns mod 1000000000).
Lemma ticks_us ns : 0 <= ns < 2 ^ 64 -> ticks_ns ns = ns / 1000.
Proof.
  intros H. unfold ticks_ns, linux_ticks, u64.
  assert (ns / 1000000000 * 1000000 + ns mod 1000000000 / 1000 = ns / 1000) as -> by (Z.div_mod_to_equations; lia).
  apply Z.mod_small. Z.div_mod_to_equations. lia.
Qed.
Theorem C40_timeout_partial : forall t n0 n1 c, is64 n0 -> is64 n1 -> n0 <= n1 -> is64 t ->
  snd (timer_linux (ticks_ns n1) (start_until t (ticks_ns n0) c)) = true -> (t - 1) * 1000 < n1 - n0.
Proof.
  intros t n0 n1 c A B H T. unfold is64 in *. rewrite !ticks_us by assumption. unfold timer_linux. cbn [start_until timeout last_time].
  assert (n0 / 1000 <= n1 / 1000) by (apply Z.div_le_mono; lia). assert (n1 / 1000 < 2 ^ 64) by (Z.div_mod_to_equations; lia). assert (0 <= n0 / 1000) by (apply Z.div_pos; lia).
  unfold u64. rewrite Z.mod_small by lia. destruct (Z.leb_spec t (n1 / 1000 - n0 / 1000)); [intros _ | discriminate].
  Z.div_mod_to_equations. lia.
Qed.
Print Assumptions C40_timeout_partial.
(** A timeout of one microsecond may be reported after one nanosecond. *)
Theorem C40_refuted_timeout : exists n0 n1 c, n0 <= n1 /\ n1 - n0 < 1000 /\ snd (timer_linux (ticks_ns n1) (start_until 1 (ticks_ns n0) c)) = true.
Proof. exists 1999, 2000, (tsc_init 0). repeat split; lia. Qed.
Print Assumptions C40_refuted_timeout.

(** a run with a changed timeout, reads before and after a snapshot *)
Example C40_example :
  run_until timer_linux [Check 1000; SetTimeout 500; Check 1499; Check 1600; Check 1700] (start_until 2000 1000 (tsc_init 0)) = Some 1600 /\
  check_times 1000 [Check 1000; SetTimeout 500; Check 1499; Check 1600; Check 1700] /\
  tsc (rdtsc linux_freq 1000000 (tsc_init 0)) = 733333333 /\
  tsc (rdtsc linux_freq 9000000 (load (save linux_freq 1000000 (tsc_init 0)) 8000000 (tsc_init 5))) = 2 * 733333333 /\
  rdtsc linux_freq 6000000 (tsc_init 0) = (1, 105032702).
Proof.
  split; [reflexivity |]. split; [repeat (apply Forall_cons; [unfold is64; lia |]); apply Forall_nil |].
  split; [reflexivity |]. split; reflexivity.
Qed.
