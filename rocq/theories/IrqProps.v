(** * C35: hardware interrupts are neither lost nor spurious *)

From Coq Require Import ZArith Bool List Lia.
From Verif Require Import IrqModel.
Import ListNotations.
Local Open Scope Z_scope.

(** ** Specification *)

(** The line, as the threads that drive it see it: only the last call counts. *)
Fixpoint line (l : bool) (evs : list ev) : bool :=
  match evs with
  | [] => l
  | RaiseLine :: t => line true t
  | LowerLine :: t => line false t
  | _ :: t => line l t
  end.

Definition raised (s : st) : bool := Z.testbit (word s) 9.

(** Is another request, or an interrupt shadow, pending? *)
Definition others (s : st) : bool := negb (Z.land (word s) NON_HW =? 0).

Definition is_instr (o : obs) : bool := match o with OInstr _ => true | _ => false end.
Definition is_deliver (o : obs) : bool := match o with ODeliver => true | _ => false end.

(** instructions executed before the first delivery *)
Fixpoint before_delivery (l : list obs) : nat :=
  match l with
  | [] => 0
  | ODeliver :: _ => 0
  | OInstr _ :: t => S (before_delivery t)
  | _ :: t => before_delivery t
  end.

Definition delivered (l : list obs) : bool := existsb is_deliver l.
Definition instrs (l : list obs) : nat := length (filter is_instr l).

(** Events of the other threads *)
Definition env (e : ev) : bool := match e with Cpu _ _ => false | _ => true end.

(** ** Words *)

Lemma testbit_pow : forall n, Z.testbit HW n = (n =? 9).
Proof.
  intro n. change HW with (2 ^ 9). rewrite Z.pow2_bits_eqb by lia. apply Z.eqb_sym.
Qed.

Lemma raised_land : forall w, negb (Z.land w HW =? 0) = Z.testbit w 9.
Proof.
  intro w. destruct (Z.testbit w 9) eqn:E.
  - apply negb_true_iff, Z.eqb_neq. intro H.
    assert (K : Z.testbit (Z.land w HW) 9 = false) by (rewrite H; apply Z.bits_0).
    rewrite Z.land_spec, E, testbit_pow in K. discriminate K.
  - apply negb_false_iff, Z.eqb_eq. apply Z.bits_inj'; intros n Hn.
    rewrite Z.land_spec, testbit_pow, Z.bits_0.
    destruct (Z.eqb_spec n 9); [subst; rewrite E; reflexivity | apply andb_false_r].
Qed.

Lemma bit9 : forall m, Z.testbit m 9 = false -> forall w,
  Z.testbit (Z.lor w m) 9 = Z.testbit w 9 /\ Z.testbit (Z.ldiff w m) 9 = Z.testbit w 9.
Proof.
  intros m H w. rewrite Z.lor_spec, Z.ldiff_spec, H. split.
  - apply orb_false_r.
  - apply andb_true_r.
Qed.

Lemma clear_bit9 : forall f, Z.testbit (clear_flg f) 9 = false.
Proof.
  intro f. unfold clear_flg. rewrite Z.lor_spec, Z.land_spec.
  change (Z.testbit (Z.lor MASKED HALT_TC) 9) with false.
  change (Z.testbit (Z.lor DBG (Z.lor HANDLER (Z.lor A20 (Z.lor REGION SUSPEND)))) 9) with false.
  apply andb_false_r.
Qed.

Lemma step_line : forall e s, raised (fst (step e s)) = line (raised s) [e].
Proof.
  intros e s; unfold raised; destruct e as [i g| | |r]; cbn [step fst word line].
  - unfold cpu_step. destruct (ph s) as [|h|h f|h f|]; cbn [fst].
    + destruct i; cbn [exec_instr word]; try reflexivity.
      * destruct (iff s); [reflexivity | apply (bit9 MASKED eq_refl)].
      * apply (bit9 MASKED eq_refl).
    + unfold read_word. destruct h; reflexivity.
    + unfold handle. destruct (negb (Z.land f ABORT =? 0)); cbn [fst word].
      * apply (bit9 ABORT eq_refl).
      * destruct (negb (Z.land f NON_HW =? 0)); cbn [fst word]; [reflexivity|].
        destruct (negb (Z.land f HW =? 0) && iff s); reflexivity.
    + cbn [clear word]. apply (bit9 _ (clear_bit9 f)).
    + reflexivity.
  - rewrite Z.lor_spec, testbit_pow. apply orb_true_r.
  - rewrite Z.ldiff_spec, testbit_pow. apply andb_false_r.
  - apply (bit9 (req_bit r)). destruct r; reflexivity.
Qed.

Lemma line_cons : forall e t l, line l (e :: t) = line (line l [e]) t.
Proof. intros [i g| | |r] t l; reflexivity. Qed.

(** *** The line is what the callers made it: nothing the cpu thread does and no
    other request, however it is interleaved, sets or clears it. *)
Theorem C35_line_kept : forall evs s, raised (run evs s) = line (raised s) evs.
Proof.
  induction evs as [|e t IH]; intro s; [reflexivity|].
  rewrite line_cons, <- step_line. apply IH.
Qed.
Print Assumptions C35_line_kept.

(** ** No spurious delivery *)

Lemma run_app : forall a b s, run (a ++ b) s = run b (run a s).
Proof. induction a as [|e t IH]; intros b s; [reflexivity | apply IH]. Qed.

Lemma trace_app : forall a b s, trace (a ++ b) s = trace a s ++ trace b (run a s).
Proof.
  induction a as [|e t IH]; intros b s; [reflexivity|].
  cbn [app trace run]. destruct (snd (step e s)); rewrite IH; reflexivity.
Qed.

(** What the thread holds in [Handle] was read at an earlier point, and it has
    executed nothing since. *)
Definition origin (s0 : st) (evs : list ev) : Prop :=
  match ph (run evs s0) with
  | Handle h f =>
      exists a b, evs = a ++ b
        /\ (exists h', ph (run a s0) = Read h')
        /\ iff (run a s0) = iff (run evs s0)
        /\ instrs (trace b (run a s0)) = 0%nat
        /\ Z.testbit f 9 = (raised (run a s0) && (h || iff (run a s0)))
  | _ => True
  end.

Lemma instrs_app : forall a b, instrs (a ++ b) = (instrs a + instrs b)%nat.
Proof. intros a b; unfold instrs. rewrite filter_app, app_length. reflexivity. Qed.

Lemma origin_all : forall s0,
  (forall h f, ph s0 <> Handle h f) ->
  forall evs, origin s0 evs.
Proof.
  intros s0 H0 evs. induction evs as [|e t IH] using rev_ind.
  - unfold origin; cbn [run]. destruct (ph s0) eqn:E; trivial. exfalso. exact (H0 _ _ eq_refl).
  - unfold origin in *. rewrite run_app. cbn [run]. set (s := run t s0) in *.
    assert (KEEP : forall s', ph s' = ph s -> iff s' = iff s -> snd (step e s) = None ->
              s' = fst (step e s) ->
              match ph s' with
              | Handle h f => exists a b, t ++ [e] = a ++ b
                 /\ (exists h', ph (run a s0) = Read h')
                 /\ iff (run a s0) = iff s'
                 /\ instrs (trace b (run a s0)) = 0%nat
                 /\ Z.testbit f 9 = (raised (run a s0) && (h || iff (run a s0)))
              | _ => True end).
    { intros s' Hp Hi Hn _. rewrite Hp. destruct (ph s) as [|h|h f|h f|]; trivial.
      destruct IH as (a & b & E & R & I & N & T).
      exists a, (b ++ [e]). rewrite app_assoc, <- E. split; [reflexivity|].
      split; [exact R|]. split; [congruence|]. split; [|exact T].
      rewrite trace_app, instrs_app, N, <- run_app, <- E. fold s.
      cbn [trace]. rewrite Hn. reflexivity. }
    destruct e as [i g| | |r]; try (apply KEEP; reflexivity).
    cbn [step]. unfold cpu_step. destruct (ph s) as [|h|h f|h f|] eqn:P; cbn [fst].
    + destruct i; cbn [exec_instr ph]; exact I.
    + unfold read_word. destruct h.
      * cbn [ph iff]. exists t, [Cpu i g]. split; [reflexivity|].
        fold s. split; [exists true; exact P|]. split; [reflexivity|]. split.
        -- cbn [trace step]. unfold cpu_step. rewrite P. reflexivity.
        -- unfold raised. rewrite andb_true_r. reflexivity.
      * cbn [ph iff]. destruct (iff s) eqn:Ei.
        -- destruct (word s =? 0); [exact I|].
           exists t, [Cpu i g]. split; [reflexivity|]. fold s. split; [exists false; exact P|].
           split; [exact Ei|]. split.
           ++ cbn [trace step]. unfold cpu_step. rewrite P. reflexivity.
           ++ unfold raised. rewrite Ei. cbn. rewrite andb_true_r. reflexivity.
        -- destruct (Z.ldiff (word s) HW =? 0); [exact I|].
           exists t, [Cpu i g]. split; [reflexivity|]. fold s. split; [exists false; exact P|].
           split; [exact Ei|]. split.
           ++ cbn [trace step]. unfold cpu_step. rewrite P. reflexivity.
           ++ rewrite Z.ldiff_spec, testbit_pow, Ei. cbn [orb]. rewrite !andb_false_r. reflexivity.
    + unfold handle. destruct (negb (Z.land f ABORT =? 0)); [exact I|].
      destruct (negb (Z.land f NON_HW =? 0)); [exact I|].
      destruct (negb (Z.land f HW =? 0) && iff s); [exact I|]. destruct h; exact I.
    + cbn [clear ph]. destruct h; exact I.
    + rewrite P. exact I.
Qed.

(** *** An interrupt is delivered only if, at the instruction boundary where it
    happens, the cpu thread looked at the line while it was raised and IF was set.
    Nothing has been executed in between. *)
Theorem C35_not_spurious :
  forall s0 evs e,
    ph s0 = Exec ->
    snd (step e (run evs s0)) = Some ODeliver ->
    exists before after,
      evs = before ++ after
      /\ line (raised s0) before = true
      /\ iff (run before s0) = true
      /\ instrs (trace after (run before s0)) = 0%nat.
Proof.
  intros s0 evs e H0 HD.
  assert (O : origin s0 evs) by (apply origin_all; intros h f; rewrite H0; discriminate).
  unfold origin in O. destruct e as [i g| | |r]; try discriminate HD.
  cbn [step] in HD. unfold cpu_step in HD.
  destruct (ph (run evs s0)) as [|h|h f|h f|]; try discriminate HD.
  destruct O as (a & b & E & R & I & N & T).
  unfold handle in HD. destruct (negb (Z.land f ABORT =? 0)); [discriminate HD|].
  destruct (negb (Z.land f NON_HW =? 0)); [discriminate HD|].
  rewrite raised_land in HD.
  destruct (Z.testbit f 9) eqn:F; cbn [andb] in HD; [|discriminate HD].
  destruct (iff (run evs s0)) eqn:EI; [|discriminate HD].
  exists a, b. rewrite <- C35_line_kept.
  symmetry in T. apply andb_true_iff in T. destruct T as [T1 _].
  repeat split; assumption.
Qed.
Print Assumptions C35_not_spurious.

(** *** Refuted: "only while the line is raised".  Another thread lowers the line
    after the cpu thread has looked at it; the interrupt function is called with
    the line low. *)
Theorem C35_refuted_line_low :
  exists s0 evs i g,
    ph s0 = Exec
    /\ snd (step (Cpu i g) (run evs s0)) = Some ODeliver
    /\ line (raised s0) evs = false.
Proof.
  exists (mkst 0 true Exec), [RaiseLine; Cpu Plain false; Cpu Plain false; LowerLine], Plain, false.
  vm_compute. repeat split; reflexivity.
Qed.
Print Assumptions C35_refuted_line_low.

(** ** Not lost *)

(** only bits that exist: the word starts at zero and only requests are or-ed in *)
Definition known (w : Z) : Prop := Z.land w 0x3EF = w.

Definition keeps_if (i : instr) : bool :=
  match i with Plain | Sti | PopIf true | LoadSS => true | _ => false end.
Definition shadows (i : instr) : bool := match i with LoadSS => true | _ => false end.

(** A schedule in which the line is not lowered, nobody ends the emulation, no
    debug trap is taken, and the guest keeps IF set, does not halt and raises no
    exception. *)
Definition steady (e : ev) : bool :=
  match e with
  | Cpu i _ => keeps_if i
  | RaiseLine => true
  | LowerLine => false
  | Request RAbort | Request RDbg => false
  | Request _ => true
  end.

(** what can put the delivery off by one instruction *)
Definition delays (e : ev) : nat :=
  match e with
  | Request _ => 1
  | Cpu i _ => if shadows i then 1 else 0
  | _ => 0
  end.
Definition total_delay (evs : list ev) : nat := fold_right (fun e n => (delays e + n)%nat) 0%nat evs.

Definition oth (w : Z) : nat := if Z.land w NON_HW =? 0 then 0 else 1.

(** instructions still to be executed if no more requests come *)
Definition todo (s : st) : nat :=
  match ph s with
  | Read _ => oth (word s)
  | Exec => S (oth (word s))
  | Handle _ f => if Z.land f NON_HW =? 0 then 0 else S (oth (Z.ldiff (word s) (clear_flg f)))
  | Clear _ f => S (oth (Z.ldiff (word s) (clear_flg f)))
  | Gone => 0
  end.

Definition steady_word (w : Z) : Prop :=
  Z.testbit w 9 = true /\ Z.land w ABORT = 0 /\ Z.land w DBG = 0 /\ known w.

Definition steady_ph (p : phase) : Prop :=
  match p with
  | Exec | Read false => True
  | Handle false f => Z.testbit f 9 = true /\ Z.land f ABORT = 0 /\ Z.land f DBG = 0
  | Clear false f => True
  | _ => False
  end.

Definition steady_st (s : st) : Prop := iff s = true /\ steady_word (word s) /\ steady_ph (ph s).

Lemma oth_lor : forall w m, (oth (Z.lor w m) <= S (oth w))%nat.
Proof. intros w m; unfold oth. destruct (Z.land (Z.lor w m) NON_HW =? 0), (Z.land w NON_HW =? 0); lia. Qed.

Lemma oth_le1 : forall w, (oth w <= 1)%nat.
Proof. intro w; unfold oth. destruct (Z.land w NON_HW =? 0); lia. Qed.

Lemma oth_self : forall w, oth (Z.ldiff w (clear_flg w)) = 0%nat.
Proof.
  intro w. unfold oth.
  assert (E : Z.land (Z.ldiff w (clear_flg w)) NON_HW = 0).
  { apply Z.bits_inj'; intros n Hn. rewrite Z.bits_0.
    unfold clear_flg. rewrite Z.land_spec, Z.ldiff_spec, Z.lor_spec, Z.land_spec.
    replace (Z.testbit NON_HW n)
      with (Z.testbit (Z.lor MASKED HALT_TC) n
            || Z.testbit (Z.lor DBG (Z.lor HANDLER (Z.lor A20 (Z.lor REGION SUSPEND)))) n).
    - destruct (Z.testbit w n), (Z.testbit (Z.lor MASKED HALT_TC) n),
        (Z.testbit (Z.lor DBG (Z.lor HANDLER (Z.lor A20 (Z.lor REGION SUSPEND)))) n); reflexivity.
    - rewrite <- Z.lor_spec. reflexivity. }
  rewrite E. reflexivity.
Qed.

Lemma oth_lor_hw : forall w, oth (Z.lor w HW) = oth w.
Proof.
  intro w. unfold oth. replace (Z.land (Z.lor w HW) NON_HW) with (Z.land w NON_HW); [reflexivity|].
  apply Z.bits_inj'; intros n Hn. rewrite !Z.land_spec, Z.lor_spec, testbit_pow.
  destruct (Z.eqb_spec n 9); [subst; cbn; rewrite !andb_false_r; reflexivity|].
  rewrite orb_false_r. reflexivity.
Qed.

Lemma ldiff_lor_le : forall w m c, (oth (Z.ldiff (Z.lor w m) c) <= S (oth (Z.ldiff w c)))%nat.
Proof. intros. pose proof (oth_le1 (Z.ldiff (Z.lor w m) c)). lia. Qed.

Lemma lor_hw_id : forall w, Z.testbit w 9 = true -> Z.lor w HW = w.
Proof.
  intros w H. apply Z.bits_inj'; intros n Hn. rewrite Z.lor_spec, testbit_pow.
  destruct (Z.eqb_spec n 9); [subst; rewrite H; reflexivity | apply orb_false_r].
Qed.

Lemma land_lor0 : forall w m b, Z.land w b = 0 -> Z.land m b = 0 -> Z.land (Z.lor w m) b = 0.
Proof. intros w m b H1 H2. rewrite Z.land_comm, Z.land_lor_distr_r, !(Z.land_comm b), H1, H2. reflexivity. Qed.

Lemma land_ldiff0 : forall w c b, Z.land w b = 0 -> Z.land (Z.ldiff w c) b = 0.
Proof.
  intros w c b H. apply Z.bits_inj'; intros n Hn.
  assert (K : Z.testbit (Z.land w b) n = false) by (rewrite H; apply Z.bits_0).
  rewrite Z.land_spec in K. rewrite Z.bits_0, Z.land_spec, Z.ldiff_spec.
  destruct (Z.testbit w n), (Z.testbit b n), (Z.testbit c n); try reflexivity; discriminate K.
Qed.

Lemma known_lor : forall w m, known w -> known m -> known (Z.lor w m).
Proof.
  unfold known; intros w m H1 H2. rewrite Z.land_comm, Z.land_lor_distr_r, !(Z.land_comm 0x3EF), H1, H2.
  reflexivity.
Qed.

Lemma known_ldiff : forall w c, known w -> known (Z.ldiff w c).
Proof.
  unfold known; intros w c H. apply Z.bits_inj'; intros n Hn.
  assert (K : Z.testbit (Z.land w 0x3EF) n = Z.testbit w n) by (rewrite H; reflexivity).
  rewrite Z.land_spec in *. rewrite Z.ldiff_spec.
  destruct (Z.testbit w n), (Z.testbit 0x3EF n), (Z.testbit c n); try reflexivity; discriminate K.
Qed.

Lemma steady_lor : forall w m, steady_word w -> Z.testbit m 9 = false -> Z.land m ABORT = 0 ->
  Z.land m DBG = 0 -> known m -> steady_word (Z.lor w m).
Proof.
  intros w m (A & B & C & D) E F G H. repeat split.
  - rewrite (proj1 (bit9 m E w)). exact A.
  - apply land_lor0; assumption.
  - apply land_lor0; assumption.
  - apply known_lor; assumption.
Qed.

Lemma steady_clear : forall w f, steady_word w -> steady_word (Z.ldiff w (clear_flg f)).
Proof.
  intros w f (A & B & C & D). repeat split.
  - rewrite (proj2 (bit9 _ (clear_bit9 f) w)). exact A.
  - apply land_ldiff0; assumption.
  - apply land_ldiff0; assumption.
  - apply known_ldiff; assumption.
Qed.

(** one step of a steady schedule: delivered now, or steady again, with the
    potential paying for the instruction executed *)
Lemma steady_step : forall e s, steady e = true -> steady_st s ->
  snd (step e s) = Some ODeliver
  \/ (steady_st (fst (step e s))
      /\ snd (step e s) <> Some ODeliver
      /\ (todo (fst (step e s)) + (match snd (step e s) with Some (OInstr _) => 1 | _ => 0 end)
          <= todo s + delays e)%nat).
Proof.
  intros e s HE (HI & HW & HP). destruct e as [i g| | |r]; try discriminate HE.
  - cbn [step]. unfold cpu_step. destruct (ph s) as [|h|h f|h f|] eqn:P.
    + (* Exec *) right. cbn [fst snd]. unfold todo at 2. rewrite P.
      destruct i as [| | |[]| | |]; try discriminate HE; cbn [exec_instr]; rewrite ?HI;
        (split; [split; [reflexivity || exact HI |
                 split; [try exact HW; apply steady_lor; (exact HW || reflexivity) | exact I]]
                | split; [discriminate | cbn [todo word ph delays shadows]]]); try lia.
      pose proof (oth_lor (word s) MASKED). lia.
    + (* Read *) right. destruct h; [destruct HP|]. cbn [fst snd]. unfold read_word. rewrite HI.
      destruct HW as (A & B & C & D).
      assert (NZ : word s =? 0 = false).
      { apply Z.eqb_neq. intro Z0. rewrite Z0, Z.bits_0 in A. discriminate A. }
      rewrite NZ. split; [split; [reflexivity|split; [repeat split; assumption|]]|split; [discriminate|]].
      * cbn [ph steady_ph]. repeat split; assumption.
      * cbn [todo ph word]. unfold todo. rewrite P. rewrite oth_self. unfold oth.
        destruct (Z.land (word s) NON_HW =? 0); lia.
    + (* Handle *) destruct h; [destruct HP|]. destruct HP as (A & B & C).
      unfold handle. rewrite B. cbn [Z.eqb negb]. destruct (Z.land f NON_HW =? 0) eqn:N.
      * left. cbn [negb]. rewrite raised_land, A, HI. reflexivity.
      * right. cbn [negb fst snd]. rewrite C. cbn [Z.eqb]. split.
        -- split; [exact HI|split; [exact HW|exact I]].
        -- split; [discriminate|]. unfold todo at 2. rewrite P, N. cbn [todo ph word]. lia.
    + (* Clear *) destruct h; [destruct HP|]. right. cbn [fst snd clear back]. split.
      * split; [exact HI|split; [apply steady_clear; exact HW|exact I]].
      * split; [discriminate|]. unfold todo. rewrite P. unfold clear, back. cbn [ph word]. lia.
    + destruct HP.
  - (* RaiseLine *) right. cbn [step fst snd].
    assert (E : Z.lor (word s) IrqModel.HW = word s).
    { apply lor_hw_id. apply HW. }
    rewrite E. split; [split; [exact HI|split; [exact HW|exact HP]]|split; [discriminate|]].
    unfold todo. cbn [ph word]. lia.
  - (* Request *) right. cbn [step fst snd]. split.
    + split; [exact HI|]. split; [|exact HP]. cbn [word].
      destruct r; try discriminate HE; apply steady_lor; (exact HW || reflexivity).
    + split; [discriminate|]. unfold todo. cbn [ph word delays].
      pose proof (oth_lor (word s) (req_bit r)).
      destruct (ph s) as [|h|h f|h f|]; try lia.
      * pose proof (ldiff_lor_le (word s) (req_bit r) (clear_flg f)).
        destruct (Z.land f NON_HW =? 0); lia.
      * pose proof (ldiff_lor_le (word s) (req_bit r) (clear_flg f)). lia.
Qed.

Lemma before_le : forall evs s,
  forallb steady evs = true -> steady_st s ->
  (before_delivery (trace evs s) <= todo s + total_delay evs)%nat.
Proof.
  induction evs as [|e t IH]; intros s HE HS; [cbn; lia|].
  cbn [forallb] in HE. apply andb_true_iff in HE. destruct HE as [H1 H2].
  cbn [trace total_delay fold_right]. fold (total_delay t).
  destruct (steady_step e s H1 HS) as [D | (S' & ND & LE)].
  - rewrite D. cbn [before_delivery]. lia.
  - specialize (IH _ H2 S'). destruct (snd (step e s)) as [[i| | |]|]; cbn [before_delivery]; try lia.
Qed.

(** *** A raised line is only ever put off.  Between an instruction boundary where
    the line is raised and IF is set, and the delivery, the guest executes at most
    one instruction for each other request made meanwhile, for each load of SS, and
    for what was pending at that boundary. *)
Theorem C35_delay_partial :
  forall s evs,
    ph s = Read false -> iff s = true -> steady_word (word s) ->
    forallb steady evs = true ->
    (before_delivery (trace evs s) <= (if others s then 1 else 0) + total_delay evs)%nat.
Proof.
  intros s evs HP HI HW HE.
  assert (HS : steady_st s) by (split; [exact HI|split; [exact HW|rewrite HP; exact I]]).
  pose proof (before_le evs s HE HS) as L. unfold todo in L. rewrite HP in L.
  unfold others. unfold oth in L. destruct (Z.land (word s) NON_HW =? 0); cbn [negb]; lia.
Qed.
Print Assumptions C35_delay_partial.

(** the cpu thread cannot run for long without executing anything *)
Definition cpu_ev (e : ev) : bool := negb (env e).
Definition cpu_steps (evs : list ev) : nat := length (filter cpu_ev evs).

(** steps of the cpu thread before it executes an instruction *)
Definition idle (s : st) : nat :=
  match ph s with Read _ => 3 | Handle _ _ => 2 | Clear _ _ => 1 | _ => 0 end.

Lemma idle_step : forall e s, steady e = true -> steady_st s ->
  snd (step e s) <> Some ODeliver ->
  (match snd (step e s) with
   | Some (OInstr _) => idle (fst (step e s)) = 3
   | _ => idle (fst (step e s)) + (if cpu_ev e then 1 else 0) = idle s
   end)%nat.
Proof.
  intros e s HE (HI & HW & HP) ND. destruct e as [i g| | |r]; try (cbn [step fst snd cpu_ev env negb]; rewrite Nat.add_0_r; reflexivity).
  unfold cpu_ev; cbn [env negb step] in *. unfold cpu_step in *.
  unfold idle. destruct (ph s) as [|h|h f|h f|] eqn:P; cbn [fst snd] in *.
  - destruct i as [| | |[]| | |]; try discriminate HE; reflexivity.
  - destruct h; [destruct HP|]. unfold read_word. rewrite HI.
    destruct HW as (A & B & C & D).
    assert (NZ : word s =? 0 = false).
    { apply Z.eqb_neq. intro Z0. rewrite Z0, Z.bits_0 in A. discriminate A. }
    rewrite NZ. reflexivity.
  - destruct h; [destruct HP|]. destruct HP as (A & B & C). unfold handle in *.
    rewrite B in *. cbn [Z.eqb negb] in *. destruct (Z.land f NON_HW =? 0) eqn:N; cbn [negb] in *.
    + rewrite raised_land, A, HI in ND. exfalso; apply ND; reflexivity.
    + reflexivity.
  - destruct h; [destruct HP|]. reflexivity.
  - destruct HP.
Qed.

Lemma delivered_or : forall evs s,
  forallb steady evs = true -> steady_st s ->
  delivered (trace evs s) = false ->
  (cpu_steps evs <= idle s + 4 * before_delivery (trace evs s))%nat.
Proof.
  induction evs as [|e t IH]; intros s HE HS HN; [cbn; lia|].
  cbn [forallb] in HE. apply andb_true_iff in HE. destruct HE as [H1 H2].
  cbn [trace] in *.
  destruct (steady_step e s H1 HS) as [D | (S' & ND & LE)].
  - rewrite D in HN. discriminate HN.
  - pose proof (idle_step e s H1 HS ND) as ID.
    assert (CS : cpu_steps (e :: t) = ((if cpu_ev e then 1 else 0) + cpu_steps t)%nat).
    { unfold cpu_steps. cbn [filter]. destruct (cpu_ev e); reflexivity. }
    rewrite CS. clear CS.
    destruct (snd (step e s)) as [o|] eqn:SO.
    + destruct o; cbn [delivered existsb is_deliver orb before_delivery] in *;
        try (specialize (IH _ H2 S' HN); destruct (cpu_ev e); lia).
      discriminate HN.
    + specialize (IH _ H2 S' HN). destruct (cpu_ev e); lia.
Qed.

(** *** It is delivered: a cpu thread that keeps taking steps under such a schedule
    delivers the interrupt. *)
Theorem C35_delivered :
  forall s evs,
    ph s = Read false -> iff s = true -> steady_word (word s) ->
    forallb steady evs = true ->
    (cpu_steps evs > 7 + 4 * total_delay evs)%nat ->
    delivered (trace evs s) = true.
Proof.
  intros s evs HP HI HW HE HC.
  destruct (delivered (trace evs s)) eqn:D; [reflexivity|exfalso].
  assert (HS : steady_st s) by (split; [exact HI|split; [exact HW|rewrite HP; exact I]]).
  pose proof (delivered_or evs s HE HS D) as L.
  pose proof (C35_delay_partial s evs HP HI HW HE) as B.
  unfold idle in L. rewrite HP in L. destruct (others s); lia.
Qed.
Print Assumptions C35_delivered.

(** *** With nothing else pending the delivery happens at this very boundary,
    whatever the other threads do after the thread has looked at the line. *)
Lemma env_keeps : forall evs s, forallb env evs = true ->
  ph (run evs s) = ph s /\ iff (run evs s) = iff s /\ trace evs s = [].
Proof.
  induction evs as [|e t IH]; intros s H; [repeat split|].
  cbn [forallb] in H. apply andb_true_iff in H. destruct H as [H1 H2].
  cbn [run trace]. destruct e as [i g| | |r]; [discriminate H1| | |];
    cbn [step fst snd]; destruct (IH (fst (step RaiseLine s)) H2) as (A & B & C);
    match goal with |- context [run t ?s'] => destruct (IH s' H2) as (A' & B' & C') end;
    rewrite A', B', C'; repeat split.
Qed.

Theorem C35_prompt :
  forall s i g i' g' others_act,
    ph s = Read false -> iff s = true -> raised s = true ->
    Z.land (word s) ABORT = 0 -> others s = false ->
    forallb env others_act = true ->
    trace (Cpu i g :: others_act ++ [Cpu i' g']) s = [ODeliver].
Proof.
  intros s i g i' g' l HP HI HR HA HO HE.
  cbn [trace step]. unfold cpu_step at 1 2 3. rewrite HP. cbn [fst snd].
  unfold read_word. rewrite HI.
  assert (NZ : word s =? 0 = false).
  { apply Z.eqb_neq. intro Z0. unfold raised in HR. rewrite Z0, Z.bits_0 in HR. discriminate HR. }
  rewrite NZ. rewrite trace_app.
  set (s1 := mkst (word s) true (Handle false (word s))).
  destruct (env_keeps l s1 HE) as (A & B & C). rewrite C. cbn [app trace].
  unfold step, cpu_step. rewrite A. cbn [s1 ph]. unfold handle. rewrite HA. cbn [Z.eqb negb].
  unfold others in HO. rewrite HO, raised_land. unfold raised in HR. rewrite HR, B. reflexivity.
Qed.
Print Assumptions C35_prompt.

(** *** Interrupt shadow: after STI (with IF clear before) or a load of SS, exactly
    one more instruction is executed. *)
Theorem C35_shadow :
  forall s i i' g1 g2 g3 g4 g5 g6,
    ph s = Exec -> word s = HW ->
    (i = Sti /\ iff s = false) \/ (i = LoadSS /\ iff s = true) ->
    i' = Plain \/ i' = Sti \/ i' = PopIf true ->
    trace [Cpu i g1; Cpu i' g2; Cpu i' g3; Cpu i' g4; Cpu i' g5; Cpu i' g6; Cpu i' g6] s
    = [OInstr i; OHandled (Z.lor HW MASKED); OInstr i'; ODeliver].
Proof.
  intros [w f p] i i' g1 g2 g3 g4 g5 g6 HP HW HI HI'. cbn [ph word iff] in *. subst p w.
  destruct HI as [[-> ->] | [-> ->]]; destruct HI' as [-> | [-> | ->]]; reflexivity.
Qed.
Print Assumptions C35_shadow.

(** *** With IF clear nothing is delivered. *)
Theorem C35_if_clear :
  forall e s, iff s = false -> snd (step e s) <> Some ODeliver.
Proof.
  intros e s HI. destruct e as [i g| | |r]; try discriminate.
  cbn [step]. unfold cpu_step. destruct (ph s) as [|h|h f|h f|]; try discriminate.
  unfold handle. destruct (negb (Z.land f ABORT =? 0)); [discriminate|].
  destruct (negb (Z.land f NON_HW =? 0)); [discriminate|].
  rewrite HI, andb_false_r. discriminate.
Qed.
Print Assumptions C35_if_clear.

(** ** HLT *)

Definition halted_ph (p : phase) : bool :=
  match p with Read h | Handle h _ | Clear h _ => h | _ => false end.

(** *** A halted cpu executes nothing until an interrupt is delivered or the
    emulation is ended; requests do not wake it. *)
Theorem C35_halted :
  forall evs s,
    halted_ph (ph s) = true ->
    delivered (trace evs s) = false ->
    existsb (fun o => match o with OAbort => true | _ => false end) (trace evs s) = false ->
    instrs (trace evs s) = 0%nat /\ halted_ph (ph (run evs s)) = true.
Proof.
  induction evs as [|e t IH]; intros s HP HD HA; [split; [reflexivity|exact HP]|].
  cbn [trace run] in *.
  assert (K : snd (step e s) = Some ODeliver \/ snd (step e s) = Some OAbort
     \/ (halted_ph (ph (fst (step e s))) = true /\ forall i, snd (step e s) <> Some (OInstr i))).
  { destruct e as [i g| | |r];
      try (right; right; split; [exact HP | intro; discriminate]).
    cbn [step]. unfold cpu_step. destruct (ph s) as [|h|h f|h f|]; try discriminate HP;
      cbn [halted_ph] in HP; subst h.
    - right; right. split; [reflexivity | intro; discriminate].
    - unfold handle. destruct (negb (Z.land f ABORT =? 0)); [right; left; reflexivity|].
      destruct (negb (Z.land f NON_HW =? 0)).
      { right; right. split; [reflexivity | intro; discriminate]. }
      destruct (negb (Z.land f HW =? 0) && iff s); [left; reflexivity|].
      right; right. split; [reflexivity | intro; discriminate].
    - right; right. split; [reflexivity | intro; discriminate]. }
  destruct (snd (step e s)) as [o|] eqn:SO.
  - destruct o as [i| |fl|]; cbn [delivered existsb is_deliver orb] in HD, HA; try discriminate.
    + exfalso. destruct K as [K|[K|[_ K]]]; try discriminate K. exact (K i eq_refl).
    + destruct K as [K|[K|[K _]]]; try discriminate K.
      destruct (IH _ K HD HA) as [I1 I2]. split; [exact I1 | exact I2].
  - destruct K as [K|[K|[K _]]]; try discriminate K. exact (IH _ K HD HA).
Qed.
Print Assumptions C35_halted.

(** *** HLT is the last instruction until then *)
Theorem C35_hlt :
  forall evs s g,
    ph s = Exec ->
    delivered (trace evs (fst (step (Cpu Hlt g) s))) = false ->
    existsb (fun o => match o with OAbort => true | _ => false end) (trace evs (fst (step (Cpu Hlt g) s))) = false ->
    filter is_instr (trace (Cpu Hlt g :: evs) s) = [OInstr Hlt].
Proof.
  intros evs s g HP HD HA.
  assert (E : step (Cpu Hlt g) s = (mkst (word s) (iff s) (Read true), Some (OInstr Hlt))).
  { cbn [step]. unfold cpu_step. now rewrite HP. }
  cbn [trace]. rewrite E in *. cbn [fst snd] in *.
  destruct (C35_halted evs _ (eq_refl : halted_ph (ph (mkst (word s) (iff s) (Read true))) = true) HD HA) as [I _].
  cbn [filter is_instr]. unfold instrs in I. now apply length_zero_iff_nil in I as ->.
Qed.
Print Assumptions C35_hlt.

(** requests come and go, the line is masked *)
Example C35_hlt_example :
  trace [Cpu Hlt false; Cpu Plain false; Request RA20; RaiseLine; Cpu Plain false; Cpu Plain false; Cpu Plain false]
    (mkst 0 false Exec) = [OInstr Hlt; OHandled (Z.lor A20 HW)].
Proof. reflexivity. Qed.

(** *** A halted cpu wakes up: line raised, IF set, nothing else pending. *)
Theorem C35_halt_wakes :
  forall s i g i' g' others_act,
    ph s = Read true -> iff s = true -> raised s = true ->
    Z.land (word s) ABORT = 0 -> others s = false ->
    forallb env others_act = true ->
    trace (Cpu i g :: others_act ++ [Cpu i' g']) s = [ODeliver].
Proof.
  intros s i g i' g' l HP HI HR HA HO HE.
  cbn [trace step]. unfold cpu_step at 1 2 3. rewrite HP. cbn [fst snd].
  unfold read_word. rewrite HI, trace_app.
  set (s1 := mkst (word s) true (Handle true (word s))).
  destruct (env_keeps l s1 HE) as (A & B & C). rewrite C. cbn [app trace].
  unfold step, cpu_step. rewrite A. cbn [s1 ph]. unfold handle. rewrite HA. cbn [Z.eqb negb].
  unfold others in HO. rewrite HO, raised_land. unfold raised in HR. rewrite HR, B. reflexivity.
Qed.
Print Assumptions C35_halt_wakes.

(** ** Refuted: "at the next instruction boundary not following a shadow" *)

(** *** Other requests take precedence, one boundary each: as long as they keep
    coming the guest runs on, with the line raised and IF set, and the interrupt is
    never delivered. *)
Definition busy : list ev :=
  [Cpu Plain false; Request RA20; Cpu Plain false; Cpu Plain false; Cpu Plain false].
Fixpoint repeat_busy (n : nat) : list ev :=
  match n with O => [] | S k => busy ++ repeat_busy k end.

Theorem C35_refuted_starved :
  forall n,
    let s := mkst HW true Exec in
    instrs (trace (repeat_busy n) s) = n
    /\ delivered (trace (repeat_busy n) s) = false
    /\ iff (run (repeat_busy n) s) = true
    /\ line true (repeat_busy n) = true
    /\ forallb (fun e => match e with Cpu Plain _ | Request RA20 => true | _ => false end)
         (repeat_busy n) = true.
Proof.
  intro n. cbv zeta.
  assert (B : run busy (mkst HW true Exec) = mkst HW true Exec) by reflexivity.
  assert (T : trace busy (mkst HW true Exec) = [OInstr Plain; OHandled (Z.lor HW A20)]) by reflexivity.
  induction n as [|n IH]; [repeat split|].
  destruct IH as (I1 & I2 & I3 & I4 & I5).
  cbn [repeat_busy]. rewrite trace_app, run_app, B, T, instrs_app, I1.
  repeat split.
  - unfold delivered in *. rewrite existsb_app, I2. reflexivity.
  - exact I3.
  - exact I4.
  - rewrite forallb_app, I5. reflexivity.
Qed.
Print Assumptions C35_refuted_starved.

(** *** The boundary after an exception is skipped: entering a handler through a
    trap gate leaves IF set and the line raised, but the first instruction of the
    handler runs before the interrupt is looked at; if that instruction is CLI the
    interrupt is not delivered. *)
Theorem C35_refuted_after_exception :
  let s := mkst HW true Exec in
  trace [Cpu (Fault true) false; Cpu Cli false; Cpu Plain false; Cpu Plain false] s
    = [OInstr (Fault true); OInstr Cli; OInstr Plain]
  /\ iff (run [Cpu (Fault true) false] s) = true
  /\ others (run [Cpu (Fault true) false] s) = false.
Proof. vm_compute. repeat split; reflexivity. Qed.
Print Assumptions C35_refuted_after_exception.

(** The hypotheses are met *)
Example C35_example :
  let s := mkst (Z.lor HW A20) true (Read false) in
  let evs := [Cpu Plain false; RaiseLine; Cpu Plain false; Request RRegion; Cpu Plain false;
              Cpu Plain false; Cpu Plain false; Cpu Sti false; Cpu Plain false; Cpu LoadSS false;
              Cpu Plain false; Cpu Plain false; Cpu Plain false; Cpu Plain false; Cpu Plain false;
              Cpu Plain false; Cpu Plain false; Cpu Plain false; Cpu Plain false; Cpu Plain false;
              Cpu Plain false; Cpu Plain false; Cpu Plain false] in
  steady_word (word s) /\ forallb steady evs = true
  /\ (cpu_steps evs > 7 + 4 * total_delay evs)%nat
  /\ before_delivery (trace evs s) = 3%nat /\ delivered (trace evs s) = true.
Proof.
  cbv zeta. split; [vm_compute; repeat split; reflexivity|].
  split; [reflexivity|]. split; [apply Nat.ltb_lt; reflexivity|]. split; reflexivity.
Qed.
