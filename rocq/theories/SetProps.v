(** * Properties of the settings of a cpu *)

From Coq Require Import ZArith Bool List Lia.
From Verif Require Import SetModel SetSpec.
Import ListNotations.
Local Open Scope Z_scope.

Lemma run_app : forall l1 l2 c, run (l1 ++ l2) c = run l2 (run l1 c).
Proof. induction l1 as [| e l1 IH]; intros l2 c; [reflexivity | apply IH]. Qed.

Definition abort_bit (x : Z) : bool := negb (Z.land x ABORT_ON_HLT =? 0).
Lemma abort_bit_eq : forall x, abort_bit x = Z.testbit x 12.
Proof.
  intro x. unfold abort_bit, ABORT_ON_HLT. destruct (Z.testbit x 12) eqn:T.
  - apply negb_true_iff, Z.eqb_neq. intro E. assert (H : Z.testbit (Z.land x 4096) 12 = true) by (rewrite Z.land_spec, T; reflexivity).
    rewrite E, Z.bits_0 in H. discriminate H.
  - apply negb_false_iff, Z.eqb_eq. apply Z.bits_inj'. intros n N. rewrite Z.land_spec, Z.bits_0.
    change 4096 with (2 ^ 12). rewrite Z.pow2_bits_eqb by lia. destruct (Z.eqb_spec 12 n) as [<- | _]; [now rewrite T | apply andb_false_r].
Qed.

Lemma ok_documented : forall f, set_flags_ok f = true <-> documented f.
Proof.
  intro f. unfold set_flags_ok, clear_bits. rewrite andb_true_iff, !orb_true_iff, !Z.eqb_eq. split.
  - intros [D S]. set (s := Z.land f 7) in S.
    assert (F : f = Z.lor s (Z.lor (Z.land f 0x800) (Z.land f 0x1000))).
    { unfold s. rewrite <- !Z.land_lor_distr_r. change (Z.lor 7 (Z.lor 2048 4096)) with SETTABLE.
      apply Z.bits_inj'. intros n N. rewrite Z.land_spec. assert (T : Z.testbit (Z.ldiff f SETTABLE) n = false) by (rewrite D; apply Z.bits_0).
      rewrite Z.ldiff_spec in T. destruct (Z.testbit f n), (Z.testbit SETTABLE n); [reflexivity | discriminate T | reflexivity | reflexivity]. }
    assert (B : forall k, 0 <= k -> Z.land f (2 ^ k) = 0 \/ Z.land f (2 ^ k) = 2 ^ k).
    { intros k K. destruct (Z.testbit f k) eqn:T; [right | left]; apply Z.bits_inj'; intros n N;
        rewrite Z.land_spec, Z.pow2_bits_eqb by lia; destruct (Z.eqb_spec k n) as [<- | _];
        rewrite ?T, ?andb_false_r, ?Z.bits_0; reflexivity. }
    destruct (B 11 ltac:(lia)) as [B1 | B1]; destruct (B 12 ltac:(lia)) as [B2 | B2];
      change (2 ^ 11) with 0x800 in B1; change (2 ^ 12) with 0x1000 in B2; rewrite B1, B2 in F; unfold SYNTAX_MASK in S; fold s in S.
    + exists s, 0, 0. split; [lia |]. split; [lia |]. split; [lia |]. rewrite F at 1. destruct S as [[-> | ->] | ->]; reflexivity.
    + exists s, 0, 1. split; [lia |]. split; [lia |]. split; [lia |]. rewrite F at 1. destruct S as [[-> | ->] | ->]; reflexivity.
    + exists s, 1, 0. split; [lia |]. split; [lia |]. split; [lia |]. rewrite F at 1. destruct S as [[-> | ->] | ->]; reflexivity.
    + exists s, 1, 1. split; [lia |]. split; [lia |]. split; [lia |]. rewrite F at 1. destruct S as [[-> | ->] | ->]; reflexivity.
  - intros (s & d & a & S & D & A & ->).
    destruct S as [-> | [-> | ->]]; destruct D as [-> | ->]; destruct A as [-> | ->]; split;
      solve [reflexivity | left; left; reflexivity | left; right; reflexivity | right; reflexivity].
Qed.

(** The settings in force and the flags: the settable bits are those, and the cache was
    filled under them. *)
Definition inv (c : cpu) (f : Z) : Prop :=
  Z.land (flags c) SETTABLE = f /\ style c = Z.land f SYNTAX_MASK /\ forall b v, In (b, v) (cache c) -> v = abort_bit f.

Lemma settable_abort : forall x, abort_bit (Z.land x SETTABLE) = abort_bit x.
Proof. intro x. rewrite !abort_bit_eq, Z.land_spec. change (Z.testbit SETTABLE 12) with true. apply andb_true_r. Qed.

Lemma find_in : forall b l v, find b l = Some v -> In (b, v) l.
Proof.
  intros b l v. induction l as [| [k w] t IH]; cbn [find]; [discriminate |]. destruct (Nat.eqb_spec k b) as [-> | _].
  - intro E. left. congruence.
  - intro E. right. now apply IH.
Qed.

Lemma keep_or : forall x m, Z.land m SETTABLE = 0 -> Z.land (Z.lor x m) SETTABLE = Z.land x SETTABLE.
Proof. intros x m M. now rewrite Z.land_lor_distr_l, M, Z.lor_0_r. Qed.
Lemma keep_clear : forall x m, Z.land m SETTABLE = 0 -> Z.land (clear_bits x m) SETTABLE = Z.land x SETTABLE.
Proof.
  intros x m M. unfold clear_bits. apply Z.bits_inj'. intros n N. rewrite !Z.land_spec, Z.ldiff_spec.
  assert (T : Z.testbit (Z.land m SETTABLE) n = false) by (rewrite M; apply Z.bits_0). rewrite Z.land_spec in T.
  destruct (Z.testbit m n), (Z.testbit SETTABLE n); try discriminate T; destruct (Z.testbit x n); reflexivity.
Qed.

Lemma within : forall f, set_flags_ok f = true -> Z.land f SETTABLE = f.
Proof.
  intros f H. unfold set_flags_ok, clear_bits in H. apply andb_prop in H as [H _]. apply Z.eqb_eq in H.
  apply Z.bits_inj'. intros n N. rewrite Z.land_spec. assert (T : Z.testbit (Z.ldiff f SETTABLE) n = false) by (rewrite H; apply Z.bits_0).
  rewrite Z.ldiff_spec in T. destruct (Z.testbit f n), (Z.testbit SETTABLE n); [reflexivity | discriminate T | reflexivity | reflexivity].
Qed.

Lemma set_bits : forall x f, Z.land f SETTABLE = f -> Z.land (Z.lor (clear_bits x SETTABLE) f) SETTABLE = f.
Proof.
  intros x f W. rewrite Z.land_lor_distr_l, W. unfold clear_bits.
  replace (Z.land (Z.ldiff x SETTABLE) SETTABLE) with 0; [apply Z.lor_0_l |].
  apply Z.bits_inj'. intros n N. rewrite Z.land_spec, Z.ldiff_spec, Z.bits_0. destruct (Z.testbit x n), (Z.testbit SETTABLE n); reflexivity.
Qed.

Lemma inv_step : forall l e old f, inv (run l fresh) old -> in_force l old -> in_force (l ++ [e]) f ->
  (forall g, in_force l g -> g = old) -> inv (run (l ++ [e]) fresh) f.
Proof.
  intros l e old f (I1 & I2 & I3) L F U. rewrite run_app. set (c := run l fresh) in *. clearbody c. cbn [run].
  inversion F as [H | l' f' old' L' D H | l' f' old' L' D H | l' e' old' L' D H].
  - destruct l; discriminate H.
  - apply app_inj_tail in H as [-> <-]. subst f'. apply ok_documented in D. cbn [step]. unfold set_flags. rewrite D. cbn [negb snd].
    pose proof (within f D) as W. unfold inv. cbn [flags style cache]. rewrite set_bits by exact W. split; [reflexivity |]. split.
    + rewrite <- (set_bits (flags c) f W) at 2. now rewrite <- Z.land_assoc.
    + intros b v. destruct (Z.eqb_spec (Z.land (flags c) ABORT_ON_HLT) (Z.land f ABORT_ON_HLT)) as [E | E]; cbn [negb]; [| intros []].
      intro B. apply I3 in B. rewrite B, <- I1, settable_abort. unfold abort_bit. now rewrite E.
  - apply app_inj_tail in H as [-> <-]. assert (Ef : f = old) by (apply U; congruence). rewrite Ef. clear Ef.
    cbn [step]. unfold set_flags. destruct (set_flags_ok f') eqn:Ok; [exfalso; apply D, ok_documented, Ok |]. cbn [negb snd].
    split; [exact I1 | split; assumption].
  - apply app_inj_tail in H as [-> <-]. assert (Ef : f = old) by (apply U; congruence). rewrite Ef. clear Ef.
    destruct e' as [f' | b x | | | | | | | b]; cbn [step snd]; unfold inv; cbn [flags style cache].
    + exfalso. now apply (D f').
    + unfold execute. destruct (find b (cache c)) eqn:Fb; [cbn [snd]; split; [exact I1 | split; assumption] |].
      destruct (x || negb (Z.land (flags c) (Z.lor DISAS_ONE SINGLE_STEP) =? 0)); cbn [snd flags style cache].
      * split; [rewrite keep_clear by reflexivity; exact I1 | split; assumption].
      * split; [exact I1 | split; [exact I2 |]]. intros b' v [E | B]; [| now apply (I3 b')].
        assert (v = emit_hlt c) by congruence. subst v. unfold emit_hlt. fold (abort_bit (flags c)). now rewrite <- I1, settable_abort.
    + split; [rewrite keep_or by reflexivity; exact I1 | split; assumption].
    + split; [rewrite keep_or by reflexivity; exact I1 | split; assumption].
    + split; [rewrite keep_clear by reflexivity; exact I1 | split; assumption].
    + split; [rewrite keep_or by reflexivity; exact I1 | split; assumption].
    + split; [| split; [exact I2 | intros ? ? []]]. rewrite <- Z.land_assoc. exact I1.
    + split; [exact I1 | split; [exact I2 | intros ? ? []]].
    + split; [exact I1 | split; [exact I2 |]]. intros b' v B. apply filter_In in B as [B _]. now apply (I3 b').
Qed.

Lemma in_force_inv : forall l e f, in_force (l ++ [e]) f ->
  (e = SetFlags f /\ documented f) \/ (in_force l f /\ forall g, e = SetFlags g -> ~ documented g).
Proof.
  intros l e f F. inversion F as [H | l' f' old' L' D' H | l' f' old' L' D' H | l' e' old' L' D' H].
  - destruct l; discriminate H.
  - apply app_inj_tail in H as [-> H]. left. split; [congruence | congruence].
  - apply app_inj_tail in H as [-> H]. right. split; [assumption |]. intros g G. assert (g = f') by congruence. now subst g.
  - apply app_inj_tail in H as [-> H]. right. split; [assumption |]. intros g G. exfalso. apply (D' g). congruence.
Qed.

Lemma in_force_unique : forall l f g, in_force l f -> in_force l g -> f = g.
Proof.
  intro l. induction l as [| e l IH] using rev_ind; intros f g F G.
  - assert (N : forall x, in_force [] x -> x = 0).
    { intros x X. inversion X as [H | l' a b A B H | l' a b A B H | l' a b A B H]; [reflexivity | | |]; destruct l'; discriminate H. }
    now rewrite (N f F), (N g G).
  - apply in_force_inv in F as [[F1 F2] | [F1 F2]]; apply in_force_inv in G as [[G1 G2] | [G1 G2]].
    + congruence.
    + exfalso. now apply (G2 f).
    + exfalso. now apply (F2 g).
    + now apply IH.
Qed.

Lemma inv_run : forall l f, in_force l f -> inv (run l fresh) f.
Proof.
  intros l f F. induction F as [| l f old F IH D | l f old F IH D | l e old F IH D].
  - split; [reflexivity | split; [reflexivity | intros ? ? []]].
  - apply (inv_step l (SetFlags f) old f IH F); [now apply (force_set l f old) | intros g G; now apply (in_force_unique l)].
  - apply (inv_step l (SetFlags f) old old IH F); [now apply force_bad | intros g G; now apply (in_force_unique l)].
  - apply (inv_step l e old old IH F); [now apply force_other | intros g G; now apply (in_force_unique l)].
Qed.

(** ** C96: the settings in force are those of the last valid call *)

(** In every history, HLT in every block, translated before or after the last change,
    ends the emulation exactly when the settings in force say so. *)
Theorem C96_hlt : forall l f b cross, in_force l f -> 0 <= f ->
  fst (step (Hlt b cross) (run l fresh)) = Some ((f / 2 ^ 12) mod 2 =? 1).
Proof.
  intros l f b x F Nf. pose proof (inv_run l f F) as (I1 & I2 & I3). set (c := run l fresh) in *. clearbody c.
  assert (A : abort_bit f = ((f / 2 ^ 12) mod 2 =? 1)).
  { rewrite abort_bit_eq, Z.testbit_eqb by lia. reflexivity. }
  rewrite <- A. cbn [step]. unfold execute. destruct (find b (cache c)) as [v |] eqn:E.
  - cbn [fst]. apply find_in in E. now rewrite (I3 b v E).
  - assert (H : emit_hlt c = abort_bit f) by (unfold emit_hlt; fold (abort_bit (flags c)); now rewrite <- I1, settable_abort).
    destruct (x || _); cbn [fst]; now rewrite H.
Qed.
Print Assumptions C96_hlt.

(** The debugger setting follows them too, and so does the formatter while the process
    has one cpu: what is missing is the formatter with several, refuted below. *)
Theorem C96_settings_partial : forall l f, in_force l f ->
  style (run l fresh) = Z.land f 7 /\ (Z.land (flags (run l fresh)) DBG_PRESENT = Z.land f DBG_PRESENT).
Proof.
  intros l f F. pose proof (inv_run l f F) as (I1 & I2 & _). split; [exact I2 |]. rewrite <- I1, <- Z.land_assoc. reflexivity.
Qed.
Print Assumptions C96_settings_partial.

(** cpu_set_flags succeeds exactly for documented settings; otherwise nothing changes,
    and in any case the flags the library keeps for itself are as before. *)
Theorem C96_call : forall f c, (fst (set_flags f c) = true <-> documented f) /\ (~ documented f -> snd (set_flags f c) = c) /\
  Z.land (flags (snd (set_flags f c))) (Z.lor TIMEOUT (Z.lor DISAS_ONE SINGLE_STEP)) = Z.land (flags c) (Z.lor TIMEOUT (Z.lor DISAS_ONE SINGLE_STEP)).
Proof.
  intros f c. rewrite <- ok_documented. unfold set_flags. destruct (set_flags_ok f) eqn:E; cbn [negb fst snd flags].
  - split; [tauto |]. split; [congruence |]. rewrite <- (within f E). set (m := Z.lor TIMEOUT _).
    apply Z.bits_inj'. intros n N. unfold clear_bits. rewrite !Z.land_spec, Z.lor_spec, Z.ldiff_spec, Z.land_spec.
    assert (T : Z.testbit (Z.land SETTABLE m) n = false) by (change (Z.land SETTABLE m) with 0; apply Z.bits_0). rewrite Z.land_spec in T.
    destruct (Z.testbit m n), (Z.testbit SETTABLE n); try discriminate T; destruct (Z.testbit (flags c) n), (Z.testbit f n); reflexivity.
  - split; [split; [discriminate | congruence] |]. split; reflexivity.
Qed.
Print Assumptions C96_call.

(** Settings are always in force, whatever the history. *)
Theorem C96_total : forall l, exists f, in_force l f /\ 0 <= f.
Proof.
  intro l. induction l as [| e l (f & F & N)] using rev_ind; [exists 0; split; [constructor | lia] |].
  assert (O : (exists g, e = SetFlags g) \/ forall g, e <> SetFlags g) by (destruct e; (left; eexists; reflexivity) || (right; discriminate)).
  destruct O as [(g & ->) | O]; [| exists f; split; [now apply force_other | exact N]].
  destruct (set_flags_ok g) eqn:E.
  - apply ok_documented in E. exists g. split; [now apply (force_set l g f) |]. destruct E as (s & d & a & S & D & A & ->). lia.
  - exists f. split; [apply force_bad; [exact F |] | exact N]. rewrite <- ok_documented, E. discriminate.
Qed.
Print Assumptions C96_total.

(** The formatter belongs to the process: a cpu set to intel syntax prints att syntax
    once another cpu is made, although nothing was called on it. *)
Theorem C96_refuted_syntax : exists h c, let w := wrun h (W [] 0) in
  nth_error (w_cpus w) 0 = Some c /\ c = run [SetFlags 2] fresh /\ in_force [SetFlags 2] 2 /\ h = [New; On 0 (SetFlags 2); New] /\ w_style w = 0.
Proof.
  exists [New; On 0 (SetFlags 2); New]. eexists. cbv zeta. split; [reflexivity |]. split; [reflexivity |]. split; [| split; reflexivity].
  apply (force_set [] 2 0); [constructor |]. exists 2, 0, 0. repeat split; lia.
Qed.
Print Assumptions C96_refuted_syntax.

(** What holds with several cpus: HLT on each goes by its own settings.  [own i k h] are
    the events of cpu [i], where [k] cpus exist before [h]. *)
Fixpoint own (i k : nat) (h : list wev) : list ev :=
  match h with
  | [] => []
  | New :: t => own i (S k) t
  | On j e :: t => if Nat.eqb i j && Nat.ltb j k then e :: own i k t else own i k t
  end.

Lemma put_len : forall l i c, length (put l i c) = length l.
Proof. induction l as [| d l IH]; intros [| i] c; cbn [put length]; congruence. Qed.
Lemma put_nth : forall l i j c, nth_error (put l i c) j = if Nat.eqb i j then match nth_error l j with Some _ => Some c | None => None end else nth_error l j.
Proof.
  induction l as [| d l IH]; intros [| i] [| j] c; cbn [put nth_error Nat.eqb]; try reflexivity.
  - destruct (Nat.eqb i j); reflexivity.
  - apply IH.
Qed.

Lemma wrun_nth : forall h w i c, nth_error (w_cpus w) i = Some c ->
  nth_error (w_cpus (wrun h w)) i = Some (run (own i (length (w_cpus w)) h) c).
Proof.
  induction h as [| e h IH]; intros w i c N; [exact N |]. cbn [wrun]. destruct e as [| j e].
  - cbn [own wstep]. rewrite (IH _ i c).
    + cbn [w_cpus]. rewrite app_length. cbn [length]. now rewrite Nat.add_1_r.
    + cbn [w_cpus]. rewrite nth_error_app1; [exact N |]. apply nth_error_Some. congruence.
  - cbn [own wstep]. destruct (nth_error (w_cpus w) j) as [d |] eqn:J; [rewrite (surjective_pairing (step e d)) |].
    + assert (Lj : Nat.ltb j (length (w_cpus w)) = true) by (apply Nat.ltb_lt, nth_error_Some; congruence). rewrite Lj, andb_true_r.
      destruct (Nat.eqb_spec i j) as [<- | D].
      * assert (d = c) by congruence. subst d. cbn [run]. rewrite (IH _ i (snd (step e c))); cbn [w_cpus]; [now rewrite put_len |].
        rewrite put_nth, Nat.eqb_refl, N. reflexivity.
      * rewrite (IH _ i c); cbn [w_cpus]; [now rewrite put_len |]. rewrite put_nth. destruct (Nat.eqb_spec j i); [congruence | exact N].
    + assert (Lj : Nat.ltb j (length (w_cpus w)) = false) by (apply Nat.ltb_ge, nth_error_None, J). rewrite Lj, andb_false_r. now apply IH.
Qed.

(** A cpu made after [h1], with any other cpus beside it: HLT goes by the settings in force
    in what was called on it. *)
Theorem C96_each : forall h1 h2 f b cross i, let w := wrun h1 (W [] 0) in i = length (w_cpus w) ->
  in_force (own i (S i) h2) f -> 0 <= f ->
  exists c, nth_error (w_cpus (wrun (h1 ++ New :: h2) (W [] 0))) i = Some c /\
    fst (step (Hlt b cross) c) = Some ((f / 2 ^ 12) mod 2 =? 1).
Proof.
  intros h1 h2 f b x i w I F N. exists (run (own i (S i) h2) fresh). split; [| now apply C96_hlt].
  assert (A : forall a b v, wrun (a ++ b) v = wrun b (wrun a v)) by (induction a as [| e a IHa]; intros; [reflexivity | apply IHa]).
  rewrite A. fold w. cbn [wrun]. rewrite (wrun_nth h2 _ i fresh).
  - cbn [wstep w_cpus]. rewrite app_length. cbn [length]. now rewrite Nat.add_1_r, <- I.
  - cbn [wstep w_cpus]. rewrite I, nth_error_app2, Nat.sub_diag by lia. reflexivity.
Qed.
Print Assumptions C96_each.

(** What is printed with several cpus: the syntax of the last cpu made, or of the last
    valid call on any. *)
Theorem C96_printed : forall h k s, prints h k s -> length (w_cpus (wrun h (W [] 0))) = k /\ w_style (wrun h (W [] 0)) = s.
Proof.
  assert (A : forall a b v, wrun (a ++ b) v = wrun b (wrun a v)) by (induction a as [| e a IHa]; intros; [reflexivity | apply IHa]).
  intros h k s P. induction P as [| h k s P [L S] | h k s i f P [L S] I D | h k s i e P [L S] O]; [split; reflexivity | | |]; rewrite A;
    set (w := wrun h (W [] 0)) in *; clearbody w; cbn [wrun wstep].
  - cbn [w_cpus w_style]. rewrite app_length, L. cbn [length]. split; [lia | reflexivity].
  - destruct (nth_error (w_cpus w) i) as [c |] eqn:N; [| apply nth_error_None in N; lia].
    apply ok_documented in D. cbn [step]. unfold set_flags. rewrite D. cbn [negb w_cpus w_style style]. rewrite put_len. split; [exact L |].
    pose proof (within f D) as W0. change SYNTAX_MASK with (Z.land SETTABLE (Z.ones 3)). rewrite Z.land_assoc, set_bits by exact W0.
    now rewrite Z.land_ones by lia.
  - destruct (nth_error (w_cpus w) i) as [c |] eqn:N; [| split; assumption]. rewrite (surjective_pairing (step e c)). cbn [w_cpus w_style].
    rewrite put_len. split; [exact L |]. destruct e as [f | | | | | | | |]; try exact S.
    destruct O as [O | O].
    + exfalso. assert (i < length (w_cpus w))%nat by (apply nth_error_Some; congruence). lia.
    + specialize (O f eq_refl). cbn [step]. unfold set_flags. destruct (set_flags_ok f) eqn:E; [exfalso; apply O, ok_documented, E |]. exact S.
Qed.
Print Assumptions C96_printed.

Example C96_printed_example : prints [New; On 0 (SetFlags 2); New; On 1 (Hlt 3 false); On 0 (SetFlags 0x801)] 2 1.
Proof.
  apply (prints_set [New; On 0 (SetFlags 2); New; On 1 (Hlt 3 false)] 2 0 0 0x801).
  - apply (prints_other [New; On 0 (SetFlags 2); New] 2 0 1 (Hlt 3 false)); [| right; discriminate].
    apply (prints_new [New; On 0 (SetFlags 2)] 1 2). apply (prints_set [New] 1 0 0 2).
    + apply (prints_new [] 0 0). constructor.
    + lia.
    + exists 2, 0, 0. repeat split; lia.
  - lia.
  - exists 1, 1, 0. repeat split; lia.
Qed.

Example C96_example : in_force [Hlt 7 false; SetFlags 0x1001; SetFlags 0x1003] 0x1001 /\
  fst (step (Hlt 7 false) (run [Hlt 7 false; SetFlags 0x1001; SetFlags 0x1003] fresh)) = Some true /\
  fst (step (Hlt 7 false) (run [Hlt 7 false] fresh)) = Some false.
Proof.
  split; [| split; reflexivity]. apply (force_bad [Hlt 7 false; SetFlags 0x1001]).
  - apply (force_set [Hlt 7 false] 0x1001 0).
    + apply (force_other [] (Hlt 7 false) 0); [constructor | discriminate].
    + exists 1, 0, 1. repeat split; lia.
  - rewrite <- ok_documented. discriminate.
Qed.
