(** * Properties of the x87 instructions, continued: transcendental instructions, traps,
    histories, the tag and status words *)

From Coq Require Import ZArith Bool List Lia.
From Verif Require Import FpuModel FpuSpec FpuProofs FpuProps.
Import ListNotations.
Local Open Scope Z_scope.

(** *** C28: sign change, sine, cosine, square root and exchange *)

Lemma underflow_st0 s t : wf s -> core_eq s t -> fctrl t = fctrl s ->
  (forall b, 0 <= b < 16 -> b <> 9 -> b <> 10 -> Z.testbit (fstatus t) b = Z.testbit (fstatus s) b) ->
  st s 0 = None ->
  exists s', stack_underflow_reg 0 0 false t = (true, s') /\
    (if im s then replaced 0 indefinite s s' else same_stack s s') /\
    (forall b, 0 <= b < 16 -> Z.testbit (fstatus s') b =
      if (b =? 0) || (b =? 6) then true else if b =? 9 then false else if (b =? 7) && negb (im s) then true
      else if b =? 10 then Z.testbit (fstatus t) 10 else Z.testbit (fstatus s) b).
Proof.
  intros W C HC HB S0. unfold stack_underflow_reg. rewrite is_empty_st, (core_st _ _ _ C), S0.
  assert (HI : im t = im s) by (unfold im; now rewrite HC). rewrite masked_im, HI.
  assert (T : 0 <= ftop t < 8) by (destruct C as (_ & _ & ->); apply W).
  eexists. split; [reflexivity |]. split.
  - destruct (im s).
    + apply (replaced_core 0 indefinite t s (put_qnan (idx t 0) t) _ (core_sym _ _ C) (fault_core _ _)). apply replaced_qnan. lia.
    + apply core_same. apply (core_trans _ t); [exact C | apply fault_core].
  - intros b Hb. rewrite (fault_bits false _ t no_cc); [| intros c Hc Nc; destruct (im s); reflexivity | destruct (im s); reflexivity | reflexivity | exact Hb].
    rewrite HI. unfold no_cc. destruct ((b =? 0) || (b =? 6)) eqn:Q; [reflexivity |].
    destruct (Z.eqb_spec b 9); [reflexivity |]. destruct ((b =? 7) && negb (im s)); [reflexivity |].
    destruct (Z.eqb_spec b 10); [now subst |]. now apply HB.
Qed.

Lemma ptr_core E s : core_eq s (update_ptr E s).
Proof. now repeat split. Qed.

(** FCHS inverts the sign bit of ST(0). *)
Theorem C28_change_sign : forall E s, e_ne E = true -> pending s = false -> wf s ->
  exists s', fexec E Fchs s = FDone s' None true /\
    match st s 0 with
    | Some v => replaced 0 (Z.lxor v (2 ^ 79)) s s'
    | None => (if im s then replaced 0 indefinite s s' else same_stack s s') /\ fault_status false no_cc s s'
    end.
Proof.
  intros E s NE PE W. cbn [fexec]. unfold check_unmasked. rewrite NE, pending_es, PE.
  set (t := update_ptr E s). assert (T : 0 <= ftop t < 8) by apply W. destruct (st s 0) as [v |] eqn:S0.
  - assert (U : stack_underflow_reg 0 0 false t = (false, t)).
    { unfold stack_underflow_reg. rewrite is_empty_st, (core_st _ _ _ (ptr_core E s)), S0. reflexivity. }
    rewrite U. cbn [fst snd]. rewrite (load_st (clear_c1 t) 0 v W S0). eexists. split; [reflexivity |].
    apply (replaced_core _ _ (clear_c1 t) s _ _ ltac:(now repeat split) (core_refl _)). apply replaced_store; [exact T | lia].
  - destruct (underflow_st0 s t W (ptr_core E s) eq_refl (fun _ _ _ _ => eq_refl) S0) as (s' & Q & P1 & P2).
    rewrite Q. exists s'. split; [reflexivity |]. split; [exact P1 |]. intros b Hb. rewrite P2 by exact Hb. unfold no_cc.
    destruct (_ || _); [reflexivity |]. destruct (b =? 9); [reflexivity |]. destruct (_ && _); [reflexivity |].
    destruct (Z.eqb_spec b 10); [now subst |]. reflexivity.
Qed.
Print Assumptions C28_change_sign.

Lemma post_c2 sw s : nz (Z.land (post_sw sw s) SW_C2) = Z.testbit sw 10.
Proof.
  change SW_C2 with (2 ^ 10). rewrite nz_bit by lia. unfold post_sw, not16. rewrite Z.lor_spec, !Z.land_spec.
  change (Z.testbit (Z.lxor 65535 18239) 10) with false. change (Z.testbit 18239 10) with true.
  now rewrite andb_false_r, andb_true_r.
Qed.

(** FSIN/FCOS replace ST(0); an operand out of range (C2 in the host's status word) is
    left alone. *)
Theorem C28_trig : forall E s h, ready E s -> wf s ->
  exists s' r, fexec E (Ftrig h) s = FDone s' None r /\
    match st s 0 with
    | Some v =>
        let '(x, sw) := h v (frp s) in
        (unmasked s sw /\ same_stack s s') \/
        (~ unmasked s sw /\ if Z.testbit sw 10 then same_stack s s' else replaced 0 x s s')
    | None => if im s then replaced 0 indefinite s s' else same_stack s s'
    end.
Proof.
  intros E s h R W. cbn [fexec]. rewrite (ready_start E s) by exact R.
  set (t := clear_c2 (clear_c1 (update_ptr E s))). assert (C : core_eq s t) by now repeat split.
  assert (T : 0 <= ftop t < 8) by apply W. destruct (st s 0) as [v |] eqn:S0.
  - assert (U : stack_underflow_reg 0 0 false t = (false, t)).
    { unfold stack_underflow_reg. rewrite is_empty_st, (core_st _ _ _ C), S0. reflexivity. }
    rewrite U. cbn [fst snd].
    rewrite (load_st t 0 v W ltac:(now rewrite (core_st _ _ _ C))). change (frp t) with (frp s).
    destruct (h v (frp s)) as [x sw]. unfold post_check. pose proof (post_spec sw t) as PS.
    destruct (post_unmasked EXP_ALL sw t).
    + do 2 eexists. split; [reflexivity |]. left. split; [exact PS |]. apply core_same. now repeat split.
    + cbn [fstatus set_fstatus]. rewrite post_c2. destruct (Z.testbit sw 10); do 2 eexists; (split; [reflexivity |]); right; (split; [exact PS |]).
      * apply core_same. now repeat split.
      * apply (replaced_core _ _ (set_fstatus (post_sw sw t) t) s _ _ ltac:(now repeat split) (core_refl _)). apply replaced_store; [exact T | lia].
  - destruct (underflow_st0 s t W C eq_refl (fun b Hb N M => start_bits2 E s b Hb N M) S0) as (s' & Q & P1 & _).
    rewrite Q. do 2 eexists. split; [reflexivity | exact P1].
Qed.
Print Assumptions C28_trig.

(** After an operand out of range the host's control word is not restored. *)
Theorem C28_refuted_host_control : exists E s h s', ready E s /\ wf s /\ st s 0 = Some (2 ^ 79 - 2 ^ 60) /\
  fexec E (Ftrig h) s = FDone s' None false.
Proof.
  exists (mkfenv false false true 0 0 0 None), (mkfpu (fun _ => 2 ^ 79 - 2 ^ 60) (fun _ => 2) 2 0x37F 0 0x37F (mkptrs 0 0 0 0 0) (fun _ => 0) 0 0).
  exists (fun _ _ => (0, 0x400)). eexists. split; [now repeat split |]. split; [split; cbn; lia |]. split; reflexivity.
Qed.
Print Assumptions C28_refuted_host_control.

(** FSINCOS replaces ST(0) by the sine and pushes the cosine; ST(0) empty is an underflow,
    a full stack an overflow, both with the masked response in both registers. *)
Theorem C28_sincos : forall E s h, ready E s -> wf s ->
  exists s' r, fexec E (Fsincos h) s = FDone s' None r /\
    match st s 0, st s 7 with
    | Some v, None =>
        let '(sn, cs, sw) := h v (frp s) in
        (unmasked s sw /\ same_stack s s') \/
        (~ unmasked s sw /\ if Z.testbit sw 10 then same_stack s s' else then_ (replaced 0 sn) (pushed cs) s s')
    | x, _ => (if im s then then_ (replaced 0 indefinite) (pushed indefinite) s s' else same_stack s s') /\
        Z.testbit (fstatus s') 0 = true /\ Z.testbit (fstatus s') 6 = true /\
        Z.testbit (fstatus s') 9 = match x with None => false | Some _ => true end
    end.
Proof.
  intros E s h R W. cbn [fexec]. rewrite (ready_start E s) by exact R.
  set (t := clear_c2 (clear_c1 (update_ptr E s))). assert (C : core_eq s t) by now repeat split.
  assert (T : 0 <= ftop t < 8) by apply W. unfold stack_fault_fsincos. rewrite !is_empty_st.
  rewrite (st_period t (-1) 7) by reflexivity. rewrite !(core_st _ _ _ C).
  assert (FA : forall over : bool, exists s', stack_fault (if over then STACK_OVERFLOW else STACK_UNDERFLOW)
       (if masked t then let u := fpu_push (put_qnan (ftop t) t) in put_qnan (ftop u) u else t) = s' /\
       (if im s then then_ (replaced 0 indefinite) (pushed indefinite) s s' else same_stack s s') /\
       Z.testbit (fstatus s') 0 = true /\ Z.testbit (fstatus s') 6 = true /\ Z.testbit (fstatus s') 9 = over).
  { intros over. eexists. split; [reflexivity |]. rewrite masked_im. change (im t) with (im s). split.
    - destruct (im s).
      + exists (put_qnan (idx t 0) t). split.
        * apply (replaced_core _ _ t s (put_qnan (idx t 0) t) _ (core_sym _ _ C) (core_refl _)). apply replaced_qnan. lia.
        * rewrite <- (idx_top t T). eapply pushed_core; [apply core_refl | apply fault_core | apply pushed_qnan; exact T].
      + apply core_same, (core_trans _ t); [exact C | apply fault_core].
    - set (u := if im s then _ else t).
      pose proof (fault_bits over u u no_cc (fun _ _ _ => eq_refl) eq_refl eq_refl) as F.
      split; [exact (F 0 ltac:(lia)) |]. split; [exact (F 6 ltac:(lia)) | exact (F 9 ltac:(lia))]. }
  destruct (st s 0) as [v |] eqn:S0; cbn [orb].
  - destruct (st s 7) as [w |] eqn:S7; cbn [negb].
    + destruct (FA true) as (s' & Q & P). cbn [fst snd]. exists s', true. split; [subst s'; reflexivity | exact P].
    + cbn [fst snd]. rewrite (load_st t 0 v W ltac:(now rewrite (core_st _ _ _ C))). change (frp t) with (frp s).
      destruct (h v (frp s)) as [[sn cs] sw]. unfold post_check. pose proof (post_spec sw t) as PS.
      destruct (post_unmasked EXP_ALL sw t).
      * do 2 eexists. split; [reflexivity |]. left. split; [exact PS |]. apply core_same. now repeat split.
      * cbn [fstatus set_fstatus]. rewrite post_c2. destruct (Z.testbit sw 10); do 2 eexists; (split; [reflexivity |]); right; (split; [exact PS |]).
        -- apply core_same. now repeat split.
        -- set (u := set_fstatus (post_sw sw t) t). assert (TU : 0 <= ftop u < 8) by exact T.
           exists (store_tag 0 sn u). split.
           ++ apply (replaced_core _ _ u s _ _ ltac:(now repeat split) (core_refl _)). apply replaced_store; [exact T | lia].
           ++ pose proof (pushed_store cs (store_tag 0 sn u) TU) as (P1 & P2 & P3).
              set (x := store_tag 0 cs (fpu_push (store_tag 0 sn u))) in *.
              set (y := update_tag true 1 _).
              assert (EQ : forall j, st y j = st x j).
              { intros j. unfold st. change (ftop y) with (ftop x). set (k := (ftop x + j) mod 8).
                assert (FX : fr y k = fr x k) by reflexivity. rewrite FX.
                replace (ftag y k) with (ftag x k); [reflexivity |].
                unfold x, y, store_tag, update_tag. rewrite !idx_mod. unfold fpu_push, store_stx. cbn [fr ftag ftop set_fr set_ftag set_ftop].
                unfold stx. cbn [ftop set_fr set_ftag set_ftop]. change (0 =? 0) with true. cbv iota. cbn [ftop set_fr set_ftag set_ftop].
                rewrite land7. set (k' := (ftop u - 1) mod 8).
                replace ((k' + 1) mod 8) with (ftop u) by (unfold k'; mods).
                replace ((k' + 0) mod 8) with k' by (unfold k'; mods).
                replace ((ftop u + 0) mod 8) with (ftop u) by mods.
                assert (N : ftop u <> k') by (unfold k'; mods).
                rewrite !upd_eq. rewrite (upd_ne _ k' _ (ftop u)) by exact N. rewrite upd_eq.
                destruct (Z.eq_dec k k') as [-> | K1]; [rewrite (upd_ne _ (ftop u)), !upd_eq by congruence; reflexivity |].
                rewrite (upd_ne _ k' _ k) by exact K1.
                destruct (Z.eq_dec k (ftop u)) as [-> | K2]; [now rewrite !upd_eq |]. now rewrite !upd_ne by assumption. }
              split; [exact P1 |]. split; [now rewrite EQ |]. intros i Hi. rewrite EQ. now apply P3.
  - destruct (FA false) as (s' & Q & P). cbn [fst snd]. exists s', true. split; [subst s'; reflexivity | destruct (st s 7); exact P].
Qed.
Print Assumptions C28_sincos.

(** FPATAN stores the result in ST(1) and pops. *)
Theorem C28_patan : forall E s h, ready E s -> wf s ->
  exists s', fexec E (Fpatan h) s = FDone s' None true /\
    match st s 0, st s 1 with
    | Some a, Some b =>
        let '(x, sw) := h b a (frp s) in computed s 1 x sw true s'
    | _, _ => (if im s then then_ (replaced 1 indefinite) popped s s' else same_stack s s') /\ fault_status false no_cc s s'
    end.
Proof.
  intros E s h R W. cbn [fexec]. rewrite (ready_start E s) by exact R.
  set (t := clear_c1 (update_ptr E s)). assert (C : core_eq s t) by now repeat split.
  assert (T : 0 <= ftop t < 8) by apply W. unfold stack_fault_fpatan. rewrite !is_empty_st, !(core_st _ _ _ C).
  destruct (match st s 0 with None => true | Some _ => false end || match st s 1 with None => true | Some _ => false end) eqn:F.
  - cbn [fst snd]. eexists. split; [reflexivity |].
    assert (X : (if im s then then_ (replaced 1 indefinite) popped s (stack_fault STACK_UNDERFLOW (if masked t then fpu_pop (put_qnan (idx t 1) t) else t))
                 else same_stack s (stack_fault STACK_UNDERFLOW (if masked t then fpu_pop (put_qnan (idx t 1) t) else t))) /\
                fault_status false no_cc s (stack_fault STACK_UNDERFLOW (if masked t then fpu_pop (put_qnan (idx t 1) t) else t))).
    { rewrite masked_im. change (im t) with (im s). split.
      - destruct (im s).
        + exists (put_qnan (idx t 1) t). split.
          * apply (replaced_core _ _ t s (put_qnan (idx t 1) t) _ (core_sym _ _ C) (core_refl _)). apply replaced_qnan. lia.
          * rewrite fpu_pop_eq by exact T. eapply popped_core; [apply core_refl | apply fault_core | apply popped_tag_pop; exact T].
        + apply core_same, (core_trans _ t); [exact C | apply fault_core].
      - apply (fault_bits false); [| destruct (im s); reflexivity | reflexivity].
        intros b Hb N. rewrite <- (start_bits E s b Hb N). destruct (im s); reflexivity. }
    destruct (st s 0), (st s 1); try exact X. discriminate.
  - destruct (st s 0) as [a |] eqn:S0; [| discriminate]. destruct (st s 1) as [b |] eqn:S1; [| discriminate].
    cbn [fst snd]. rewrite (load_st t 0 a W ltac:(now rewrite (core_st _ _ _ C))), (load_st t 1 b W ltac:(now rewrite (core_st _ _ _ C))).
    change (frp t) with (frp s). destruct (h b a (frp s)) as [x sw]. unfold post_check. pose proof (post_spec sw t) as PS.
    destruct (post_unmasked EXP_ALL sw t); eexists; (split; [reflexivity |]).
    + left. split; [exact PS |]. apply core_same. now repeat split.
    + right. split; [exact PS |]. set (u := set_fstatus (post_sw sw t) t). exists (store_stx 1 x u). split; [| now apply popped_tag_pop].
      split; [reflexivity |]. split.
      * unfold st, store_stx. cbn [fr ftag ftop set_fr]. rewrite stx_mod by exact T. rewrite upd_eq.
        unfold st in S1. change (ftag u) with (ftag s). change (ftop u) with (ftop s). destruct (_ =? 3); congruence.
      * intros j Hj N. unfold st, store_stx. cbn [fr ftag ftop set_fr]. rewrite stx_mod by exact T.
        change (ftag u) with (ftag s). change (ftop u) with (ftop s). rewrite upd_ne; [reflexivity |]. destruct W as [W _]. mods.
Qed.
Print Assumptions C28_patan.

(** FXCH exchanges ST(0) and ST(i); empty ones are filled with the indefinite QNaN (if the
    exception is masked) and nothing is exchanged. *)
Definition exchanged (i : Z) (s s' : fpu) : Prop :=
  ftop s' = ftop s /\ st s' 0 = st s i /\ st s' i = st s 0 /\ forall j, 0 <= j < 8 -> j <> 0 -> j <> i -> st s' j = st s j.
Definition filled (i : Z) (s s' : fpu) : Prop :=
  ftop s' = ftop s /\ forall j, 0 <= j < 8 ->
    st s' j = match st s j with Some v => Some v | None => if (j =? 0) || (j =? i) then Some indefinite else None end.

Theorem C28_exchange : forall E s i, ready E s -> wf s -> 0 <= i < 8 ->
  exists s', fexec E (Fxch i) s = FDone s' None true /\
    match st s 0, st s i with
    | Some _, Some _ => exchanged i s s'
    | _, _ => (if im s then filled i s s' else same_stack s s') /\ fault_status false no_cc s s'
    end.
Proof.
  intros E s i R W Hi. cbn [fexec]. rewrite (ready_start E s) by exact R.
  set (t := clear_c1 (update_ptr E s)). assert (C : core_eq s t) by now repeat split.
  assert (T : 0 <= ftop t < 8) by apply W. unfold stack_fault_fxch. rewrite !is_empty_st, !(core_st _ _ _ C).
  destruct (match st s 0 with None => true | Some _ => false end || match st s i with None => true | Some _ => false end) eqn:F.
  - cbn [fst snd]. eexists. split; [reflexivity |]. set (d := match st s 0 with None => true | Some _ => false end) in *.
    set (r := match st s i with None => true | Some _ => false end) in *.
    assert (Q : let s' := stack_fault STACK_UNDERFLOW (if masked t then
          let u := if d then put_qnan (ftop t) t else t in if r then put_qnan (idx u i) u else u else t) in
        (if im s then filled i s s' else same_stack s s') /\ fault_status false no_cc s s').
    { cbv zeta. rewrite masked_im. change (im t) with (im s). split.
      - destruct (im s); [| apply core_same, (core_trans _ t); [exact C | apply fault_core]].
        split; [destruct d, r; reflexivity |]. intros j Hj.
        set (u := if d then put_qnan (ftop t) t else t).
        assert (EU : st u j = if d && (j =? 0) then Some indefinite else st s j).
        { unfold u. destruct d; cbn [andb]; [| now apply core_st].
          rewrite <- (idx_top t T), st_put_qnan, (core_st _ _ _ C). destruct W as [W _]. change (ftop t) with (ftop s).
          destruct (Z.eqb_spec j 0); [subst; now rewrite Z.eqb_refl |]. rewrite (proj2 (Z.eqb_neq _ _)); [reflexivity | mods]. }
        rewrite (core_st (if r then put_qnan (idx u i) u else u) _ j (fault_core _ _)).
        assert (TU : ftop u = ftop s) by (unfold u; destruct d; reflexivity).
        assert (ER : st (if r then put_qnan (idx u i) u else u) j = if r && (j =? i) then Some indefinite else st u j).
        { destruct r; cbn [andb]; [| reflexivity]. rewrite st_put_qnan, TU. destruct W as [W _].
          destruct (Z.eqb_spec j i); [subst; now rewrite Z.eqb_refl |]. rewrite (proj2 (Z.eqb_neq _ _)); [reflexivity | mods]. }
        rewrite ER, EU. unfold d, r. clear.
        destruct (Z.eqb_spec j i) as [E1 | E1], (Z.eqb_spec j 0) as [E2 | E2]; rewrite <- ?E1, <- ?E2;
          cbn [andb orb]; rewrite ?andb_false_r, ?andb_true_r; destruct (st s j); reflexivity.
      - apply (fault_bits false); [| destruct (im s), d, r; reflexivity | reflexivity].
        intros b Hb N. rewrite <- (start_bits E s b Hb N). destruct (im s), d, r; reflexivity. }
    cbv zeta in Q. destruct (st s 0), (st s i); try exact Q. discriminate.
  - destruct (st s 0) as [a |] eqn:S0; [| discriminate]. destruct (st s i) as [b |] eqn:SI; [| discriminate].
    cbn [fst snd]. rewrite (load_st t 0 a W ltac:(now rewrite (core_st _ _ _ C))), (load_st t i b W ltac:(now rewrite (core_st _ _ _ C))).
    eexists. split; [reflexivity |].
    assert (ST : forall j, st (store_stx i a (store_stx 0 b t)) j =
       match st s j with None => None | Some v => Some (if (ftop s + j) mod 8 =? (ftop s + i) mod 8 then a else if (ftop s + j) mod 8 =? (ftop s + 0) mod 8 then b else v) end).
    { intros j. unfold st, store_stx. cbn [fr ftag ftop set_fr]. rewrite (stx_mod t) by exact T.
      rewrite (stx_mod (set_fr _ t)) by exact T. cbn [ftop set_fr]. change (ftag t) with (ftag s). change (ftop t) with (ftop s). change (fr t) with (fr s).
      unfold upd. destruct (_ =? 3); [reflexivity |]. reflexivity. }
    split; [reflexivity |]. destruct W as [W _]. split; [| split].
    + rewrite ST, S0. destruct (Z.eqb_spec ((ftop s + 0) mod 8) ((ftop s + i) mod 8)) as [Q | Q].
      * replace i with 0 in * by mods. congruence.
      * rewrite Z.eqb_refl. congruence.
    + rewrite ST, SI, Z.eqb_refl. congruence.
    + intros j Hj N1 N2. rewrite ST. rewrite !(proj2 (Z.eqb_neq _ _)) by mods. now destruct (st s j).
Qed.
Print Assumptions C28_exchange.
