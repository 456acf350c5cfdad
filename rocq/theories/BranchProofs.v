(** * Counted branches, BOUND and XLAT *)

From Coq Require Import ZArith Bool List Lia ZifyBool.
From Verif Require Import HostModel AluModel AluSpec HostProofs LazyFlagsProofs FlagsApiProofs
  FlagArith SymExec EaProofs AluProofs AluForms UnaryProofs XchgProofs CondProofs ShiftModel ShiftSpec
  ShiftProofs ShiftForms RotateProofs BitProofs MulProofs BcdProofs.
Import ListNotations.
Local Open Scope Z_scope.

(** ** JCXZ and LOOP *)

Lemma link_exec E tl s : exec E (ILink :: tl) (Done s) = Left s.
Proof. rewrite exec_step. cbn [step]. now destruct tl. Qed.

Lemma count32 a32 g : 0 <= gget (addr_w a32) false ECX g < 2 ^ 32.
Proof.
  pose proof (gget_range (addr_w a32) false ECX g). unfold modulus in *. destruct a32; cbn [addr_w wbits] in *; lia.
Qed.

Lemma w32_put_add o v b : w32 (putw W32 o (getw W32 v) + b) = w32 (v + b).
Proof.
  change w32 with (getw W32). rewrite !getw_mod, putw_arith. change (modulus W32) with (2 ^ 32).
  rewrite Zmod_mod. rewrite <- (Zplus_mod_idemp_l (_ + _)).
  replace ((2 ^ 32 * (o / 2 ^ 32) + v mod 2 ^ 32) mod 2 ^ 32) with (v mod 2 ^ 32).
  - apply Zplus_mod_idemp_l.
  - rewrite (Z.mul_comm (2 ^ 32)), Z.add_comm, Z.mod_add, Zmod_mod by discriminate. reflexivity.
Qed.


Lemma eq_zero v : 0 <= v < 2 ^ 32 -> (getw W32 (v - getw W32 0) =? 0) = (v =? 0).
Proof. intros H. change (getw W32 0) with 0. rewrite Z.sub_0_r. rewrite getw_small by exact H. reflexivity. Qed.

Lemma wide16 g : getw W32 (gget W16 false ECX g) = gget W16 false ECX g.
Proof. apply getw_small. pose proof (gget_range W16 false ECX g). unfold modulus in *. cbn [wbits] in *. lia. Qed.

Lemma jcxz_ok E a32 s sz nxt disp base : h_rcx (hr s) = P PCtx ->
  exists s' ip, run E (emit_jcxz a32 sz nxt disp base) s = Left s' /\
    gmem s' = gmem s /\ masked s' = masked s /\
    ctx s' = set_eip ip (ctx s) /\ h_rbx (hr s') = N (w32 (ip + base)) /\
    w32 ip = if gget (addr_w a32) false ECX (gprs (ctx s)) =? 0 then jcc_target sz nxt disp else w32 nxt.
Proof.
  intros Hcx. start_state s Hcx. pose proof (w32_target sz nxt disp) as J.
  pose proof (count32 a32 gp) as HC.
  unfold emit_jcxz. generalize dependent (jcc_target sz nxt disp). intros tgt J.
  destruct a32; unfold run; expand_list; symj; cbn [exec addr_w] in *;
  (eexists; eexists; (split; [reflexivity | split; [reflexivity | split; [reflexivity| split; [reflexivity|]]]]));
  change (holds CEQ (sub_flags W32 ?a ?b)) with (getw W32 (a - b) =? 0);
  rewrite ?wide16, !eq_zero by exact HC.
  all: split; [cbn [hr h_rbx]; f_equal; rewrite w32_put_add, w32_add; exact (getw_idem W32 _) |].
  all: rewrite w32_putw32, w32_getw; destruct (_ =? 0); rewrite w32_getw; [exact J | reflexivity].
Qed.

Lemma dec32 v : 0 <= v < 2 ^ 32 -> getw W32 (v - 1) = (v - 1) mod modulus W32.
Proof. intros. rewrite getw_mod. reflexivity. Qed.

Lemma rbx_val o v : setw W32 o (getw W32 (Z.land v 4294967295)) = w32 v.
Proof. change (getw W32 (getw W32 (getw W32 v)) = getw W32 v). now rewrite !getw_idem. Qed.

Ltac loop_val := change (getw W32 1) with 1; rewrite ?getw_mod;
  change (modulus W32) with 4294967296 in *; change (modulus W16) with 65536 in *;
  Z.div_mod_to_equations; lia.

Ltac loop_done J :=
  match goal with |- exists _ _ _, Left ?st = _ /\ _ => exists st, (eip (ctx st)), (gprs (ctx st)) end;
  split; [reflexivity |]; split; [reflexivity |]; split; [reflexivity |];
  split; [reflexivity |]; split;
  [ cbn [hr h_rbx eip ctx]; f_equal; rewrite w32_put_add;
    apply rbx_val
  | cbn [eip gprs ctx]; split; [ intro; apply gput_val; rewrite ?getw_low16; loop_val
           | rewrite w32_putw32, ?w32_getw; first [exact J | reflexivity] ] ].

Lemma loop_ok E k a32 s sz nxt disp base : h_rcx (hr s) = P PCtx -> ctx_ok (ctx s) ->
  let w := addr_w a32 in
  let left := (gget w false ECX (gprs (ctx s)) - 1) mod modulus w in
  exists s' ip g, run E (emit_loop k a32 sz nxt disp base) s = Left s' /\
    gmem s' = gmem s /\ masked s' = masked s /\
    ctx s' = set_eip ip (set_gprs g (ctx s)) /\ h_rbx (hr s') = N (w32 (ip + base)) /\
    (forall r, g r = gput w false ECX left (gprs (ctx s)) r) /\
    w32 ip = if loop_taken k left (f_zf (flags_now s)) then jcc_target sz nxt disp else w32 nxt.
Proof.
  intros Hcx Hok. unfold flags_now. rewrite read_flags by assumption.
  start_state s Hcx. unfold lazy_flags. cbn [f_zf]. cbv zeta.
  pose proof (w32_target sz nxt disp) as J.
  pose proof (count32 a32 gp) as HC.
  unfold emit_loop. generalize dependent (jcc_target sz nxt disp). intros tgt J.
  assert (L : (getw W32 (gget (addr_w a32) false ECX gp - getw W32 1) =? 0) =
              ((gget (addr_w a32) false ECX gp - 1) mod modulus (addr_w a32) =? 0)).
  { pose proof (gget_range (addr_w a32) false ECX gp) as R. rewrite getw_mod.
    change (getw W32 1) with 1. destruct a32; cbn [addr_w] in *; [reflexivity |].
    change (modulus W16) with 65536 in *. change (modulus W32) with 4294967296 in *.
    Z.div_mod_to_equations. lia. }
  destruct a32, k as [[]|]; unfold run; expand_list; cbn [addr_w] in *; symj;
  rewrite ?wide16 in *; rewrite jcc_exec; cbn [hf];
  cbv [holds logic_flags hzf];
  rewrite Z.land_diag, ?getw_idem, L; unfold loop_taken; match goal with |- context [if ?b then exec _ _ _ else _] => destruct b end; cbn [negb andb Bool.eqb].
  all: try (skip; symj; cbn [exec]; loop_done J).
  all: symj; rewrite jcc_exec; cbn [hf];
    cbv [holds logic_flags hzf];
    rewrite ?if00, Z.land_diag, ?getw_idem; change (getw W32 rs) with (w32 rs); destruct (w32 rs =? 0); cbn [negb Bool.eqb].
  all: try (skip; symj; cbn [exec]; loop_done J).
  all: symj; cbn [exec]; loop_done J.
Qed.

(** ** BOUND *)

Lemma slt_ok w a b : arith_w w -> 0 <= a < modulus w -> 0 <= b < modulus w ->
  holds CSLT (sub_flags w a b) = (signed w a <? signed w b).
Proof.
  intros Hw Ha Hb. cbv [holds sub_flags hsf hof]. unfold top.
  fold (sign_bit w (getw w (a - b))) (sign_bit w a) (sign_bit w b).
  rewrite !top_spec by (try apply getw_range; assumption).
  rewrite getw_mod. unfold signed, modulus in *. pose proof (n8 w) as N8.
  assert (P2 : 2 ^ wbits w = 2 * 2 ^ (wbits w - 1)).
  { rewrite <- Z.pow_succ_r by lia. f_equal. lia. }
  rewrite P2 in *. generalize dependent (2 ^ (wbits w - 1)). intros h Ha Hb P2.
  assert (R : (a - b) mod (2 * h) = if a <? b then a - b + 2 * h else a - b).
  { destruct (Z.ltb_spec a b).
    - symmetry. apply (Z.mod_unique _ _ (-1)); lia.
    - apply Z.mod_small. lia. }
  rewrite R. clear R.
  destruct (Z.ltb_spec a b), (Z.ltb_spec a h), (Z.ltb_spec b h); cbn [negb xorb andb];
  repeat match goal with |- context [?x <? ?y] => destruct (Z.ltb_spec x y) end; cbn [negb xorb andb]; try reflexivity; lia.
Qed.

Lemma sgt_ok w a b : arith_w w -> 0 <= a < modulus w -> 0 <= b < modulus w ->
  holds CSGT (sub_flags w a b) = (signed w b <? signed w a).
Proof.
  intros Hw Ha Hb. pose proof (slt_ok w a b Hw Ha Hb) as H. cbv [holds] in *.
  replace (Bool.eqb (hsf (sub_flags w a b)) (hof (sub_flags w a b))) with (negb (signed w a <? signed w b))
    by (rewrite <- H; now destruct (hsf _), (hof _)).
  cbv [sub_flags hzf].
  assert (Z : (getw w (a - b) =? 0) = (a =? b)).
  { rewrite getw_mod. unfold modulus in *. destruct (Z.eqb_spec a b).
    - subst. now rewrite Z.sub_diag.
    - apply Z.eqb_neq. destruct (Z.ltb_spec a b).
      + rewrite <- (Z.mod_unique (a - b) (2 ^ wbits w) (-1) (a - b + 2 ^ wbits w)); lia.
      + rewrite Z.mod_small; lia. }
  rewrite Z. unfold signed, modulus in *. pose proof (n8 w) as N8.
  assert (P2 : 2 ^ wbits w = 2 * 2 ^ (wbits w - 1)).
  { rewrite <- Z.pow_succ_r by lia. f_equal. lia. }
  rewrite P2 in *. generalize dependent (2 ^ (wbits w - 1)). intros h **.
  destruct (Z.eqb_spec a b), (Z.ltb_spec a h), (Z.ltb_spec b h); cbn [negb xorb andb];
  repeat match goal with |- context [?x <? ?y] => destruct (Z.ltb_spec x y) end; cbn [negb xorb andb]; try reflexivity; lia.
Qed.

Lemma getw_width a b v : wbits a <= wbits b -> getw a (getw b v) = getw a v.
Proof.
  intros H. apply Z.bits_inj'. intros n Hn. rewrite !getw_testbit by lia.
  destruct (Z.ltb_spec n (wbits a)); [| now rewrite !andb_false_r].
  replace (n <? wbits b) with true by lia. now rewrite andb_true_r.
Qed.

Lemma bound_ok E w dst m s : w = W16 \/ w = W32 -> h_rcx (hr s) = P PCtx -> rm_ok (RmMem m) (ctx s) ->
  let a := ea m (ctx s) in
  let b := w32 (a + wbytes w) in
  let i := signed w (gget w false dst (gprs (ctx s))) in
  let lo := signed w (mload (gmem s) w a) in
  let hi := signed w (mload (gmem s) w b) in
  exists s', untouched s s' /\ 
    run E (emit_bound w dst m) s =
      if e_fault E false a (wbytes w) then Fault false a (wbytes w) s'
      else if e_fault E false b (wbytes w) then Fault false b (wbytes w) s'
      else if (i <? lo) || (hi <? i) then Raise 5 0 s' else Done s'.
Proof.
  intros Hw Hcx Hm. cbv zeta. unfold emit_bound. cbn [rm_ok] in Hm. start_state s Hcx.
  destruct Hw as [-> | ->];
  (erewrite run_seq; [| seg]); cbn [ctx] in Hm; run_ea m Hm; unfold run; expand_list; sym';
  (match goal with |- context [ea m ?c] => pose proof (getw_ea m c) as HA; generalize dependent (ea m c) end; intros A HA);
  (erewrite load_step by (cbn [hr h_rdx num]; rewrite ?getw_setw, ?getw_idem, ?getw_putw; exact HA)); cbn [wbytes];
  (destruct (e_fault E false A _) eqn:F1; [eexists; split; [| reflexivity]; split; [reflexivity | split; reflexivity] |]);
  unfold loaded; cbn [hr h_rax h_rbx h_rcx h_rdx h_r8 h_r9 h_r10 h_r11 ctx gmem loc ncall masked]; sym';
  (erewrite load_step by
    (cbn [hr h_rdx num]; rewrite ?getw_setw, ?getw_idem, ?getw_putw; rewrite w32_add; reflexivity)); cbn [wbytes];
  (destruct (e_fault E false (w32 (A + _)) _) eqn:F2;
   [eexists; split; [| reflexivity]; split; [reflexivity | split; reflexivity] |]);
  unfold loaded; cbn [hr h_rax h_rbx h_rcx h_rdx h_r8 h_r9 h_r10 h_r11 ctx gmem loc ncall masked]; sym'.
  all: rewrite slt_ok, sgt_ok by (try discriminate; first [apply gget_range | apply mload_range]);
    repeat match goal with |- context [signed ?w ?x <? ?y] => destruct (signed w x <? y) end; cbn [orb];
     (match goal with |- context [if ?b then Skip _ _ else _] =>
       first [change b with true | change b with false] end; cbv iota; skip; cbn [exec]);
     eexists; (split; [| reflexivity]); (split; [reflexivity | split; reflexivity]).
Qed.

(** ** XLAT *)

Lemma xlat_ok E a32 seg z s : h_rcx (hr s) = P PCtx -> ctx_ok (ctx s) -> (z = true -> segb (ctx s) seg = 0) ->
  let a := w32 (segb (ctx s) seg + gget (addr_w a32) false EBX (gprs (ctx s)) + gget W8 false EAX (gprs (ctx s))) in
  if e_fault E false a 1
  then exists s', run E (emit_xlat a32 seg z) s = Fault false a 1 s' /\ untouched s s'
  else exists s', run E (emit_xlat a32 seg z) s = Done s' /\
    becomes s s' (gput W8 false EAX (mload (gmem s) W8 a) (gprs (ctx s))) (gmem s) (flags_now s).
Proof.
  intros Hcx Hok Hz a. unfold flags_now. rewrite read_flags by assumption. subst a.
  unfold emit_xlat. start_state s Hcx.
  match goal with |- context [e_fault E false ?x 1] => set (a := x) end.
  destruct a32, z; unfold run; expand_list; sym'.
  all: erewrite load_step by (cbn [hr h_rdx num]; rewrite ?getw_setw, ?getw_idem, ?getw_putw; reflexivity).
  all: cbn [wbytes].
  all: match goal with |- context [if e_fault _ false ?x 1 then Fault _ _ _ _ else _] => replace x with a end.
  all: try (destruct (e_fault E false a 1); [forget |]).
  all: try (unfold loaded; cbn [hr h_rax h_rbx h_rcx h_rdx h_r8 h_r9 h_r10 h_r11 ctx gmem loc ncall masked]; sym'; cbn [exec];
    eexists; split; [reflexivity |]; eapply becomes_regs;
     [exact Hok | reflexivity | to_ctx | reflexivity | reflexivity | reflexivity |]; intro;
     apply gput_val; rewrite ?getw_setw, ?getw_idem, ?getw_gget; reflexivity).
  all: unfold a; try rewrite (Hz eq_refl); cbn [addr_w]; change w32 with (getw W32); rewrite !getw_mod;
    change (modulus W32) with 4294967296; Z.div_mod_to_equations; lia.
Qed.
