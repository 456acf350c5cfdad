(** * Symbolic execution of the emitted sequences *)

From Coq Require Import ZArith Bool List Lia ZifyBool.
From Verif Require Import HostModel AluModel AluSpec HostProofs LazyFlagsProofs FlagsApiProofs FlagArith.
Import ListNotations.
Local Open Scope Z_scope.

Lemma exec_step E i tl s : exec E (i :: tl) (Done s) = exec E tl (step E i s).
Proof. reflexivity. Qed.

(** evaluate the tests on closed shift counts *)
Ltac closed_count t :=
  lazymatch t with
  | context C [Z.eqb (Z.land (getw W8 (Zpos ?p)) (Zpos ?m)) Z0] =>
      let v := eval vm_compute in (Z.eqb (Z.land (getw W8 (Zpos p)) (Zpos m)) Z0) in
      let n := eval vm_compute in (Z.land (getw W8 (Zpos p)) (Zpos m)) in
      let t1 := context C [v] in
      let t2 := eval pattern (Z.land (getw W8 (Zpos p)) (Zpos m)) in t1 in
      let t3 := lazymatch t2 with ?f _ => constr:(f n) end in
      let t4 := eval cbv beta iota in t3 in
      closed_count t4
  | context C [Z.eqb (Z.land (getw W8 Z0) (Zpos ?m)) Z0] =>
      let t1 := context C [true] in
      let t2 := eval cbv beta iota in t1 in closed_count t2
  | _ => t
  end.

Ltac norm_term t :=
  let t1 := eval cbv -[Z.land Z.lor Z.lxor Z.lnot Z.add Z.sub Z.mul Z.opp Z.shiftl Z.shiftr
    Z.testbit Z.eqb Z.leb Z.ltb getw setw putw sext gget gput mload mstore parity_at ea
    e_ptr e_clob e_tab e_fault add_flags sub_flags logic_flags shift_val shift_cf shift_of
    holds odd_ones w32 wmask b2z top num] in t in
  let t2 := eval cbn [num] in t1 in
  let t3 := closed_count t2 in
  let t4 := eval cbv [shift_val] in t3 in t4.

Ltac sym1 :=
  lazymatch goal with
  | |- context [exec ?E (?i :: ?tl) (Done ?s)] =>
      rewrite (exec_step E i tl s);
      let t := constr:(step E i s) in
      let t' := norm_term t in
      change t with t'; rewrite ?getw_setw, ?getw_idem
  end.

Ltac sym := repeat sym1; cbn [exec].

(** bits at closed positions *)
Ltac hbits_step :=
  first
    [ rewrite Z.land_spec | rewrite Z.lor_spec | rewrite Z.lxor_spec
    | rewrite Z.lnot_spec by posc | rewrite Z.shiftl_spec by posc
    | rewrite Z.shiftr_spec by posc | rewrite testbit_neg_pos | w32_step
    | rewrite getw_testbit by posc | rewrite setw_testbit by posc
    | rewrite putw_testbit by posc
    | rewrite sext_bit by (split; [posc | reflexivity]) ].

Ltac closed_ltb :=
  repeat match goal with
  | |- context [Z.ltb ?a (wbits ?w)] =>
      let v := eval vm_compute in (Z.ltb a (wbits w)) in
      lazymatch v with true => idtac | false => idtac end;
      change (Z.ltb a (wbits w)) with v
  end; cbv iota.

Ltac hbits :=
  repeat (hbits_step; norm_pos; closed_ltb); closed_bits;
  repeat (rewrite ?andb_true_r, ?andb_false_r, ?orb_false_r, ?orb_true_r, ?xorb_false_r,
          ?xorb_true_r, ?andb_true_l, ?andb_false_l, ?orb_false_l, ?orb_true_l, ?xorb_false_l,
          ?xorb_true_l; cbn [negb]).

(** ** Flag generation *)

(** all that changes is the lazy flag pair (and scratch registers) *)
Definition flags_set (s s' : hst) (fl : aflags) : Prop :=
  h_rcx (hr s') = P PCtx /\ h_r11 (hr s') = h_r11 (hr s) /\
  (exists r a, ctx s' = set_aux a (set_res r (ctx s)) /\ lazy_flags r a = fl) /\
  gmem s' = gmem s /\ loc s' = loc s /\ masked s' = masked s.

(** the operand pairs that the instructions pass *)
Definition ab_op (w : width) (a b : opnd) : Prop :=
  (a = Rg w RAX /\ b = Rg w RBX) \/ (a = Rg w RAX /\ exists z, b = Im w z) \/
  (a = Rg w RBX /\ b = Rg w RDX) \/ (a = Rg w RBX /\ exists z, b = Im w z) \/
  ((exists z, a = Im w z) /\ b = Rg w RBX).

Lemma sext_getw w v : sext w (getw w v) = sext w v.
Proof. rewrite !sext_signed. now rewrite getw_idem. Qed.

Lemma w32_putw o v : w32 (putw W32 o v) = w32 v.
Proof. apply (getw_putw W32). Qed.

Lemma w32_getw v : w32 (getw W32 v) = w32 v.
Proof. apply (getw_idem W32). Qed.

Lemma sext32_w32 v : w32 (sext W32 v) = w32 v.
Proof. change w32 with (getw W32). rewrite !getw_mod. apply sext_mod. Qed.

Lemma byte2_cases i : 8 <= i < 16 ->
  i = 8 \/ i = 9 \/ i = 10 \/ i = 11 \/ i = 12 \/ i = 13 \/ i = 14 \/ i = 15.
Proof. lia. Qed.

Ltac expand_list :=
  lazymatch goal with
  | |- context [exec ?E ?l (Done ?s)] =>
      let l' := eval cbv -[Z.land Z.lor Z.lxor Z.lnot Z.add Z.sub sext] in l in
      change (exec E l (Done s)) with (exec E l' (Done s))
  end.

Ltac fin_flags vec :=
  eexists; split; [reflexivity |];
  unfold flags_set; cbn [hr h_rcx h_r11 ctx gmem loc masked];
  split; [reflexivity | split; [reflexivity | split; [| auto]]];
  eexists _, _; split;
    [unfold set_aux, set_res; cbn [gprs segb eflags eip res aux cr4 gsel]; reflexivity |].

Ltac vec_goals :=
  lazymatch goal with
  | |- forall i, 8 <= i < 16 -> _ =>
      let i := fresh "i" in let Hi := fresh in intros i Hi;
      destruct (byte2_cases i Hi) as [-> | [-> | [-> | [-> | [-> | [-> | [-> | ->]]]]]]];
      hbits; reflexivity
  | |- w32 _ = w32 _ =>
      rewrite ?w32_putw, ?w32_getw, ?sext_getw, ?sext32_w32; reflexivity
  | |- _ => unfold carry_vec, borrow_vec; cbn [wbits]; norm_pos; hbits;
      repeat match goal with |- context [Z.testbit ?x ?i] =>
        lazymatch x with _ => destruct (Z.testbit x i) end end; reflexivity
  end.

Lemma set_flags_sum_ok E w a b s av bv c :
  arith_w w -> ab_op w a b -> h_rcx (hr s) = P PCtx ->
  op_read E a s = Some av -> op_read E b s = Some bv -> 0 <= c <= 1 ->
  getw w (num E (h_r8 (hr s))) = getw w (av + bv + c) ->
  exists s', run E (set_flags_sum w a b) s = Done s' /\
             flags_set s s' (add_flags_spec w av bv c).
Proof.
  intros Hw Hab Hcx RA RB Hc R8v.
  destruct s as [[rax rbx rcx rdx r8 r9 r10 r11] hf0 [gp sb ef ip rs ax c4 sl] gm lc nc mk].
  cbn [hr h_rcx h_r8] in Hcx, R8v. subst rcx.
  destruct w; try (now elim Hw);
  destruct Hab as [[-> ->] | [[-> [z ->]] | [[-> ->] | [[-> [z ->]] | [[z ->] ->]]]]];
  injection RA as RA; injection RB as RB;
  cbn [hr h_rax h_rbx h_rdx rget] in RA, RB;
  unfold run; expand_list; sym; fin_flags tt; subst av bv; rewrite ?R8v;
  (apply vec_sum; try assumption; try apply getw_range; vec_goals).
Qed.

Lemma set_flags_sub_ok E w a b s av bv c :
  arith_w w -> ab_op w a b -> h_rcx (hr s) = P PCtx ->
  op_read E a s = Some av -> op_read E b s = Some bv -> 0 <= c <= 1 ->
  getw w (num E (h_r8 (hr s))) = getw w (av - bv - c) ->
  exists s', run E (set_flags_sub w a b) s = Done s' /\
             flags_set s s' (sub_flags_spec w av bv c).
Proof.
  intros Hw Hab Hcx RA RB Hc R8v.
  destruct s as [[rax rbx rcx rdx r8 r9 r10 r11] hf0 [gp sb ef ip rs ax c4 sl] gm lc nc mk].
  cbn [hr h_rcx h_r8] in Hcx, R8v. subst rcx.
  destruct w; try (now elim Hw);
  destruct Hab as [[-> ->] | [[-> [z ->]] | [[-> ->] | [[-> [z ->]] | [[z ->] ->]]]]];
  injection RA as RA; injection RB as RB;
  cbn [hr h_rax h_rbx h_rdx rget] in RA, RB;
  unfold run; expand_list; sym; fin_flags tt; subst av bv; rewrite ?R8v;
  (apply vec_sub; try assumption; try apply getw_range; vec_goals).
Qed.
