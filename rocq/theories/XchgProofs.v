(** * CMPXCHG and CMPXCHG8B *)

From Coq Require Import ZArith Bool List Lia ZifyBool.
From Verif Require Import HostModel AluModel AluSpec HostProofs LazyFlagsProofs FlagsApiProofs
  FlagArith SymExec EaProofs AluProofs AluForms UnaryProofs.
Import ListNotations.
Local Open Scope Z_scope.

(** ** Forward jumps *)

Definition is_lab (i : instr) : bool := match i with ILab _ => true | _ => false end.

Lemma skip_step E i tl k s : is_lab i = false ->
  exec E (i :: tl) (Skip k s) = exec E tl (Skip k s).
Proof. now destruct i. Qed.

Lemma skip_lab E tl k k' s :
  exec E (ILab k' :: tl) (Skip k s) = if Nat.eqb k k' then exec E tl (Done s) else exec E tl (Skip k s).
Proof. reflexivity. Qed.

Lemma jmp_step E k tl s : exec E (IJmp k :: tl) (Done s) = exec E tl (Skip k s).
Proof. reflexivity. Qed.

Ltac skip := repeat first [ rewrite skip_step by reflexivity | rewrite skip_lab; cbn [Nat.eqb] ].

Lemma sub_zero w a b : 0 <= a < modulus w -> 0 <= b < modulus w -> (getw w (a - b) =? 0) = (b =? a).
Proof.
  intros Ha Hb. rewrite getw_mod. pose proof (modulus_pos w).
  destruct (Z.eqb_spec b a) as [-> | N].
  - rewrite Z.sub_diag. reflexivity.
  - apply Z.eqb_neq. intros H0. apply Z.mod_divide in H0; [| lia]. destruct H0 as [k Hk].
    assert (k = 0 \/ k >= 1 \/ k <= -1) as [-> | [? | ?]] by lia; nia.
Qed.

(** the outcome of a host comparison for equality *)
Ltac jump Hj :=
  lazymatch goal with
  | |- context [holds CEQ (sub_flags ?w ?a ?b)] =>
      change (holds CEQ (sub_flags w a b)) with (getw w (a - b) =? 0);
      rewrite (sub_zero w a b) by (apply gget_range || apply mload_range || apply getw_range);
      rewrite Hj; cbv iota
  end.

Ltac segj Hj := unfold run; expand_list; sym'; repeat (access; sym');
  try (jump Hj; skip; sym'; skip; sym'; repeat (access; sym')); cbn [exec]; reflexivity.

Lemma cmpxchg_ok E w dst src s :
  arith_w w -> h_rcx (hr s) = P PCtx -> ctx_ok (ctx s) -> rm_ok dst (ctx s) ->
  let a := read_rm w dst s in let acc := gget w false EAX (gprs (ctx s)) in
  effect E (emit_cmpxchg w dst src) w s (rm_mem dst) (if acc =? a then rm_mem dst else None)
    (cmpxchg_regs w dst src acc a s) (cmpxchg_mem w dst src acc a s) (sub_flags_spec w a acc 0).
Proof.
  intros Hw Hcx Hok Hm a acc. subst a acc.
  unfold emit_cmpxchg, cmpxchg_regs, cmpxchg_mem, effect, first_fault.
  destruct src as [hs rs'].
  destruct dst as [[h r] | m]; cbn [rm_mem read_rm regs_after mem_after rm_ok] in *; unfold read_gop;
  cbn [g_high g_reg]; start_state s Hcx;
  change set_flags_sub with (flags_of (is_sum ALU_SUB)).
  - destruct w; try (now elim Hw); rewrite app_assoc;
    lazymatch goal with |- context [Z.eqb ?x ?y] => destruct (Z.eqb x y) eqn:Hj end; cbv iota;
    (erewrite run_seq; [| segj Hj]);
    (apply (finish _ ALU_SUB); [ reflexivity | exact Hw | unfold ab_op; pick | reflexivity | rd | rd
      | nom; rewrite ?getw_setw, ?getw_idem; apply getw_mod | reflexivity | reflexivity | reflexivity | exact Hok ]).
  - destruct w; try (now elim Hw); rewrite <- ?app_assoc; seg_done;
    run_ea m Hm;
    (lazymatch goal with |- context [Z.eqb ?x ?y] => destruct (Z.eqb x y) eqn:Hj end); cbv iota;
    faults; try (erewrite run_fault; [| segj Hj]; forget);
    (erewrite run_seq; [| segj Hj]);
    (apply (finish _ ALU_SUB); [ reflexivity | exact Hw | unfold ab_op; pick | reflexivity | rd | rd
      | nom; rewrite ?getw_setw, ?getw_idem; apply getw_mod | reflexivity | reflexivity | reflexivity | exact Hok ]).
Qed.

(** ** CMPXCHG8B *)

Lemma pair_word hi lo : 0 <= hi < 2 ^ 32 -> 0 <= lo < 2 ^ 32 ->
  Z.lor (Z.shiftl hi 32) lo = hi * 2 ^ 32 + lo.
Proof.
  intros H L. rewrite <- Z.shiftl_mul_pow2 by lia. symmetry.
  rewrite <- Z.lxor_lor; [apply Z.add_nocarry_lxor |];
  (apply Z.bits_inj'; intros i Hi; rewrite Z.land_spec, Z.bits_0;
   destruct (Z.ltb_spec i 32);
   [ rewrite Z.shiftl_spec_low by lia; reflexivity
   | rewrite <- (Z.mod_small lo (2 ^ 32)) by lia; rewrite Z.mod_pow2_bits_high by lia; apply andb_false_r ]).
Qed.

Lemma w64_32 o v : getw W64 (setw W32 o (getw W32 v)) = getw W32 v.
Proof.
  rewrite setw_getw32. apply getw_small. pose proof (getw_range W32 v) as R.
  change (modulus W32) with (2 ^ 32) in R. change (modulus W64) with (2 ^ 64). lia.
Qed.

Lemma pair_reg o1 o2 hi lo g :
  getw W64 (Z.lor (getw W64 (Z.shiftl (getw W64 (setw W32 o1 (gget W32 false hi g))) 32))
                  (getw W64 (setw W32 o2 (gget W32 false lo g))))
  = gget W32 false hi g * 2 ^ 32 + gget W32 false lo g.
Proof.
  unfold gget. rewrite !w64_32.
  pose proof (getw_range W32 (g hi)) as H. pose proof (getw_range W32 (g lo)) as L.
  change (modulus W32) with (2 ^ 32) in *.
  rewrite (getw_small W64 (Z.shiftl _ 32)).
  2:{ rewrite Z.shiftl_mul_pow2 by lia. change (modulus W64) with (2 ^ 64). lia. }
  rewrite pair_word by assumption. apply getw_small. change (modulus W64) with (2 ^ 64). lia.
Qed.

Lemma getw32_setw64 o v : getw W32 (setw W64 o v) = getw W32 v.
Proof. unfold getw, setw. rewrite <- Z.land_assoc. reflexivity. Qed.

Lemma hi_word v : 0 <= v < modulus W64 -> getw W32 (Z.shiftr v 32) = v / 2 ^ 32.
Proof.
  intros H. rewrite Z.shiftr_div_pow2 by lia. apply getw_small.
  change (modulus W64) with (2 ^ 32 * 2 ^ 32) in H. change (modulus W32) with (2 ^ 32).
  split; [apply Z.div_pos; lia |]. apply Z.div_lt_upper_bound; lia.
Qed.

(** clearing ZF by setting bit 8 of the result *)
Lemma clear_zf r a :
  lazy_flags (putw W32 r (getw W32 (Z.lor (getw W32 r) 256))) a = with_zf false (lazy_flags r a).
Proof.
  unfold lazy_flags, with_zf. cbn [f_cf f_pf f_af f_sf f_of]. f_equal.
  - f_equal. apply odd_ones_ext. intros i Hi. rewrite !Z.lxor_spec. f_equal.
    rewrite putw_testbit, getw_testbit, Z.lor_spec, getw_testbit by lia.
    rewrite !below32 by lia. change 256 with (2 ^ 8). rewrite Z.pow2_bits_false by lia.
    now rewrite !andb_true_r, orb_false_r.
  - rewrite w32_putw, w32_getw. apply Z.eqb_neq. intros H0.
    assert (B : Z.testbit (w32 (Z.lor (getw W32 r) 256)) 8 = false) by (rewrite H0; apply Z.testbit_0_l).
    revert B. hbits. discriminate.
  - f_equal. hbits. reflexivity.
Qed.

Ltac byte_cases i Hi :=
  assert (i = 0 \/ i = 1 \/ i = 2 \/ i = 3 \/ i = 4 \/ i = 5 \/ i = 6 \/ i = 7) as Hc by lia;
  destruct Hc as [-> | [-> | [-> | [-> | [-> | [-> | [-> | ->]]]]]]].

Lemma cmpxchg8b_ok E m s :
  h_rcx (hr s) = P PCtx -> ctx_ok (ctx s) -> memop_ok m (ctx s) ->
  let a := mload (gmem s) W64 (ea m (ctx s)) in
  let eq := a =? pair64 EDX EAX (ctx s) in
  effect E (emit_cmpxchg8b m) W64 s (Some m) (Some m)
    (if eq then gprs (ctx s)
     else gput W32 false EDX (a / 2 ^ 32) (gput W32 false EAX (a mod 2 ^ 32) (gprs (ctx s))))
    (mstore (gmem s) W64 (ea m (ctx s)) (if eq then pair64 ECX EBX (ctx s) else a))
    (with_zf eq (flags_now s)).
Proof.
  intros Hcx Hok Hm a eq. subst a eq. unfold emit_cmpxchg8b, effect, first_fault.
  start_state s Hcx. run_ea m Hm.
  unfold pair64; cbn [gprs].
  set (acc := gget W32 false EDX gp * 2 ^ 32 + gget W32 false EAX gp).
  set (new := gget W32 false ECX gp * 2 ^ 32 + gget W32 false EBX gp).
  assert (R : 0 <= acc < modulus W64).
  { subst acc. pose proof (gget_range W32 false EDX gp). pose proof (gget_range W32 false EAX gp).
    change (modulus W32) with (2 ^ 32) in *. change (modulus W64) with (2 ^ 64). lia. }
  assert (Ra : 0 <= mload gm W64 (ea m (mkg gp sb ef ip rs ax c4 sl)) < modulus W64) by apply mload_range.
  assert (Pa : forall o1 o2, getw W64 (Z.lor (getw W64 (Z.shiftl (getw W64 (setw W32 o1 (gget W32 false EDX gp))) 32))
                  (getw W64 (setw W32 o2 (gget W32 false EAX gp)))) = acc) by (intros; apply pair_reg).
  assert (Pn : forall o1 o2, getw W64 (Z.lor (getw W64 (Z.shiftl (getw W64 (setw W32 o1 (gget W32 false ECX gp))) 32))
                  (getw W64 (setw W32 o2 (gget W32 false EBX gp)))) = new) by (intros; apply pair_reg).
  assert (J : holds CEQ (sub_flags W64 (mload gm W64 (ea m (mkg gp sb ef ip rs ax c4 sl))) acc)
              = (mload gm W64 (ea m (mkg gp sb ef ip rs ax c4 sl)) =? acc)).
  { match goal with |- holds CEQ (sub_flags W64 ?a acc) = _ =>
      change (holds CEQ (sub_flags W64 a acc)) with (getw W64 (a - acc) =? 0) end.
    rewrite sub_zero by assumption. apply Z.eqb_sym. }
  clearbody acc new.
  destruct (e_fault E false (ea m _) (wbytes W64)) eqn:F1.
  { unfold run; expand_list; sym'; repeat (access; sym'). cbn [exec]. forget. }
  destruct (mload gm W64 _ =? acc) eqn:Hj.
  - destruct (e_fault E true (ea m _) (wbytes W64)) eqn:F2; unfold run; expand_list; sym'; access; sym';
    rewrite !Pa, J; skip; sym'.
    + erewrite store_step by (cbn [hr h_rdx h_r8 num]; rewrite ?getw_setw, ?getw_idem, ?getw_ea; reflexivity).
      rewrite F2. forget.
    + erewrite store_step by (cbn [hr h_rdx h_r8 num]; rewrite ?getw_setw, ?getw_idem, ?getw_ea; reflexivity).
      rewrite F2, Pn. unfold stored; cbn [hr h_rax h_rbx h_rcx h_rdx h_r8 h_r9 h_r10 h_r11 ctx gmem loc ncall masked].
      sym. rewrite !if00.
      eexists; split; [reflexivity |].
      eapply becomes_flags; [exact Hok | reflexivity
        | cbn [ctx]; unfold set_aux, set_res, set_gprs; cbn [gprs segb eflags eip res aux cr4 gsel]; reflexivity
        | reflexivity | reflexivity |].
      unfold flags_now; cbn [ctx]; rewrite read_flags by exact Hok. cbn [res aux].
      unfold lazy_flags, with_zf. cbn [f_cf f_pf f_af f_sf f_of].
      f_equal.
      * hbits; reflexivity.
      * f_equal. apply odd_ones_ext. intros i Hi. byte_cases i Hi; hbits; reflexivity.
      * hbits; reflexivity.
      * now rewrite w32_putw.
      * hbits; reflexivity.
      * hbits; reflexivity.
  - destruct (e_fault E true (ea m _) (wbytes W64)) eqn:F2; unfold run; expand_list; sym'; access; sym';
    rewrite !Pa, J; sym'.
    + erewrite store_step by (cbn [hr h_rdx h_r8 num]; rewrite ?getw_setw, ?getw_idem, ?getw_ea; reflexivity).
      rewrite F2. forget.
    + erewrite store_step by (cbn [hr h_rdx h_r8 num]; rewrite ?getw_setw, ?getw_idem, ?getw_ea, ?getw_mload; reflexivity).
      rewrite F2. unfold stored; cbn [hr h_rax h_rbx h_rcx h_rdx h_r8 h_r9 h_r10 h_r11 ctx gmem loc ncall masked].
      sym'. skip. rewrite !if00. cbn [exec].
      eexists; split; [reflexivity |].
      eapply becomes_flags; [exact Hok | reflexivity
        | cbn [ctx]; unfold set_aux, set_res, set_gprs; cbn [gprs segb eflags eip res aux cr4 gsel];
          rewrite !getw32_setw64; rewrite hi_word by exact Ra; rewrite getw_mod; reflexivity
        | reflexivity | reflexivity |].
      unfold flags_now; cbn [ctx]; rewrite read_flags by exact Hok. cbn [res aux].
      change (getw W32 256) with 256. apply clear_zf.
Qed.
