(** * ARPL *)

From Coq Require Import ZArith Bool List Lia ZifyBool.
From Verif Require Import HostModel AluModel AluSpec HostProofs LazyFlagsProofs FlagsApiProofs SymExec EaProofs AluProofs
  FlagArith AluForms UnaryProofs XchgProofs CondProofs FlagInstrProofs LahfProofs StackModel StackSpec StackProofs StackProofs2 MoveModel MoveSpec MoveProofs MoveProofs2 MoveProofs3.
Import ListNotations.
Local Open Scope Z_scope.


Lemma mod_4_16 x : (x mod modulus W16) mod 4 = x mod 4.
Proof. change (modulus W16) with (4 * 16384). rewrite Z.rem_mul_r by lia. rewrite Z.mul_comm, Z.mod_add by lia. apply Z.mod_mod. lia. Qed.

Lemma low2 x : 0 <= x < modulus W16 -> getw W16 (Z.land x (getw W16 3)) = rpl x.
Proof.
  intros Hx. unfold rpl. change (getw W16 3) with (Z.ones 2). rewrite Z.land_ones by lia. apply getw_small.
  pose proof (Z.mod_pos_bound x (2 ^ 2)). change (modulus W16) with 65536. change (2 ^ 2) with 4 in *. lia.
Qed.

Lemma adjust16 d r : 0 <= d < modulus W16 -> 0 <= r < 4 ->
  getw W16 (Z.lor (getw W16 (Z.land d (getw W16 (-4)))) r) = d - rpl d + r.
Proof.
  intros Hd Hr. unfold rpl.
  assert (E1 : getw W16 (Z.land d (getw W16 (-4))) = 4 * (d / 4)).
  { change (getw W16 (-4)) with 65532. change (modulus W16) with 65536 in *.
    assert (B : Z.land d 65532 = 4 * (d / 4)).
    { change 4 with (2 ^ 2) at 1 2. rewrite (Z.mul_comm (2 ^ 2)), <- Z.shiftl_mul_pow2, <- Z.shiftr_div_pow2 by lia.
      rewrite <- Z.ldiff_ones_r by lia. apply Z.bits_inj'. intros i Hi. rewrite Z.land_spec, Z.ldiff_spec.
      rewrite <- (Z.mod_small d (2 ^ 16)) by (change (2 ^ 16) with 65536; lia).
      destruct (Z.ltb_spec i 16).
      - assert (i = 0 \/ i = 1 \/ i = 2 \/ i = 3 \/ i = 4 \/ i = 5 \/ i = 6 \/ i = 7 \/ i = 8 \/ i = 9 \/ i = 10 \/ i = 11 \/ i = 12 \/ i = 13 \/ i = 14 \/ i = 15) as Hc by lia.
        f_equal. repeat destruct Hc as [-> | Hc]; try reflexivity. now subst i.
      - rewrite Z.mod_pow2_bits_high by lia. reflexivity. }
    rewrite B. apply getw_small. change (modulus W16) with 65536. pose proof (Z.div_mod d 4). pose proof (Z.mod_pos_bound d 4).
    lia. }
  rewrite E1. pose proof (Z.div_mod d 4 ltac:(lia)) as D.
  assert (E2 : Z.lor (4 * (d / 4)) r = 4 * (d / 4) + r).
  { rewrite <- Z.lxor_lor; [symmetry; apply Z.add_nocarry_lxor |];
    (apply Z.bits_inj'; intros i Hi; rewrite Z.land_spec, Z.bits_0;
     change 4 with (2 ^ 2); rewrite (Z.mul_comm (2 ^ 2));
     destruct (Z.ltb_spec i 2);
     [ rewrite Z.mul_pow2_bits_low by lia; reflexivity
     | rewrite <- (Z.mod_small r (2 ^ 2)) by (change (2 ^ 2) with 4; lia); rewrite Z.mod_pow2_bits_high by lia; apply andb_false_r ]). }
  pose proof (Z.mod_pos_bound d 4 ltac:(lia)). assert (d / 4 < 16384) by (apply Z.div_lt_upper_bound; change (modulus W16) with 65536 in *; lia).
  assert (0 <= d / 4) by (apply Z.div_pos; lia). rewrite E2, getw_small; [lia |]. change (modulus W16) with 65536 in *. lia.
Qed.

(** ZF set by clearing the result and keeping the other flags in the second word *)
Lemma set_zf r a :
  lazy_flags (putw W32 r (getw W32 0))
    (putw W32 a (getw W32 (Z.lor (getw W32 (Z.lor (getw W32 (Z.land (getw W32 (Z.lxor (getw W32 (Z.shiftl (getw W32 r) 8)) (getw W32 a))) (getw W32 65280)))
       (getw W32 (Z.land (getw W32 a) (getw W32 4294902014)))))
      (getw W32 (Z.lxor (getw W32 (Z.shiftr (getw W32 r) 31)) (getw W32 (Z.land (getw W32 a) (getw W32 1)))))))) = with_zf true (lazy_flags r a).
Proof.
  unfold lazy_flags, with_zf. cbn [f_cf f_pf f_af f_sf f_of]. f_equal.
  - hbits; reflexivity.
  - f_equal. apply odd_ones_ext. intros i Hi. byte_cases i Hi; hbits; reflexivity.
  - hbits; reflexivity.
  - now rewrite w32_putw.
  - hbits; reflexivity.
  - hbits; reflexivity.
Qed.

Lemma rpl_range x : 0 <= rpl x < 4.
Proof. apply Z.mod_pos_bound. reflexivity. Qed.

Lemma arpl_ok E dst src s :
  h_rcx (hr s) = P PCtx -> ctx_ok (ctx s) -> rm_ok dst (ctx s) -> g_high src = false ->
  (forall g, dst = RmReg g -> g_high g = false) ->
  let d := read_rm W16 dst s in let v := read_gop W16 src (ctx s) in
  let adj := arpl_adjusts d v in
  does E (emit_arpl false dst src) s (arpl_acc dst adj (ctx s))
    (if adj then regs_after W16 dst (arpl_value d v) s else gprs (ctx s))
    (if adj then mem_after W16 dst (arpl_value d v) s else gmem s)
    (with_zf adj (flags_now s)).
Proof.
  intros Hcx Hok Hm Hsrc Hdst d v adj. subst d v adj. unfold emit_arpl, arpl_acc, does.
  destruct src as [hs rs']. cbn [g_high] in Hsrc. subst hs.
  destruct dst as [[h r] | m]; cbn [read_rm regs_after mem_after rm_ok rm_acc] in *; unfold read_gop; cbn [g_high g_reg].
  - specialize (Hdst _ eq_refl). cbn [g_high] in Hdst. subst h. start_state s Hcx. cbn [ctx gprs].
    unfold arpl_adjusts, arpl_value.
    set (d := gget W16 false r gp). set (v := gget W16 false rs' gp).
    assert (Rd : 0 <= d < modulus W16) by apply gget_range. assert (Rv : 0 <= v < modulus W16) by apply gget_range.
    assert (J : holds CULT (sub_flags W16 (getw W16 (Z.land d (getw W16 3))) (getw W16 (Z.land v (getw W16 3)))) = (rpl d <? rpl v)).
    { rewrite !low2 by assumption. reflexivity. }
    destruct (rpl d <? rpl v) eqn:Hj; cbn [first_bad app]; unfold run; expand_list; sym'; fold d; fold v; rewrite J.
    + skip. sym'. skip. cbn [exec]. eexists; split; [reflexivity |]. rewrite !if00.
      eapply becomes_flags; [exact Hok | reflexivity
        | cbn [ctx]; unfold set_aux, set_res, set_gprs; cbn [gprs segb eflags eip res aux cr4 gsel]; fold d; fold v;
          rewrite (low2 v Rv), ?getw_idem, ?adjust16 by (try assumption; apply rpl_range); reflexivity
        | reflexivity | reflexivity |].
      unfold flags_now; cbn [ctx]; rewrite read_flags by exact Hok. cbn [res aux]. 
      apply set_zf.
    + sym'. skip. cbn [exec]. eexists; split; [reflexivity |]. rewrite !if00.
      eapply becomes_flags; [exact Hok | reflexivity
        | cbn [ctx]; unfold set_aux, set_res, set_gprs; cbn [gprs segb eflags eip res aux cr4 gsel]; reflexivity
        | reflexivity | reflexivity |].
      unfold flags_now; cbn [ctx]; rewrite read_flags by exact Hok. cbn [res aux].
      change (getw W32 256) with 256. apply clear_zf.
  - start_state s Hcx. rewrite <- ?app_assoc. seg_done. run_ea m Hm. unfold arpl_adjusts, arpl_value. cbn [ctx gprs gmem].
    assert (Ha : getw W32 (ea m (mkg gp sb ef ip rs ax c4 sl)) = ea m (mkg gp sb ef ip rs ax c4 sl)) by apply getw_ea.
    set (a := ea m _) in *. set (d := mload gm W16 a). set (v := gget W16 false rs' gp).
    assert (Rd : 0 <= d < modulus W16) by apply mload_range. assert (Rv : 0 <= v < modulus W16) by apply gget_range.
    assert (J : holds CULT (sub_flags W16 (getw W16 (Z.land d (getw W16 3))) (getw W16 (Z.land v (getw W16 3)))) = (rpl d <? rpl v)).
    { rewrite !low2 by assumption. reflexivity. }
    clearbody a.
    destruct (rpl d <? rpl v) eqn:Hj; cbn [first_bad app]; 
    (destruct (e_fault E false a (wbytes W16)) eqn:F1; [unfold run; expand_list; sym'; access_at Ha; cbn [exec]; forget |]).
    + destruct (e_fault E true a (wbytes W16)) eqn:F2; unfold run; expand_list; sym'; access_at Ha; sym'; fold d; fold v; rewrite J; skip; sym';
      fold d; fold v; rewrite (low2 v Rv), ?adjust16 by (try assumption; apply rpl_range).
      * access_at Ha. cbn [exec]. forget.
      * access_at Ha. sym'. skip. cbn [exec]. eexists; split; [reflexivity |]. rewrite !if00.
        eapply becomes_flags; [exact Hok | reflexivity
          | cbn [ctx]; unfold set_aux, set_res, set_gprs; cbn [gprs segb eflags eip res aux cr4 gsel]; reflexivity
          | cbn [gmem]; rewrite ?getw_setw, ?(low2 v Rv), ?adjust16 by (try assumption; apply rpl_range); reflexivity | reflexivity |].
        unfold flags_now; cbn [ctx]; rewrite read_flags by exact Hok. cbn [res aux]. apply set_zf.
    + unfold run; expand_list; sym'; access_at Ha; sym'; fold d; fold v; rewrite J. sym'. skip. cbn [exec].
      eexists; split; [reflexivity |]. rewrite !if00.
      eapply becomes_flags; [exact Hok | reflexivity
        | cbn [ctx]; unfold set_aux, set_res, set_gprs; cbn [gprs segb eflags eip res aux cr4 gsel]; reflexivity
        | reflexivity | reflexivity |].
      unfold flags_now; cbn [ctx]; rewrite read_flags by exact Hok. cbn [res aux].
      change (getw W32 256) with 256. apply clear_zf.
Qed.
