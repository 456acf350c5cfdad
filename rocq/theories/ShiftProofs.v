(** * Shifts, rotates and bit tests *)

From Coq Require Import ZArith Bool List Lia ZifyBool.
From Verif Require Import HostModel AluModel AluSpec HostProofs LazyFlagsProofs FlagsApiProofs
  FlagArith SymExec EaProofs AluProofs AluForms UnaryProofs XchgProofs ShiftModel ShiftSpec.
Import ListNotations.
Local Open Scope Z_scope.

(** ** The flag word made of the host's CF and OF *)

Definition cfof (c o : bool) : Z := b2z c * 2 ^ 31 + b2z (xorb c o) * 2 ^ 30.

Lemma cfof_bits c o i : 0 <= i < 30 -> Z.testbit (cfof c o) i = false.
Proof.
  intros H. unfold cfof, b2z.
  replace ((if c then 1 else 0) * 2 ^ 31 + (if xorb c o then 1 else 0) * 2 ^ 30)
    with (Z.shiftl ((if c then 1 else 0) * 2 + (if xorb c o then 1 else 0)) 30)
    by (rewrite Z.shiftl_mul_pow2 by lia; destruct c, o; reflexivity).
  now rewrite Z.shiftl_spec_low by lia.
Qed.

Lemma lazy_cfof w v R A c o : arith_w w -> 0 <= v < modulus w ->
  w32 R = w32 (sext w v) -> w32 A = cfof c o ->
  lazy_flags R A = mkaf c (even_parity v) false (v =? 0) (signed w v <? 0) o.
Proof.
  intros Hw Hv HR HA.
  assert (B : forall i, 0 <= i < 32 -> Z.testbit A i = Z.testbit (cfof c o) i)
    by (intros i Hi; now rewrite <- (w32_bit A i Hi), HA).
  assert (A0 : Z.testbit A 0 = false) by (rewrite B by lia; apply cfof_bits; lia).
  destruct (res_bits w R A v Hw A0 HR) as (P & ZR & S).
  rewrite Z.mod_small in * by assumption.
  unfold lazy_flags. f_equal.
  - rewrite B by lia. now destruct c, o.
  - apply parity_from_res; [| exact P]. intros i Hi. rewrite B by lia. apply cfof_bits. lia.
  - rewrite B by lia. apply cfof_bits. lia.
  - exact ZR.
  - exact S.
  - rewrite !B by lia. now destruct c, o.
Qed.

(** merging it into the old word *)
Lemma lazy_merge r a A c o :
  w32 A = Z.lor (Z.land (w32 a) 0x3FFFFFFF) (cfof c o) ->
  lazy_flags r A = mkaf c (f_pf (lazy_flags r a)) (f_af (lazy_flags r a)) (f_zf (lazy_flags r a))
                        (f_sf (lazy_flags r a)) o.
Proof.
  intros HA.
  assert (B : forall i, 0 <= i < 32 -> Z.testbit A i =
            Z.testbit a i && (i <? 30) || Z.testbit (cfof c o) i).
  { intros i Hi. rewrite <- (w32_bit A i Hi), HA, Z.lor_spec, Z.land_spec, w32_bit by assumption.
    change 0x3FFFFFFF with (Z.ones 30). now rewrite Z.testbit_ones_nonneg by lia. }
  rewrite (lazy_low r a A).
  - rewrite !B by lia. cbn [Z.ltb Z.compare]. rewrite !andb_false_r. now destruct c, o.
  - intros i Hi. rewrite B, cfof_bits by lia. replace (i <? 30) with true by lia.
    now rewrite andb_true_r, orb_false_r.
Qed.

(** ** One host operation on RAX *)

(** [i] puts [v] in the low part of RAX and leaves the host flags [f] *)
Definition acts (E : henv) (i : instr) (w : width) (s : hst) (v : Z) (f : hflg) : Prop :=
  step E i s = Done (set_hf f (set_hr (rset RAX (N (setw w (num E (h_rax (hr s))) v)) (hr s)) s)).

Lemma acts_exec E i tl w s v f : acts E i w s v f ->
  exec E (i :: tl) (Done s) =
  exec E tl (Done (set_hf f (set_hr (rset RAX (N (setw w (num E (h_rax (hr s))) v)) (hr s)) s))).
Proof. intros H. now rewrite exec_step, H. Qed.

Lemma shift_acts E op w s co a c n :
  arith_w w -> op_read E (Rg w RAX) s = Some a -> op_read E co s = Some c ->
  Z.land c 31 = n -> n <> 0 ->
  acts E (IShift op (Rg w RAX) co) w s (shift_val op w a n)
    (mkf (shift_val op w a n =? 0) (shift_cf op w a n) (top w (shift_val op w a n)) (shift_of op w a n)).
Proof.
  intros Hw Ha Hc Hn H0. unfold acts. cbn [step]. rewrite Ha, Hc. cbn [bind opw].
  replace (cmask w) with 31 by (destruct w; try reflexivity; now elim Hw).
  rewrite Hn. destruct (Z.eqb_spec n 0) as [-> | _]; [now elim H0 |].
  now destruct s as [[q1 q2 q3 q4 q5 q6 q7 q8] q9 q10 q11 q12 q13 q14].
Qed.

Lemma shd_acts E op w s so co a b c n :
  arith_w w -> op_read E (Rg w RAX) s = Some a -> op_read E so s = Some b -> op_read E co s = Some c ->
  Z.land c 31 = n -> n <> 0 ->
  acts E (IShd op (Rg w RAX) so co) w s (shd_val op w a b n)
    (mkf (shd_val op w a b n =? 0) (shd_cf op w a n) (top w (shd_val op w a b n))
         (xorb (top w a) (top w (shd_val op w a b n)))).
Proof.
  intros Hw Ha Hb Hc Hn H0. unfold acts. cbn [step]. rewrite Ha, Hb, Hc. cbn [bind opw].
  replace (cmask w) with 31 by (destruct w; try reflexivity; now elim Hw).
  rewrite Hn. destruct (Z.eqb_spec n 0) as [-> | _]; [now elim H0 |].
  now destruct s as [[q1 q2 q3 q4 q5 q6 q7 q8] q9 q10 q11 q12 q13 q14].
Qed.

Lemma rot_acts E op w s co a c n v cy :
  arith_w w -> op_read E (Rg w RAX) s = Some a -> op_read E co s = Some c ->
  Z.land c 31 = n -> n <> 0 -> rot op w a (hcf (hf s)) n = (v, cy) ->
  acts E (IRot op (Rg w RAX) co) w s v (mkf (hzf (hf s)) cy (hsf (hf s)) (rot_of op w v cy)).
Proof.
  intros Hw Ha Hc Hn H0 Hr. unfold acts. cbn [step]. rewrite Ha, Hc. cbn [bind opw].
  replace (cmask w) with 31 by (destruct w; try reflexivity; now elim Hw).
  rewrite Hn. destruct (Z.eqb_spec n 0) as [-> | _]; [now elim H0 |].
  rewrite Hr. now destruct s as [[q1 q2 q3 q4 q5 q6 q7 q8] q9 q10 q11 q12 q13 q14].
Qed.

(** ** Values *)

Lemma shift_val_range op w a n : 0 <= a < modulus w -> 0 <= n ->
  0 <= shift_val op w a n < modulus w.
Proof.
  intros Ha Hn. destruct op; cbn [shift_val]; try apply getw_range.
  rewrite Z.shiftr_div_pow2 by assumption.
  assert (0 < 2 ^ n) by (apply Z.pow_pos_nonneg; lia).
  split; [apply Z.div_pos; lia |]. apply Z.le_lt_trans with a; [| lia].
  apply Z.div_le_upper_bound; nia.
Qed.

Lemma shift_val_spec op w a n : 0 <= a < modulus w -> 0 <= n ->
  shift_val op w a n = shift_value op w a n.
Proof.
  intros Ha Hn. destruct op; cbn [shift_val shift_value].
  - now rewrite getw_mod, Z.shiftl_mul_pow2.
  - now rewrite Z.shiftr_div_pow2.
  - now rewrite getw_mod, Z.shiftr_div_pow2, sext_signed, (getw_small w a Ha).
Qed.

Lemma shift_cf_spec op w a n : 0 <= a < modulus w -> 0 < n -> n <= wbits w \/ op = SSar ->
  shift_cf op w a n = shift_carry op w a n.
Proof.
  intros Ha Hn Hle. destruct op; cbn [shift_cf shift_carry].
  - destruct Hle as [Hle | ?]; [| discriminate]. rewrite Z.shiftl_spec by (destruct w; cbn; lia). reflexivity.
  - reflexivity.
  - now rewrite sext_signed, (getw_small w a Ha).
Qed.

Lemma shift_flags_spec op w a n z sf : 0 <= a < modulus w -> 0 < n ->
  shift_flags op w a n
    (mkaf (shift_cf op w a n) (even_parity (shift_val op w a n)) false (shift_val op w a n =? 0)
          (signed w (shift_val op w a n) <? 0)
          (hof (mkf z (shift_cf op w a n) sf (shift_of op w a n)))).
Proof.
  intros Ha Hn. unfold shift_flags, result_flags. cbn [f_cf f_pf f_zf f_sf f_of hof].
  rewrite (shift_val_spec op w a n) by (assumption || lia).
  split; [auto |]. split; [intros H; now apply shift_cf_spec |].
  intros ->. destruct op; cbn [shift_of].
  - rewrite shift_val_spec, (shift_cf_spec SShl w a 1) by (assumption || lia || (left; destruct w; cbn; lia)). reflexivity.
  - unfold top, sign_bit. cbn [shift_val]. rewrite !Z.shiftr_spec by (destruct w; cbn; lia).
    replace (wbits w - 1 + 1) with (wbits w) by lia. replace (wbits w - 2 + 1) with (wbits w - 1) by lia.
    replace (Z.testbit a (wbits w)) with false; [apply xorb_false_l |].
    symmetry. rewrite <- (Z.mod_small a (modulus w)) by assumption. unfold modulus.
    apply Z.mod_pow2_bits_high. destruct w; cbn; lia.
  - reflexivity.
Qed.

(** ** Emitted shifts *)

Lemma count_mod v : Z.land v 31 = v mod 32.
Proof. change 31 with (Z.ones 5). now rewrite Z.land_ones by lia. Qed.

(** straight-line steps up to the next operation, access or jump *)
Ltac sym1h :=
  lazymatch goal with
  | |- context [exec _ (?i :: _) (Done _)] =>
      lazymatch i with
      | ILoad _ => fail | IStore _ => fail
      | IShift _ (Rg _ RAX) _ => fail | IShd _ _ _ _ => fail | IRot _ _ _ => fail
      | IJcc _ _ => fail
      | ?op _ => first [is_var op; fail 1 | sym1]
      | _ => sym1
      end
  end.
Ltac symh := repeat sym1h; rewrite ?getw_putw, ?getw_setw, ?getw_idem; try rewrite !getw_gget;
  try rewrite !getw_mload; try rewrite !getw_ea.

Ltac nost := unfold set_hf, set_hr; cbn [rset hr hf h_rax h_rbx h_rcx h_rdx h_r8 h_r9 h_r10 h_r11
    ctx gmem loc ncall masked].

(** the second source of a double shift *)
Definition second (w : width) (sec : option gop) : list instr :=
  match sec with Some g => [MOV (Rg w RBX) (g_opnd w g)] | None => [] end.

Definition second_val (w : width) (sec : option gop) (b : Z) (c : gctx) : Prop :=
  match sec with Some g => read_gop w g c = b | None => True end.

Definition second_in (E : henv) (w : width) (sec : option gop) (b : Z) (s : hst) : Prop :=
  match sec with Some _ => op_read E (Rg w RBX) s = Some b | None => True end.

Definition sh_flags (w : width) (v : Z) (f : hflg) : aflags :=
  mkaf (hcf f) (even_parity v) false (v =? 0) (signed w v <? 0) (hof f).

(** what is known of the host operation *)
Definition sh_op (E : henv) (op : opnd -> instr) (w : width) (sec : option gop) (a b n v : Z) (f : hflg) : Prop :=
  forall s co c, op_read E (Rg w RAX) s = Some a -> second_in E w sec b s -> op_read E co s = Some c ->
    Z.land c 31 = n -> acts E (op co) w s v f.

(** as [rd], with the operand's value known *)
Ltac rd' := cbn [op_read rget hr h_rax h_rbx h_rcx h_rdx h_r8 h_r9 h_r10 h_r11 num];
  rewrite ?getw_setw, ?getw_putw, ?getw_idem, ?getw_gget, ?getw_mload; f_equal; assumption || reflexivity.

Ltac close_cfof Hw Hok Hv f :=
  eexists; split; [reflexivity |];
  eapply becomes_flags; [ exact Hok | reflexivity
    | cbn [ctx]; unfold set_aux, set_res, set_gprs; cbn [gprs segb eflags eip res aux cr4 gsel]; reflexivity
    | cbn [gmem]; reflexivity | reflexivity |];
  apply lazy_cfof; [ exact Hw | exact Hv
    | rewrite ?w32_putw, ?w32_getw, ?sext32_w32, ?getw_setw, ?getw_putw, ?getw_idem, ?sext_getw,
        ?w32_putw, ?w32_getw, ?sext32_w32; reflexivity
    | rewrite ?w32_putw, ?w32_getw;
      destruct f as [zf0 cf0 sf0 of0]; cbn [holds hcf hof];
      destruct cf0, of0; reflexivity ].

Section Sh.
Variables (E : henv) (op : opnd -> instr) (w : width) (sec : option gop) (a b n v : Z) (f : hflg).
Hypothesis Hw : arith_w w.
Hypothesis Hn : 0 < n < 32.
Hypothesis Hv : 0 <= v < modulus w.
Hypothesis Hop : sh_op E op w sec a b n v f.

Lemma imm_count : Z.land (getw W8 n) 31 = n.
Proof.
  rewrite getw_small by (change (modulus W8) with 256; lia). rewrite count_mod. apply Z.mod_small. lia.
Qed.

Lemma gen_reg_imm g s : h_rcx (hr s) = P PCtx -> ctx_ok (ctx s) -> read_gop w g (ctx s) = a ->
  second_val w sec b (ctx s) ->
  effect E (emit_sh_reg w g false (second w sec) op n) w s None None
    (regs_after w (RmReg g) v s) (gmem s) (sh_flags w v f).
Proof.
  intros Hcx Hok Ha Hb. unfold emit_sh_reg, effect, first_fault, regs_after.
  destruct g as [h r]. unfold read_gop in *. cbn [g_high g_reg] in *. start_state s Hcx.
  destruct w; try (now elim Hw); destruct sec as [[hs rs'] |]; cbn [second second_val] in *; unfold run;
  expand_list; symh;
  (erewrite acts_exec; [| apply (Hop _ _ (getw W8 n)); [rd' | unfold second_in; try exact I; rd' | reflexivity | exact imm_count]]);
  nost; symh; rewrite ?(getw_small _ _ Hv); close_cfof Hw Hok Hv f.
Qed.

Lemma gen_reg_cl g s : h_rcx (hr s) = P PCtx -> ctx_ok (ctx s) -> read_gop w g (ctx s) = a ->
  second_val w sec b (ctx s) -> Z.land (getw W8 (num E (h_r9 (hr s)))) 31 = n ->
  effect E (emit_sh_reg w g true (second w sec) op 0) w s None None
    (regs_after w (RmReg g) v s) (gmem s) (sh_flags w v f).
Proof.
  intros Hcx Hok Ha Hb H9. unfold emit_sh_reg, effect, first_fault, regs_after.
  destruct g as [h r]. unfold read_gop in *. cbn [g_high g_reg] in *. start_state s Hcx.
  destruct w; try (now elim Hw); destruct sec as [[hs rs'] |]; cbn [second second_val] in *; unfold run;
  expand_list; symh;
  (erewrite acts_exec; [| eapply Hop; [rd' | unfold second_in; try exact I; rd' | reflexivity |
     cbn [rget hr h_rcx num]; rewrite ?getw_setw, ?getw_idem; exact H9]]);
  nost; symh; rewrite ?(getw_small _ _ Hv); close_cfof Hw Hok Hv f.
Qed.

(** the memory forms; [early]: EDX is restored before the operation *)
Definition sh_mem (early : bool) (m : memop) (cl : bool) : list instr :=
  let d := Rg w RAX in
  emit_ea m ++
  [MOV hEBX hEDX] ++ (if cl then [MOV (local W8 0) R9B] else []) ++ [ILoad w] ++
  (if early then [MOV hEDX hEBX] else []) ++ second w sec ++
  (if cl then [MOV CL (local W8 0); op CL] else [op (Im W8 n)]) ++
  [MOV (local w 0) d; MOV (Rg w R8) d] ++ (if early then [] else [MOV hEDX hEBX]) ++
  (if cl then [RELOAD_RCX_CTX] else []) ++
  cfof_mem ++ [IStore w; MOV d (local w 0)] ++ set_flags d hEBX w.

Lemma gen_mem early m cl s : h_rcx (hr s) = P PCtx -> ctx_ok (ctx s) -> memop_ok m (ctx s) ->
  (sec = None \/ early = true) ->
  mload (gmem s) w (ea m (ctx s)) = a ->
  second_val w sec b (ctx s) -> (cl = true -> Z.land (getw W8 (num E (h_r9 (hr s)))) 31 = n) ->
  effect E (sh_mem early m cl) w s (Some m) (Some m)
    (gprs (ctx s)) (mem_after w (RmMem m) v s) (sh_flags w v f).
Proof.
  intros Hcx Hok Hm He Ha Hb H9. unfold sh_mem, effect, first_fault, mem_after.
  start_state s Hcx. run_ea m Hm.
  destruct cl; [specialize (H9 eq_refl) | clear H9];
  (destruct He as [He | ->]; [rewrite He in *; destruct early |]);
  (destruct w; try (now elim Hw)); try (destruct sec as [[hs rs'] |]); cbn [second second_val] in *; faults;
  unfold run; expand_list; symh; access; symh; try forget;
  (erewrite acts_exec; [| eapply Hop; [rd' | unfold second_in; try exact I; rd' | reflexivity |
     first [exact imm_count | cbn [rget hr h_rcx num]; rewrite ?getw_setw, ?getw_putw, ?getw_idem; eassumption]]]);
  nost; symh; access; symh; try forget.
  all: rewrite ?(getw_small _ _ Hv).
  all: close_cfof Hw Hok Hv f.
Qed.
End Sh.
