(** * Data moves and segment registers *)

From Coq Require Import ZArith Bool List Lia ZifyBool.
From Verif Require Import HostModel AluModel AluSpec StackModel StackSpec MoveModel MoveSpec HostProofs LazyFlagsProofs
  FlagsApiProofs FlagArith SymExec EaProofs AluProofs AluForms UnaryProofs XchgProofs CondProofs FlagInstrProofs
  LahfProofs StackProofs StackProofs2.
Import ListNotations.
Local Open Scope Z_scope.

Ltac same Hok := eexists; split; [reflexivity |]; apply becomes_same_flags; [exact Hok | reflexivity | | | reflexivity].

Lemma mov_ok_all E f w s :
  arith_w w -> h_rcx (hr s) = P PCtx -> ctx_ok (ctx s) -> mov_ok f (ctx s) ->
  does E (emit_mov f w) s (mov_acc f w (ctx s)) (regs_after w (mov_dst f) (mov_value f w s) s)
    (mem_after w (mov_dst f) (mov_value f w s) s) (flags_now s).
Proof.
  intros Hw Hcx Hok Hm. unfold does.
  destruct f as [[[h r] | m] [h' r'] | [h' r'] [[h r] | m] | m | m | [[h r] | m] v];
  cbn [mov_ok rm_ok mov_acc rm_acc mov_dst mov_value regs_after mem_after read_rm first_bad] in *; unfold read_gop, acc;
  cbn [g_high g_reg emit_mov]; start_state s Hcx.
  - destruct w; try (now elim Hw); unfold run; expand_list; sym'; same Hok; reflexivity.
  - destruct (e_fault E true _ _) eqn:F; destruct w; try (now elim Hw);
    (erewrite run_seq; [| unfold run; expand_list; sym'; reflexivity]); run_ea m Hm;
    unfold run; expand_list; sym'; access; sym'; cbn [exec];
    try (eexists; split; [reflexivity | repeat split]; fail); same Hok; reflexivity.
  - destruct w; try (now elim Hw); unfold run; expand_list; sym'; same Hok; reflexivity.
  - destruct (e_fault E false _ _) eqn:F; destruct w; try (now elim Hw); run_ea m Hm;
    unfold run; expand_list; sym'; access; sym'; cbn [exec];
    try (eexists; split; [reflexivity | repeat split]; fail); same Hok; reflexivity.
  - destruct (e_fault E false _ _) eqn:F; destruct w; try (now elim Hw); run_ea m Hm;
    unfold run; expand_list; sym'; access; sym'; cbn [exec];
    try (eexists; split; [reflexivity | repeat split]; fail); same Hok; reflexivity.
  - destruct (e_fault E true _ _) eqn:F; destruct w; try (now elim Hw); run_ea m Hm;
    unfold run; expand_list; sym'; access; sym'; cbn [exec];
    try (eexists; split; [reflexivity | repeat split]; fail); same Hok; reflexivity.
  - rewrite <- getw_mod. destruct w; try (now elim Hw); unfold run; expand_list; sym'; same Hok; reflexivity.
  - rewrite <- getw_mod. destruct (e_fault E true _ _) eqn:F; destruct w; try (now elim Hw); run_ea m Hm;
    unfold run; expand_list; sym'; access; sym'; cbn [exec];
    try (eexists; split; [reflexivity | repeat split]; fail); same Hok; reflexivity.
Qed.

(** ** LEA *)

Lemma ea_no_base m c : (forall r, segb c r = 0) -> ea (no_base m) c = ea m c.
Proof. now destruct m. Qed.

Lemma offset_ea m c : ea m (set_segb (fun _ => 0) c) = offset m c.
Proof.
  destruct m as [a32 disp sg z | a32 base index disp mod1 sg z]; cbn [ea offset segb set_segb gprs];
  rewrite Z.add_0_l; (destruct a32; [apply Z.mod_mod; discriminate | apply Z.mod_small]);
  match goal with |- context [?x mod 2 ^ 16] => pose proof (Z.mod_pos_bound x (2 ^ 16) eq_refl) end; lia.
Qed.

Lemma zero_base_blind E m s s0 :
  scale_ok m -> h_rcx (hr s) = P PCtx -> s0 = set_ctx (set_segb (fun _ => 0) (ctx s)) s ->
  match run E (emit_ea (no_base m)) s0 with
  | Done o => run E (emit_ea (no_base m)) s = Done (set_ctx (ctx s) o) | _ => True end.
Proof.
  intros Hm Hcx ->. start_state s Hcx.
  destruct m as [a32 disp sg z | a32 base index disp mod1 sg z]; cbn [no_base].
  - destruct a32; unfold run; expand_list; sym; cbv iota beta; expand_list; sym; reflexivity.
  - destruct a32, base as [b |], index as [[i sc] |], disp as [d |], mod1; cbn [scale_ok] in Hm;
    try (destruct (sc_cases _ Hm) as [-> | [-> | [-> | ->]]]);
    unfold run; expand_list; sym; cbv iota beta; expand_list; sym; reflexivity.
Qed.

Lemma lea_ok E w dst m s :
  w = W16 \/ w = W32 -> h_rcx (hr s) = P PCtx -> ctx_ok (ctx s) -> scale_ok m ->
  does E (emit_lea w dst m) s [] (regs_after w (RmReg dst) (offset m (ctx s) mod modulus w) s) (gmem s) (flags_now s).
Proof.
  intros Hw Hcx Hok Hm. unfold does, emit_lea; cbn [first_bad regs_after].
  set (s0 := set_ctx (set_segb (fun _ => 0) (ctx s)) s).
  assert (Hm0 : memop_ok (no_base m) (ctx s0)).
  { destruct m as [a32 disp sg z | a32 base index disp mod1 sg z]; cbn; [reflexivity |].
    split; [reflexivity |]. destruct index as [[i sc] |]; [exact Hm | exact I]. }
  destruct (ea_run E (no_base m) s0 Hcx Hm0) as (s1 & R1 & f & x & y & HS).
  pose proof (zero_base_blind E m s s0 Hm Hcx eq_refl) as R0. rewrite R1 in R0. clear R1.
  rewrite (run_seq _ _ _ _ _ R0), HS. unfold s0 in HS |- *. cbn [set_ctx hr hf ctx gmem loc ncall masked h_rax h_rbx h_r8 h_r9].
  rewrite ea_no_base, offset_ea, <- getw_mod by reflexivity. set (o := offset m (ctx s)). clearbody o. clear HS Hm0 R0 s0 Hm. start_state s Hcx.
  destruct dst as [h r]. destruct Hw as [-> | ->]; unfold run; expand_list; sym'; same Hok; cbn [ctx gmem]; try reflexivity.
Qed.
