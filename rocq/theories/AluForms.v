(** * Operand plumbing of the two-operand instructions *)

From Coq Require Import ZArith Bool List Lia ZifyBool.
From Verif Require Import HostModel AluModel AluSpec HostProofs LazyFlagsProofs FlagsApiProofs
  FlagArith SymExec EaProofs AluProofs.
Import ListNotations.
Local Open Scope Z_scope.

(** straight-line steps, stopping at memory accesses *)
Ltac sym1' :=
  lazymatch goal with
  | |- context [exec _ (?i :: _) (Done _)] =>
      lazymatch i with ILoad _ => fail | IStore _ => fail | _ => sym1 end
  end.
Ltac sym' := repeat sym1'; rewrite ?getw_putw, ?getw_setw, ?getw_idem; try rewrite !getw_gget; try rewrite !getw_mload; try rewrite !getw_ea.

Ltac start_state s Hcx :=
  let rcx := fresh "rcx" in
  destruct s as [[rax rbx rcx rdx r8 r9 r10 r11] hf0 [gp sb ef ip rs ax c4 sl] gm lc nc mk];
  cbn [hr h_rcx] in Hcx; subst rcx;
  cbn [hr h_rax h_rbx h_rcx h_rdx h_r8 h_r9 h_r10 h_r11 ctx gmem loc ncall masked
       gprs segb eflags eip res aux cr4 gsel] in *.

Ltac run_ea m Hm :=
  let s1 := fresh "s1" in let HR := fresh "HR" in
  lazymatch goal with
  | |- context [run ?E (emit_ea m ++ _) ?s] =>
      destruct (ea_run E m s eq_refl Hm) as (s1 & HR & ? & ? & ? & ->);
      rewrite (run_seq _ _ _ _ _ HR); clear HR;
      cbn [hr h_rax h_rbx h_rcx h_rdx h_r8 h_r9 h_r10 h_r11 ctx gmem loc ncall masked]
  end.

(** one memory access whose outcome is known *)
Ltac access :=
  lazymatch goal with
  | |- context [exec _ (ILoad ?w :: _) (Done _)] =>
      erewrite load_step by (cbn [hr h_rdx num]; rewrite ?getw_setw, ?getw_idem, ?getw_ea; reflexivity)
  | |- context [exec _ (IStore ?w :: _) (Done _)] =>
      erewrite store_step by
        (cbn [hr h_rdx h_r8 num]; rewrite ?getw_setw, ?getw_idem, ?getw_ea; reflexivity)
  end;
  match goal with F : e_fault _ _ _ _ = _ |- _ => rewrite F end;
  unfold loaded, stored;
  cbn [hr h_rax h_rbx h_rcx h_rdx h_r8 h_r9 h_r10 h_r11 ctx gmem loc ncall masked].

Ltac seg := unfold run; expand_list; sym'; repeat (access; sym'); cbn [exec]; reflexivity.
Ltac seg_done := erewrite run_seq; [| seg].
Ltac seg_fault := erewrite run_fault; [| seg].

Ltac pick := first [ left; solve [split; eauto] | right; pick | solve [split; eauto] ].

(** read an operand of a concrete state *)
Ltac rd := cbn [op_read rget hr h_rax h_rbx h_rcx h_rdx h_r8 h_r9 h_r10 h_r11 num];
  rewrite ?getw_setw, ?getw_idem, ?getw_gget, ?getw_mload; reflexivity.

Ltac clean := unfold set_hf, set_hr; cbn [rset hr hf h_rax h_rbx h_rcx h_rdx h_r8 h_r9 h_r10 h_r11
  ctx gmem loc ncall masked].

Ltac do_lam d o rv sv Hw Hok :=
  lazymatch goal with
  | |- context [run ?E (lam_of ?op ?w _ _ ++ _) ?st] =>
      let H := fresh in
      assert (H : exists f v9 v, run E (lam_of op w (Rg w d) o) st =
        Done (set_hf f (set_hr (rset d (N v) (rset R9 v9 (hr st))) st)) /\
        getw w v = alu_value op w rv sv (cf_in (ctx st)));
      [ apply lam_ok; [exact Hw | unfold lam_op; pick | reflexivity | exact Hok | rd | rd] |];
      destruct H as (? & ? & ? & HR & HV);
      rewrite (run_seq _ _ _ _ _ HR); clear HR; clean; cbn [ctx] in HV
  end.

Ltac close_flags Hl Hw Hok HV :=
  apply finish; [ exact Hl | exact Hw | unfold ab_op; pick | reflexivity | rd | rd | clean; cbn [num];
    rewrite ?getw_setw, <- ?HV, ?getw_idem; reflexivity
                | reflexivity | reflexivity | reflexivity | exact Hok ].

Ltac close_logic Hl Hw Hok HV :=
  apply finish_logic; [ exact Hl | exact Hw | auto | reflexivity | clean; cbn [rget h_rax h_rbx num];
    rewrite ?getw_setw, <- ?HV, ?getw_idem; reflexivity
                | reflexivity | reflexivity | reflexivity | exact Hok ].

Ltac forget := eexists; split; [reflexivity | unfold untouched; split; [reflexivity | split; reflexivity]].

Ltac faults :=
  try rewrite <- !app_assoc;
  lazymatch goal with
  | |- context [e_fault ?E false ?a ?n] => destruct (e_fault E false a n) eqn:?
  | _ => idtac
  end;
  try lazymatch goal with
  | |- context [e_fault ?E true ?a ?n] => destruct (e_fault E true a n) eqn:?
  end.

Section Forms.
Variables (E : henv) (op : aluop).

Definition form_effect (w : width) (f : form) (s : hst) : Prop :=
  let a := read_rm w (form_dst f) s in let b := form_src_val w f s in
  let c := cf_in (ctx s) in let v := alu_value op w a b c in
  effect E (emit_alu op w f) w s (form_mem f) (if writes op then rm_mem (form_dst f) else None)
    (if writes op then regs_after w (form_dst f) v s else gprs (ctx s))
    (if writes op then mem_after w (form_dst f) v s else gmem s)
    (alu_flags op w a b c).

Ltac begin s Hcx :=
  unfold form_effect; cbn [form_dst form_mem form_src_val read_rm rm_mem emit_alu regs_after mem_after
    r_to_rm_flags rm_to_r_flags imm_to_eax_flags imm_to_rm_flags r_to_rm rm_to_r imm_to_eax imm_to_rm];
  unfold rm_to_r, imm_to_eax, imm_to_eax_flags, effect, first_fault, read_gop; destruct (writes op) eqn:Hwr; cbn [g_high g_reg];
  start_state s Hcx.

Lemma alu_rm_r_reg w o src s : arith_w w -> h_rcx (hr s) = P PCtx -> ctx_ok (ctx s) ->
  form_effect w (F_rm_r (RmReg o) src) s.
Proof.
  intros Hw Hcx Hok. destruct o as [ho ro], src as [hs rs']. begin s Hcx;
  destruct w; try (now elim Hw); destruct (is_logic op) eqn:Hl; seg_done;
  lazymatch goal with |- context [lam_of _ ?w (Rg _ R8) _] =>
    do_lam R8 (Rg w RBX) (gget w ho ro gp) (gget w hs rs' gp) Hw Hok
  | |- context [lam_of _ ?w (Rg _ RAX) _] =>
    do_lam RAX (Rg w RDX) (gget w ho ro gp) (gget w hs rs' gp) Hw Hok
  end;
  try seg_done; rewrite ?HV;
  first [close_flags Hl Hw Hok HV | close_logic Hl Hw Hok HV].
Qed.

Lemma alu_r_rm_reg w o src s : arith_w w -> h_rcx (hr s) = P PCtx -> ctx_ok (ctx s) ->
  form_effect w (F_r_rm o (RmReg src)) s.
Proof.
  intros Hw Hcx Hok. destruct o as [ho ro], src as [hs rs']. begin s Hcx;
  destruct w; try (now elim Hw); destruct (is_logic op) eqn:Hl; seg_done;
  try seg_done;
  lazymatch goal with |- context [lam_of _ ?w (Rg _ R8) _] =>
    do_lam R8 (Rg w RBX) (gget w ho ro gp) (gget w hs rs' gp) Hw Hok
  | |- context [lam_of _ ?w (Rg _ RBX) _] =>
    do_lam RBX (Rg w RAX) (gget w ho ro gp) (gget w hs rs' gp) Hw Hok
  end;
  try seg_done; rewrite ?HV;
  first [close_flags Hl Hw Hok HV | close_logic Hl Hw Hok HV].
Qed.

Lemma alu_eax_imm w i s : arith_w w -> h_rcx (hr s) = P PCtx -> ctx_ok (ctx s) ->
  form_effect w (F_eax_imm i) s.
Proof.
  intros Hw Hcx Hok. begin s Hcx; rewrite <- getw_mod;
  destruct w; try (now elim Hw); destruct (is_logic op) eqn:Hl; seg_done;
  lazymatch goal with |- context [lam_of _ ?w (Rg _ ?d) _] =>
    do_lam d (Im w i) (gget w false EAX gp) (getw w i) Hw Hok
  end;
  try seg_done; rewrite ?HV;
  first [close_flags Hl Hw Hok HV | close_logic Hl Hw Hok HV].
Qed.

Lemma alu_rm_imm_reg w o i s : arith_w w -> h_rcx (hr s) = P PCtx -> ctx_ok (ctx s) ->
  form_effect w (F_rm_imm (RmReg o) i) s.
Proof.
  intros Hw Hcx Hok. destruct o as [ho ro]. begin s Hcx; rewrite <- getw_mod;
  destruct w; try (now elim Hw); destruct (is_logic op) eqn:Hl; seg_done;
  lazymatch goal with |- context [lam_of _ ?w (Rg _ ?d) _] =>
    do_lam d (Im w i) (gget w ho ro gp) (getw w i) Hw Hok
  end;
  try seg_done; rewrite ?HV;
  first [close_flags Hl Hw Hok HV | close_logic Hl Hw Hok HV].
Qed.

Lemma alu_rm_r_mem w m src s : arith_w w -> h_rcx (hr s) = P PCtx -> ctx_ok (ctx s) ->
  memop_ok m (ctx s) -> form_effect w (F_rm_r (RmMem m) src) s.
Proof.
  intros Hw Hcx Hok Hm. destruct src as [hs rs']. begin s Hcx;
  destruct w; try (now elim Hw); destruct (is_logic op) eqn:Hl;
  run_ea m Hm; faults; try (seg_fault; forget); seg_done;
  lazymatch goal with |- context [lam_of _ ?w (Rg _ R8) _] =>
    do_lam R8 (Rg w RBX) (mload gm w (ea m (mkg gp sb ef ip rs ax c4 sl))) (gget w hs rs' gp) Hw Hok
  | |- context [lam_of _ ?w (Rg _ RAX) _] =>
    do_lam RAX (Rg w RDX) (mload gm w (ea m (mkg gp sb ef ip rs ax c4 sl))) (gget w hs rs' gp) Hw Hok
  end;
  try (seg_fault; forget); try seg_done; rewrite ?HV;
  first [close_flags Hl Hw Hok HV | close_logic Hl Hw Hok HV].
Qed.

Lemma alu_r_rm_mem w o m s : arith_w w -> h_rcx (hr s) = P PCtx -> ctx_ok (ctx s) ->
  memop_ok m (ctx s) -> form_effect w (F_r_rm o (RmMem m)) s.
Proof.
  intros Hw Hcx Hok Hm. destruct o as [ho ro]. begin s Hcx;
  destruct w; try (now elim Hw); destruct (is_logic op) eqn:Hl;
  try seg_done; try rewrite <- !app_assoc; run_ea m Hm; faults; try (seg_fault; forget); seg_done;
  lazymatch goal with |- context [lam_of _ ?w (Rg _ R8) _] =>
    do_lam R8 (Rg w RDX) (gget w ho ro gp) (mload gm w (ea m (mkg gp sb ef ip rs ax c4 sl))) Hw Hok
  | |- context [lam_of _ ?w (Rg _ RBX) _] =>
    do_lam RBX (Rg w RAX) (gget w ho ro gp) (mload gm w (ea m (mkg gp sb ef ip rs ax c4 sl))) Hw Hok
  end;
  try seg_done; rewrite ?HV;
  first [close_flags Hl Hw Hok HV | close_logic Hl Hw Hok HV].
Qed.

Lemma alu_rm_imm_mem w m i s : arith_w w -> h_rcx (hr s) = P PCtx -> ctx_ok (ctx s) ->
  memop_ok m (ctx s) -> form_effect w (F_rm_imm (RmMem m) i) s.
Proof.
  intros Hw Hcx Hok Hm. begin s Hcx; rewrite <- getw_mod;
  destruct w; try (now elim Hw); destruct (is_logic op) eqn:Hl;
  run_ea m Hm; faults; try (seg_fault; forget); seg_done;
  lazymatch goal with |- context [lam_of _ ?w (Rg _ ?d) _] =>
    do_lam d (Im w i) (mload gm w (ea m (mkg gp sb ef ip rs ax c4 sl))) (getw w i) Hw Hok
  end;
  try (seg_fault; forget); try seg_done; rewrite ?HV;
  first [close_flags Hl Hw Hok HV | close_logic Hl Hw Hok HV].
Qed.

Theorem alu_ok w f s : arith_w w -> h_rcx (hr s) = P PCtx -> ctx_ok (ctx s) ->
  form_ok f (ctx s) -> form_effect w f s.
Proof.
  intros Hw Hcx Hok Hf. destruct f as [[o | m] src | o [src | m] | i | [o | m] i]; cbn [form_ok rm_ok] in Hf.
  - now apply alu_rm_r_reg.
  - now apply alu_rm_r_mem.
  - now apply alu_r_rm_reg.
  - now apply alu_r_rm_mem.
  - now apply alu_eax_imm.
  - now apply alu_rm_imm_reg.
  - now apply alu_rm_imm_mem.
Qed.
End Forms.
