(** * Properties of the context of translated code *)

From Coq Require Import ZArith Bool List Lia.
From Verif Require Import SegModel SegProofs ModeModel CtxModel CtxSpec CtxProofs SegProps.
Import ListNotations.
Local Open Scope Z_scope.

(** ** C92: a translated block does what its instructions do one at a time *)

(** The block translated in the state [s0], entered at its start or after any of its
    instructions by a cpu whose mode, flags, CS base and page tables are those of [s0]:
    the result is that of fetching and executing some of its instructions one at a time,
    in whatever state each of them finds.  The code is not written meanwhile, and only
    the last instruction executed may be MOV CR3. *)
Theorem C92_block_partial : forall X (code : st X -> Z -> ins * Z) room s0 s p l1 l2, by_tables X code -> agrees X s0 s -> 0 <= p < 2 ^ 32 ->
  translate (code s0) room (ctx_of X s0) p = l1 ++ l2 -> pc X s = (p + bytes l1) mod 2 ^ 32 ->
  (forall x, In x (removelast l2) -> ~ sets_cr3 x) ->
  exists k, (k <= length l2)%nat /\ (l2 <> [] -> (0 < k)%nat) /\ run X (ctx_of X s0) (pc X s) l2 s = steps X code k s.
Proof.
  intros X code room s0 s p l1 l2 BT [ST K] R T P N. apply run_steps.
  - exact K.
  - unfold pc, w32. now rewrite Zmod_mod.
  - unfold pc, w32. now rewrite Zmod_mod.
  - intros m1 i n m2 E s' (Hh & _ & _ & H0 & H4) H3. destruct ST as (S0 & S3 & S4 & Sc).
    rewrite <- (BT s0 s').
    + rewrite P. unfold w32. rewrite Zplus_mod_idemp_l. fold (w32 (p + bytes l1 + bytes m1)).
      replace (p + bytes l1 + bytes m1) with (p + bytes (l1 ++ m1)).
      * eapply translate_code; [exact R |]. rewrite T, E. rewrite <- app_assoc. reflexivity.
      * unfold bytes. rewrite fold_right_app. clear. induction l1 as [| x l1 IH]; cbn [fold_right]; lia.
    + repeat split; [congruence | | congruence | unfold cpl in *; congruence].
      rewrite H3; [exact S3 |]. intros x Ix. apply N. rewrite E. clear - Ix. induction m1 as [| y m1 IH]; [destruct Ix |].
      change ((y :: m1) ++ (i, n) :: m2) with (y :: (m1 ++ (i, n) :: m2)).
      assert (Ne : m1 ++ (i, n) :: m2 <> []) by (destruct m1; discriminate).
      cbn [removelast]. destruct (m1 ++ (i, n) :: m2) as [| z r] eqn:Z0; [congruence |].
      destruct Ix as [-> | Ix]; [now left | right; now apply IH].
Qed.
Print Assumptions C92_block_partial.

(** With code that all page tables map alike MOV CR3 may stand anywhere. *)
Theorem C92_shared_code : forall X (code : st X -> Z -> ins * Z) room s0 s p l1 l2, by_mode X code ->
  cr0 X s0 = cr0 X s -> cr4 X s0 = cr4 X s -> key (ctx_of X s0) = key (ctx_of X s) -> 0 <= p < 2 ^ 32 ->
  translate (code s0) room (ctx_of X s0) p = l1 ++ l2 -> pc X s = (p + bytes l1) mod 2 ^ 32 ->
  exists k, (k <= length l2)%nat /\ (l2 <> [] -> (0 < k)%nat) /\ run X (ctx_of X s0) (pc X s) l2 s = steps X code k s.
Proof.
  intros X code room s0 s p l1 l2 BM S0 S4 K R T P. apply run_steps.
  - exact K.
  - unfold pc, w32. now rewrite Zmod_mod.
  - unfold pc, w32. now rewrite Zmod_mod.
  - intros m1 i n m2 E s' (Hh & _ & _ & H0 & H4) _.
    rewrite <- (BM s0 s').
    + rewrite P. unfold w32. rewrite Zplus_mod_idemp_l. fold (w32 (p + bytes l1 + bytes m1)).
      replace (p + bytes l1 + bytes m1) with (p + bytes (l1 ++ m1)).
      * eapply translate_code; [exact R |]. rewrite T, E. rewrite <- app_assoc. reflexivity.
      * unfold bytes. rewrite fold_right_app. clear. induction l1 as [| x l1 IH]; cbn [fold_right]; lia.
    + congruence.
    + congruence.
    + unfold cpl. rewrite Hh. exact (k_h _ _ (key_like _ _ K) HFLG_CPL eq_refl).
Qed.
Print Assumptions C92_shared_code.

(** A block found under the guest flags and CS base of the cpu is the block that would be
    translated now, and its code does the same. *)
Theorem C92_lookup : forall X c c', key c = key c' ->
  (forall fetch room p, translate fetch room c p = translate fetch room c' p) /\
  (forall l p s, run X c p l s = run X c' p l s).
Proof.
  intros X c c' K. pose proof (key_like _ _ K) as L. split.
  - intros fetch room. induction room as [| room IH]; intros p; cbn [translate]; [reflexivity |].
    rewrite (l_ends _ _ L). now rewrite IH.
  - induction l as [| [i n] l IH]; intros p s; cbn [run]; [reflexivity |]. rewrite (l_all X _ _ L).
    destruct (emit_all X c' p n i s); try reflexivity. destruct (leaves i); [reflexivity | apply IH].
Qed.
Print Assumptions C92_lookup.

(** Blocks linked without a look-up (the target known when the block is translated: JMP,
    CALL, CLTS): whatever state entered the first block, the second is reached with one
    and the same key and address. *)
Definition linked (i : ins) : Prop := match i with Jmp _ _ | Call _ _ | Clts => True | _ => False end.
Lemma link_state : forall X c p n i s s1, linked i -> like c (ctx_of X s) -> emit X c p n i s = Ok X unit tt s1 ->
  hfl X s1 = (match i with Clts => hfl X s .& not32 HFLG_CR0_TS | _ => hfl X s end) /\ ef X s1 = ef X s /\
  base (seg X s1 CS) = base (seg X s CS) /\ eip X s1 = match i with Jmp o r | Call o r => target c p n r o | _ => next_eip c p n end.
Proof.
  intros X c p n i s s1 Li K E. destruct i; try destruct Li; cbn [emit] in E.
  - destruct (nz (ecpl c)); [discriminate E |]. unfold update_cr0 in E. change (2 =? 0) with false in E. change (2 =? 2) with true in E.
    cbn [andb negb] in E. cbv zeta in E. assert (S1 := E). injection S1 as <-. repeat split.
  - injection E as <-. repeat split.
  - unfold bind, gen_push in E. unfold bind in E. unfold mwrite in E. destruct (wr X _ _ _ _ _ _) as [m [[? ?] |]]; [discriminate E |].
    unfold upd in E. injection E as <-. repeat split.
Qed.
Theorem C92_direct_link : forall X c p n i s s' s1 s1', linked i -> key c = key (ctx_of X s) -> key c = key (ctx_of X s') ->
  emit_all X c p n i s = Ok X unit tt s1 -> emit_all X c p n i s' = Ok X unit tt s1' ->
  key (ctx_of X s1) = key (ctx_of X s1') /\ pc X s1 = pc X s1'.
Proof.
  intros X c p n i s s' s1 s1' Li K K' E E'. pose proof (key_like _ _ K) as L. pose proof (key_like _ _ K') as L'.
  assert (Lv : leaves i = true) by (destruct i; try destruct Li; reflexivity).
  unfold emit_all in E, E'. rewrite Lv in E, E'.
  destruct (emit X c p n i s) as [[] t | | |] eqn:F; try discriminate E. destruct (emit X c p n i s') as [[] t' | | |] eqn:F'; try discriminate E'.
  assert (t = s1) by congruence. assert (t' = s1') by congruence. subst t t'.
  destruct (link_state X c p n i s s1 Li L F) as (H1 & H2 & H3 & H4). destruct (link_state X c p n i s' s1' Li L' F') as (G1 & G2 & G3 & G4).
  pose proof (k_b _ _ L) as B. pose proof (k_b _ _ L') as B'. cbn [cb ctx_of] in B, B'.
  pose proof (k_h _ _ L HFLG_CONST eq_refl) as A. pose proof (k_h _ _ L' HFLG_CONST eq_refl) as A'. cbn [ch ctx_of] in A, A'.
  pose proof (k_e _ _ L EFLAGS_CONST eq_refl) as D. pose proof (k_e _ _ L' EFLAGS_CONST eq_refl) as D'. cbn [ce ctx_of] in D, D'.
  split; [apply like_key; cbn [ch ce cb ctx_of] |].
  - rewrite H1, G1. destruct i; try destruct Li; [| congruence | congruence].
    rewrite <- !Z.land_assoc, (Z.land_comm (not32 _)), !Z.land_assoc. congruence.
  - congruence.
  - congruence.
  - unfold pc. congruence.
Qed.
Print Assumptions C92_direct_link.

(** ** MOV CR3 does not end a block: the instructions after it are those the old page
    tables mapped *)

(** protected mode with paging, flat segments, level 0; the program moves to the page
    tables at 0x5000, under which the next instruction is STD; under the old ones it is CLD *)
Definition paged0 : st flat :=
  let s := reset flat (fun _ => 0) in
  set_cr0 flat 0x80000011 (set_hfl flat (HFLG_PE_MODE .| HFLG_CS32 .| HFLG_SS32 .| ZERO_SEL_MASK)
    (set_seg flat (fun _ => mkseg 8 0 0xFFFFFFFF 0xCF9B00) (set_eip flat 0x1000 s))).
Definition switching (s : st flat) (p : Z) : ins * Z :=
  if p =? 0x1000 then (MovCr 3 0x5000, 3) else if cr3 flat s =? 0x5000 then (Std, 1) else (Cld, 1).
Definition df (o : out flat unit) : option bool := match o with Ok _ _ _ s => Some (nz (ef flat s .& DF_MASK)) | _ => None end.
Definition at_eip (o : out flat unit) : option Z := match o with Ok _ _ _ s => Some (eip flat s) | _ => None end.

Theorem C92_refuted_cr3 : exists l, by_tables flat switching /\ agrees flat paged0 paged0 /\
  translate (switching paged0) 2 (ctx_of flat paged0) 0x1000 = l /\ pc flat paged0 = 0x1000 /\ length l = 2%nat /\
  (forall k, (k <= 2)%nat -> run flat (ctx_of flat paged0) 0x1000 l paged0 <> steps flat switching k paged0) /\
  df (run flat (ctx_of flat paged0) 0x1000 l paged0) = Some false /\ df (steps flat switching 2 paged0) = Some true.
Proof.
  exists [(MovCr 3 0x5000, 3); (Cld, 1)].
  assert (E : forall o o', at_eip o <> at_eip o' -> o <> o') by (intros o o' H ->; now apply H).
  assert (D : forall o o', df o <> df o' -> o <> o') by (intros o o' H ->; now apply H).
  split; [| split; [| split; [| split; [| split; [| split; [| split]]]]]].
  - intros s s' p (_ & H & _). unfold switching. now rewrite H.
  - repeat split.
  - vm_compute. reflexivity.
  - vm_compute. reflexivity.
  - reflexivity.
  - intros k H. destruct k as [| [| [| k]]]; [| | | lia].
    + apply E. vm_compute. discriminate.
    + apply E. vm_compute. discriminate.
    + apply D. vm_compute. discriminate.
  - vm_compute. reflexivity.
  - vm_compute. reflexivity.
Qed.
Print Assumptions C92_refuted_cr3.

(** *** The hypotheses can be met *)

(** a block of seven instructions with a CALL in the middle, ended by a move to SS *)
Definition prog (_ : st flat) (p : Z) : ins * Z :=
  if p =? 0x1000 then (Cli, 1) else if p =? 0x1001 then (Push false 77, 2) else if p =? 0x1003 then (Call false 0x100, 5)
  else if p =? 0x1008 then (Std, 1) else if p =? 0x1009 then (MovEsp DS 0x2000, 6) else if p =? 0x100F then (Sti, 1)
  else (MovSel SS 0x10, 2).
Example C92_program : by_tables flat prog /\ by_mode flat prog /\ agrees flat paged0 paged0 /\ pc flat paged0 = 0x1000 /\
  let l1 := [(Cli, 1); (Push false 77, 2); (Call false 0x100, 5)] in
  let l2 := [(Std, 1); (MovEsp DS 0x2000, 6); (Sti, 1); (MovSel SS 0x10, 2)] in
  translate (prog paged0) 20 (ctx_of flat paged0) 0x1000 = l1 ++ l2 /\
  (forall x, In x (removelast l2) -> ~ sets_cr3 x) /\
  at_eip (run flat (ctx_of flat paged0) 0x1000 (l1 ++ l2) paged0) = Some 0x1108 /\
  agrees flat paged0 (set_eip flat 0x1008 (set_esp flat 0x900 paged0)) /\
  pc flat (set_eip flat 0x1008 (set_esp flat 0x900 paged0)) = (0x1000 + bytes l1) mod 2 ^ 32.
Proof.
  split; [| split; [| split; [| split; [| cbv zeta; split; [| split; [| split; [| split]]]]]]].
  - intros s s' p _. reflexivity.
  - intros s s' p _ _ _. reflexivity.
  - repeat split.
  - vm_compute. reflexivity.
  - vm_compute. reflexivity.
  - intros x Ix [v V]. cbn [removelast In] in Ix. destruct Ix as [<- | [<- | [<- | []]]]; discriminate V.
  - vm_compute. reflexivity.
  - repeat split.
  - vm_compute. reflexivity.
Qed.
(** keys that differ: IOPL is in them, the interrupt flag is not *)
Example C92_keys : key (mkctx 3 0x3002 0) <> key (mkctx 3 2 0) /\ key (mkctx 3 0x202 0) = key (mkctx 3 2 0) /\
  if_flag (mkctx 19 0x3002 0) <> if_flag (mkctx 19 2 0).
Proof. split; [vm_compute; discriminate | split; [reflexivity | vm_compute; discriminate]]. Qed.
Example C92_linked : exists s1, emit_all flat (ctx_of flat paged0) 0x1000 2 Clts paged0 = Ok flat unit tt s1 /\ eip flat s1 = 0x1002.
Proof. eexists. split; [unfold emit_all, emit; reflexivity | reflexivity]. Qed.

(** *** The instructions themselves, in the state they are executed in *)

(** the flag of a register is set only if its base is zero (kept by every instruction, C22) *)
Definition zero_flags (X : memsys) (s : st X) : Prop := forall r, nz (hfl X s .& zero_bit r) = true -> base (seg X s r) = 0.
Definition opsize (X : memsys) (s : st X) (o66 : bool) : Z := if xorb (Z.testbit (hfl X s) 2) o66 then 4 else 2.
Definition wide_stack (X : memsys) (s : st X) : bool := Z.testbit (hfl X s) 3.
(** the stack pointer after a push: ESP, or SP with the upper half kept *)
Definition pushed_at (X : memsys) (s : st X) (n : Z) : Z := (esp X s - n) mod (if wide_stack X s then 2 ^ 32 else 2 ^ 16).
Definition pushed_esp (X : memsys) (s : st X) (n : Z) : Z :=
  if wide_stack X s then pushed_at X s n else esp X s - esp X s mod 2 ^ 16 + pushed_at X s n.
Definition jump_to (X : memsys) (s : st X) (o66 : bool) (d : Z) : Z := (eip X s + d) mod (if opsize X s o66 =? 4 then 2 ^ 32 else 2 ^ 16).

Lemma nz_bit2 h : nz (h .& HFLG_CS32) = Z.testbit h 2.
Proof.
  unfold nz, HFLG_CS32. change 4 with (2 ^ 2). destruct (Z.testbit h 2) eqn:B.
  - apply negb_true_iff, Z.eqb_neq. intros E. apply (f_equal (fun z => Z.testbit z 2)) in E. rewrite Z.land_spec, B in E. discriminate E.
  - apply negb_false_iff, Z.eqb_eq, Z.bits_inj'. intros k Hk. rewrite Z.land_spec, Z.bits_0, Z.pow2_bits_eqb by lia.
    destruct (Z.eqb_spec 2 k) as [<- |]; [now rewrite B | apply andb_false_r].
Qed.
Lemma nz_bit3 h : nz (h .& HFLG_SS32) = Z.testbit h 3.
Proof.
  unfold nz, HFLG_SS32. change 8 with (2 ^ 3). destruct (Z.testbit h 3) eqn:B.
  - apply negb_true_iff, Z.eqb_neq. intros E. apply (f_equal (fun z => Z.testbit z 3)) in E. rewrite Z.land_spec, B in E. discriminate E.
  - apply negb_false_iff, Z.eqb_eq, Z.bits_inj'. intros k Hk. rewrite Z.land_spec, Z.bits_0, Z.pow2_bits_eqb by lia.
    destruct (Z.eqb_spec 3 k) as [<- |]; [now rewrite B | apply andb_false_r].
Qed.
Lemma osize_op X s o : osize (ctx_of X s) o = opsize X s o.
Proof. unfold osize, opsize. cbn [ch ctx_of]. now rewrite nz_bit2. Qed.
Lemma base_true X s r : zero_flags X s -> ebase X (ctx_of X s) r s = base (seg X s r).
Proof. intros Z. unfold ebase. cbn [ch ctx_of]. destruct (nz _) eqn:E; [symmetry; now apply Z | reflexivity]. Qed.
Lemma low16 e : e .& 0xFFFF = e mod 2 ^ 16. Proof. change 0xFFFF with (Z.ones 16). now rewrite Z.land_ones by lia. Qed.
Lemma esp_true X s s1 n : 0 <= esp X s < 2 ^ 32 -> esp X s1 = esp X s ->
  put_esp X (nz (hfl X s .& HFLG_SS32)) (if nz (hfl X s .& HFLG_SS32) then w32 (esp X s - n) else w16 (w16 (esp X s) - n)) s1 =
  set_esp X (pushed_esp X s n) s1.
Proof.
  intros R E. unfold put_esp, pushed_esp, pushed_at, wide_stack. rewrite nz_bit3. f_equal. destruct (Z.testbit (hfl X s) 3).
  - unfold w32. apply Zmod_mod.
  - rewrite E. unfold w16. rewrite Zmod_mod, Zminus_mod_idemp_l.
    set (v := (esp X s - n) mod 2 ^ 16). assert (V : 0 <= v < 2 ^ 16) by (apply Z.mod_pos_bound; lia). clearbody v.
    assert (H : esp X s .& 0xFFFF0000 = (esp X s / 2 ^ 16) * 2 ^ 16).
    { apply Z.bits_inj'. intros k Hk. rewrite Z.land_spec. change 0xFFFF0000 with (Z.shiftl (Z.ones 16) 16).
      rewrite <- Z.shiftl_mul_pow2, <- Z.shiftr_div_pow2 by lia. rewrite !Z.shiftl_spec by lia.
      destruct (Z.ltb_spec k 16).
      - rewrite (Z.testbit_neg_r (Z.ones 16)), (Z.testbit_neg_r (Z.shiftr _ _)) by lia. apply andb_false_r.
      - rewrite Z.shiftr_spec by lia. replace (k - 16 + 16) with k by lia.
        destruct (Z.ltb_spec k 32).
        + rewrite Z.ones_spec_low by lia. apply andb_true_r.
        + rewrite Z.ones_spec_high by lia. rewrite andb_false_r. symmetry.
          apply Z.bits_above_log2; [lia |]. destruct (Z.eq_dec (esp X s) 0) as [-> |]; [cbn; lia |].
          apply Z.log2_lt_pow2; [lia |]. eapply Z.lt_le_trans; [apply R |]. apply Z.pow_le_mono_r; lia. }
    rewrite H. assert (N : (esp X s / 2 ^ 16 * 2 ^ 16) .& v = 0).
    2: { rewrite <- Z.lxor_lor, <- Z.add_nocarry_lxor by exact N. rewrite (Z.mod_eq (esp X s) (2 ^ 16)) by lia. lia. }
    apply Z.bits_inj'. intros k Hk. rewrite Z.land_spec, Z.bits_0.
    rewrite <- Z.shiftl_mul_pow2 by lia. rewrite Z.shiftl_spec by lia. destruct (Z.ltb_spec k 16).
    + rewrite Z.testbit_neg_r by lia. reflexivity.
    + rewrite <- (Z.mod_small v (2 ^ 16)) by exact V. rewrite Z.mod_pow2_bits_high by lia. apply andb_false_r.
Qed.
Lemma jump_true X s n r o : target (ctx_of X s) (pc X s) n r o = jump_to X s o (n + r).
Proof.
  unfold target, jump_to, pc. cbn [cb ctx_of]. rewrite osize_op. cbv zeta.
  replace (w32 (w32 (base (seg X s CS) + eip X s) - base (seg X s CS) + n + r)) with ((eip X s + (n + r)) mod 2 ^ 32).
  2: { unfold w32. replace ((base (seg X s CS) + eip X s) mod 2 ^ 32 - base (seg X s CS) + n + r)
         with ((base (seg X s CS) + eip X s) mod 2 ^ 32 + (n + r - base (seg X s CS))) by lia.
       rewrite Zplus_mod_idemp_l. f_equal. lia. }
  unfold opsize. destruct (xorb _ _); [reflexivity |]. change (2 =? 2) with true. change (2 =? 4) with false. cbv iota.
  rewrite low16, <- Znumtheory.Zmod_div_mod; [reflexivity | lia | lia |]. now exists (2 ^ 16).
Qed.
Lemma next_true X s n : next_eip (ctx_of X s) (pc X s) n = (eip X s + n) mod 2 ^ 32.
Proof.
  unfold next_eip, pc, w32. cbn [cb ctx_of].
  replace ((base (seg X s CS) + eip X s) mod 2 ^ 32 - base (seg X s CS) + n)
    with ((base (seg X s CS) + eip X s) mod 2 ^ 32 + (n - base (seg X s CS))) by lia.
  rewrite Zplus_mod_idemp_l. f_equal. lia.
Qed.

(** A jump goes to the displacement after the instruction, cut to the operand size; a
    call first pushes the address after the instruction; a push and a load use the
    bases of SS and of the named register. *)
Theorem C92_instructions : forall X s n o66 rel v r off, zero_flags X s -> 0 <= esp X s < 2 ^ 32 ->
  let step i := emit_all X (ctx_of X s) (pc X s) n i s in
  let sz := opsize X s o66 in
  let next := (eip X s + n) mod 2 ^ 32 in
  step (Jmp o66 rel) = Ok X unit tt (set_eip X (jump_to X s o66 (n + rel)) s) /\
  step (Call o66 rel) = bind X (mwrite X sz 0 (pushed_at X s sz + base (seg X s SS)) next)
    (fun _ s1 => Ok X unit tt (set_eip X (jump_to X s o66 (n + rel)) (set_esp X (pushed_esp X s sz) s1))) s /\
  step (Push o66 v) = bind X (mwrite X sz 0 (pushed_at X s sz + base (seg X s SS)) v)
    (fun _ s1 => Ok X unit tt (set_eip X next (set_esp X (pushed_esp X s sz) s1))) s /\
  step (MovEsp r off) = bind X (mread X 4 0 (off + base (seg X s r)))
    (fun w s1 => Ok X unit tt (set_eip X next (set_esp X w s1))) s.
Proof.
  intros X s n o66 rel v r off ZF R step sz next.
  assert (PA : (if nz (hfl X s .& HFLG_SS32) then w32 (esp X s - sz) else w16 (w16 (esp X s) - sz)) = pushed_at X s sz).
  { unfold pushed_at, wide_stack. rewrite nz_bit3. unfold w32, w16. destruct (Z.testbit _ 3); [reflexivity | apply Zminus_mod_idemp_l]. }
  assert (MW : forall a w s1, mwrite X sz 0 a w s = Ok X unit tt s1 -> esp X s1 = esp X s).
  { intros a w s1 E. destruct (memonly_ok X _ s _ _ E (memonly_write X sz 0 a w s)) as [m ->]. reflexivity. }
  subst step. unfold emit_all. cbn [leaves emit]. split; [| split; [| split]].
  - now rewrite jump_true.
  - unfold bind, gen_push. cbn [ch ctx_of]. rewrite osize_op. fold sz. unfold bind. rewrite base_true, next_true, jump_true by exact ZF. fold next.
    rewrite PA. destruct (mwrite X sz 0 (pushed_at X s sz + base (seg X s SS)) next s) as [[] s1 | | |] eqn:E; try reflexivity.
    unfold upd. rewrite <- PA at 1. rewrite (esp_true X s s1 sz R (MW _ _ _ E)). reflexivity.
  - unfold bind, gen_push. cbn [ch ctx_of]. rewrite osize_op. fold sz. unfold bind, to_next. rewrite base_true, next_true by exact ZF. fold next.
    rewrite PA. destruct (mwrite X sz 0 (pushed_at X s sz + base (seg X s SS)) v s) as [[] s1 | | |] eqn:E; try reflexivity.
    unfold upd. rewrite <- PA at 1. rewrite (esp_true X s s1 sz R (MW _ _ _ E)). reflexivity.
  - unfold bind, to_next. rewrite base_true, next_true by exact ZF. fold next. destruct (mread X 4 0 _ s) as [w s1 | | |]; reflexivity.
Qed.
Print Assumptions C92_instructions.
Example C92_zero_flags : zero_flags flat paged0 /\ 0 <= esp flat paged0 < 2 ^ 32 /\ opsize flat paged0 false = 4 /\ jump_to flat paged0 true (-5) = 0xFFB.
Proof. split; [intros r _; reflexivity |]. split; [vm_compute; split; [discriminate | reflexivity] |]. split; reflexivity. Qed.
