(** * A block agrees with execution instruction at a time: proofs *)

From Coq Require Import ZArith Bool List Lia.
From Verif Require Import SegModel SegProofs CtxModel CtxSpec.
Import ListNotations.
Local Open Scope Z_scope.

Lemma disjoint_masks : HFLG_CONST .& EFLAGS_CONST = 0. Proof. reflexivity. Qed.

Lemma or_split : forall a b a' b', (a .& HFLG_CONST) .| (b .& EFLAGS_CONST) = (a' .& HFLG_CONST) .| (b' .& EFLAGS_CONST) ->
  a .& HFLG_CONST = a' .& HFLG_CONST /\ b .& EFLAGS_CONST = b' .& EFLAGS_CONST.
Proof.
  assert (H : forall x y, ((x .& HFLG_CONST) .| (y .& EFLAGS_CONST)) .& HFLG_CONST = x .& HFLG_CONST).
  { intros x y. rewrite Z.land_lor_distr_l, <- !Z.land_assoc. change (EFLAGS_CONST .& HFLG_CONST) with 0.
    rewrite Z.land_diag, Z.land_0_r. apply Z.lor_0_r. }
  assert (E : forall x y, ((x .& HFLG_CONST) .| (y .& EFLAGS_CONST)) .& EFLAGS_CONST = y .& EFLAGS_CONST).
  { intros x y. rewrite Z.land_lor_distr_l, <- !Z.land_assoc, disjoint_masks.
    rewrite Z.land_diag, Z.land_0_r. apply Z.lor_0_l. }
  intros a b a' b' K. split.
  - rewrite <- (H a b), K. apply H.
  - rewrite <- (E a b), K. apply E.
Qed.

Lemma sub_mask : forall K m a b, m .& K = m -> a .& K = b .& K -> a .& m = b .& m.
Proof. intros K m a b S E. rewrite <- S, (Z.land_comm m K), !Z.land_assoc, E. reflexivity. Qed.

(** what the emitters read is determined by the key *)
Record like (c c' : ctx) : Prop := mklike {
  k_h : forall m, m .& HFLG_CONST = m -> ch c .& m = ch c' .& m;
  k_e : forall m, m .& EFLAGS_CONST = m -> ce c .& m = ce c' .& m;
  k_b : cb c = cb c' }.
Lemma key_like : forall c c', key c = key c' -> like c c'.
Proof.
  intros c c' K. unfold key in K. assert (K1 := f_equal fst K). assert (K2 := f_equal snd K). cbn [fst snd] in K1, K2.
  destruct (or_split _ _ _ _ K1) as [H E]. constructor; [| | exact K2]; intros m S; eapply sub_mask; eassumption.
Qed.
Lemma like_key : forall c c', ch c .& HFLG_CONST = ch c' .& HFLG_CONST -> ce c .& EFLAGS_CONST = ce c' .& EFLAGS_CONST -> cb c = cb c' -> key c = key c'.
Proof. intros c c' H E B. unfold key. now rewrite H, E, B. Qed.

Section Proofs.
Context (X : memsys).
Notation st := (st X).

Section Like.
Context (c c' : ctx) (L : like c c').

Lemma l_pe : epe c = epe c'. Proof. unfold epe. now rewrite (k_h _ _ L) by reflexivity. Qed.
Lemma l_vm : evm c = evm c'. Proof. unfold evm. now rewrite (k_e _ _ L) by reflexivity. Qed.
Lemma l_prot : eprot c = eprot c'. Proof. unfold eprot. now rewrite (k_e _ _ L), (k_h _ _ L) by reflexivity. Qed.
Lemma l_cpl : ecpl c = ecpl c'. Proof. unfold ecpl. now rewrite (k_h _ _ L) by reflexivity. Qed.
Lemma l_iopl : eiopl c = eiopl c'. Proof. unfold eiopl. now rewrite (k_e _ _ L) by reflexivity. Qed.
Lemma l_osize o : osize c o = osize c' o. Proof. unfold osize. now rewrite (k_h _ _ L) by reflexivity. Qed.
Lemma l_base r s : ebase X c r s = ebase X c' r s.
Proof. unfold ebase. rewrite (k_h _ _ L); [reflexivity |]. now destruct r. Qed.
Lemma l_push n v s : gen_push X c n v s = gen_push X c' n v s.
Proof. unfold gen_push. rewrite (k_h _ _ L) by reflexivity. now rewrite l_base. Qed.
Lemma l_pop n s : gen_pop X c n s = gen_pop X c' n s.
Proof. unfold gen_pop. rewrite (k_h _ _ L) by reflexivity. now rewrite l_base. Qed.
Lemma l_next p n : next_eip c p n = next_eip c' p n. Proof. unfold next_eip. now rewrite (k_b _ _ L). Qed.
Lemma l_to p n : to_next X c p n = to_next X c' p n. Proof. unfold to_next. now rewrite l_next. Qed.
Lemma l_target p n r o : target c p n r o = target c' p n r o. Proof. unfold target. now rewrite (k_b _ _ L), l_osize. Qed.
Lemma l_if : if_flag c = if_flag c'.
Proof. unfold if_flag. rewrite l_pe, l_cpl, l_iopl. now rewrite (k_h _ _ L) by reflexivity. Qed.
Lemma l_popf p n o s : popf X c p n o s = popf X c' p n o s.
Proof.
  assert (V : popf_vme c o = popf_vme c' o).
  { unfold popf_vme. rewrite l_vm, l_iopl, l_osize. now rewrite (k_h _ _ L) by reflexivity. }
  assert (M : popf_mask c o = popf_mask c' o). { unfold popf_mask. now rewrite l_vm, l_iopl, l_osize, l_cpl. }
  unfold popf, popf_gp. rewrite V, M, l_vm, l_iopl, l_osize. unfold bind. rewrite l_pop, l_to. reflexivity.
Qed.
Lemma l_emit p n i s : emit X c p n i s = emit X c' p n i s.
Proof.
  destruct i; cbn [emit]; rewrite ?l_prot, ?l_to, ?l_vm, ?l_cpl, ?l_pe, ?l_if, ?l_base, ?l_target, ?l_next, ?l_osize; try reflexivity.
  - apply l_popf.
  - apply l_push.
  - unfold bind. now rewrite l_push.
Qed.
Lemma l_all p n i s : emit_all X c p n i s = emit_all X c' p n i s.
Proof. unfold emit_all. now rewrite l_emit, l_to. Qed.
Lemma l_ends i : ends c i = ends c' i.
Proof. destruct i; cbn [ends]; rewrite ?l_vm, ?l_cpl, ?l_if; reflexivity. Qed.
End Like.

(** an instruction that goes on to the next one changes nothing the emitters or the
    fetches depend on; MOV CR3 changes the page tables *)
Definition keeps {A} (s : st) (o : out X A) : Prop :=
  match o with
  | Ok _ _ _ s' => hfl X s' = hfl X s /\ ef X s' .& EFLAGS_CONST = ef X s .& EFLAGS_CONST /\ base (seg X s' CS) = base (seg X s CS) /\
      cr0 X s' = cr0 X s /\ cr4 X s' = cr4 X s /\ cr3 X s' = cr3 X s
  | _ => True
  end.
Lemma keeps_mem {A} s (o : out X A) : memonly X o s -> keeps s o.
Proof. destruct o; cbn; try tauto. intros [m ->]. repeat split. Qed.
Lemma keeps_bind {A B} (f : st -> out X A) (k : A -> st -> out X B) s :
  keeps s (f s) -> (forall a s1, f s = Ok X _ a s1 -> keeps s1 (k a s1)) -> keeps s (bind X f k s).
Proof.
  intros F K. unfold bind. destruct (f s) as [a s1 | | |] eqn:E; try exact I.
  specialize (K a s1 eq_refl). cbn [keeps] in F. destruct (k a s1) as [b s2 | | |]; try exact I. cbn [keeps] in K |- *.
  destruct F as (? & ? & ? & ? & ? & ?), K as (? & ? & ? & ? & ? & ?). repeat split; congruence.
Qed.
Lemma keeps_sys r sl d s : r = LDTR \/ r = TR -> keeps s (upd X (load_desc X r sl d) s).
Proof. intros [-> | ->]; repeat split. Qed.
Lemma keeps_ltr sl s : keeps s (ltr X sl s).
Proof.
  unfold ltr. destruct (_ =? 0); [exact I |]. apply keeps_bind; [apply keeps_mem, memonly_desc |]. intros dd s1 _. cbv zeta.
  destruct (negb _); [exact I |]. destruct (_ =? 0); [exact I |].
  apply keeps_bind; [apply keeps_mem, memonly_write |]. intros a s2 _. apply keeps_sys. now right.
Qed.
Lemma keeps_lldt sl s : keeps s (lldt X sl s).
Proof.
  unfold lldt. destruct (_ =? 0); [repeat split |]. apply keeps_bind; [apply keeps_mem, memonly_desc |]. intros dd s1 _. cbv zeta.
  destruct (negb _); [exact I |]. destruct (_ =? 0); [exact I |]. apply keeps_sys. now left.
Qed.
Lemma keeps_ef s v : v .& EFLAGS_CONST = ef X s .& EFLAGS_CONST -> keeps s (Ok X unit tt (set_ef X v s)).
Proof. intros H. repeat split. exact H. Qed.
Lemma if_flag_free c k : if_flag c = Some k -> k .& EFLAGS_CONST = 0 /\ not32 k .& EFLAGS_CONST = EFLAGS_CONST.
Proof.
  unfold if_flag. destruct (epe c); [destruct (_ <=? _); [| destruct (nz _); [| discriminate]] |];
    intros [= <-]; split; reflexivity.
Qed.
Lemma clear_free e k : not32 k .& EFLAGS_CONST = EFLAGS_CONST -> (e .& not32 k) .& EFLAGS_CONST = e .& EFLAGS_CONST.
Proof. intros H. now rewrite <- Z.land_assoc, H. Qed.
Lemma set_free e k : k .& EFLAGS_CONST = 0 -> (e .| k) .& EFLAGS_CONST = e .& EFLAGS_CONST.
Proof. intros H. rewrite Z.land_lor_distr_l, H. apply Z.lor_0_r. Qed.

Lemma keeps_emit c p n i s : leaves i = false -> ~ sets_cr3 (i, n) -> keeps s (emit X c p n i s).
Proof.
  intros Lv N. destruct i; cbn [leaves] in Lv; try discriminate; cbn [emit].
  - destruct (_ || _); [exact I | apply keeps_ltr].
  - destruct (_ || _); [exact I | apply keeps_lldt].
  - apply orb_false_iff in Lv. destruct Lv as [E0 E4]. rewrite E0, E4. destruct (nz _); [exact I |].
    destruct (n0 =? 2) eqn:E2; [repeat split |]. destruct (n0 =? 3) eqn:E3; [| exact I].
    exfalso. apply N. exists v. cbn [fst]. now rewrite (proj1 (Z.eqb_eq _ _) E3).
  - destruct (if_flag c) as [k |] eqn:K; [| exact I]. apply keeps_ef, clear_free, (if_flag_free _ _ K).
  - destruct (if_flag c) as [k |] eqn:K; [| exact I]. destruct (_ && _); [exact I |]. apply keeps_ef, set_free, (if_flag_free _ _ K).
  - apply keeps_ef, clear_free. reflexivity.
  - apply keeps_ef, set_free. reflexivity.
  - unfold gen_push. apply keeps_bind; [apply keeps_mem, memonly_write |]. intros; repeat split.
  - apply keeps_bind; [apply keeps_mem, memonly_read |]. intros; repeat split.
Qed.

(** the same for MOV CR3 but for the page tables *)
Definition keeps3 (s s' : st) : Prop :=
  hfl X s' = hfl X s /\ ef X s' .& EFLAGS_CONST = ef X s .& EFLAGS_CONST /\ base (seg X s' CS) = base (seg X s CS) /\
  cr0 X s' = cr0 X s /\ cr4 X s' = cr4 X s.
Lemma keeps_any c p n i s s1 : leaves i = false -> emit X c p n i s = Ok X unit tt s1 -> keeps3 s s1 /\ (sets_cr3 (i, n) \/ cr3 X s1 = cr3 X s).
Proof.
  intros Lv E.
  assert (D : sets_cr3 (i, n) \/ ~ sets_cr3 (i, n)).
  { destruct i as [| | | k v | | | | | | | | | | | |]; try (right; intros [w W]; discriminate W).
    destruct (Z.eq_dec k 3) as [-> | N]; [left; now exists v | right; intros [w W]; cbn [fst] in W; congruence]. }
  destruct D as [D | D].
  - split; [| now left]. destruct D as [v D]. cbn [fst] in D. subst i. cbn [emit] in E. change (3 =? 0) with false in E.
    change (3 =? 2) with false in E. change (3 =? 3) with true in E. cbv iota in E.
    destruct (nz (ecpl c)); [discriminate E |]. injection E as <-. unfold update_cr3. destruct (nz _); repeat split.
  - pose proof (keeps_emit c p n i s Lv D) as K. rewrite E in K. destruct K as (? & ? & ? & ? & ? & ?).
    split; [repeat split; assumption | now right].
Qed.

Lemma unit_ok (o : out X unit) s : (exists u, o = Ok X unit u s) -> o = Ok X unit tt s. Proof. now intros [[] H]. Qed.

Lemma run_steps (code : st -> Z -> ins * Z) : forall l c p s,
  key c = key (ctx_of X s) -> pc X s = w32 p -> p = w32 p ->
  (forall l1 i n l2, l = l1 ++ (i, n) :: l2 -> forall s', keeps3 s s' -> ((forall x, In x l1 -> ~ sets_cr3 x) -> cr3 X s' = cr3 X s) ->
     code s' (w32 (p + bytes l1)) = (i, n)) ->
  exists k, (k <= length l)%nat /\ (l <> [] -> (0 < k)%nat) /\ run X c p l s = steps X code k s.
Proof.
  induction l as [| [i n] l IH]; intros c p s K P W C.
  { exists O. split; [constructor |]. split; [congruence | reflexivity]. }
  cbn [run]. assert (F : code s (pc X s) = (i, n)).
  { rewrite P. specialize (C [] i n l eq_refl s). cbn [bytes fold_right] in C. rewrite Z.add_0_r in C. apply C; repeat split. }
  assert (E : forall k, steps X code (S k) s = match emit_all X c p n i s with Ok _ _ _ s1 => steps X code k s1 | o => o end).
  { intros k. cbn [steps]. rewrite F, P, <- W. now rewrite <- (l_all _ _ (key_like _ _ K)). }
  destruct (emit_all X c p n i s) as [u s1 | s1 | s1 |] eqn:R.
  2-4: exists 1%nat; split; [cbn; lia |]; split; [lia | now rewrite E].
  destruct (leaves i) eqn:Lv.
  { exists 1%nat. split; [cbn; lia |]. split; [lia | now rewrite E]. }
  unfold emit_all in R. rewrite Lv in R. destruct (emit X c p n i s) as [[] s0 | | |] eqn:R0; try discriminate R.
  assert (S1 : s1 = to_next X c p n s0) by congruence. clear R.
  destruct (keeps_any c p n i s s0 Lv R0) as [(Hh & He & Hb & H0 & H4) H3].
  assert (B : cb c = base (seg X s CS)) by (unfold key in K; exact (f_equal snd K)).
  assert (Hs : hfl X s1 = hfl X s /\ ef X s1 .& EFLAGS_CONST = ef X s .& EFLAGS_CONST /\ base (seg X s1 CS) = base (seg X s CS) /\
          cr0 X s1 = cr0 X s /\ cr4 X s1 = cr4 X s /\ cr3 X s1 = cr3 X s0 /\ eip X s1 = next_eip c p n).
  { rewrite S1. repeat split; assumption. }
  destruct Hs as (Hh1 & He1 & Hb1 & H01 & H41 & H31 & Hip).
  destruct (IH c (w32 (p + n)) s1) as (k & Lk & _ & Rk).
  - rewrite K. apply like_key; cbn [ch ce cb ctx_of]; congruence.
  - unfold pc. rewrite Hb1, Hip, <- B. unfold next_eip, w32. rewrite Zplus_mod_idemp_r, Zmod_mod. f_equal. lia.
  - unfold w32. now rewrite Zmod_mod.
  - intros l1 i' n' l2 El s' (Gh & Ge & Gb & G0 & G4) G3.
    specialize (C ((i, n) :: l1) i' n' l2). cbn [bytes fold_right snd] in C. fold (bytes l1) in C.
    replace (w32 (w32 (p + n) + bytes l1)) with (w32 (p + (n + bytes l1))).
    2: { unfold w32. rewrite Zplus_mod_idemp_l. f_equal. lia. }
    apply C; [now rewrite El | repeat split; congruence |].
    intros Nc. rewrite (G3 (fun x I => Nc x (or_intror I))), H31. destruct H3 as [H3 | H3]; [| exact H3].
    destruct (Nc (i, n) (or_introl eq_refl) H3).
  - exists (S k). split; [cbn; lia |]. split; [lia |]. now rewrite E, Rk.
Qed.

(** the instructions of a block are those the decoder finds one after the other *)
Lemma translate_code fetch : forall room c p l1 i n l2, 0 <= p < 2 ^ 32 -> translate fetch room c p = l1 ++ (i, n) :: l2 ->
  fetch (w32 (p + bytes l1)) = (i, n).
Proof.
  induction room as [| room IH]; intros c p l1 i n l2 R T; cbn [translate] in T.
  { destruct l1; discriminate T. }
  destruct l1 as [| x l1].
  - cbn [bytes fold_right]. rewrite Z.add_0_r. unfold w32. rewrite Z.mod_small by exact R.
    destruct (ends c (fst (fetch p))); cbn [app] in T; congruence.
  - destruct (ends c (fst (fetch p))) eqn:E; cbn [app] in T.
    + assert (T' : [] = l1 ++ (i, n) :: l2) by congruence. destruct l1; discriminate T'.
    + assert (X1 : x = fetch p) by congruence. assert (T' : translate fetch room c (w32 (p + snd (fetch p))) = l1 ++ (i, n) :: l2) by congruence.
      cbn [bytes fold_right]. fold (bytes l1). rewrite X1.
      replace (w32 (p + (snd (fetch p) + bytes l1))) with (w32 (w32 (p + snd (fetch p)) + bytes l1)).
      2: { unfold w32. rewrite Zplus_mod_idemp_l. f_equal. lia. }
      eapply IH; [| exact T']. unfold w32. now apply Z.mod_pos_bound.
Qed.

End Proofs.
