(** * Proofs about mode flags and control registers *)

From Coq Require Import ZArith Bool List Lia ZifyBool.
From Verif Require Import SegModel SegSpec SegBits SegProofs SegFar SegRet SegCall ExcSpec ExcProofs ModeSpec.
Import ListNotations.
Local Open Scope Z_scope.

(** bits of words built from constants, masks and shifts, at a literal position *)
Lemma bit_shl a n i : 0 <= n -> 0 <= i -> Z.testbit (a << n) i = Z.testbit a (i - n).
Proof. intros. now apply Z.shiftl_spec. Qed.
Lemma bit_shr a n i : 0 <= i -> Z.testbit (a >> n) i = Z.testbit a (i + n).
Proof. intros. now apply Z.shiftr_spec. Qed.
Lemma zif (b : bool) v w i : Z.testbit (if b then v else w) i = if b then Z.testbit v i else Z.testbit w i.
Proof. now destruct b. Qed.
Lemma if_ff (c : bool) : (if c then false else false) = false. Proof. now destruct c. Qed.
Lemma if_tf (c : bool) : (if c then true else false) = c. Proof. now destruct c. Qed.
Ltac bit1 := match goal with
  | |- context [Z.testbit (Z.lor ?a ?b) ?i] => rewrite (Z.lor_spec a b i)
  | |- context [Z.testbit (Z.land ?a ?b) ?i] => rewrite (Z.land_spec a b i)
  | |- context [Z.testbit (Z.shiftl ?a ?n) ?i] => rewrite (bit_shl a n i) by (vm_compute; discriminate);
      let v := eval vm_compute in (i - n) in change (i - n) with v
  | |- context [Z.testbit (Z.shiftr ?a ?n) ?i] => rewrite (bit_shr a n i) by (vm_compute; discriminate);
      let v := eval vm_compute in (i + n) in change (i + n) with v
  | |- context [Z.testbit (if ?b then ?v else ?w) ?i] => rewrite (zif b v w i)
  | |- context [Z.testbit ?c ?i] =>
      let v := eval vm_compute in (Z.testbit c i) in
      match v with true => idtac | false => idtac end; change (Z.testbit c i) with v
  end.
Ltac bits := repeat bit1; rewrite ?if_ff, ?if_tf, ?andb_false_r, ?andb_true_r, ?orb_false_r; cbn [andb orb].

Section Mode.
Context (X : memsys).
Notation st := (st X).
Implicit Types s : st.

Definition inv (P : st -> Prop) {A} (o : out X A) : Prop :=
  match o with Ok _ _ _ s | Exc _ _ s | PFault _ _ s => P s | Abort _ _ => True end.
Definition closed (P : st -> Prop) : Prop :=
  forall s, P s -> (forall m, P (set_mem X m s)) /\ (forall e, P (set_esp X e s)) /\ (forall e, P (set_eip X e s)) /\
    (forall e, P (set_xcode X e s)) /\ (forall e, P (set_xidx X e s)) /\ (forall e, P (set_xaddr X e s)).

Lemma inv_memonly P {A} (o : out X A) s : closed P -> P s -> memonly X o s -> inv P o.
Proof.
  intros C H M. destruct o as [a s1 | s1 | s1 |]; cbn in M |- *; [| | | exact I].
  - destruct M as [m ->]. now apply C.
  - destruct M as (m & c & i & ->). apply C, C, C, H.
  - destruct M as (m & c & i & ->). apply C, C, C, C, H.
Qed.
Lemma inv_bind P {A B} (f : st -> out X A) (k : A -> st -> out X B) s :
  inv P (f s) -> (forall a s1, f s = Ok X A a s1 -> P s1 -> inv P (k a s1)) -> inv P (bind X f k s).
Proof. unfold bind. intros H K. destruct (f s) as [a s1 | s1 | s1 |]; try exact H. now apply K. Qed.
Lemma inv_exc P {A} c i s : closed P -> P s -> inv P (raise_exp X c i s : out X A).
Proof. intros C H. cbn. apply C, C, H. Qed.

Definition Q s : Prop := mode_ok X s /\ vm X s = false.
Lemma closed_Q : closed Q. Proof. intros s [H V]. repeat split; assumption. Qed.

Lemma mode_same s s' : hfl X s' = hfl X s -> seg X s' = seg X s -> cr0 X s' = cr0 X s -> cr4 X s' = cr4 X s -> vm X s' = vm X s -> mode_ok X s -> mode_ok X s'.
Proof. unfold mode_ok, mode_bits, pe, big, flat_base. intros -> -> -> -> ->. auto. Qed.
(** everything but the privilege level *)
Definition mode_rest s : Prop := Forall (fun p => Z.testbit (hfl X s) (fst p) = snd p) (skipn 2 (mode_bits X s)).
Lemma rest_same s s' : hfl X s' = hfl X s -> seg X s' = seg X s -> cr0 X s' = cr0 X s -> cr4 X s' = cr4 X s -> mode_rest s -> mode_rest s'.
Proof. unfold mode_rest, mode_bits, pe, big, flat_base. cbn [skipn]. intros -> -> -> ->. auto. Qed.
Lemma ok_rest s : mode_ok X s -> mode_rest s.
Proof. unfold mode_ok, mode_rest, mode_bits. cbn [skipn]. intros H. now apply Forall_inv_tail, Forall_inv_tail in H. Qed.
Lemma rest_ok s : mode_rest s -> Z.testbit (hfl X s) 0 = pe X s && (vm X s || Z.testbit (sel (seg X s CS)) 0) ->
  Z.testbit (hfl X s) 1 = pe X s && (vm X s || Z.testbit (sel (seg X s CS)) 1) -> mode_ok X s.
Proof. unfold mode_ok, mode_rest, mode_bits. cbn [skipn]. intros H A B. constructor; [exact A |]. constructor; [exact B | exact H]. Qed.

Ltac split_ok H := unfold mode_ok, mode_rest, mode_bits in H; cbn [skipn] in H; 
  repeat match type of H with Forall _ (_ :: _) => let h2 := fresh "B" in pose proof (Forall_inv H) as h2; cbn [fst snd] in h2; apply Forall_inv_tail in H end; clear H.

Ltac fin := repeat (constructor; [cbn [fst snd]; unfold pe, big, flat_base;
  cbn [hfl seg cr0 cr4 set_hfl set_seg set_cr0 set_cr4 put_seg set_ef set_esp set_eip set_mem set_flushes sr_eqb sel base limit sflags];
  bits; try assumption; try reflexivity |]); try exact (Forall_nil _).

Lemma rest_write r sl b l f s : pe X s = true -> mode_rest s -> mode_rest (write_seg_reg X r sl b l f s).
Proof.
  intros P H. pose proof H as H0. split_ok H. unfold pe, big, flat_base in *. rewrite P in *. cbn [andb] in *.
  unfold write_seg_reg; destruct r; cbv zeta; unfold HFLG_CPL, HFLG_CS32, HFLG_SS32, SEG_HIDDEN_DB, mode_rest, mode_bits; unfold zero_bit; cbn [skipn];
    fin; rewrite ?P; cbn [andb]; auto.
Qed.
Lemma write_pe r sl b l f s : pe X (write_seg_reg X r sl b l f s) = pe X s. Proof. now destruct r. Qed.
Lemma write_vm r sl b l f s : vm X (write_seg_reg X r sl b l f s) = vm X s. Proof. now destruct r. Qed.
Lemma mode_write r sl b l f s : pe X s = true -> vm X s = false -> mode_ok X s -> mode_ok X (write_seg_reg X r sl b l f s).
Proof.
  intros P V H. apply rest_ok; [now apply rest_write; [| apply ok_rest] | |];
  rewrite write_pe, write_vm, P, V; cbn [andb orb]; split_ok H; rewrite P, V in *; cbn [andb orb] in *;
  unfold write_seg_reg; destruct r; cbv zeta; unfold HFLG_CPL, HFLG_CS32, HFLG_SS32, SEG_HIDDEN_DB, zero_bit;
  cbn [hfl seg set_hfl set_seg put_seg sr_eqb sel]; bits; auto.
Qed.

(** ** Protected mode operations *)
Definition Qp s : Prop := pe X s = true /\ Q s.
Lemma closed_Qp : closed Qp. Proof. intros s (P & H & V). repeat split; assumption. Qed.

Lemma Qp_write r sl b l f s : Qp s -> Qp (write_seg_reg X r sl b l f s).
Proof.
  intros (P & H & V). split; [| split].
  - unfold pe. replace (cr0 X (write_seg_reg X r sl b l f s)) with (cr0 X s) by (now destruct r). exact P.
  - now apply mode_write.
  - now rewrite write_vm.
Qed.
Lemma Qp_load r sl d s : Qp s -> Qp (load_desc X r sl d s). Proof. apply Qp_write. Qed.
Lemma Qp_validate r s : Qp s -> Qp (validate_seg X r s).
Proof. intros H. unfold validate_seg. cbv zeta. destruct (_ && _); [now apply Qp_write | exact H]. Qed.
Lemma Qp_wef v m s : Z.testbit v 17 = false -> Qp s -> Qp (write_eflags_helper X v m s).
Proof.
  intros B (P & H & V). assert (V' : vm X (write_eflags_helper X v m s) = false).
  { unfold vm in *. rewrite wef_bit by lia. destruct (Z.testbit m 17); assumption. }
  split; [exact P |]. split; [| exact V']. revert H. apply mode_same; try reflexivity. now rewrite V, V'.
Qed.

Ltac cl := match goal with
  | C : closed ?P, H : ?P ?s |- ?P (set_mem X _ ?s) => now apply C
  | |- Qp (set_mem X _ _) => apply closed_Qp; cl
  | |- Qp (set_esp X _ _) => apply closed_Qp; cl
  | |- Qp (set_eip X _ _) => apply closed_Qp; cl
  | |- Qp (load_desc X _ _ _ _) => apply Qp_load; cl
  | |- Qp (write_seg_reg X _ _ _ _ _ _) => apply Qp_write; cl
  | |- Qp (validate_seg X _ _) => apply Qp_validate; cl
  | |- Qp _ => assumption
  end.
Ltac mo := match goal with
  | |- memonly _ (mread _ _ _ _ _) _ => apply memonly_read
  | |- memonly _ (mwrite _ _ _ _ _ _) _ => apply memonly_write
  | |- memonly _ (set_access_flg _ _ _ _) _ => apply memonly_access
  | |- memonly _ (read_seg_desc _ _ _ _) _ => apply memonly_desc
  | |- memonly _ (stack_pop _ _ _ _) _ => apply memonly_pop
  | |- memonly _ (stack_push _ _ _ _ _) _ => apply memonly_push
  | |- memonly _ (check_ss_desc_priv _ _ _ _) _ => apply memonly_check_ss
  | |- memonly _ (ipush _ _ _ _ _ _ _ _) _ => apply SegCall.memonly_ipush
  | |- memonly _ (copy_params _ _ _ _ _ _ _) _ => apply SegCall.memonly_copy
  | |- memonly _ (read_stack_ptr_from_tss _ _ _ _) _ => apply SegCall.memonly_tss
  | |- memonly _ (ipushes _ _ _ _ _ _ _ _) _ => apply memonly_ipushes
  | |- memonly _ (check_ss_desc _ _ _ _ _) _ => apply check_ss_both
  end.
Ltac step := match goal with
  | |- inv Qp (if ?b then _ else _) => destruct b eqn:?
  | |- inv Qp ((if ?b then _ else _) _) => destruct b eqn:?
  | |- inv Qp (raise_exp X _ _ _) => apply inv_exc; [apply closed_Qp | cl]
  | |- inv Qp (abort X _) => exact I
  | |- inv Qp (Abort X _) => exact I
  | |- inv Qp (bind X (get X) _ _) => apply inv_bind; [cbn; cl | intros ? ? [= <- <-] _; cbv zeta]
  | |- inv Qp (bind X (upd X _) _ _) => apply inv_bind; [cbn -[load_desc]; try cl | intros ? ? E ?; apply upd_inv in E; subst; cbv zeta]
  | |- inv Qp (bind X _ _ ?s) => apply inv_bind; [first [apply (inv_memonly Qp _ s); [apply closed_Qp | cl | mo] | idtac] | intros ? ? ? ?; cbv zeta]
  | |- inv Qp (upd X _ _) => unfold inv, upd; cbv zeta; try cl
  | |- inv Qp (ipush X _ _ _ _ _ _ ?s) => apply (inv_memonly Qp _ s); [apply closed_Qp | cl | mo]
  | |- inv Qp (check_seg_desc_priv X _ _) => unfold check_seg_desc_priv
  | |- inv Qp (ret X _ _) => unfold inv, ret; try cl
  end.

Lemma inv_tail n ip cs e1 s : Qp s -> inv Qp (lret_tail X n ip cs e1 s).
Proof. intros H. unfold lret_tail. repeat step. Qed.
Lemma inv_lret n s : Qp s -> inv Qp (lret_pe X n s).
Proof. intros H. unfold lret_pe. repeat step. now apply inv_tail. Qed.
Lemma inv_retf n i s : Qp s -> inv Qp (retf_pe X n i s).
Proof. intros H. unfold retf_pe. step. step; [now apply inv_lret |]. unfold inv, upd. destruct (nz _); cl. Qed.
Lemma inv_ljmp sl n e s : Qp s -> inv Qp (ljmp_pe X sl n e s).
Proof. intros H. unfold ljmp_pe. repeat step. Qed.
Lemma inv_lcall sl e n r s : Qp s -> inv Qp (lcall_pe X sl e n r s).
Proof. intros H. unfold lcall_pe. repeat step. Qed.
Lemma inv_mov r sl s : Qp s -> inv Qp (mov_sel_pe X r sl s).
Proof. intros H. unfold mov_sel_pe. destruct r; repeat step. Qed.
Lemma inv_ltr sl s : Qp s -> inv Qp (ltr X sl s).
Proof. intros H. unfold ltr. repeat step. Qed.
Lemma inv_lldt sl s : Qp s -> inv Qp (lldt X sl s).
Proof. intros H. unfold lldt. repeat step. Qed.

(** IRET, which may enter virtual 8086 mode *)
Definition Qe s : Prop := pe X s = true /\ mode_ok X s.
Lemma Qp_Qe {A} (o : out X A) : inv Qp o -> inv Qe o.
Proof. destruct o; cbn; try easy; intros (P & H & _); now split. Qed.
Lemma rest_vm86 r sl s : pe X s = true -> mode_rest s -> mode_rest (write_seg_reg_vm86 X r sl s).
Proof. apply rest_write. Qed.
Lemma pe_vm86 r sl s : pe X (write_seg_reg_vm86 X r sl s) = pe X s. Proof. now destruct r. Qed.
Lemma vm_vm86 r sl s : vm X (write_seg_reg_vm86 X r sl s) = vm X s. Proof. now destruct r. Qed.
Lemma inv_memQe {A B} (f : st -> out X A) (k : A -> st -> out X B) s : Qp s -> memonly X (f s) s ->
  (forall a m, Qp (set_mem X m s) -> inv Qe (k a (set_mem X m s))) -> inv Qe (bind X f k s).
Proof.
  intros H M K. unfold bind. pose proof (Qp_Qe _ (inv_memonly Qp (f s) s closed_Qp H M)) as IQ.
  destruct (f s) as [a s1 | s1 | s1 |]; try exact IQ. destruct M as [m ->]. apply K. now apply closed_Qp.
Qed.
Definition Qv s : Prop := mode_rest s /\ pe X s = true /\ vm X s = true.
Lemma Qv_vm86 r sl s : Qv s -> Qv (write_seg_reg_vm86 X r sl s).
Proof. intros (A & B & C). split; [now apply rest_vm86 |]. rewrite pe_vm86, vm_vm86. auto. Qed.
Lemma Qv_final ip e s : Qv s ->
  Qe (set_hfl X (hfl X (set_eip X ip (set_esp X e s)) .& not32 HFLG_CPL .| 3) (set_eip X ip (set_esp X e s))).
Proof.
  intros (R & P & V). split; [exact P |]. apply rest_ok.
  - split_ok R. unfold mode_rest, mode_bits, HFLG_CPL. cbn [skipn].
    repeat (constructor; [cbn [fst snd hfl set_hfl set_eip set_esp]; bits; assumption |]). constructor.
  - change (pe X (set_hfl X _ _)) with (pe X s). change (vm X (set_hfl X _ _)) with (vm X s). rewrite P, V. cbn [hfl set_hfl set_eip set_esp]. unfold HFLG_CPL. bits. rewrite ?orb_true_r. reflexivity.
  - change (pe X (set_hfl X _ _)) with (pe X s). change (vm X (set_hfl X _ _)) with (vm X s). rewrite P, V. cbn [hfl set_hfl set_eip set_esp]. unfold HFLG_CPL. bits. rewrite ?orb_true_r. reflexivity.
Qed.
Lemma Qv_wef v m s : Z.testbit v 17 = true -> Z.testbit m 17 = true -> Qp s -> Qv (write_eflags_helper X v m s).
Proof.
  intros VB MB (P & HH & VV). split; [apply ok_rest in HH; revert HH; apply rest_same; reflexivity |]. split; [exact P |].
  unfold vm. rewrite wef_bit by lia. now rewrite MB.
Qed.
Opaque write_seg_reg_vm86 write_eflags_helper.
Lemma inv_iret n s : Qp s -> inv Qe (iret_pe X n s).
Proof.
  intros H. unfold iret_pe. unfold bind at 1, get at 1. pose proof (proj2 (proj2 H)) as V. rewrite vm_eq, V.
  destruct (nz (ef X s .& NT_MASK)); [exact I |].
  apply inv_memQe; [exact H | apply memonly_pop |]. intros p1 m1 H1.
  apply inv_memQe; [exact H1 | apply memonly_pop |]. intros p2 m2 H2.
  apply inv_memQe; [exact H2 | apply memonly_pop |]. intros p3 m3 H3. cbv zeta.
  change VM_MASK with (1 << 17) at 1. rewrite nz_fld by lia. destruct (Z.testbit (fst p3) 17) eqn:VB.
  - do 6 (apply inv_memQe; [assumption | apply memonly_pop |]; intros ? ? ?).
    unfold inv, upd. cbv zeta. apply Qv_final. do 6 apply Qv_vm86. apply Qv_wef; [exact VB | reflexivity | assumption].
  - apply Qp_Qe. apply inv_bind; [now apply inv_tail |]. intros ? ? _ HH. unfold inv, upd. now apply Qp_wef.
Qed.
Transparent write_seg_reg_vm86 write_eflags_helper.
End Mode.
