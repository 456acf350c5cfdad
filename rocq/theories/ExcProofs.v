(** * Proofs about exception delivery *)

From Coq Require Import ZArith Bool List Lia ZifyBool.
From Verif Require Import SegModel SegSpec SegBits SegProofs SegFar SegRet ExcSpec.
Import ListNotations.
Local Open Scope Z_scope.

Section Exc.
Context (X : memsys).
Notation st := (st X).
Implicit Types s : st.

(** ** Failed deliveries *)
Definition fails {A} (o : out X A) s : Prop :=
  match o with
  | Exc _ _ s' => exists m c i, s' = exc_st X m c i s /\ (i = 10 \/ i = 11 \/ i = 13)
  | PFault _ _ s' => exists m c a, s' = pf_st X m c a s
  | _ => True
  end.

Lemma fails_bind {A B} (f : st -> out X A) (k : A -> st -> out X B) s :
  memonly X (f s) s -> fails (f s) s ->
  (forall a m, f s = Ok X A a (set_mem X m s) -> fails (k a (set_mem X m s)) (set_mem X m s)) -> fails (bind X f k s) s.
Proof.
  unfold bind. intros H F K. destruct (f s) as [a s1 | s1 | s1 |]; try exact F. destruct H as [m ->].
  specialize (K a m eq_refl). destruct (k a (set_mem X m s)) as [b s2 | s2 | s2 |]; cbn in K |- *; try exact I.
  - destruct K as (m2 & c & i & -> & Hi). now exists m2, c, i.
  - destruct K as (m2 & c & i & ->). now exists m2, c, i.
Qed.
Lemma fails_mem {A} (o : out X A) s : memonly X o s -> (forall s', o <> Exc X _ s') -> fails o s.
Proof. destruct o as [a s1 | s1 | s1 |]; cbn; auto. intros _ H. now destruct (H s1). Qed.
Lemma fails_exc {A} c i s : i = 10 \/ i = 11 \/ i = 13 -> fails (raise_exp X c i s : out X A) s.
Proof. intros H. exists (mem X s), c, i. split; [now destruct s | exact H]. Qed.
Lemma fails_read n p a s : fails (mread X n p a s) s.
Proof. apply fails_mem; [apply memonly_read |]. intros s'. unfold mread. destruct (rd X _ _ _ _ _) as [m [v | c b]]; discriminate. Qed.
Lemma fails_write n p a v s : fails (mwrite X n p a v s) s.
Proof. apply fails_mem; [apply memonly_write |]. intros s'. unfold mwrite. destruct (wr X _ _ _ _ _ _) as [m [[c b] |]]; discriminate. Qed.
Lemma fails_access d a s : fails (set_access_flg X d a s) s.
Proof. unfold set_access_flg. destruct (_ =? 1); [apply fails_write | exact I]. Qed.
Lemma fails_desc t sl s : fails (read_seg_desc X t sl s) s.
Proof.
  unfold read_seg_desc. destruct (_ && _); [apply fails_exc; now right; right |]. cbv zeta.
  destruct (_ <? _); [apply fails_exc; now right; right |].
  apply fails_bind; [apply memonly_read | apply fails_read |]. intros a m _. exact I.
Qed.
Lemma memonly_ipush n p k b v e s : memonly X (ipush X n p k b v e s) s.
Proof. unfold ipush. cbv zeta. apply memonly_bind; [apply memonly_write |]. intros a m _. apply memonly_ret. Qed.
Lemma fails_ipush n p k b v e s : fails (ipush X n p k b v e s) s.
Proof. unfold ipush. cbv zeta. apply fails_bind; [apply memonly_write | apply fails_write |]. intros a m _. exact I. Qed.
Lemma memonly_ipushes n p k b vs : forall e s, memonly X (ipushes X n p k b vs e s) s.
Proof.
  induction vs as [| v vs IH]; intros e s; cbn [ipushes]; [apply memonly_ret |].
  apply memonly_bind; [apply memonly_ipush |]. intros a m _. apply IH.
Qed.
Lemma fails_ipushes n p k b vs : forall e s, fails (ipushes X n p k b vs e s) s.
Proof.
  induction vs as [| v vs IH]; intros e s; cbn [ipushes]; [exact I |].
  apply fails_bind; [apply memonly_ipush | apply fails_ipush |]. intros a m _. apply IH.
Qed.
Lemma memonly_tss d p s : memonly X (read_stack_ptr_from_tss X d p s) s.
Proof.
  unfold read_stack_ptr_from_tss. cbv zeta. destruct (_ <? _); [apply memonly_exc |].
  destruct (nz _); (apply memonly_bind; [apply memonly_read |]); intros a m _;
    (apply memonly_bind; [apply memonly_read |]); intros a1 m1 _; apply memonly_ret.
Qed.
Lemma fails_tss d p s : fails (read_stack_ptr_from_tss X d p s) s.
Proof.
  unfold read_stack_ptr_from_tss. cbv zeta. destruct (_ <? _); [apply fails_exc; now left |].
  destruct (nz _); (apply fails_bind; [apply memonly_read | apply fails_read |]); intros a m _;
    (apply fails_bind; [apply memonly_read | apply fails_read |]); intros a1 m1 _; exact I.
Qed.
Lemma check_ss_both v x d s : memonly X (check_ss_desc X v x d s) s /\ fails (check_ss_desc X v x d s) s.
Proof.
  unfold check_ss_desc. pose proof (memonly_tss d (if v then 2 else 0) s) as T. pose proof (fails_tss d (if v then 2 else 0) s) as TF.
  destruct (read_stack_ptr_from_tss X d (if v then 2 else 0) s) as [[e ss] s1 | s1 | s1 |].
  - destruct T as [m ->]. destruct (_ =? 0).
    { split; [exists m, x, 10; reflexivity |]. exists m, x, 10. split; [reflexivity | now left]. }
    pose proof (memonly_desc X false ss (set_mem X m s)) as D. pose proof (fails_desc false ss (set_mem X m s)) as DF.
    destruct (read_seg_desc X false ss (set_mem X m s)) as [[a d0] s2 | s2 | s2 |].
    + destruct D as [m2 ->]. cbv zeta. destruct (nz _).
      { split; [exists m2, ((ss .& 0xFFFC) + x), 10; reflexivity |]. exists m2, ((ss .& 0xFFFC) + x), 10. split; [reflexivity | now left]. }
      assert (A1 : memonly X (bind X (set_access_flg X d0 a) (fun _ => ret X (e, ss, d0)) (set_mem X m2 (set_mem X m s))) (set_mem X m2 (set_mem X m s))).
      { apply memonly_bind; [apply memonly_access |]. intros; apply memonly_ret. }
      assert (A2 : fails (bind X (set_access_flg X d0 a) (fun _ => ret X (e, ss, d0)) (set_mem X m2 (set_mem X m s))) (set_mem X m2 (set_mem X m s))).
      { apply fails_bind; [apply memonly_access | apply fails_access |]. intros; exact I. }
      destruct (bind X _ _ _) as [b s3 | s3 | s3 |]; cbn in A1, A2 |- *.
      * destruct A1 as [m3 ->]. split; [now exists m3 | exact I].
      * destruct A2 as (m3 & c & i & -> & H). split; [now exists m3, c, i |]. exists m3, c, i. now split.
      * destruct A2 as (m3 & c & i & ->). split; now exists m3, c, i.
      * now split.
    + destruct D as (m2 & c & i & ->). split; [exists m2, (c + x), 10; reflexivity |]. exists m2, (c + x), 10. split; [reflexivity | now left].
    + destruct D as (m2 & c & i & ->). split; exists m2, c, i; reflexivity.
    + destruct D.
  - destruct TF as (m & c & i & -> & H). split; [exists m, (c + x), i; reflexivity |]. exists m, (c + x), i. now split.
  - destruct TF as (m & c & i & ->). split; exists m, c, i; reflexivity.
  - destruct T.
Qed.

Lemma desc_ext_both sl ext s :
  let f := fun s => match read_seg_desc X false sl s with Exc _ _ s1 => Exc X _ (set_xcode X (xcode X s1 + ext) s1) | o => o end in
  memonly X (f s) s /\ fails (f s) s.
Proof.
  cbv zeta beta. pose proof (memonly_desc X false sl s) as D. pose proof (fails_desc false sl s) as F.
  destruct (read_seg_desc X false sl s) as [p s1 | s1 | s1 |]; try (now split).
  destruct F as (m & c & i & -> & H). split; [exists m, (c + ext), i; reflexivity |]. exists m, (c + ext), i. now split.
Qed.

Ltac fl := match goal with
  | |- fails (bind X (ipushes X _ _ _ _ _ _) _ _) _ => apply fails_bind; [apply memonly_ipushes | apply fails_ipushes | intros ? ? _; cbv zeta; try exact I]
  | |- fails (bind X (check_ss_desc X _ _ _) _ _) _ => apply fails_bind; [apply check_ss_both | apply check_ss_both | intros [[? ?] ?] ? _]
  | |- fails (bind X (set_access_flg X _ _) _ _) _ => apply fails_bind; [apply memonly_access | apply fails_access | intros ? ? _; cbv zeta]
  | |- fails (bind X (mread X _ _ _) _ _) _ => apply fails_bind; [apply memonly_read | apply fails_read | intros ? ? _; cbv zeta]
  | |- fails (raise_exp X _ _ _) _ => apply fails_exc; unfold EXP_GP, EXP_NP, EXP_TS; auto
  | |- fails (abort X _) _ => exact I
  | |- fails (if ?b then _ else _) _ => destruct b
  | |- fails ((if ?b then _ else _) _) _ => destruct b
  end.

Lemma deliver_pe_fails intn hw code idx fa ofl s : fails (deliver_pe X intn hw code idx fa ofl s) s.
Proof.
  unfold deliver_pe. unfold bind at 1, get at 1. cbv zeta. repeat fl.
  - apply fails_bind; [apply desc_ext_both | apply desc_ext_both |]. intros [ca c] m2 _. cbv zeta. cbn [fst snd]. repeat fl.
Qed.
Lemma deliver_fails intn hw s : fails (deliver X intn hw s) s.
Proof.
  unfold deliver. cbv zeta. destruct (nz (hfl X s .& HFLG_PE_MODE)).
  - destruct (_ && _ && _); [apply fails_exc; auto |]. destruct (_ && _); [| apply deliver_pe_fails].
    fl. fl. destruct (_ =? 0).
    + unfold deliver_vme. unfold bind at 1, get at 1. cbv zeta. repeat fl. exact I.
    + destruct (negb _); [apply fails_exc; auto |]. apply deliver_pe_fails.
  - destruct (_ <? _); [apply fails_exc; auto |]. repeat fl.
Qed.

End Exc.
