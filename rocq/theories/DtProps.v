(** * C85, C86, C87: single steps, data breakpoints and instruction breakpoints

    A history is any sequence of rounds of the main loop, executed instructions and flushes of the translated
    code, with any effects, any lengths of blocks and any links between them.  [fold_left (after P) l1 (start p)]
    are the registers the program sees after [l1]. *)

From Coq Require Import ZArith Bool List Lia.
From Verif Require Import DtModel DtSpec DtProofs.
Import ListNotations.
Local Open Scope Z_scope.

(** ** C85 Every instruction begun with TF set is followed by a debug exception *)

(** In every history: an instruction that begins with TF set and completes, other than INT n and HLT, is followed
    at once by #DB, with DR6.BS set, the address of the next instruction and the TF it loaded *)
Theorem C85_step : forall P p d l l1 a r e l2,
  trace P l (init p d) = l1 ++ Exec a true r e :: l2 -> fault e = None -> vectored P a = false ->
  exists r' d' l3, l2 = Exc 1 (next_of P a e) (tf_after P a true e) r' d' :: l3 /\ Z.testbit d' 14 = true.
Proof.
  intros P p d l l1 a r e l2 H F V.
  destruct (exec_split P l _ (start p) l1 a true r e l2 (init_inv P p d) (init_rel0 p d) H) as (s0 & lk & s1 & o & l' & I & Q & E & ->).
  destruct (instr_exec _ _ _ _ _ _ _ _ _ _ I E) as (_ & E1 & E2 & E3 & rest & brk & E4 & E5). rewrite F, V in E5.
  apply boundary_cases in E5. cbv zeta in E5. destruct E5 as [(_ & _ & ->)|[(X & _)|(X & _)]]; try discriminate X.
  set (s2 := completed P a e (hit_all (hits e) s0)).
  assert (S : pc s2 = next_of P a e /\ tf s2 = tf_after P a true e).
  { subst s2. rewrite completed_eq, hit_all_eq. unfold next_of, tf_after, loads, next_addr. unfold vectored in V. cbn [pc tf]. rewrite <- E1.
    split; destruct (knd P a); try discriminate V; try reflexivity; destruct (ltf e); reflexivity. }
  destruct S as [S1 S2]. cbn [app]. do 3 eexists. rewrite S1, S2. split.
  - reflexivity.
  - rewrite Z.lor_spec. change (Z.testbit BS 14) with true. apply orb_true_r.
Qed.

(** What is observed is right at every point, and nothing is left due at the end: no other debug exceptions than those of a single step, a
    data breakpoint that was hit and an armed instruction breakpoint, and all exceptions with the right address and flags.  Excluded are histories
    in which an instruction that hits a data breakpoint is single stepped, faults or is INT n; in which HLT
    is single stepped; and in which INT n, HLT or an IRET that sets RF is executed with RF set *)
Theorem C85_order_partial : forall P p d l, Forall (plain P) (trace P l (init p d)) ->
  (forall l1 o l2, trace P l (init p d) = l1 ++ o :: l2 -> right (fold_left (after P) l1 (start p)) o) /\
  due (fold_left (after P) (trace P l (init p d)) (start p)) = Nothing.
Proof.
  intros P p d l PL. destruct (trace_right P l (init p d) (start p) (init_inv P p d) (init_rel p d) PL) as [A B].
  split; [|exact B]. intros l1 o l2 H. rewrite H in A. apply rights_app in A. destruct A as [_ A]. exact (proj1 A).
Qed.

(** A handler begins with TF and RF clear, at the address of its vector *)
Theorem C85_handler : forall P p d l l1 v q t r d' a t2 r2 e l2, Forall (plain P) (trace P l (init p d)) ->
  trace P l (init p d) = l1 ++ Exc v q t r d' :: Exec a t2 r2 e :: l2 -> a = vec P v /\ t2 = false /\ r2 = false.
Proof.
  intros P p d l l1 v q t r d' a t2 r2 e l2 PL H. destruct (C85_order_partial P p d l PL) as [A _].
  specialize (A (l1 ++ [Exc v q t r d']) (Exec a t2 r2 e) l2). rewrite <- app_assoc in A. specialize (A H).
  rewrite fold_left_app in A. cbn in A. destruct A as (_ & -> & -> & -> & _). repeat split.
Qed.

(** ** C86 Data breakpoints are reported after the instruction that hits them *)

(** In every history: an instruction that hits a data breakpoint and completes, other than INT n and HLT, is
    followed at once by #DB, which reports all registers that were hit *)
Theorem C86_reported : forall P p d l l1 a t r e l2,
  trace P l (init p d) = l1 ++ Exec a t r e :: l2 -> fault e = None -> vectored P a = false -> hits e <> [] ->
  (loads P a = true -> ldr6 e = None) ->
  exists r' d' l3, l2 = Exc 1 (next_of P a e) (tf_after P a t e) r' d' :: l3 /\ forall i, In i (hits e) -> 0 <= i -> Z.testbit d' i = true.
Proof.
  intros P p d l l1 a t r e l2 H F V N LD.
  destruct (exec_split P l _ (start p) l1 a t r e l2 (init_inv P p d) (init_rel0 p d) H) as (s0 & lk & s1 & o & l' & I & Q & E & ->).
  destruct (instr_exec _ _ _ _ _ _ _ _ _ _ I E) as (_ & E1 & E2 & E3 & rest & brk & E4 & E5). rewrite F, V in E5.
  apply boundary_cases in E5. cbv zeta in E5. set (s2 := completed P a e (hit_all (hits e) s0)) in *.
  assert (S : pc s2 = next_of P a e /\ tf s2 = tf_after P a t e /\ pend s2 = true /\ idb s2 = true /\
              forall i, In i (hits e) -> 0 <= i -> Z.testbit (dr6 s2) i = true).
  { subst s2. rewrite completed_eq, hit_all_eq. unfold next_of, tf_after, loads, next_addr in *. unfold vectored in V. cbn [pc tf pend idb dr6]. rewrite <- E1.
    split; [destruct (knd P a); try discriminate V; reflexivity|].
    split; [destruct (knd P a); try discriminate V; try reflexivity; destruct (ltf e); reflexivity|].
    split; [destruct (hits e); [contradiction|reflexivity]|]. split; [destruct (hits e); [contradiction|reflexivity]|].
    intros i Hi Pi. destruct (knd P a); try (apply fold_hits; assumption). rewrite (LD eq_refl). apply fold_hits; assumption. }
  destruct S as (S1 & S2 & S3 & S4 & S5). clearbody s2.
  destruct E5 as [(_ & _ & ->)|[(_ & _ & _ & _ & ->)|(_ & X & _)]].
  - cbn [app]. do 3 eexists. rewrite S1, S2. split; [reflexivity|]. intros i Hi Pi. apply bit_lor_l, S5; assumption.
  - cbn [app]. do 3 eexists. rewrite S1, S2. split; [reflexivity|exact S5].
  - rewrite (X S3) in S4. discriminate S4.
Qed.

(** ** C87 Armed instructions are reported instead of executed, unless RF is set *)

(** In every history: after the translated code was dropped, no armed instruction is executed with RF clear *)
Theorem C87_armed_partial : forall P p d l l1 a t e l2,
  trace P l (init p d) = l1 ++ Exec a t false e :: l2 -> afresh (fold_left (after P) l1 (start p)) = true ->
  aarm (fold_left (after P) l1 (start p)) a = None.
Proof.
  intros P p d l l1 a t e l2 H F.
  destruct (exec_split P l _ (start p) l1 a t false e l2 (init_inv P p d) (init_rel0 p d) H) as (s0 & lk & s1 & o & l' & I & Q & E & ->).
  destruct (exec_arm _ _ _ _ _ _ _ _ _ _ _ I Q E) as [_ X]. exact (X F eq_refl).
Qed.

(** RF covers one instruction: the one after it begins with RF clear, unless it was loaded *)
Theorem C87_once : forall P p d l l1 a t e a2 t2 r2 e2 l2, Forall (plain P) (trace P l (init p d)) ->
  trace P l (init p d) = l1 ++ Exec a t true e :: Exec a2 t2 r2 e2 :: l2 -> a2 = next_of P a e /\ r2 = false.
Proof.
  intros P p d l l1 a t e a2 t2 r2 e2 l2 PL H. destruct (C85_order_partial P p d l PL) as [A _].
  pose proof PL as PP. rewrite H in PP. apply Forall_app in PP. destruct PP as [_ PP]. inversion PP as [|x y PX PY]; subst x y.
  destruct PX as (_ & _ & PX).
  specialize (A (l1 ++ [Exec a t true e]) (Exec a2 t2 r2 e2) l2). rewrite <- app_assoc in A. specialize (A H).
  rewrite fold_left_app in A. cbn [fold_left right] in A. generalize dependent (fold_left (after P) l1 (start p)). intros g A.
  unfold after in A. destruct (fault e) as [v|] eqn:FA.
  - destruct A as (A & _). discriminate A.
  - destruct A as (_ & A1 & _ & A2 & _). cbn [apc arf] in A1, A2. subst a2 r2. split; [reflexivity|]. cbn [arf]. unfold rf_after. destruct (PX eq_refl eq_refl) as [_ X].
    destruct (loads P a); [|reflexivity]. destruct (lrf e) as [[]|]; [exfalso; apply X; reflexivity|reflexivity|reflexivity].
Qed.

(** ** Cases *)
Definition eff : effect := mkeff [] None 0 None None None false None 0.
Definition goes (x : Z) : effect := mkeff [] None x None None None false None 0.
Definition flags (x : Z) (t r : bool) : effect := mkeff [] None x (Some t) (Some r) None false None 0.
Definition watch (l : list Z) : effect := mkeff l None 0 None None None false None 0.
Definition arms (f : Z -> option Z) : effect := mkeff [] None 0 None None None false (Some f) 0.
Definition intr (v : Z) : effect := mkeff [] None 0 None None None false None v.
Definition pf (l : list Z) : effect := mkeff l (Some 14) 0 None None None false None 0.
(** Instructions of one byte; every handler [v] is at 0x1000 + 16 v *)
Definition prog_of (k : Z -> kind) : prog := mkprog k (fun _ => 1) (fun v => 0x1000 + 16 * v).
Definition at1 (l : list (Z * kind)) (a : Z) : kind := match find (fun x => fst x =? a) l with Some x => snd x | None => Seq end.
Definition I (e : effect) : ev := Instr e (O, O).
Definition M : ev := Main 10 true.
Definition armed_at (a i : Z) : Z -> option Z := fun x => if x =? a then Some i else None.
(** A plain history: a breakpoint is armed and the code dropped, the breakpoint is reported, its handler returns with RF
    and TF set, the instruction is executed and single stepped, the handler of that returns with TF clear, the next
    instruction hits a data breakpoint *)
Definition toyP : prog := prog_of (at1 [(0, MovDr); (1, Seq); (2, Seq); (0x1010, Jump)]).
Definition toyH : list ev :=
  [M; I (arms (armed_at 1 2)); Flush; M; M; I (flags 1 true true); M; I eff; M; I (flags 2 false false); M; I (watch [0]); M; I (flags 3 false false)].
Example C85_sat : Forall (plain toyP) (trace toyP toyH (init 0 0)) /\
  map (fun o => match o with Exec a t r _ => (a, t, r, 0) | Exc v p t r d => (p, t, r, v) | Flushed => (0, false, false, -1) end) (trace toyP toyH (init 0 0)) =
  [(0, false, false, 0); (0, false, false, -1); (1, false, false, 1); (0x1010, false, false, 0); (1, true, true, 0); (2, true, false, 1); (0x1010, false, false, 0);
   (2, false, false, 0); (3, false, false, 1); (0x1010, false, false, 0)].
Proof.
  split; [|vm_compute; reflexivity].
  let t := eval vm_compute in (trace toyP toyH (init 0 0)) in change (trace toyP toyH (init 0 0)) with t.
  repeat (apply Forall_cons; [cbn; repeat split; intros; try congruence; try discriminate|]). apply Forall_nil.
Qed.

(** ** Where the emulator differs *)

(** HLT is not single stepped: the cpu waits for an interrupt (here 0x20) and no debug exception comes *)
Theorem C85_refuted_halt : exists P p d l l1 a e q t r d' l2,
  trace P l (init p d) = l1 ++ Exec a true false e :: Exc 0x20 q t r d' :: l2 /\ knd P a = Halt /\ fault e = None.
Proof.
  exists (prog_of (at1 [(0, Jump); (1, Halt)])), 0, 0, [M; I (flags 1 true false); M; I (intr 0x20)], [Exec 0 false false (flags 1 true false)], 1, (intr 0x20).
  do 5 eexists. split; [vm_compute; reflexivity|]. split; reflexivity.
Qed.

(** MOV SS and POP SS inhibit debug exceptions until after the next instruction; here the single step comes between the two *)
Theorem C85_refuted_mov_ss : exists P p d l l1 a e q t r d' l2,
  trace P l (init p d) = l1 ++ Exec a true false e :: Exc 1 q t r d' :: l2 /\ knd P a = Jump /\ shadow e = true.
Proof.
  set (ss := mkeff [] None 2 None None None true None 0).
  exists (prog_of (at1 [(0, Jump); (1, Jump)])), 0, 0, [M; I (flags 1 true false); M; I ss], [Exec 0 false false (flags 1 true false)], 1, ss.
  do 5 eexists. split; [vm_compute; reflexivity|]. split; reflexivity.
Qed.

(** An instruction that is single stepped and hits a data breakpoint is reported twice: the second debug exception comes
    after the first instruction of the handler, which hits nothing and has TF clear *)
Theorem C86_refuted_twice : exists P p d l l1 a e q1 d1 h e' q2 r1 r2 d2 l2,
  trace P l (init p d) = l1 ++ Exec a true false e :: Exc 1 q1 true r1 d1 :: Exec h false false e' :: Exc 1 q2 false r2 d2 :: l2 /\
  hits e = [0] /\ fault e = None /\ hits e' = [] /\ fault e' = None /\ (forall x, knd P x <> MovDr).
Proof.
  exists (prog_of (at1 [(0, Jump)])), 0, 0, [M; I (flags 1 true false); M; I (watch [0]); M; I eff], [Exec 0 false false (flags 1 true false)], 1, (watch [0]).
  do 2 eexists. exists 0x1010, eff. do 5 eexists. split; [vm_compute; reflexivity|]. repeat (split; [reflexivity|]).
  intros x. unfold prog_of, knd, at1, find, fst, snd. destruct (0 =? x); discriminate.
Qed.

(** The hit of an instruction that then faults is dropped at the end of the first instruction of the fault handler, but not if
    that is INT 1: then it is reported in the handler of INT 1 *)
Theorem C86_refuted_late : exists P p d l e q1 h e1 q2 h2 e2 q3 r1 r2 r3 t1 t2 t3 d1 d2 d3,
  trace P l (init p d) = [Exec p false false e; Exc 14 q1 t1 r1 d1; Exec h false false e1; Exc 1 q2 t2 r2 d2; Exec h2 false false e2; Exc 1 q3 t3 r3 d3] /\
  hits e = [0] /\ fault e = Some 14 /\ knd P h = Int /\ vector e1 = 1 /\ hits e2 = [] /\ fault e2 = None /\ (forall x, knd P x <> MovDr).
Proof.
  exists (prog_of (at1 [(0x10E0, Int)])), 0, 0, [M; I (pf [0]); M; I (intr 1); M; I eff], (pf [0]). eexists. exists 0x10E0, (intr 1). eexists. exists 0x1010, eff.
  do 10 eexists. split; [vm_compute; reflexivity|]. repeat (split; [reflexivity|]).
  intros x. unfold prog_of, knd, at1, find, fst, snd. destruct (0x10E0 =? x); discriminate.
Qed.

(** Arming an instruction of a block that is already translated has no effect: it is executed, with RF clear *)
Theorem C87_refuted_cached : exists P p d l l1 a t e l2 i,
  trace P l (init p d) = l1 ++ Exec a t false e :: l2 /\ aarm (fold_left (after P) l1 (start p)) a = Some i.
Proof.
  exists (prog_of (at1 [(0, Seq); (1, Seq); (2, MovDr); (3, Jump)])), 0, 0,
    [M; I eff; I eff; I (arms (armed_at 1 0)); M; I (goes 0); M; I eff; I eff].
  exists [Exec 0 false false eff; Exec 1 false false eff; Exec 2 false false (arms (armed_at 1 0)); Exec 3 false false (goes 0); Exec 0 false false eff].
  exists 1, false, eff, [], 0. split; vm_compute; reflexivity.
Qed.

(** An INT n executed with RF set saves RF set, so that IRET restores it and a breakpoint on the next instruction is missed *)
Theorem C87_refuted_int : exists P p d l l1 v q t d' l2,
  trace P l (init p d) = l1 ++ Exc v q t true d' :: l2 /\ arf (fold_left (after P) l1 (start p)) = false.
Proof.
  exists (prog_of (at1 [(0, Jump); (1, Int)])), 0, 0, [M; I (flags 1 false true); M; I (intr 0x21)],
    [Exec 0 false false (flags 1 false true); Exec 1 false true (intr 0x21)], 0x21, 2, false. do 2 eexists. split; vm_compute; reflexivity.
Qed.

(** An IRET executed with RF set clears the RF it loads: the breakpoint it wants to pass is reported again *)
Theorem C87_refuted_iret : exists P p d l l1 q t d' l2,
  trace P l (init p d) = l1 ++ Exc 1 q t false d' :: l2 /\ arf (fold_left (after P) l1 (start p)) = true /\ due (fold_left (after P) l1 (start p)) = Nothing.
Proof.
  exists (prog_of (at1 [(0, MovDr); (1, Jump); (2, Jump)])), 0, 0,
    [M; I (arms (armed_at 8 0)); M; I (flags 2 false true); M; I (flags 8 false true); M].
  exists [Exec 0 false false (arms (armed_at 8 0)); Exec 1 false false (flags 2 false true); Exec 2 false true (flags 8 false true)], 8, false.
  do 2 eexists. repeat split; vm_compute; reflexivity.
Qed.

(** The flags saved by a fault have RF as it was; the architecture saves it set *)
Theorem C87_refuted_fault : exists P p d l l1 a e t d' l2,
  trace P l (init p d) = l1 ++ Exec a t false e :: Exc 14 a t false d' :: l2 /\ fault e = Some 14.
Proof.
  exists (prog_of (at1 [])), 0, 0, [M; I (pf [])], [], 0, (pf []), false. do 2 eexists. split; [vm_compute; reflexivity|reflexivity].
Qed.

Print Assumptions C85_step.
Print Assumptions C85_order_partial.
Print Assumptions C85_handler.
Print Assumptions C85_refuted_halt.
Print Assumptions C85_refuted_mov_ss.
Print Assumptions C86_reported.
Print Assumptions C86_refuted_twice.
Print Assumptions C86_refuted_late.
Print Assumptions C87_armed_partial.
Print Assumptions C87_once.
Print Assumptions C87_refuted_cached.
Print Assumptions C87_refuted_int.
Print Assumptions C87_refuted_iret.
Print Assumptions C87_refuted_fault.
