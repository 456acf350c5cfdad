(** * The debugger is transparent: properties C78, C79 and C80 *)

From Coq Require Import ZArith Bool List Lia ZifyBool.
Import ListNotations.
From Verif Require Import DbgModel DbgSpec DbgProofs.
Local Open Scope Z_scope.

(** ** C78: breakpoints do not change the guest's memory *)

(** Starting with breakpoints from the settings *)
Theorem C78_start cs d :
  NoDup (keys d) -> (forall a b p, In a (keys d) -> In b (keys d) -> tr d a = Some p -> tr d b = Some p -> a = b) ->
  (forall a, In a (keys d) -> tr d a <> None) -> (forall d', setup d = Some d' -> uclean cs d') ->
  exists d', start cs d = Some d' /\ armed d' (uideal (tr d) cs (mem d)).
Proof.
  intros U A T C. unfold start. destruct (setup_ok d U A T) as (d1 & E1 & S1 & H1). rewrite E1.
  destruct (usteps_ok cs d1 _ H1 (C d1 E1)) as (d2 & -> & S2 & H2). destruct (apply_ok d2 _ (paused_loose _ _ H2)) as (d3 & -> & S3 & H3).
  exists d3. split; auto. apply armed_R. now rewrite (proj1 S1) in H3.
Qed.
Print Assumptions C78_start.

(** Any session: the debugger never fails to update its breakpoints, and the memory stays
    what the guest and the memory editor make of it, with an INT3 on top of every breakpoint.
    Missing: what [esclean] excludes, where the claim is false (below). *)
Theorem C78_session_partial es d m : armed d m -> esclean es d ->
  exists d', esteps es d = Some d' /\ armed d' (eideal (tr d) es m).
Proof.
  intros H E. apply armed_R in H. destruct (esteps_ok es d m H E) as (d' & X & _ & H1). exists d'. split; auto. now apply armed_R.
Qed.
Print Assumptions C78_session_partial.

(** Whenever the guest is stopped the user sees the guest's memory without breakpoints *)
Theorem C78_pause_partial gs d m : armed d m -> gclean d gs ->
  exists d', pause (gsteps gs d) = Some d' /\ keys d' = keys d /\ forall p, mem d' p = gideal gs m p.
Proof.
  intros H G. apply armed_R in H. destruct (gsteps_lifted gs d m (armed_lifted _ _ H) G) as (H0 & S0).
  destruct (pause_ok _ _ H0) as (d' & E & S & H1). exists d'. split; auto. split; [|now apply paused_mem].
  unfold same, gsame, keys in *. destruct S as (_ & -> & _), S0 as (_ & -> & _). reflexivity.
Qed.
Print Assumptions C78_pause_partial.

(** *** Witnesses: NOPs everywhere, breakpoints at 0x1000 and 0x2000 *)
Definition w_mem : Z -> Z := fun _ => 0x90.
Definition w_armed : Z -> Z := fun p => if (p =? 0x1000) || (p =? 0x2000) then INT3 else 0x90.
Definition w_d : dst := mkd w_armed Some [(0x1000, (0x90, Breakpoint)); (0x2000, (0x90, StepOver))] 0 0x1001 0 0.
Lemma w_ok : armed w_d w_mem.
Proof.
  constructor.
  - unfold keys. cbn. repeat constructor; cbn; lia.
  - cbn. intros a b p _ _ [= <-] [= <-]. reflexivity.
  - cbn. intros a o t [E|[E|[]]]; injection E as <- <- <-; eexists; (split; [reflexivity|]); split; reflexivity.
  - intros p N. cbn. unfold w_armed, w_mem. destruct ((p =? 4096) || (p =? 8192)) eqn:E; auto. exfalso. apply N.
    exists p. split; [|reflexivity]. unfold keys. cbn. lia.
Qed.

Lemma some_with (o : option dst) (f : dst -> bool) : match o with Some d => f d | None => false end = true -> exists d, o = Some d /\ f d = true.
Proof. destruct o; [eauto | discriminate]. Qed.

(** The hypotheses of the session theorem: the guest writes over one breakpoint, runs into
    the other, the user sets one more and continues *)
Example C78_hyp : esclean [EHit [GWrite 0x2000 0x55] [UToggle 0x3000] [GWrite 0x1000 0x56] None; EStop [] []] w_d.
Proof.
  split.
  - split; [intros g [<-|[]]; left; discriminate|]. split; [vm_compute; discriminate|]. intros d1 E1.
    assert (forall d1, hit_stop (gsteps [GWrite 0x2000 0x55] w_d) = Some d1 -> keys d1 = [0x1000] /\ tr d1 = Some) as X.
    { intros d2 E2. destruct (hit_ok (gsteps [GWrite 0x2000 0x55] w_d) (gideal [GWrite 0x2000 0x55] w_mem)) as (d3 & E3 & S3 & _).
      - apply gsteps_lifted; [now apply armed_lifted, armed_R, w_ok | intros g [<-|[]]; left; discriminate].
      - vm_compute. discriminate.
      - assert (d3 = d2) as -> by congruence. split; [|exact (proj1 S3)].
        destruct (some_with (hit_stop (gsteps [GWrite 0x2000 0x55] w_d)) (fun d => match keys d with [a] => a =? 0x1000 | _ => false end)) as (d4 & E4 & X4); [vm_compute; reflexivity|].
        assert (d4 = d2) as -> by congruence. destruct (keys d2) as [|a [|? ?]]; try discriminate. f_equal. lia. }
    destruct (X d1 E1) as (Kd & T). split.
    + cbn [uclean uclean1]. split; auto. intros b p I. rewrite T. rewrite Kd in I. cbn in I. intros [= <-] [= ->]. lia.
    + intros d2 d3 _ _. split; auto. intros g [<-|[]]. left. discriminate.
  - intros d' _. split; [|intros; exact I]. split; [intros g []|]. intros d1 _. exact I.
Qed.

(** *** Where it is false *)

(** The guest writes an INT3 of its own on a byte with a breakpoint: it is lost *)
Theorem C78_refuted_guest_writes_int3 : exists d m p d', armed d m /\
  pause (gsteps [GWrite p INT3] d) = Some d' /\ mem d' p <> INT3.
Proof.
  exists w_d, w_mem, 0x1000.
  destruct (some_with (pause (gsteps [GWrite 0x1000 INT3] w_d)) (fun d => mem d 0x1000 =? 0x90)) as (d' & E & X); [vm_compute; reflexivity|].
  exists d'. split; [exact w_ok|]. split; [exact E|]. change INT3 with 0xCC. lia.
Qed.
Print Assumptions C78_refuted_guest_writes_int3.

(** The guest reads its own code: it sees the INT3 *)
Theorem C78_refuted_guest_reads : exists d m a p, armed d m /\ In a (keys d) /\ tr d a = Some p /\ rd d a = Some INT3 /\ m p <> INT3.
Proof. exists w_d, w_mem, 0x1000, 0x1000. split; [exact w_ok|]. repeat split; [now left | vm_compute; discriminate]. Qed.
Print Assumptions C78_refuted_guest_reads.

(** The guest changes the page of a breakpoint: the INT3 stays in the old page, and the
    byte it replaced is forgotten *)
Theorem C78_refuted_page_tables : exists d m t p d', armed d m /\
  pause (gsteps [GMap t; GWrite 0x8000 0x12] d) = Some d' /\ mem d' p = INT3 /\ m p <> INT3 /\
  forall a o u, In (a, (o, u)) (brk d') -> tr d a = Some p -> o <> m p.
Proof.
  set (t := fun a => if a =? 0x1000 then Some 0x8000 else Some a). exists w_d, w_mem, t, 0x1000.
  destruct (some_with (pause (gsteps [GMap t; GWrite 0x8000 0x12] w_d))
    (fun d => (mem d 0x1000 =? INT3) && forallb (fun e => negb (fst e =? 0x1000) || negb (fst (snd e) =? 0x90)) (brk d))) as (d' & E & X); [vm_compute; reflexivity|].
  apply andb_prop in X. destruct X as (X & Y). rewrite forallb_forall in Y.
  exists d'. split; [exact w_ok|]. split; [exact E|]. split; [now apply Z.eqb_eq|]. split; [discriminate|].
  intros a o u I T. specialize (Y _ I). cbn in Y, T. injection T as ->. unfold w_mem. lia.
Qed.
Print Assumptions C78_refuted_page_tables.

(** The user edits the byte they are stopped at: continuing takes the edit back *)
Theorem C78_refuted_edit : exists d m p v d1 d2 d3, armed d m /\
  hit_stop d = Some d1 /\ usteps [UEdit p v] d1 = Some d2 /\ mem d2 p = v /\
  hit_resume (hit_pc d) d2 = Some d3 /\ mem d3 p <> v.
Proof.
  exists w_d, w_mem, 0x1000, 0x55.
  destruct (some_with (hit_stop w_d) (fun d1 => match usteps [UEdit 0x1000 0x55] d1 with
    Some d2 => (mem d2 0x1000 =? 0x55) && match hit_resume (hit_pc w_d) d2 with Some d3 => mem d3 0x1000 =? 0x90 | None => false end | None => false end))
    as (d1 & E1 & X); [vm_compute; reflexivity|].
  apply some_with in X. destruct X as (d2 & E2 & X). apply andb_prop in X. destruct X as (X2 & X). apply some_with in X. destruct X as (d3 & E3 & X3).
  exists d1, d2, d3. split; [exact w_ok|]. split; [exact E1|]. split; [exact E2|]. split; [lia|]. split; [exact E3|]. lia.
Qed.
Print Assumptions C78_refuted_edit.

(** The guest overwrites a breakpoint and switches to protected mode: the old byte comes back *)
Theorem C78_refuted_mode_switch : exists d m p v d', armed d m /\ v <> INT3 /\
  estep (EMode [GWrite p v]) d = Some d' /\ mem d' p <> v.
Proof.
  exists w_d, w_mem, 0x1000, 0x55.
  destruct (some_with (estep (EMode [GWrite 0x1000 0x55]) w_d) (fun d => mem d 0x1000 =? 0x90)) as (d' & E & X); [vm_compute; reflexivity|].
  exists d'. split; [exact w_ok|]. split; [discriminate|]. split; [exact E|]. lia.
Qed.
Print Assumptions C78_refuted_mode_switch.

(** Two linear addresses of one byte, both with a breakpoint: the instruction at the
    breakpoint changes that byte; at the next stop the old byte is back *)
Definition w_tr2 : Z -> option Z := fun a => if a =? 0x9000 then Some 0x1000 else Some a.
Definition w_two : dst := mkd w_armed w_tr2 [(0x1000, (0x90, Breakpoint)); (0x9000, (0x90, Breakpoint))] 0 0x1001 0 0.
Theorem C78_refuted_two_addresses : exists d p v d1 d', v <> INT3 /\
  (forall a o t, In (a, (o, t)) (brk d) -> tr d a = Some p /\ mem d p = INT3 /\ o = 0x90) /\
  estep (EHit [] [] [GWrite p v] None) d = Some d1 /\ pause d1 = Some d' /\ mem d' p <> v.
Proof.
  exists w_two, 0x1000, 0x55.
  destruct (some_with (estep (EHit [] [] [GWrite 0x1000 0x55] None) w_two) (fun d => match pause d with Some d' => mem d' 0x1000 =? 0x90 | None => false end))
    as (d1 & E1 & X); [vm_compute; reflexivity|].
  apply some_with in X. destruct X as (d' & E & X). exists d1, d'. split; [discriminate|].
  split; [cbn; intros a o t [W|[W|[]]]; injection W as <- <- <-; repeat split|].
  split; [exact E1|]. split; [exact E|]. lia.
Qed.
Print Assumptions C78_refuted_two_addresses.

(** ** C79: stopping at a breakpoint and going on *)

(** The original instruction is executed, at its own address, in the guest's own memory,
    whatever it then does; after it all breakpoints are set again *)
Theorem C79_hit_partial gs cs d m : armed d m -> gclean d gs -> let d0 := gsteps gs d in
  0 <= csb d -> find (hit_pc d0) (brk d0) <> None -> (forall d1, hit_stop d0 = Some d1 -> uclean cs d1) ->
  exists d3, (forall p, mem d3 p = uideal (tr d) cs (gideal gs m) p) /\
    csb d3 = csb d /\ (csb d3 + eip d3) mod 2 ^ 32 = hit_pc d0 /\
    forall exec, bp_handler cs exec d0 = match exec d3 with Some d4 => apply d4 | None => None end.
Proof.
  intros H G d0 CB F U. apply armed_R in H. destruct (gsteps_lifted gs d m (armed_lifted _ _ H) G) as (H0 & S0). fold d0 in H0, S0.
  destruct (hit_ok _ _ H0 F) as (d1 & E1 & S1 & H1). destruct (usteps_ok cs d1 _ H1 (U d1 E1)) as (d2 & E2 & S2 & H2).
  destruct (resume_ok (hit_pc d0) d2 _ H2) as (d3 & E3 & H3 & T3 & C3 & P3). exists d3.
  assert (tr d1 = tr d) as X1 by (unfold usame, gsame in *; intuition congruence). rewrite X1 in H3.
  assert (csb d3 = csb d) as X2 by (unfold usame, gsame in *; intuition congruence).
  assert (csb d = csb d0) as X4 by (unfold gsame in *; intuition congruence).
  assert (eip d2 = eip d0) as X3 by (unfold usame, gsame in *; intuition congruence).
  split; [now apply paused_mem|]. split; auto. split.
  - rewrite P3, X2, X3, X4. unfold hit_pc. rewrite Zplus_mod_idemp_r. f_equal. lia.
  - intros exec. unfold bp_handler. destruct (find (hit_pc d0) (brk d0)); [|congruence]. rewrite E1, E2, E3. reflexivity.
Qed.
Print Assumptions C79_hit_partial.

Theorem C79_rearmed d m d' : (forall p, mem d p = m p) -> NoDup (keys d) ->
  (forall a b p, In a (keys d) -> In b (keys d) -> tr d a = Some p -> tr d b = Some p -> a = b) ->
  (forall a o t, In (a, (o, t)) (brk d) -> exists p, tr d a = Some p /\ (m p = INT3 -> o = INT3)) ->
  apply d = Some d' -> keys d' = keys d /\ forall a, In a (keys d) -> rd d' a = Some INT3.
Proof.
  intros M U A B E. destruct (apply_ok d m) as (d1 & E1 & S & H).
  { constructor; auto. intros a o t I. destruct (B a o t I) as (p & T & L). exists p. unfold K, P_loose. auto. }
  assert (d1 = d') as -> by congruence. split; [apply S|]. intros a I.
  assert (In a (keys d')) as J by (destruct S as (_ & -> & _); exact I).
  destruct (key_entry a (brk d') J) as (o & t & Q). destruct (r_brk _ _ _ H a o t Q) as (p & T & X & _). unfold rd. now rewrite T, X.
Qed.
Print Assumptions C79_rearmed.


(** The list after a stop: a step-over breakpoint that was hit is gone; a breakpoint that
    was hit removes all step-over ones; everything else stays *)

Lemma entries_assign (a b : Z) (t : btype) (l : list (Z * info)) : NoDup (map fst l) -> In (a, t) (map (fun e => (fst e, snd (snd e))) l) ->
  map (fun e => (fst e, snd (snd e))) (assign a (b, t) l) = map (fun e => (fst e, snd (snd e))) l.
Proof.
  intros N I. unfold assign, info in *. rewrite map_map. apply map_ext_in. intros e J. cbv beta. destruct (fst e =? a) eqn:E; [|reflexivity]. cbn [fst snd].
  apply in_map_iff in I. destruct I as ((c & o & u) & X & I). cbn in X. injection X as -> ->.
  destruct e as (c & o1 & u1). cbn in *. assert (c = a) as -> by lia. pose proof (uniq_entry _ _ _ _ N I J) as X. injection X as _ ->. reflexivity.
Qed.
Lemma update_entries : forall l d d', NoDup (keys d) -> (forall a o t, In (a, (o, t)) l -> In (a, t) (entries d)) ->
  update_loop l d = Some d' -> entries d' = entries d.
Proof.
  induction l as [|[a [o t]] l IH]; intros d d' N I E; cbn [update_loop] in E; [congruence|].
  destruct (rd d a) as [b|]; [|discriminate].
  assert (forall b, entries (set_brk (assign a (b, t) (brk d)) d) = entries d) as X.
  { intros c. apply entries_assign; auto. apply (I a o t). now left. }
  destruct (b =? INT3).
  - apply (IH d); auto. intros x y z J. apply (I x y z). now right.
  - rewrite <- (X b). apply (IH _ d'); auto.
    + unfold keys. cbn. rewrite keys_assign. exact N.
    + intros x y z J. rewrite X. apply (I x y z). now right.
Qed.
Lemma remove_entries : forall l d d', remove_loop l d = Some d' -> brk d' = brk d.
Proof.
  induction l as [|[a [o t]] l IH]; intros d d' E; cbn [remove_loop] in E; [congruence|]. unfold wr in E.
  destruct (tr d a); [|discriminate]. apply IH in E. exact E.
Qed.

Theorem C79_temporary d d' o t : NoDup (keys d) -> find (hit_pc d) (brk d) = Some (o, t) -> hit_stop d = Some d' ->
  forall a u, In (a, u) (entries d') <->
    In (a, u) (entries d) /\ (t = StepOver -> a <> hit_pc d) /\ (t = Breakpoint -> u = Breakpoint).
Proof.
  intros N F E a u. unfold hit_stop in E. rewrite F in E. unfold pause in E. destruct (update d) as [d1|] eqn:E1; [|discriminate].
  destruct (remove d1) as [d2|] eqn:E2; [|discriminate]. injection E as <-.
  apply remove_entries in E2. apply update_entries in E1; auto.
  2:{ intros x y z I. unfold entries. apply in_map_iff. exists (x, (y, z)). auto. }
  rewrite <- E1. unfold entries. cbn [brk set_brk]. rewrite E2, !in_map_iff. unfold drop_steps, erase. destruct t.
  - split.
    + intros (e & X & I). apply filter_In in I. destruct I as (I & Y). injection X as <- <-. destruct e as (c & q & z). cbn in *.
      split; [eexists; split; [|exact I]; reflexivity|]. split; [discriminate|]. intros _. destruct z; congruence.
    + intros ((e & X & I) & _ & Y). exists e. split; auto. apply filter_In. split; auto. specialize (Y eq_refl). injection X as _ X2. rewrite X2, Y. reflexivity.
  - split.
    + intros (e & X & I). apply filter_In in I. destruct I as (I & Y). injection X as <- <-. destruct e as (c & q & z). cbn in *.
      split; [eexists; split; [|exact I]; reflexivity|]. split; [intros _; lia | discriminate].
    + intros ((e & X & I) & Y & _). exists e. split; auto. apply filter_In. split; auto. specialize (Y eq_refl). injection X as X1 _. unfold info in *. cbv beta. rewrite X1. lia.
Qed.
Print Assumptions C79_temporary.

(** Setting the breakpoints in memory changes neither the list nor the kinds of its entries *)
Lemma apply_entries : forall l d d', NoDup (keys d) -> (forall a o t, In (a, (o, t)) l -> In (a, t) (entries d)) ->
  apply_loop l d = Some d' -> entries d' = entries d.
Proof.
  induction l as [|[a [o t]] l IH]; intros d d' N I E; cbn [apply_loop] in E; [congruence|]. unfold apply1, wr in E.
  destruct (rd d a) as [b|]; [|discriminate].
  destruct (b =? INT3).
  - apply (IH d); auto. intros x y z J. apply (I x y z). now right.
  - destruct (tr d a) as [p|]; [|discriminate].
    set (d1 := set_mem (put p INT3 (mem d)) d) in *.
    assert (entries (set_brk (assign a (b, t) (brk d1)) d1) = entries d) as X.
    { change (entries d) with (entries d1). apply entries_assign; auto. apply (I a o t). now left. }
    rewrite <- X. apply (IH _ d'); auto.
    + unfold keys. cbn [brk set_brk]. rewrite keys_assign. exact N.
    + intros x y z J. rewrite X. apply (I x y z). now right.
Qed.
Theorem C79_kinds_kept d d' : NoDup (keys d) -> apply d = Some d' -> entries d' = entries d.
Proof.
  intros N E. eapply apply_entries; eauto. intros x y z I. unfold entries. apply in_map_iff. exists (x, (y, z)). auto.
Qed.
Print Assumptions C79_kinds_kept.

(** Breakpoint exceptions go to the breakpoint handler, exceptions other than 1 and 3 to the guest *)
Theorem C79_forwarded cs exec d : (dr6 d = 0 -> raise 3 cs exec d = ToDebugger (bp_handler cs exec d)) /\
  forall v, v <> 1 -> v <> 3 -> raise v cs exec d = ToGuest.
Proof.
  split.
  - intros E. unfold raise, exp_handler. rewrite E. cbn. rewrite E. reflexivity.
  - intros v N1 N3. unfold raise. apply Z.eqb_neq in N1, N3. now rewrite N1, N3.
Qed.
Print Assumptions C79_forwarded.

Example C79_hyp : find (hit_pc w_d) (brk w_d) = Some (0x90, Breakpoint) /\ armed w_d w_mem.
Proof. split; [reflexivity | exact w_ok]. Qed.

(** *** Where it is false *)

(** INT3 of the guest, no breakpoint there: the guest's handler is not entered, execution
    goes on after the INT3 *)
Theorem C79_refuted_guest_int3 cs exec d : find (hit_pc d) (brk d) = None -> dr6 d = 0 ->
  raise 3 cs exec d = ToDebugger (Some d).
Proof. intros F E. unfold raise, exp_handler. rewrite E. cbn. rewrite E. cbn. unfold bp_handler. now rewrite F. Qed.
Print Assumptions C79_refuted_guest_int3.

(** The guest's own instruction breakpoint (here DR0): the debugger takes the exception,
    clears DR6 and returns to the same instruction with nothing changed, so that the same
    exception is raised again, for ever *)
Theorem C79_refuted_guest_hw_breakpoint cs exec d : find (hit_pc d) (brk d) = None -> dr6 d = 1 -> bp_type (dr7 d) 0 = 0 ->
  raise 1 cs exec d = ToDebugger (Some (set_dr6 0 d)).
Proof.
  intros F E T. unfold raise, exp_handler. rewrite E. cbn [Z.eqb orb Pos.eqb]. change (Z.land 1 0x200F =? 0) with false. cbv iota.
  assert (Z.land 1 (Z.lnot (instr_mask (dr7 d))) = 0) as X.
  { unfold instr_mask. cbn [fold_left]. rewrite T. change (0 =? 0) with true. cbv iota.
    destruct (bp_type (dr7 d) 1 =? 0), (bp_type (dr7 d) 2 =? 0), (bp_type (dr7 d) 3 =? 0); reflexivity. }
  rewrite X. cbn [set_dr6 dr6]. change (Z.land 0 0x4000 =? 0) with true. change (Z.land 0 0xF =? 0) with true. cbn [negb].
  unfold bp_handler. change (hit_pc (set_dr6 0 d)) with (hit_pc d). cbn [set_dr6 brk]. now rewrite F.
Qed.
Print Assumptions C79_refuted_guest_hw_breakpoint.

(** The same with a breakpoint of the debugger on the byte before: it is taken for that
    breakpoint and the instruction before is executed a second time *)
Theorem C79_refuted_mistaken : exists d m cs, armed d m /\ dr6 d = 1 /\ bp_type (dr7 d) 0 = 0 /\
  forall exec, exists d3, eip d3 = eip d - 1 /\
    raise 1 cs exec d = ToDebugger (match exec d3 with Some d4 => apply d4 | None => None end).
Proof.
  exists (set_dr6 1 w_d), w_mem, []. split; [destruct w_ok; constructor; auto|]. split; [reflexivity|]. split; [reflexivity|].
  intros exec. destruct (C79_hit_partial [] [] w_d w_mem w_ok) as (d3 & _ & C & P & X).
  - intros g [].
  - discriminate.
  - vm_compute. discriminate.
  - intros; exact I.
  - assert (armed (set_dr6 0 w_d) w_mem) as W by (destruct w_ok; constructor; auto).
    destruct (hit_ok (set_dr6 0 w_d) w_mem) as (d1 & E1 & S1 & H1); [now apply armed_lifted, armed_R | vm_compute; discriminate|].
    destruct (resume_ok (hit_pc (set_dr6 0 w_d)) d1 w_mem H1) as (d4 & E4 & _ & _ & _ & P4). exists d4. split.
    + rewrite P4. destruct S1 as (_ & _ & -> & _). reflexivity.
    + unfold raise, exp_handler. change ((1 =? 1) || (1 =? 3)) with true. cbv iota. f_equal.
      change (set_dr6 (Z.land (dr6 (set_dr6 1 w_d)) (Z.lnot (instr_mask (dr7 (set_dr6 1 w_d))))) (set_dr6 1 w_d)) with (set_dr6 0 w_d).
      change (Z.land (dr6 (set_dr6 1 w_d)) 0x200F =? 0) with false. cbv iota.
      change (negb (Z.land (dr6 (set_dr6 0 w_d)) 0x4000 =? 0)) with false. change (negb (Z.land (dr6 (set_dr6 0 w_d)) 0xF =? 0)) with false. cbv iota.
      unfold bp_handler. change (find (hit_pc (set_dr6 0 w_d)) (brk (set_dr6 0 w_d))) with (Some (0x90, Breakpoint)). cbv iota beta.
      rewrite E1. cbn [usteps]. rewrite E4. reflexivity.
Qed.
Print Assumptions C79_refuted_mistaken.

(** ** C80: watchpoints and the settings *)
Lemma land3 x : Z.land x 3 = Z.b2z (Z.testbit x 0) + 2 * Z.b2z (Z.testbit x 1).
Proof.
  change 3 with (Z.ones 2). rewrite Z.land_ones by lia. change (2 ^ 2) with 4.
  rewrite !Z.testbit_spec' by lia. change (2 ^ 0) with 1. change (2 ^ 1) with 2. rewrite Z.div_1_r.
  change 4 with (2 * 2). rewrite Z.rem_mul_r by lia. reflexivity.
Qed.
Definition field (v k : Z) : Z := Z.land (Z.shiftr v k) 3.
Lemma field_bits v k : 0 <= k -> field v k = Z.b2z (Z.testbit v k) + 2 * Z.b2z (Z.testbit v (k + 1)).
Proof. intros K. unfold field. rewrite land3, !Z.shiftr_spec by lia. do 4 f_equal; lia. Qed.

Lemma small_bit c n : 0 <= c < 4 -> Z.testbit c n = if n =? 0 then Z.testbit c 0 else if n =? 1 then Z.testbit c 1 else false.
Proof.
  intros C. destruct (Z.eqb_spec n 0) as [->|]; auto. destruct (Z.eqb_spec n 1) as [->|]; auto.
  destruct (Z.ltb_spec n 0); [now apply Z.testbit_neg_r|]. assert (c = 0 \/ c = 1 \/ c = 2 \/ c = 3) as [->|[->|[->| ->]]] by lia.
  1: apply Z.bits_0. all: apply Z.bits_above_log2; cbn; lia.
Qed.
Lemma bit3 n : Z.testbit 3 n = (n =? 0) || (n =? 1).
Proof. rewrite small_bit by lia. destruct (n =? 0), (n =? 1); reflexivity. Qed.
Lemma small_field c : 0 <= c < 4 -> Z.b2z (Z.testbit c 0) + 2 * Z.b2z (Z.testbit c 1) = c.
Proof. intros C. assert (c = 0 \/ c = 1 \/ c = 2 \/ c = 3) as [->|[->|[->| ->]]] by lia; reflexivity. Qed.

Ltac compare := repeat match goal with |- context [Z.eqb ?a ?b] => let r := eval vm_compute in (Z.eqb a b) in change (Z.eqb a b) with r; cbv iota end.
Ltac four i := let H := fresh in assert (i = 0 \/ i = 1 \/ i = 2 \/ i = 3) as H by lia; destruct H as [->|[->|[->| ->]]].

Lemma update_bit i n addr rw size en r : 0 <= i < 4 -> 0 <= n < 32 -> 0 <= rw < 4 -> 0 <= size < 4 ->
  Z.testbit (r7 (update_wp i addr rw size en r)) n =
    (Z.testbit (r7 r) n && negb ((n - i * 2 =? 0) || (n - i * 2 =? 1) || (n - (16 + i * 4) =? 0) || (n - (16 + i * 4) =? 1) || (n - (18 + i * 4) =? 0) || (n - (18 + i * 4) =? 1)))
    || (en && ((n - i * 2 =? 0) || (n - i * 2 =? 1)))
    || (if n - (16 + i * 4) =? 0 then Z.testbit rw 0 else if n - (16 + i * 4) =? 1 then Z.testbit rw 1 else false)
    || (if n - (18 + i * 4) =? 0 then Z.testbit size 0 else if n - (18 + i * 4) =? 1 then Z.testbit size 1 else false).
Proof.
  intros I N RW SZ. unfold update_wp, clear_fields. cbn [r7].
  rewrite !Z.lor_spec, !Z.mod_pow2_bits_low, Z.land_spec, Z.lnot_spec, !Z.lor_spec, !Z.shiftl_spec by lia.
  rewrite <- (small_bit rw), <- (small_bit size) by lia. f_equal. f_equal.
  rewrite !bit3. f_equal.
  - f_equal. f_equal. rewrite !orb_assoc. reflexivity.
  - destruct en; [now rewrite bit3 | now rewrite Z.bits_0].
Qed.

Lemma fields_of r i : watch r i = if negb (field (r7 r) (i * 2) =? 0) then Some (ra r i, bytes_of_code (field (r7 r) (18 + i * 4)), field (r7 r) (16 + i * 4)) else None.
Proof. reflexivity. Qed.

Lemma update_fields i j addr rw size en r : 0 <= i < 4 -> 0 <= j < 4 -> 0 <= rw < 4 -> 0 <= size < 4 ->
  let v := r7 (update_wp i addr rw size en r) in
  (j <> i -> field v (j * 2) = field (r7 r) (j * 2) /\ field v (16 + j * 4) = field (r7 r) (16 + j * 4) /\ field v (18 + j * 4) = field (r7 r) (18 + j * 4)) /\
  field v (i * 2) = (if en then 3 else 0) /\ field v (16 + i * 4) = rw /\ field v (18 + i * 4) = size.
Proof.
  intros I J RW SZ v. rewrite !field_bits by lia. subst v. rewrite !update_bit by lia.
  split; [|four i; compare; cbn [negb andb orb]; rewrite ?andb_false_r, ?andb_true_r, ?orb_false_r, ?orb_false_l; (split; [destruct en; reflexivity|]); split; now apply small_field].
  intros NE. four i; four j; try congruence; clear; compare; cbn [negb andb orb]; rewrite ?andb_false_r, ?andb_true_r, ?orb_false_r; auto.
Qed.

(** Setting or clearing one watchpoint changes that one and no other, and no other bit
    of DR7 that is not a watchpoint's *)
Theorem C80_update i addr rw size en r : 0 <= i < 4 -> 1 <= rw < 4 -> 0 <= size < 4 ->
  (forall j, 0 <= j < 4 -> watch (update_wp i addr rw size en r) j =
     if j =? i then (if en then Some (addr, bytes_of_code size, rw) else None) else watch r j) /\
  (forall n, 8 <= n < 16 -> Z.testbit (r7 (update_wp i addr rw size en r)) n = Z.testbit (r7 r) n).
Proof.
  intros I RW SZ. split.
  - intros j J. rewrite !fields_of. destruct (update_fields i j addr rw size en r) as (O & E1 & E2 & E3); try lia.
    destruct (Z.eqb_spec j i) as [->|N].
    + rewrite E1, E2, E3. unfold update_wp. cbn [ra]. rewrite put_eq. destruct en; reflexivity.
    + destruct (O N) as (-> & -> & ->). unfold update_wp. cbn [ra]. now rewrite put_ne.
  - intros n N. rewrite update_bit by lia.
    assert (forall k, (k = i * 2 /\ n - k >= 2) \/ (k >= 16 /\ n - k < 0) -> (n - k =? 0) = false /\ (n - k =? 1) = false) as X by (intros; lia).
    destruct (X (i * 2)) as (-> & ->); [lia|]. destruct (X (16 + i * 4)) as (-> & ->); [lia|]. destruct (X (18 + i * 4)) as (-> & ->); [lia|].
    cbn. rewrite andb_true_r, andb_false_r, !orb_false_r. reflexivity.
Qed.
Print Assumptions C80_update.

Example C80_hyp : watch (update_wp 2 0x1234 3 1 true (mkdr 0x400 (fun _ => 0))) 2 = Some (0x1234, 2, 3).
Proof. reflexivity. Qed.

Lemma clear_fields_of i j v : 0 <= i < 4 -> 0 <= j < 4 -> let v' := Z.land v (Z.lnot (Z.shiftl 3 (i * 2))) mod 2 ^ 32 in
  (j <> i -> field v' (j * 2) = field v (j * 2)) /\ field v' (i * 2) = 0 /\ field v' (16 + j * 4) = field v (16 + j * 4) /\ field v' (18 + j * 4) = field v (18 + j * 4).
Proof.
  intros I J v'. rewrite !field_bits by lia. subst v'. rewrite !Z.mod_pow2_bits_low, !Z.land_spec, !Z.lnot_spec, !Z.shiftl_spec by lia.
  rewrite !bit3.
  four i; four j; compare; cbn [negb andb orb]; rewrite ?andb_false_r, ?andb_true_r; (split; [intros; try reflexivity; congruence|]); repeat split.
Qed.

Lemma load_one i j w r : 0 <= i < 4 -> 0 <= j < 4 -> 0 <= w_type w < 4 -> 0 <= w_size w < 4 ->
  watch (load_wp i w r) j = if j =? i then (if w_type w =? 0 then None else Some (w_addr w, bytes_of_code (w_size w), w_type w)) else watch r j.
Proof.
  intros I J T SZ. unfold load_wp. destruct (Z.eqb_spec (w_type w) 0) as [E|N].
  - rewrite !fields_of. cbn [r7 ra]. destruct (clear_fields_of i j (r7 r) I J) as (O & E1 & E2 & E3). destruct (Z.eqb_spec j i) as [->|NE].
    + rewrite E1. reflexivity.
    + rewrite O, E2, E3 by auto. reflexivity.
  - destruct (C80_update i (w_addr w) (w_type w) (w_size w) true r) as (X & _); try lia. now rewrite X.
Qed.
Lemma field_range v k : 0 <= field v k < 4.
Proof. unfold field. rewrite land3. destruct (Z.testbit _ 0), (Z.testbit _ 1); cbn; lia. Qed.
Lemma code_back c : 0 <= c < 4 -> (let s := bytes_of_code c in if s =? 8 then 2 else s - 1) = c.
Proof. intros C. assert (c = 0 \/ c = 1 \/ c = 2 \/ c = 3) as [->|[->|[->| ->]]] by lia; reflexivity. Qed.
Lemma saved r i : let w := save_wp r i in 0 <= w_type w < 4 /\ 0 <= w_size w < 4 /\
  (if w_type w =? 0 then None else Some (w_addr w, bytes_of_code (w_size w), w_type w)) = kept (watch r i).
Proof.
  unfold save_wp, watch. destruct (enabled (r7 r) i); [|cbn; lia || (repeat split; lia)].
  change (bp_type (r7 r) i) with (field (r7 r) (16 + i * 4)). change (wlen (r7 r) i) with (bytes_of_code (field (r7 r) (18 + i * 4))).
  rewrite code_back by apply field_range. cbn [w_type w_size w_addr]. split; [apply field_range|]. split; [apply field_range|].
  destruct (Z.eqb_spec (field (r7 r) (16 + i * 4)) 0) as [->|N]; [reflexivity|]. cbn [kept].
  destruct (field (r7 r) (16 + i * 4)); [congruence|reflexivity|reflexivity].
Qed.

(** Saving the settings and loading them into any CPU gives the same breakpoints, without
    the step-over ones, and the same data and I/O watchpoints; nothing else is enabled.
    Missing: the guest's own instruction breakpoints in the debug registers. *)
Theorem C80_settings_partial l r r0 : let '(l', r') := load (save l r) r0 in
  (forall a, In a (map fst l') <-> exists o, In (a, (o, Breakpoint)) l) /\
  (forall i, 0 <= i < 4 -> watch r' i = kept (watch r i)).
Proof.
  unfold load, save. cbn [o_brk o_wp]. split.
  - assert (forall ks acc a, In a (map fst (fold_left (fun l a => emplace a (0, Breakpoint) l) ks acc)) <-> In a ks \/ In a (map fst acc)) as X.
    { induction ks as [|k ks IH]; intros acc a; cbn [fold_left]; [cbn; tauto|]. rewrite IH. unfold emplace. destruct (find k acc) eqn:F.
      - apply find_In, in_key in F. cbn. intuition congruence.
      - cbn. tauto. }
    intros a. rewrite X. cbn [map In]. rewrite in_map_iff. split.
    + intros [((c & o & t) & E & I)|[]]. apply filter_In in I. cbn in *. subst c. destruct t; [|destruct I; discriminate]. exists o. tauto.
    + intros (o & I). left. exists (a, (o, Breakpoint)). split; auto. apply filter_In. auto.
  - intros i I. cbn [map load_wps]. change (0 + 1) with 1. change (1 + 1) with 2. change (2 + 1) with 3.
    pose proof (saved r 0) as (A0 & B0 & C0). pose proof (saved r 1) as (A1 & B1 & C1). pose proof (saved r 2) as (A2 & B2 & C2). pose proof (saved r 3) as (A3 & B3 & C3).
    four i; rewrite !load_one by lia; cbn [Z.eqb Pos.eqb]; assumption.
Qed.
Print Assumptions C80_settings_partial.

(** The guest's instruction breakpoint is enabled when the settings are saved, and is not
    afterwards *)
Theorem C80_refuted_instruction_breakpoints : exists r r0, watch r 0 = Some (0x1000, 1, 0) /\ watch (snd (load (save [] r) r0)) 0 = None.
Proof. exists (mkdr 0x401 (fun _ => 0x1000)), (mkdr 0x401 (fun _ => 0x1000)). split; reflexivity. Qed.
Print Assumptions C80_refuted_instruction_breakpoints.
