(** * C10-C15: paging, the TLB, and accesses *)

From Coq Require Import ZArith Bool List Lia ZifyBool.
From Verif Require Import AddrSpaceModel.
From Verif Require Import MmuModel MmuSpec MmuProofs TlbProofs TlbInv TlbHist TlbRun TlbUniq.
Import ListNotations.
Local Open Scope Z_scope.

(** ** C10: page protection *)

(** A walk, filling the TLB or not, succeeds exactly when the tables permit the
    access, except on supervisor-only pages whose two levels disagree about
    writing. *)
Lemma query_permits f E s a (wr priv code : bool) : 0 <= a < 2 ^ 32 -> agreeing E s a ->
  match mmu_translate f false E a (flags_of wr priv code) s with XOk _ _ _ => true | XFault _ _ _ => false end = permits E s a wr priv.
Proof.
  intros Ha HD. pose proof (query_eq f E a wr priv code s Ha) as Q. unfold permits, present. destruct (paging s) eqn:P.
  - specialize (HD P). pose proof (granted_allowed E s a wr priv) as G. rewrite HD in G. cbn [andb] in G. rewrite orb_false_r in G.
    unfold found in Q. destruct (walk E s a) as [| l p | l p].
    + rewrite Q. reflexivity.
    + rewrite G in Q by discriminate. cbn [negb orb andb]. destruct (allowed E s a wr priv); [destruct Q as [i ->] | rewrite Q]; reflexivity.
    + rewrite G in Q by discriminate. cbn [negb orb andb]. destruct (allowed E s a wr priv); [destruct Q as [i ->] | rewrite Q]; reflexivity.
  - destruct Q as [i ->]. reflexivity.
Qed.

Theorem C10_walk_partial : forall f (fill : bool) E s addr (wr priv code : bool),
  0 <= addr < 2 ^ 32 -> agreeing E s addr ->
  match mmu_translate f fill E addr (flags_of wr priv code) s with
  | XOk _ _ _ => permits E s addr wr priv = true
  | XFault _ _ _ => permits E s addr wr priv = false
  end.
Proof.
  intros f fill E s a wr priv code Ha HD. rewrite <- (query_permits f E s a wr priv code Ha HD).
  destruct fill; [| destruct (mmu_translate f false E a (flags_of wr priv code) s); reflexivity].
  pose proof (query_eq f E a wr priv code s Ha) as Q. destruct (paging s) eqn:P.
  - pose proof (translate_shape f true E a wr priv code s Ha P) as T. cbv zeta in T. unfold found in Q.
    destruct (walk E s a) as [| l p | l p]; [rewrite T, Q; reflexivity | |];
    (destruct (granted _ _ _ _); [| rewrite T, Q; reflexivity];
     destruct T as (w & _ & ->), Q as (i & ->); destruct (tlb_fill _ _ _ _ _ _); reflexivity).
  - destruct Q as (i & ->). unfold mmu_translate. change CR0_PG with (2 ^ 31). rewrite nz_bit by lia. unfold paging in P. rewrite P.
    cbn [negb]. destruct (tlb_fill _ _ _ _ _ _); reflexivity.
Qed.
Print Assumptions C10_walk_partial.

(** The same for whole guest accesses, TLB included, after any history. *)
Theorem C10_guest_partial : forall E c0 c3 c4 lv w l a n (wr priv : bool),
  let s := mrun E (mmu0 c0 c3 c4 lv w) l in
  uniform E -> 0 <= lv <= 3 -> hist_ok E (mmu0 c0 c3 c4 lv w) l ->
  0 <= a < 2 ^ 32 -> 1 <= n <= 4096 -> (forall i, 0 <= i < n -> agreeing E s (byte_of a i)) ->
  match (if wr then guest_write else guest_read) E a n (p2 priv) s with
  | AOk _ _ => forall i, 0 <= i < n -> permits E s (byte_of a i) wr priv = true
  | AFault b _ _ => permits E s b wr priv = false /\ exists i, 0 <= i < n /\ b = byte_of a i
  end.
Proof.
  intros E c0 c3 c4 lv w l a n wr priv s U Hlv HO Ha Hn HD.
  assert (I : inv false E s) by (apply run_inv; [exact U | now apply inv0 | exact HO | discriminate]).
  assert (BR : forall i, 0 <= byte_of a i < 2 ^ 32) by (intros i; apply Z.mod_pos_bound; lia).
  assert (B0 : byte_of a 0 = a) by (unfold byte_of; rewrite Z.add_0_r; apply Z.mod_small; lia).
  assert (OKC : forall bytes, agree E s a n wr priv bytes -> forall i, 0 <= i < n -> permits E s (byte_of a i) wr priv = true).
  { intros bytes (_ & A) i Hi. destruct (A i Hi) as [info Q].
    rewrite <- (query_permits false E s _ wr priv false (BR i) (HD i Hi)). now rewrite Q. }
  assert (FC : forall b e, mmu_translate false false E b (flags_of wr priv false) s = XFault b e s ->
            b = a \/ b = byte_of a (n - 1) -> permits E s b wr priv = false /\ exists i, 0 <= i < n /\ b = byte_of a i).
  { intros b e Q HB. assert (X : exists i, 0 <= i < n /\ b = byte_of a i).
    { destruct HB as [-> | ->]; [exists 0; split; [lia | now rewrite B0] | exists (n - 1); split; [lia | reflexivity]]. }
    split; [| exact X]. destruct X as (i & Hi & ->). rewrite <- (query_permits false E s _ wr priv false (BR i) (HD i Hi)). now rewrite Q. }
  destruct wr.
  - pose proof (guest_write_inv false E a n priv s U I Ha Hn) as T. destruct (guest_write E a n (p2 priv) s).
    + apply (OKC bytes). tauto.
    + destruct T as (Q & HB & _). exact (FC _ _ Q HB).
  - pose proof (guest_read_inv false E a n priv s U I Ha Hn) as T. destruct (guest_read E a n (p2 priv) s).
    + apply (OKC bytes). tauto.
    + destruct T as (Q & HB & _). exact (FC _ _ Q HB).
Qed.
Print Assumptions C10_guest_partial.

(** ** Concrete machines *)

Definition env_id : menv := mkmenv (fun p => p) (fun _ => KRam) (fun _ => O).
Lemma env_id_uniform : uniform env_id.
Proof.
  intros p Hp. cbn [env_id e_correct]. split; [exact Hp |].
  rewrite Z.div_mul by lia. pose proof (Z.div_mod p (2 ^ 12)). lia.
Qed.

(** directory at 0x1000, one table at 0x2000: linear page [i] of the first 4 MB
    has entry [pte i]; the directory entry is [pde] *)
Definition tables (pde : Z) (pte : Z -> Z) : Z -> Z :=
  fun x => if x =? 0x1000 then pde else if (0x2000 <=? x) && (x <? 0x3000) then pte ((x - 0x2000) / 4) else 0.
(** the entries of the first pages of the 0-4 MB and 8-12 MB ranges *)
Definition tables2 (pte_a pte_b : Z) : Z -> Z :=
  fun x => if x =? 0x1000 then 0x2007 else if x =? 0x1008 then 0x3007
           else if x =? 0x2000 then pte_a else if x =? 0x3000 then pte_b else 0.

Definition PE_PG := 0x80000001.
Definition PE_PG_WP := 0x80010001.

(** C10 in full is false: a supervisor write with CR0.WP set succeeds on a page
    whose table entry is read-only (directory entry writable, both supervisor). *)
Theorem C10_refuted_supervisor_write :
  let s := mmu0 PE_PG_WP 0x1000 0 0 (tables 0x2003 (fun _ => 0x5001)) in
  permits env_id s 0x10 true false = false /\
  exists bytes s', guest_write env_id 0x10 4 0 s = AOk bytes s' /\ bytes = [0x5010; 0x5011; 0x5012; 0x5013].
Proof. cbv zeta. split; [reflexivity |]. eexists. eexists. split; [reflexivity | reflexivity]. Qed.
Print Assumptions C10_refuted_supervisor_write.

Example C10_example :
  let s := mmu0 PE_PG_WP 0x1000 0 3 (tables 0x2007 (fun i => if i =? 0 then 0x5007 else if i =? 1 then 0x6005 else 0x7003)) in
  agreeing env_id s 0x10 /\ agreeing env_id s 0x1010 /\ agreeing env_id s 0x2010 /\
  permits env_id s 0x10 true false = true /\
  permits env_id s 0x1010 true false = false /\ permits env_id s 0x1010 false false = true /\
  permits env_id s 0x2010 false false = false /\ permits env_id s 0x2010 true true = true.
Proof. cbv zeta. unfold agreeing. repeat split. Qed.

(** ** C11: the page walk *)

(** Success: the frame of the leaf entry plus the offset, then region
    resolution; only Accessed and Dirty bits are written. *)
Theorem C11_success : forall f E s addr (wr priv code : bool) pa i s',
  0 <= addr < 2 ^ 32 -> paging s = true ->
  mmu_translate f true E addr (flags_of wr priv code) s = XOk pa i s' ->
  present E s addr = true /\ target E s addr = Some pa /\
  (forall x, words s' x = touched E s addr wr x) /\ sameregs s s' /\ cpl s' = cpl s.
Proof.
  intros f E s addr wr priv code pa i s' Ha P H. pose proof (translate_shape f true E addr wr priv code s Ha P) as T. cbv zeta in T.
  unfold present, target. rewrite P.
  destruct (walk E s addr) as [| l p | l p]; [rewrite T in H; discriminate | |];
  (destruct (granted _ _ _ _); [| rewrite T in H; discriminate];
   destruct T as (w & HW & T); rewrite T in H;
   match type of H with context [tlb_fill f E addr p ?prot ?t] =>
     pose proof (fill_facts f E addr p prot t) as FF; destruct (tlb_fill f E addr p prot t) as [pa' s''] end;
   injection H as -> _ ->; destruct FF as (-> & R & HC & HWD & _);
   split; [reflexivity |]; split; [reflexivity |]; split; [intros x; rewrite HWD; apply HW | split; [exact R | exact HC]]).
Qed.
Print Assumptions C11_success.

(** Failure: nothing changes, and the reported address and error code describe
    the access. *)
Theorem C11_fault : forall f (fill : bool) E s addr (wr priv code : bool) a e s',
  0 <= addr < 2 ^ 32 -> paging s = true ->
  mmu_translate f fill E addr (flags_of wr priv code) s = XFault a e s' ->
  a = addr /\ s' = s /\ e = pf_code (present E s addr) wr (cpl s =? 3).
Proof.
  intros f fill E s addr wr priv code a e s' Ha P H. pose proof (translate_shape f fill E addr wr priv code s Ha P) as T. cbv zeta in T.
  unfold present.
  destruct (walk E s addr) as [| l p | l p].
  - rewrite T in H. injection H as <- <- <-. auto.
  - destruct (granted _ _ _ _).
    + destruct fill; [destruct T as (w & _ & T); rewrite T in H; destruct (tlb_fill _ _ _ _ _ _); discriminate | destruct T as (i & T); rewrite T in H; discriminate].
    + rewrite T in H. injection H as <- <- <-. auto.
  - destruct (granted _ _ _ _).
    + destruct fill; [destruct T as (w & _ & T); rewrite T in H; destruct (tlb_fill _ _ _ _ _ _); discriminate | destruct T as (i & T); rewrite T in H; discriminate].
    + rewrite T in H. injection H as <- <- <-. auto.
Qed.
Print Assumptions C11_fault.

(** So the U bit is right whenever the access is not a system access made at
    CPL 3 (such as reading a descriptor) ... *)
Theorem C11_fault_user_bit_partial : forall f (fill : bool) E s addr (wr priv code : bool) a e s',
  0 <= addr < 2 ^ 32 -> paging s = true -> (cpl s = 3 -> priv = false) ->
  mmu_translate f fill E addr (flags_of wr priv code) s = XFault a e s' ->
  e = pf_code (present E s addr) wr (as_user s priv).
Proof.
  intros f fill E s addr wr priv code a e s' Ha P HP H. destruct (C11_fault f fill E s addr wr priv code a e s' Ha P H) as (_ & _ & ->).
  f_equal. unfold as_user. destruct (Z.eqb_spec (cpl s) 3) as [C | C]; [now rewrite (HP C) | reflexivity].
Qed.
Print Assumptions C11_fault_user_bit_partial.

(** ... and wrong for those: the access is made with supervisor rights, but the
    error code says user. *)
Theorem C11_refuted_system_access :
  exists s addr e s', mmu_translate false true env_id addr (flags_of false true false) s = XFault addr e s' /\
    as_user s true = false /\ Z.testbit e 2 = true.
Proof.
  exists (mmu0 PE_PG 0x1000 0 3 (fun _ => 0)), 0x5000. eexists. eexists. split; [reflexivity |]. split; reflexivity.
Qed.
Print Assumptions C11_refuted_system_access.

(** With paging off the address is only resolved, and nothing is written. *)
Theorem C11_unpaged : forall f E s addr (wr priv code : bool), paging s = false ->
  exists s', mmu_translate f true E addr (flags_of wr priv code) s = XOk (e_correct E addr) 0 s' /\
    (forall x, words s' x = words s x) /\ sameregs s s' /\ cpl s' = cpl s.
Proof.
  intros f E s addr wr priv code P. unfold mmu_translate. change CR0_PG with (2 ^ 31). rewrite nz_bit by lia.
  unfold paging in P. rewrite P. cbn [negb]. set (prot := Z.lor TLB_VALID _).
  pose proof (fill_facts f E addr addr prot s) as FF. destruct (tlb_fill f E addr addr prot s) as [pa s'].
  destruct FF as (-> & R & HC & HWD & _). exists s'. auto.
Qed.
Print Assumptions C11_unpaged.

Example C11_example :
  let s := mmu0 PE_PG 0x1000 0x10 0 (fun x => if x =? 0x1000 then 0x2003 else if x =? 0x1004 then 0x00C00083 else if x =? 0x2014 then 0x9001 else 0) in
  target env_id s 0x5123 = Some 0x9123 /\ touched env_id s 0x5123 true 0x2014 = 0x9061 /\ touched env_id s 0x5123 true 0x1000 = 0x2023 /\
  target env_id s 0x412345 = Some 0xC12345 /\ touched env_id s 0x412345 false 0x1004 = 0xC000A3 /\
  match mmu_translate false true env_id 0x5123 (flags_of true false false) s with XOk pa _ _ => pa = 0x9123 | _ => False end /\
  match mmu_translate false true env_id 0x6000 (flags_of true false false) s with XFault a e _ => a = 0x6000 /\ e = 2 | _ => False end.
Proof. vm_compute. repeat split. Qed.

(** ** C12: hits agree with the tables *)

Theorem C12_hits_agree : forall E c0 c3 c4 lv w l,
  let s := mrun E (mmu0 c0 c3 c4 lv w) l in
  uniform E -> 0 <= lv <= 3 -> hist_ok E (mmu0 c0 c3 c4 lv w) l ->
  (forall a n priv, 0 <= a < 2 ^ 32 -> 1 <= n <= 4096 ->
     match guest_read E a n (p2 priv) s with
     | AOk bytes _ => agree E s a n false priv bytes
     | AFault b e _ => mmu_translate false false E b (flags_of false priv false) s = XFault b e s
     end) /\
  (forall a n priv, 0 <= a < 2 ^ 32 -> 1 <= n <= 4096 ->
     match guest_write E a n (p2 priv) s with
     | AOk bytes _ => agree E s a n true priv bytes
     | AFault b e _ => mmu_translate false false E b (flags_of true priv false) s = XFault b e s
     end) /\
  (forall a, 0 <= a < 2 ^ 32 ->
     match get_code_addr E a s with
     | XOk pa _ _ => exists info, mmu_translate false false E a (flags_of false false true) s = XOk pa info s
     | XFault b e _ => mmu_translate false false E b (flags_of false false true) s = XFault b e s
     end) /\
  (forall a priv, 0 <= a < 2 ^ 32 ->
     match get_read_addr E a (p2 priv) s with
     | XOk pa _ _ => exists info, mmu_translate false false E a (flags_of false priv false) s = XOk pa info s
     | XFault b e _ => mmu_translate false false E b (flags_of false priv false) s = XFault b e s
     end) /\
  (forall a priv, 0 <= a < 2 ^ 32 ->
     match get_write_addr E a (p2 priv) s with
     | XOk pa _ _ => exists info, mmu_translate false false E a (flags_of true priv false) s = XOk pa info s
     | XFault b e _ => mmu_translate false false E b (flags_of true priv false) s = XFault b e s
     end).
Proof.
  intros E c0 c3 c4 lv w l s U Hlv HO.
  assert (I : inv false E s) by (apply run_inv; [exact U | now apply inv0 | exact HO | discriminate]).
  repeat split.
  - intros a n priv Ha Hn. pose proof (guest_read_inv false E a n priv s U I Ha Hn) as T. destruct (guest_read E a n (p2 priv) s); tauto.
  - intros a n priv Ha Hn. pose proof (guest_write_inv false E a n priv s U I Ha Hn) as T. destruct (guest_write E a n (p2 priv) s); tauto.
  - intros a Ha. pose proof (fetch_inv false E a s U I Ha) as T. destruct (get_code_addr E a s); [tauto | destruct T as (T & -> & _); exact T].
  - intros a priv Ha. pose proof (host_read_inv false E a priv s U I Ha) as T. destruct (get_read_addr E a (p2 priv) s); [tauto | destruct T as (T & -> & _); exact T].
  - intros a priv Ha. pose proof (host_write_inv E a priv s U I Ha) as T. destruct (get_write_addr E a (p2 priv) s); [tauto | destruct T as (T & -> & _); exact T].
Qed.
Print Assumptions C12_hits_agree.

(** a history that fills, hits, changes privilege, reloads CR3 with global pages
    and turns write protection on *)
Example C12_example :
  let h := [GuestRead 0x10 4 false; GuestWrite 0x10 4 false; SetCpl 3; GuestRead 0xFFE 4 false; SetCpl 0;
            SetCr0 PE_PG_WP; HostRead 0x20 true; Invlpg 0x10; Fetch 0x1000; SetCr3 0x1000] in
  let s0 := mmu0 PE_PG 0x1000 0 0 (tables 0x2007 (fun i => 0x5007 + i * 0x1000)) in
  uniform env_id /\ hist_ok env_id s0 h.
Proof.
  cbv zeta. split; [exact env_id_uniform |]. cbn [hist_ok mop_ok]. unfold PE_PG_WP. repeat split; try lia; intros a _ G _.
  all: exfalso; revert G; vm_compute; discriminate.
Qed.

(** Without page-uniform address correction this is false.  An alias whose target
    is not page aligned: the walk and the TLB give different addresses for the
    very same read. *)
Definition alias_space : option aspace :=
  option_map fst (api_run (as_create MEM_MAX) [CallRam 0 0x10000; CallAlias 0x50000 0x2800 0x3000]).
Definition correct_of (s : option aspace) (p : Z) : Z :=
  match s with
  | Some s => match search s p with
              | Some r => match correct_phys 4 (nodes s) r p with Some (_, q) => q | None => p end
              | None => p
              end
  | None => p
  end.
Definition env_alias : menv := mkmenv (correct_of alias_space) (fun _ => KRam) (fun _ => O).

Theorem C12_refuted_unaligned_alias :
  let s := mmu0 1 0 0 0 (fun _ => 0) in
  hist_ok env_alias s [GuestRead 0x50010 4 false] /\
  exists bytes1 s1 bytes2 s2,
    guest_read env_alias 0x50010 1 0 s = AOk bytes1 s1 /\ bytes1 = [0x2810] /\
    guest_read env_alias 0x50010 1 0 s1 = AOk bytes2 s2 /\ bytes2 = [0x2010] /\
    ~ agree env_alias s1 0x50010 1 false false bytes2.
Proof.
  cbv zeta. split; [repeat split; lia |].
  set (s := mmu0 1 0 0 0 (fun _ => 0)).
  destruct (guest_read env_alias 0x50010 1 0 s) as [b1 s1 | a e s1] eqn:G1.
  2:{ exfalso. assert (X : match guest_read env_alias 0x50010 1 0 s with AOk _ _ => true | _ => false end = true) by (vm_compute; reflexivity).
      rewrite G1 in X. discriminate. }
  assert (HB : b1 = [0x2810] /\ match guest_read env_alias 0x50010 1 0 s1 with AOk b _ => b = [0x2010] | _ => False end).
  { assert (X : match guest_read env_alias 0x50010 1 0 s with
        | AOk b t => b = [0x2810] /\ match guest_read env_alias 0x50010 1 0 t with AOk b _ => b = [0x2010] | _ => False end
        | _ => False end) by (vm_compute; split; reflexivity). rewrite G1 in X. exact X. }
  destruct HB as (-> & H2). destruct (guest_read env_alias 0x50010 1 0 s1) as [b2 s2 | a e s2] eqn:G2; [| contradiction]. subst b2.
  exists [0x2810], s1, [0x2010], s2. split; [reflexivity |]. split; [reflexivity |]. split; [exact G2 |]. split; [reflexivity |].
  intros (_ & A). destruct (A 0 ltac:(lia)) as (info & Q).
  assert (P1 : nz (Z.land (cr0 s1) CR0_PG) = false).
  { assert (X : match guest_read env_alias 0x50010 1 0 s with AOk _ t => nz (Z.land (cr0 t) CR0_PG) = false | _ => False end) by (vm_compute; reflexivity).
    rewrite G1 in X. exact X. }
  unfold mmu_translate in Q. rewrite P1 in Q. cbn [negb] in Q.
  assert (X : e_correct env_alias (byte_of 0x50010 0) = 0x2010) by exact (f_equal (fun r => match r with XOk p _ _ => p | _ => 0 end) Q).
  revert X. vm_compute. discriminate.
Qed.
Print Assumptions C12_refuted_unaligned_alias.

(** ** C13: invalidation *)

(** After tlb_invalidate(a), whatever the page tables now contain, code fetches
    from that page are translated by walking the tables. *)
Theorem C13_fetch : forall E c0 c3 c4 lv w l a b w',
  let s := tlb_invalidate a (mrun E (mmu0 c0 c3 c4 lv w) l) in
  let t := set_words w' s in
  uniform E -> 0 <= lv <= 3 -> hist_ok E (mmu0 c0 c3 c4 lv w) l ->
  0 <= a < 2 ^ 32 -> 0 <= b < 2 ^ 32 -> a / 2 ^ 12 = b / 2 ^ 12 ->
  get_code_addr E b t = mmu_translate true true E b MMU_SET_CODE t.
Proof.
  intros E c0 c3 c4 lv w l a b w' s t U Hlv HO Ha Hb HP.
  set (s0 := mrun E (mmu0 c0 c3 c4 lv w) l) in *.
  assert (I : inv false E s0) by (apply run_inv; [exact U | now apply inv0 | exact HO | discriminate]).
  assert (I1 : inv false E s) by (apply inval_one_inv, inval_one_inv; exact I).
  assert (HU : uniq true s0).
  { apply (uniq_run true false); [exact U | now apply inv0 | exact HO | discriminate | |].
    - apply forallb_forall. intros o _. reflexivity.
    - intros x n m Hx X. exfalso. unfold at_line, mmu0, lines in X. cbn [itlb] in X.
      assert (Z0 : nth n (repeat 0 8) 0 = 0) by (do 9 (destruct n as [| n]; [reflexivity |]); reflexivity).
      rewrite Z0, hits_zero in X by (auto; lia). discriminate. }
  unfold get_code_addr, tlb_get_code_addr.
  destruct (tlb_find true b (tlb_access 0 (cpl t)) t) as [[n x] |] eqn:F; [| reflexivity]. exfalso.
  unfold tlb_find in F. destruct (find_line _ _) as [k |] eqn:FL; [| discriminate]. injection F as -> <-.
  destruct (find_line_in _ _ _ FL) as (HIn & HH).
  change (lines true t) with (lines true s) in *.
  assert (H1 : hits true b 1 (nth n (lines true s (tlb_idx true b)) 0) = false).
  { pose proof (invalidate_gone true a s0 Ha HU n) as G. fold s in G. unfold at_line in G.
    destruct (page_same true a b HP) as (EI & ET). rewrite EI in G. etransitivity; [| exact G]. unfold hits. rewrite !tag_eq, ET by assumption. reflexivity. }
  rewrite (no_sup_no_hit false E s true b _ _ I1 Hb HIn H1) in HH; [discriminate | |].
  - unfold tlb_access. cbn [nz Z.eqb negb]. destruct (cpl t =? 3); cbv; split; congruence.
  - unfold tlb_access. cbn [nz Z.eqb negb]. destruct (cpl t =? 3); discriminate.
Qed.
Print Assumptions C13_fetch.

(** For data the same needs a history in which no line was duplicated; it is
    enough that the guest did not write and did not read across a page boundary. *)
Theorem C13_data_partial : forall E c0 c3 c4 lv w l a b n w' (priv : bool),
  let s := tlb_invalidate a (mrun E (mmu0 c0 c3 c4 lv w) l) in
  let t := set_words w' s in
  uniform E -> 0 <= lv <= 3 -> hist_ok E (mmu0 c0 c3 c4 lv w) l ->
  (forall o, In o l -> match o with GuestRead x m _ => single x m = true | GuestWrite _ _ _ => False | _ => True end) ->
  0 <= a < 2 ^ 32 -> 0 <= b < 2 ^ 32 -> a / 2 ^ 12 = b / 2 ^ 12 -> 1 <= n <= 4096 ->
  guest_read E b n (p2 priv) t = mem_slow E b n (p2 priv) t /\
  guest_write E b n (p2 priv) t = mem_slow E b n (Z.lor MMU_IS_WRITE (p2 priv)) t /\
  get_read_addr E b (p2 priv) t = mmu_translate false true E b (p2 priv) t /\
  get_write_addr E b (p2 priv) t = mmu_translate false true E b (Z.lor MMU_IS_WRITE (p2 priv)) t.
Proof.
  intros E c0 c3 c4 lv w l a b n w' priv s t U Hlv HO HS Ha Hb HP Hn.
  set (s0 := mrun E (mmu0 c0 c3 c4 lv w) l) in *.
  assert (I : inv false E s0) by (apply run_inv; [exact U | now apply inv0 | exact HO | discriminate]).
  assert (I1 : inv false E s) by (apply inval_one_inv, inval_one_inv; exact I).
  assert (HU : uniq false s0).
  { apply (uniq_run false false); [exact U | now apply inv0 | exact HO | discriminate | |].
    - apply forallb_forall. intros o Ho. specialize (HS o Ho). destruct o; try reflexivity; [exact HS | contradiction].
    - intros x k m Hx X. exfalso. unfold at_line, mmu0, lines in X. cbn [dtlb] in X.
      assert (Z0 : nth k (repeat 0 4) 0 = 0) by (do 5 (destruct k as [| k]; [reflexivity |]); reflexivity).
      rewrite Z0, hits_zero in X by (auto; lia). discriminate. }
  assert (H1 : forall k, hits false b 1 (nth k (lines false s (tlb_idx false b)) 0) = false).
  { intros k. pose proof (invalidate_gone false a s0 Ha HU k) as G. fold s in G. unfold at_line in G.
    destruct (page_same false a b HP) as (EI & ET). rewrite EI in G. etransitivity; [| exact G]. unfold hits. rewrite !tag_eq, ET by assumption. reflexivity. }
  assert (NH : forall acc k, 0 <= acc < 2 ^ 12 -> Z.land acc 15 <> 0 -> In (nth k (lines false s (tlb_idx false b)) 0) (lines false s (tlb_idx false b)) ->
             hits false b acc (nth k (lines false s (tlb_idx false b)) 0) = false).
  { intros acc k A1 A2 HIn. exact (no_sup_no_hit false E s false b acc _ I1 Hb HIn (H1 k) A1 A2). }
  assert (AR : forall wr lv, 0 <= tlb_access wr lv < 2 ^ 12 /\ Z.land (tlb_access wr lv) 15 <> 0 /\
             0 <= Z.lor (tlb_access wr lv) TLB_DIRTY < 2 ^ 12 /\ Z.land (Z.lor (tlb_access wr lv) TLB_DIRTY) 15 <> 0).
  { intros wr lv'. unfold tlb_access. destruct (nz wr), (lv' =? 3); cbv; repeat split; congruence. }
  assert (HL : 0 <= w32 (b + n - 1) < 2 ^ 32) by (rewrite w32_eq; apply Z.mod_pos_bound; lia).
  repeat split.
  - unfold guest_read. change (dtlb t) with (lines false s). destruct (find_line _ _) as [k |] eqn:FL; [| reflexivity]. exfalso.
    destruct (find_line_in _ _ _ FL) as (HIn & HH). destruct (AR 0 (Z.shiftr (cpl t) (p2 priv))) as (A1 & A2 & _).
    rewrite guest_hits_eq, NH in HH by assumption. discriminate.
  - unfold guest_write. change (dtlb t) with (lines false s). destruct (find_line _ _) as [k |] eqn:FL; [| reflexivity]. exfalso.
    destruct (find_line_in _ _ _ FL) as (HIn & HH). destruct (AR 1 (Z.shiftr (cpl t) (p2 priv))) as (_ & _ & A1 & A2).
    rewrite guest_hits_eq, NH in HH by assumption. discriminate.
  - unfold get_read_addr, tlb_get_read_addr, tlb_find. change (lines false t) with (lines false s).
    destruct (find_line _ _) as [k |] eqn:FL; [| reflexivity]. exfalso.
    destruct (find_line_in _ _ _ FL) as (HIn & HH). destruct (AR 0 (Z.shiftr (cpl t) (p2 priv))) as (A1 & A2 & _).
    rewrite NH in HH by assumption. discriminate.
  - unfold get_write_addr, tlb_get_write_addr, tlb_find. change (lines false t) with (lines false s).
    destruct (find_line _ _) as [k |] eqn:FL; [| reflexivity]. exfalso.
    destruct (find_line_in _ _ _ FL) as (HIn & HH). destruct (AR 1 (Z.shiftr (cpl t) (p2 priv))) as (A1 & A2 & _).
    rewrite NH in HH by assumption. discriminate.
Qed.
Print Assumptions C13_data_partial.

(** C13 in full is false.  Two pages share a TLB set; the first is read and
    invalidated, the second is read before and written after that.  Then the
    second is invalidated and unmapped, and the guest still reads it. *)
Theorem C13_refuted_duplicate_line :
  let h := [GuestRead 0x10 4 false; GuestRead 0x800010 4 false; Invlpg 0x10; GuestWrite 0x800010 4 false] in
  let s0 := mmu0 PE_PG 0x1000 0 0 (tables2 0x5007 0x6007) in
  let t := set_words (tables2 0x5007 0) (tlb_invalidate 0x800010 (mrun env_id s0 h)) in
  hist_ok env_id s0 h /\ permits env_id t 0x800010 false false = false /\
  exists bytes s', guest_read env_id 0x800010 1 0 t = AOk bytes s' /\ bytes = [0x6010].
Proof.
  cbv zeta. split; [cbn [hist_ok mop_ok]; repeat split; lia |]. split; [vm_compute; reflexivity |].
  match goal with |- context [guest_read env_id 0x800010 1 0 ?u] => set (t := u) end.
  assert (X : match guest_read env_id 0x800010 1 0 t with AOk b _ => b = [0x6010] | _ => False end) by (vm_compute; reflexivity).
  destruct (guest_read env_id 0x800010 1 0 t) as [b s' | a e s']; [| contradiction]. exists b, s'. auto.
Qed.
Print Assumptions C13_refuted_duplicate_line.

(** Two reads across a page boundary are enough, too. *)
Theorem C13_refuted_crossing_reads :
  let h := [GuestRead 0xFFE 4 false; GuestRead 0xFFE 4 false] in
  let s0 := mmu0 PE_PG 0x1000 0 0 (tables 0x2007 (fun i => 0x5007 + i * 0x1000)) in
  let t := set_words (tables 0x2007 (fun i => 0)) (tlb_invalidate 0x10 (mrun env_id s0 h)) in
  hist_ok env_id s0 h /\ permits env_id t 0x10 false false = false /\
  exists bytes s', guest_read env_id 0x10 1 0 t = AOk bytes s' /\ bytes = [0x5010].
Proof.
  cbv zeta. split; [cbn [hist_ok mop_ok]; repeat split; lia |]. split; [vm_compute; reflexivity |].
  match goal with |- context [guest_read env_id 0x10 1 0 ?u] => set (t := u) end.
  assert (X : match guest_read env_id 0x10 1 0 t with AOk b _ => b = [0x5010] | _ => False end) by (vm_compute; reflexivity).
  destruct (guest_read env_id 0x10 1 0 t) as [b s' | a e s']; [| contradiction]. exists b, s'. auto.
Qed.
Print Assumptions C13_refuted_crossing_reads.

Example C13_example :
  let h := [GuestRead 0x10 4 false; HostWrite 0x800010 false; Fetch 0x20; Invlpg 0x30; GuestRead 0x800010 4 true] in
  hist_ok env_id (mmu0 PE_PG 0x1000 0 0 (tables2 0x5007 0x6007)) h /\
  (forall o, In o h -> match o with GuestRead x m _ => single x m = true | GuestWrite _ _ _ => False | _ => True end).
Proof.
  cbv zeta. split; [cbn [hist_ok mop_ok]; repeat split; lia |]. intros o Ho.
  cbn [In] in Ho. repeat (destruct Ho as [<- | Ho]; [try reflexivity; exact I |]). contradiction.
Qed.

(** ** C14: the Dirty bit *)

Theorem C14_guest_partial : forall E c0 c3 c4 lv w l a n (priv : bool) bytes s',
  let s := mrun E (mmu0 c0 c3 c4 lv w) l in
  uniform E -> 0 <= lv <= 3 -> hist_ok E (mmu0 c0 c3 c4 lv w) l -> forallb no_host_write l = true ->
  0 <= a < 2 ^ 32 -> 1 <= n <= 4096 -> paging s = true ->
  guest_write E a n (p2 priv) s = AOk bytes s' ->
  forall i, 0 <= i < n -> dirty E s' (byte_of a i) = true.
Proof.
  intros E c0 c3 c4 lv w l a n priv bytes s' s U Hlv HO HN Ha Hn P H i Hi.
  assert (I : inv true E s) by (apply run_inv; [exact U | now apply inv0 | exact HO | intros _; exact HN]).
  pose proof (guest_write_inv true E a n priv s U I Ha Hn) as T. rewrite H in T. destruct T as ((_ & A) & (I1 & R & HC & G) & D).
  specialize (D eq_refl P i Hi). destruct (A i Hi) as (info & Q).
  assert (BR : 0 <= byte_of a i < 2 ^ 32) by (apply Z.mod_pos_bound; lia).
  pose proof (query_eq false E (byte_of a i) true priv false s BR) as QE. rewrite P, Q in QE.
  destruct (found E s (byte_of a i)) as [[lf p] |] eqn:F; [| discriminate].
  rewrite <- (found_grow E s s' _ R G) in F. pose proof (D lf p F) as DD. unfold dirty. unfold found in F.
  destruct (walk E s' (byte_of a i)) as [| l1 p1 | l1 p1]; [discriminate | |]; injection F as -> ->; exact DD.
Qed.
Print Assumptions C14_guest_partial.

(** C14 in full is false: a host write to a page that is cached by a read leaves
    Dirty clear, and so does every guest write after it. *)
Theorem C14_refuted_host_write :
  let s0 := mmu0 PE_PG 0x1000 0 0 (tables 0x2007 (fun i => 0x5007 + i * 0x1000)) in
  let s1 := mrun env_id s0 [GuestRead 0x10 4 false] in
  hist_ok env_id s0 [GuestRead 0x10 4 false] /\
  exists pa s2 bytes s3, get_write_addr env_id 0x10 0 s1 = XOk pa 0 s2 /\ dirty env_id s2 0x10 = false /\
    guest_write env_id 0x10 4 0 s2 = AOk bytes s3 /\ dirty env_id s3 0x10 = false.
Proof.
  cbv zeta. split; [cbn [hist_ok mop_ok]; repeat split; lia |].
  match goal with |- context [get_write_addr env_id 0x10 0 ?u] => set (t := u) end.
  assert (X : match get_write_addr env_id 0x10 0 t with
    | XOk _ i s2 => i = 0 /\ dirty env_id s2 0x10 = false /\ match guest_write env_id 0x10 4 0 s2 with AOk _ s3 => dirty env_id s3 0x10 = false | _ => False end
    | _ => False end) by (vm_compute; repeat split).
  destruct (get_write_addr env_id 0x10 0 t) as [pa i s2 | a e s2]; [| contradiction]. destruct X as (-> & D2 & X).
  destruct (guest_write env_id 0x10 4 0 s2) as [b s3 | a e s3] eqn:GW; [| contradiction].
  exists pa, s2, b, s3. auto.
Qed.
Print Assumptions C14_refuted_host_write.

Example C14_example :
  let h := [GuestRead 0x10 4 false; GuestWrite 0x10 4 false; Fetch 0x10; GuestRead 0xFFE 4 false] in
  let s := mrun env_id (mmu0 PE_PG 0x1000 0 0 (tables 0x2007 (fun i => 0x5007 + i * 0x1000))) h in
  forallb no_host_write h = true /\ paging s = true /\ dirty env_id s 0x1010 = false /\
  match guest_write env_id 0xFFE 4 0 s with AOk b s' => b = [0x5FFE; 0x5FFF; 0x6000; 0x6001] /\ dirty env_id s' 0x1010 = true | _ => False end.
Proof. vm_compute. repeat split. Qed.

(** ** C15: accesses that cross a page *)

(** A completed access used exactly the addresses of its bytes, in order; a fault
    reports an address of the access that the tables refuse, and nothing was
    stored except Accessed/Dirty bits of the page of the first byte. *)
Theorem C15_access : forall E c0 c3 c4 lv w l a n (wr priv : bool),
  let s := mrun E (mmu0 c0 c3 c4 lv w) l in
  uniform E -> 0 <= lv <= 3 -> hist_ok E (mmu0 c0 c3 c4 lv w) l -> 0 <= a < 2 ^ 32 -> 1 <= n <= 4096 ->
  match (if wr then guest_write else guest_read) E a n (p2 priv) s with
  | AOk bytes _ => Z.of_nat (length bytes) = n /\
      forall i, 0 <= i < n -> target E s (byte_of a i) = Some (nth (Z.to_nat i) bytes 0)
  | AFault b e s' => (b = a \/ b = byte_of a (n - 1)) /\
      mmu_translate false false E b (flags_of wr priv false) s = XFault b e s /\
      ((forall x, words s' x = words s x) \/
       (single a n = false /\ paging s = true /\ forall x, words s' x = touched E s a wr x))
  end.
Proof.
  intros E c0 c3 c4 lv w l a n wr priv s U Hlv HO Ha Hn.
  assert (I : inv false E s) by (apply run_inv; [exact U | now apply inv0 | exact HO | discriminate]).
  assert (OKC : forall bytes, agree E s a n wr priv bytes -> Z.of_nat (length bytes) = n /\
      forall i, 0 <= i < n -> target E s (byte_of a i) = Some (nth (Z.to_nat i) bytes 0)).
  { intros bytes (L & A). split; [exact L |]. intros i Hi. destruct (A i Hi) as (info & Q).
    assert (BR : 0 <= byte_of a i < 2 ^ 32) by (apply Z.mod_pos_bound; lia).
    pose proof (query_eq false E (byte_of a i) wr priv false s BR) as QE. rewrite Q in QE. unfold target.
    destruct (paging s).
    - unfold found in QE. destruct (walk E s (byte_of a i)) as [| l1 p1 | l1 p1]; [discriminate | |];
      (destruct (granted _ _ _ _); [| discriminate]; destruct QE as (j & QE); injection QE as -> _; reflexivity).
    - destruct QE as (j & QE). injection QE as -> _. reflexivity. }
  assert (FC : forall b e s', mmu_translate false false E b (flags_of wr priv false) s = XFault b e s /\
      (b = a \/ b = byte_of a (n - 1)) /\ kept false E s s' /\
      ((forall x, words s' x = words s x) \/ (single a n = false /\ b = byte_of a (n - 1) /\ forall x, words s' x = if paging s then touched E s a wr x else words s x)) ->
      (b = a \/ b = byte_of a (n - 1)) /\ mmu_translate false false E b (flags_of wr priv false) s = XFault b e s /\
      ((forall x, words s' x = words s x) \/ (single a n = false /\ paging s = true /\ forall x, words s' x = touched E s a wr x))).
  { intros b e s' (Q & HB & K & W). split; [exact HB |]. split; [exact Q |].
    destruct W as [W | (SG & _ & W)]; [now left |]. destruct (paging s) eqn:P; [| now left]. right. auto. }
  destruct wr.
  - pose proof (guest_write_inv false E a n priv s U I Ha Hn) as T. destruct (guest_write E a n (p2 priv) s).
    + apply OKC. tauto.
    + apply FC. exact T.
  - pose proof (guest_read_inv false E a n priv s U I Ha Hn) as T. destruct (guest_read E a n (p2 priv) s).
    + apply OKC. tauto.
    + apply FC. exact T.
Qed.
Print Assumptions C15_access.

(** a write across a boundary whose second page is read-only for the user *)
Example C15_example :
  let s0 := mmu0 PE_PG_WP 0x1000 0 3 (tables 0x2007 (fun i => if i =? 0 then 0x5007 else 0x6005)) in
  hist_ok env_id s0 [GuestRead 0x10 4 false] /\ single 0xFFE 4 = false /\
  match guest_write env_id 0xFFE 4 0 (mrun env_id s0 [GuestRead 0x10 4 false]) with
  | AFault b e s' => b = 0x1001 /\ e = 7 /\ words s' 0x2000 = 0x5067 /\ words s' 0x2004 = 0x6005
  | _ => False
  end.
Proof. cbv zeta. split; [cbn [hist_ok mop_ok]; repeat split; lia |]. vm_compute. repeat split. Qed.
