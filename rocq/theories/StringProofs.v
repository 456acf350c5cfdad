(** * The string instructions *)

From Coq Require Import ZArith Bool List Lia ZifyBool.
From Verif Require Import HostModel AluModel AluSpec HostProofs LazyFlagsProofs FlagsApiProofs
  FlagArith SymExec EaProofs AluProofs AluForms UnaryProofs XchgProofs CondProofs ShiftModel ShiftSpec
  ShiftProofs ShiftForms RotateProofs BitProofs MulProofs BcdProofs BranchProofs StringModel StringSpec.
Import ListNotations.
Local Open Scope Z_scope.

(** ** The state between the pieces of an instruction *)

Definition gs (s : hst) : gst := mkgst (gprs (ctx s)) (gmem s) (lazy_flags (res (ctx s)) (aux (ctx s))).

Definition same (s s' : hst) : Prop :=
  h_rcx (hr s') = P PCtx /\ segb (ctx s') = segb (ctx s) /\ eflags (ctx s') = eflags (ctx s) /\
  eip (ctx s') = eip (ctx s) /\ cr4 (ctx s') = cr4 (ctx s) /\ gsel (ctx s') = gsel (ctx s) /\ masked s' = masked s.

Lemma same_trans a b c : same a b -> same b c -> same a c.
Proof. unfold same. intuition congruence. Qed.

Lemma same_refl s : h_rcx (hr s) = P PCtx -> same s s.
Proof. unfold same. intuition. Qed.

Lemma same_ok a b : same a b -> ctx_ok (ctx a) -> ctx_ok (ctx b).
Proof. intros (_ & _ & H & _) K. unfold ctx_ok in *. now rewrite H. Qed.

Lemma same_becomes s s' : ctx_ok (ctx s) -> same s s' ->
  becomes s s' (g_regs (gs s')) (g_mem (gs s')) (g_fl (gs s')).
Proof.
  intros Hok H. pose proof (same_ok _ _ H Hok) as Hok'. destruct H as (H1 & H2 & H3 & H4 & H5 & H6 & H7).
  split; [assumption |]. split; [| split; [| split]].
  - unfold frame. rewrite !control_read, H3. repeat split; assumption.
  - reflexivity.
  - reflexivity.
  - unfold flags_now. now rewrite read_flags.
Qed.

Lemma gs_guest s : ctx_ok (ctx s) -> guest s = gs s.
Proof. intros H. unfold guest, gs, flags_now. now rewrite read_flags. Qed.

(** ** Comparison of the accumulator with the loaded element *)

Lemma flags_rax_rdx E w s av bv :
  arith_w w -> h_rcx (hr s) = P PCtx ->
  op_read E (Rg w RAX) s = Some av -> op_read E (Rg w RDX) s = Some bv ->
  getw w (num E (h_r8 (hr s))) = getw w (av - bv - 0) ->
  exists s', run E (set_flags_sub w (Rg w RAX) (Rg w RDX)) s = Done s' /\
             flags_set s s' (sub_flags_spec w av bv 0) /\ h_rbx (hr s') = h_rbx (hr s).
Proof.
  intros Hw Hcx RA RB R8v.
  destruct s as [[rax rbx rcx rdx r8 r9 r10 r11] hf0 [gp sb ef ip rs ax c4 sl] gm lc nc mk].
  cbn [hr h_rcx h_r8] in Hcx, R8v. subst rcx.
  destruct w; try (now elim Hw);
  injection RA as RA; injection RB as RB;
  cbn [hr h_rax h_rbx h_rdx rget] in RA, RB;
  unfold run; expand_list; sym;
  (eexists; split; [reflexivity |]; split; [| reflexivity]);
  unfold flags_set; cbn [hr h_rcx h_r11 ctx gmem loc masked];
  (split; [reflexivity | split; [reflexivity | split; [| auto]]]);
  (eexists _, _; split;
    [unfold set_aux, set_res; cbn [gprs segb eflags eip res aux cr4 gsel]; reflexivity |]);
  subst av bv; rewrite ?R8v;
  (apply vec_sub; try assumption; try apply getw_range; try lia; vec_goals).
Qed.

(** ** Accesses *)

Definition fault_of (E : henv) (w : width) : bool -> Z -> bool := fun wr a => e_fault E wr a (wbytes w).

(** an element without the index moves *)
Definition accessed (E : henv) (base : sreg -> Z) (w : width) (a32 : bool) (seg : sreg) (k : strop) (g : gst) : result :=
  let fault := fault_of E w in
  let a := source base a32 seg g in let b := dest base a32 g in
  match k with
  | SMovs =>
      if fault false a then inr (false, a) else if fault true b then inr (true, b)
      else inl (mkgst (g_regs g) (mstore (g_mem g) w b (mload (g_mem g) w a)) (g_fl g))
  | SStos =>
      if fault true b then inr (true, b)
      else inl (mkgst (g_regs g) (mstore (g_mem g) w b (gget w false EAX (g_regs g))) (g_fl g))
  | SLods =>
      if fault false a then inr (false, a)
      else inl (mkgst (gput w false EAX (mload (g_mem g) w a) (g_regs g)) (g_mem g) (g_fl g))
  | SCmps =>
      if fault false b then inr (false, b) else if fault false a then inr (false, a)
      else inl (mkgst (g_regs g) (g_mem g) (sub_flags_spec w (mload (g_mem g) w a) (mload (g_mem g) w b) 0))
  | SScas =>
      if fault false b then inr (false, b)
      else inl (mkgst (g_regs g) (g_mem g) (sub_flags_spec w (gget w false EAX (g_regs g)) (mload (g_mem g) w b) 0))
  end.

Definition moves (w : width) (a32 df : bool) (k : strop) (g : gst) : gst :=
  fold_left (fun g p => move w a32 df (fst p) g) (st_moves k) g.

Lemma element_split E base w a32 seg df k g :
  element (fault_of E w) base w a32 seg df k g =
  match accessed E base w a32 seg k g with inl g1 => inl (moves w a32 df k g1) | inr f => inr f end.
Proof.
  unfold element, accessed. cbv zeta.
  destruct k; repeat match goal with |- context [if ?b then _ else _] => destruct b end; reflexivity.
Qed.

(** the unmoved indices are where [st_moves] says *)
Definition indices (E : henv) (a32 : bool) (k : strop) (s : hst) : Prop :=
  Forall (fun p => getw W32 (num E (rget (snd p) (hr s))) = index a32 (fst p) (gs s)) (st_moves k).

Lemma addr32 sb x : (sb mod 4294967296 + x) mod 4294967296 = (sb + x) mod 2 ^ 32.
Proof. apply Zplus_mod_idemp_l. Qed.

Lemma wide_idx (a32 : bool) r g : getw W32 (gget (if a32 then W32 else W16) false r g) = gget (if a32 then W32 else W16) false r g.
Proof.
  apply getw_small. pose proof (gget_range (if a32 then W32 else W16) false r g).
  unfold modulus in *. destruct a32; cbn [wbits] in *; lia.
Qed.

Lemma addr_base i b : getw W32 (i + getw W32 b) = (b + i) mod 2 ^ 32.
Proof. rewrite !getw_mod. change (modulus W32) with (2 ^ 32). rewrite Zplus_mod_idemp_r. f_equal. lia. Qed.
Lemma addr_flat i b : b = 0 -> 0 <= i < 2 ^ 32 -> i = (b + i) mod 2 ^ 32.
Proof. intros ->. intros. cbn [Z.add]. now rewrite Z.mod_small. Qed.

Lemma idx16 r g : getw W32 (gget W16 false r g) = gget W16 false r g.
Proof. exact (wide_idx false r g). Qed.

Lemma idx_range (a32 : bool) r g : 0 <= gget (if a32 then W32 else W16) false r g < 2 ^ 32.
Proof.
  pose proof (gget_range (if a32 then W32 else W16) false r g).
  unfold modulus in *. destruct a32; cbn [wbits] in *; lia.
Qed.

(** loading an index and adding the segment base *)
Lemma set32 o v : setw W32 o v = getw W32 v.
Proof. reflexivity. Qed.

Ltac pre_case := 
  cbn [ctx segb gprs] in *; unfold run; expand_list; sym'; cbn [exec];
  eexists; unfold set_hf, set_hr, set_loc; cbn [rset hr hf ctx gmem loc ncall masked]; 
  repeat f_equal;
  rewrite ?set32;
  rewrite ?getw_idem, ?getw_gget, ?idx16;
  first [ reflexivity | apply addr_base | apply addr_flat; [auto | first [exact (idx_range true _ _) | exact (idx_range false _ _)]]
  | symmetry; apply addr_flat; [auto | first [exact (idx_range true _ _) | exact (idx_range false _ _)]] | idtac ].

Lemma pre_rbx E a32 r seg z s : h_rcx (hr s) = P PCtx -> (z = true -> segb (ctx s) seg = 0) ->
  let i := gget (if a32 : bool then W32 else W16) false r (gprs (ctx s)) in
  exists f, run E ([ld_index a32 r; MOV hEBX hEDX] ++ add_base seg z) s =
    Done (set_hf f (set_hr (rset RBX (N i) (rset RDX (N ((segb (ctx s) seg + i) mod 2 ^ 32)) (hr s))) s)).
Proof.
  intros Hcx Hz. start_state s Hcx. cbv zeta. destruct a32, z; pre_case.
Qed.

Lemma pre_loc E n a32 r seg z s : h_rcx (hr s) = P PCtx -> (z = true -> segb (ctx s) seg = 0) ->
  let i := gget (if a32 : bool then W32 else W16) false r (gprs (ctx s)) in
  exists f, run E ([ld_index a32 r; MOV (local W32 n) hEDX] ++ add_base seg z) s =
    Done (set_hf f (set_hr (rset RDX (N ((segb (ctx s) seg + i) mod 2 ^ 32)) (hr s))
      (set_loc (fun k => if Nat.eqb k n then putw W32 (loc s n) i else loc s k) s))).
Proof.
  intros Hcx Hz. start_state s Hcx. cbv zeta. destruct a32, z; pre_case.
Qed.

(** what the accesses of an element must do *)
Definition access_goal (E : henv) (k : strop) (w : width) (a32 : bool) (seg : sreg) (z ze : bool) (s : hst) : Prop :=
  match accessed E (segb (ctx s)) w a32 seg k (gs s) with
  | inl g1 => exists s', run E (str_access k w a32 seg z ze) s = Done s' /\ same s s' /\ gs s' = g1 /\
                         indices E a32 k s'
  | inr (wr, a) => exists s', run E (str_access k w a32 seg z ze) s = Fault wr a (wbytes w) s' /\
                              same s s' /\ gs s' = gs s
  end.

Ltac access_start s Hcx :=
  start_state s Hcx;
  unfold access_goal, accessed, gs, source, dest, index, index_w, fault_of;
  cbn [g_regs g_mem g_fl ctx gprs gmem res aux segb]; cbv zeta;
  lazymatch goal with gp : greg -> Z, seg : sreg |- context [str_access _ _ ?a32] =>
    lazymatch goal with |- context [mkg _ ?sb _ _ _ _ _ _] =>
    let HS := fresh "HS" in let HD := fresh "HD" in
    pose proof (wide_idx a32 ESI gp) as HS; pose proof (wide_idx a32 EDI gp) as HD;
    remember (gget (if a32 then W32 else W16) false ESI gp) as SI eqn:EqSI;
    remember (gget (if a32 then W32 else W16) false EDI gp) as DI eqn:EqDI;
    pose proof (Z.mod_pos_bound (sb seg + SI) (2 ^ 32) eq_refl) as HA;
    pose proof (Z.mod_pos_bound (sb ES + DI) (2 ^ 32) eq_refl) as HB;
    remember ((sb seg + SI) mod 2 ^ 32) as A eqn:EqA;
    remember ((sb ES + DI) mod 2 ^ 32) as B eqn:EqB
  end end; unfold str_access.

Ltac state_clean := unfold set_hf, set_hr, set_loc; cbn [rset hr hf h_rax h_rbx h_rcx h_rdx h_r8 h_r9 h_r10 h_r11
  ctx gmem loc ncall masked gprs segb].

Ltac pre_done L :=
  let f := fresh "f" in let HR := fresh in
  destruct L as [f HR]; [reflexivity | assumption |];
  rewrite app_assoc, (run_seq _ _ _ _ _ HR); clear HR;
  cbn [ctx gprs segb loc]; state_clean;
  try match goal with H : ?x = gget _ false ESI _ |- _ => rewrite <- H end;
  try match goal with H : ?x = gget _ false EDI _ |- _ => rewrite <- H end;
  try match goal with H : ?x = (_ + _) mod _, G : ?y = (_ + _) mod _ |- _ => rewrite <- ?H, <- ?G end.
Ltac pre_i n r sg z :=
  lazymatch goal with a32 : bool |- context [run ?E ([ld_index ?a _; _] ++ _ ++ _) ?s] =>
    pre_done (pre_loc E n a r sg z s) end.
Ltac pre_b r sg z :=
  lazymatch goal with a32 : bool |- context [run ?E ([ld_index ?a _; _] ++ _ ++ _) ?s] =>
    pre_done (pre_rbx E a r sg z s) end.

Lemma run_load E w s a tl : getw W32 (num E (h_rdx (hr s))) = a ->
  run E (ILoad w :: tl) s = if e_fault E false a (wbytes w) then Fault false a (wbytes w) s
                            else run E tl (loaded E w a s).
Proof. exact (load_step E w s a tl). Qed.
Lemma run_store E w s a v tl : getw W32 (num E (h_rdx (hr s))) = a -> getw w (num E (h_r8 (hr s))) = v ->
  run E (IStore w :: tl) s = if e_fault E true a (wbytes w) then Fault true a (wbytes w) s
                            else run E tl (stored E w a v s).
Proof. exact (store_step E w s a v tl). Qed.

Ltac shown := unfold loaded, stored;
  cbn [hr h_rax h_rbx h_rcx h_rdx h_r8 h_r9 h_r10 h_r11 ctx gmem loc ncall masked].

Ltac fault_out := eexists; split; [reflexivity | split; [repeat split | reflexivity]].
Ltac addr_goal := cbn [hr h_rdx num]; apply getw_small; assumption.
Ltac val_goal := cbn [hr h_r8 num]; rewrite ?getw_setw, ?getw_idem, ?getw_gget, ?getw_mload; reflexivity.

Ltac do_load a :=
  cbn [app];
  lazymatch goal with |- context [run ?E (ILoad ?w :: ?tl) ?s] =>
    rewrite (run_load E w s a tl) by addr_goal; destruct (e_fault E false a (wbytes w)); [fault_out |] end; shown.
Ltac do_store a v :=
  lazymatch goal with |- context [exec ?E (IStore ?w :: ?tl) (Done ?s)] =>
    change (exec E (IStore w :: tl) (Done s)) with (run E (IStore w :: tl) s);
    rewrite (run_store E w s a v tl) by first [addr_goal | val_goal];
    destruct (e_fault E true a _); [fault_out |] end; shown; unfold run.

Ltac index_goal :=
  cbn [snd fst rget hr h_rax h_rbx h_rdx num Nat.eqb]; unfold index, index_w, gs; cbn [g_regs ctx gprs loc Nat.eqb];
  rewrite ?getw_setw, ?getw_idem, ?getw_putw;
  first [ match goal with H : ?x = gget _ false ESI _ |- _ => rewrite H in *; assumption end
        | match goal with H : ?x = gget _ false EDI _ |- _ => rewrite H in *; assumption end ].

Ltac done_out :=
  cbn [exec]; eexists; split; [reflexivity |]; split; [repeat split |]; split;
  [ cbn [ctx gprs gmem res aux]; reflexivity
  | unfold indices; cbn [st_moves]; repeat (apply Forall_cons; [index_goal |]); apply Forall_nil ].

Lemma movs_access E w a32 seg z ze s :
  arith_w w -> h_rcx (hr s) = P PCtx ->
  (z = true -> segb (ctx s) seg = 0) -> (ze = true -> segb (ctx s) ES = 0) ->
  access_goal E SMovs w a32 seg z ze s.
Proof.
  intros Hw Hcx Hz Hze. access_start s Hcx.
  pre_i 0%nat ESI seg z. do_load A. 
  change (?a :: ?b :: ?t) with ([a; b] ++ t).
  pre_b EDI ES ze.
  destruct w; try (now elim Hw); unfold run; expand_list; sym'; lazymatch goal with |- context [IStore ?w :: _] => do_store B (mload gm w A) end; sym'; done_out.
Qed.

Lemma stos_access E w a32 seg z ze s :
  arith_w w -> h_rcx (hr s) = P PCtx ->
  (z = true -> segb (ctx s) seg = 0) -> (ze = true -> segb (ctx s) ES = 0) ->
  access_goal E SStos w a32 seg z ze s.
Proof.
  intros Hw Hcx Hz Hze. access_start s Hcx.
  pre_b EDI ES ze.
  destruct w; try (now elim Hw); unfold run; expand_list; sym'; lazymatch goal with |- context [IStore ?w :: _] => do_store B (gget w false EAX gp) end; done_out.
Qed.

Lemma lods_access E w a32 seg z ze s :
  arith_w w -> h_rcx (hr s) = P PCtx ->
  (z = true -> segb (ctx s) seg = 0) -> (ze = true -> segb (ctx s) ES = 0) ->
  access_goal E SLods w a32 seg z ze s.
Proof.
  intros Hw Hcx Hz Hze. access_start s Hcx.
  pre_b ESI seg z. do_load A.
  destruct w; try (now elim Hw); unfold run; expand_list; sym'; done_out.
Qed.

Lemma scas_access E w a32 seg z ze s :
  arith_w w -> h_rcx (hr s) = P PCtx ->
  (z = true -> segb (ctx s) seg = 0) -> (ze = true -> segb (ctx s) ES = 0) ->
  access_goal E SScas w a32 seg z ze s.
Proof.
  intros Hw Hcx Hz Hze. access_start s Hcx.
  pre_b EDI ES ze. do_load B.
  change (?a :: ?b :: ?c :: ?d :: ?t) with ([a; b; c; d] ++ t).
  destruct w; try (now elim Hw);
  (erewrite run_seq; [| unfold run; expand_list; sym'; cbn [exec]; reflexivity]);
  match goal with |- context [run ?E (set_flags_sub ?w _ _) ?s1] =>
      destruct (flags_rax_rdx E w s1 (gget w false EAX gp) (mload gm w B)) as (s2 & HR & F & R);
      [discriminate | reflexivity | rd | rd | clean; cbn [num]; rewrite ?getw_setw, ?getw_idem, Z.sub_0_r; reflexivity |]
  end; rewrite HR; clear HR;
  destruct F as (F3 & _ & (r & a & C & L) & F4 & F5 & F6);
  exists s2; (split; [reflexivity |]; split; [| split]).
  all: try (unfold same; rewrite C; repeat split; assumption).
  all: try (rewrite C, F4; cbn [set_aux set_res gprs gmem res aux ctx]; now rewrite L).
  all: unfold indices; cbn [st_moves]; apply Forall_cons; [| apply Forall_nil];
      cbn [snd fst rget]; unfold index, index_w, gs; rewrite R, C; cbn [g_regs set_aux set_res gprs hr h_rbx num ctx];
      rewrite <- EqDI; exact HD.
Qed.

Lemma cmps_access E w a32 seg z ze s :
  arith_w w -> h_rcx (hr s) = P PCtx ->
  (z = true -> segb (ctx s) seg = 0) -> (ze = true -> segb (ctx s) ES = 0) ->
  access_goal E SCmps w a32 seg z ze s.
Proof.
  intros Hw Hcx Hz Hze. access_start s Hcx.
  pre_i 0%nat EDI ES ze. do_load B.
  change (?a :: ?b :: ?c :: ?t) with ([a] ++ [b; c] ++ t).
  destruct w; try (now elim Hw);
  (erewrite run_seq; [| unfold run; expand_list; sym'; cbn [exec]; reflexivity]);
  pre_i 1%nat ESI seg z; do_load A;
  change (?a :: ?b :: ?t) with ([a; b] ++ t);
  (erewrite run_seq; [| unfold run; expand_list; sym'; cbn [exec]; reflexivity]);
  match goal with |- context [run ?E (set_flags_sub ?w _ _ ++ _) ?s1] =>
      destruct (set_flags_sub_ok E w (Rg w RAX) (Rg w RBX) s1 (mload gm w A) (mload gm w B) 0) as (s2 & HR & F);
      [discriminate | unfold ab_op; auto | reflexivity | rd | rd | lia
      | clean; cbn [num]; rewrite ?getw_setw, ?getw_idem, Z.sub_0_r; reflexivity |]
  end; rewrite (run_seq _ _ _ _ _ HR); clear HR;
  destruct F as (F3 & _ & (r & a & C & L) & F4 & F5 & F6); cbn [ctx gmem loc masked] in C, F4, F5, F6;
  destruct s2 as [[rax2 rbx2 rcx2 rdx2 r82 r92 r102 r112] hf2 c2 gm2 lc2 nc2 mk2];
  cbn [hr h_rcx ctx gmem loc masked] in *; subst rcx2 c2 gm2 mk2;
  unfold run; expand_list; sym'; cbn [exec];
  (eexists; split; [reflexivity |]; split; [repeat split |]; split;
  [ cbn [set_aux set_res ctx gprs gmem res aux]; now rewrite L
  | unfold indices; cbn [st_moves]; repeat (apply Forall_cons; [subst lc2; index_goal |]); apply Forall_nil ]).
Qed.

Lemma access_ok E k w a32 seg z ze s :
  arith_w w -> h_rcx (hr s) = P PCtx ->
  (z = true -> segb (ctx s) seg = 0) -> (ze = true -> segb (ctx s) ES = 0) ->
  access_goal E k w a32 seg z ze s.
Proof.
  destruct k; [apply movs_access | apply stos_access | apply lods_access | apply cmps_access | apply scas_access].
Qed.
