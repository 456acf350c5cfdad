(** * Properties of LLDT, LTR, VERR and VERW *)

From Coq Require Import ZArith Bool List Lia ZifyBool.
From Verif Require Import SegModel SegSpec SegBits SegProofs SegCall SegProps.
Import ListNotations.
Local Open Scope Z_scope.

(** ** Specification *)

(** a system descriptor of type [t] *)
Definition sys_type (t d : Z) : bool := is_system d && (type_of d =? t).
(** an LDT; an available 16 or 32-bit TSS *)
Definition is_ldt (d : Z) : bool := sys_type 2 d.
Definition is_free_tss (d : Z) : bool := sys_type 1 d || sys_type 9 d.
(** [s] with the fault [idx], its error code [code] and memory [m] *)
Definition faulted (X : memsys) (idx code : Z) (m : M X) (s : st X) : st X := set_xcode X code (set_xidx X idx (set_mem X m s)).
(** [s] with the register [r] holding [v] *)
Definition with_seg (X : memsys) (r : sr) (v : segr) (s : st X) : st X := set_seg X (fun q => if sr_eqb q r then v else seg X s q) s.
(** a page fault in the state [s] *)
Definition page_faulted (X : memsys) (code addr : Z) (m : M X) (s : st X) : st X :=
  set_xaddr X addr (set_xcode X code (set_xidx X EXP_PF (set_mem X m s))).

(** may ring [c] read (write) the segment [d] through [sl]? *)
Definition readable (c sl d : Z) : bool := negb (is_system d) && (negb (is_code d) || is_rw d) && data_priv_ok c sl d.
Definition writable (c sl d : Z) : bool := negb (is_system d) && negb (is_code d) && is_rw d && data_priv_ok c sl d.

(** ** Bits *)
Lemma sys_bits d k : 0 <= k < 16 -> (((d .& SEG_DESC_S) >> 40) .| ((d .& SEG_DESC_TY) >> 40) =? k) = sys_type k d.
Proof.
  intros Hk. rewrite type_eq. unfold SEG_DESC_S, sys_type, is_system. rewrite fld1 by lia.
  assert (R : 0 <= type_of d < 16) by (unfold type_of; apply Z.mod_pos_bound; lia).
  destruct (Z.testbit d 44); cbn [negb andb].
  - apply Z.eqb_neq. intros E. assert (T : Z.testbit (2 ^ (44 - 40) .| type_of d) 4 = Z.testbit k 4) by now rewrite E.
    rewrite Z.lor_spec in T. replace (Z.testbit (2 ^ (44 - 40)) 4) with true in T by reflexivity. cbn [orb] in T.
    assert (F : Z.testbit k 4 = false). { destruct (Z.eq_dec k 0) as [-> |]; [reflexivity |]. apply Z.bits_above_log2; [lia |]. apply Z.log2_lt_pow2; lia. }
    congruence.
  - rewrite Z.lor_0_l. reflexivity.
Qed.
Lemma conf_bits d : (d .& SEG_DESC_TYC =? 0xC0000000000) = is_conforming d.
Proof.
  unfold SEG_DESC_TYC, is_conforming. change (3 << 42) with ((1 << 43) .| (1 << 42)). rewrite Z.land_lor_distr_r, !land_bit by lia.
  destruct (Z.testbit d 43), (Z.testbit d 42); reflexivity.
Qed.
Lemma exec_bits d : (d .& SEG_DESC_DCRW =? 0x80000000000) = is_code d && negb (is_rw d).
Proof.
  unfold SEG_DESC_DCRW, is_code, is_rw. change (5 << 41) with ((1 << 43) .| (1 << 41)). rewrite Z.land_lor_distr_r, !land_bit by lia.
  destruct (Z.testbit d 43), (Z.testbit d 41); reflexivity.
Qed.
Lemma wdata_bits d : (d .& SEG_DESC_DCRW =? 0x20000000000) = negb (is_code d) && is_rw d.
Proof.
  unfold SEG_DESC_DCRW, is_code, is_rw. change (5 << 41) with ((1 << 43) .| (1 << 41)). rewrite Z.land_lor_distr_r, !land_bit by lia.
  destruct (Z.testbit d 43), (Z.testbit d 41); reflexivity.
Qed.
Lemma load_sys X r sl d s : r = LDTR \/ r = TR -> 0 <= d < 2 ^ 64 -> load_desc X r sl d s = with_seg X r (decode sl d) s.
Proof.
  intros H D. unfold load_desc, write_seg_reg, with_seg, put_seg, decode. rewrite base_eq, limit_eq, flags_eq by exact D. destruct H as [-> | ->]; reflexivity.
Qed.

(** ** C64: LLDT and LTR accept exactly LDT and free TSS descriptors; VERR and VERW tell whether access would be granted *)

Theorem C64_lldt_partial : forall X sl s, 0 <= sl < 2 ^ 16 -> tables_ok X s ->
  (is_null sl = true -> lldt X sl s = Ok X _ tt (with_seg X LDTR (mkseg 0 0 0 0) s)) /\
  (is_null sl = false -> in_table X s sl = false -> lldt X sl s = Exc X _ (faulted X EXP_GP (errcode sl) (mem X s) s)) /\
  (forall m d, is_null sl = false -> in_table X s sl = true -> descriptor X s sl m d ->
     lldt X sl s = if negb (is_ldt d) then Exc X _ (faulted X EXP_GP (errcode sl) m s)
                   else if negb (is_present d) then Exc X _ (faulted X EXP_NP (errcode sl) m s)
                   else Ok X _ tt (with_seg X LDTR (decode sl d) (set_mem X m s))).
Proof.
  intros X sl s Hs T. unfold lldt. rewrite (null_eq sl (proj1 Hs)). split; [intros -> |].
  { unfold upd, write_seg_reg, put_seg. reflexivity. }
  split; intros *.
  - intros -> I. unfold bind. rewrite desc_eq, I by assumption. reflexivity.
  - intros -> I D. unfold bind. rewrite desc_eq, I by assumption. unfold descriptor in D. fold (ring X s) in D. rewrite D. cbn [snd].
    pose proof (rd_range X _ _ _ _ _ _ _ D) as R. change (8 * 8) with 64 in R. rewrite sys_bits by lia. fold (is_ldt d).
    destruct (is_ldt d); cbn [negb].
    + unfold SEG_DESC_P. rewrite z_fld by lia. fold (is_present d). destruct (is_present d); cbn [negb].
      * unfold upd. rewrite load_sys by (auto; lia). reflexivity.
      * unfold raise_exp. rewrite err_eq by lia. reflexivity.
    + unfold raise_exp. rewrite err_eq by lia. reflexivity.
Qed.
Print Assumptions C64_lldt_partial.

(** an LDT selector should be refused as well, whatever it names *)
Theorem C64_refuted_lldt_ti : exists s sl, 0 <= sl < 2 ^ 16 /\ tables_ok flat s /\ in_ldt sl = true /\ is_null sl = false /\
  exists u s', lldt flat sl s = Ok flat _ u s' /\ seg flat s' LDTR = mkseg 12 0x5000 0x27 0x8200.
Proof.
  set (s := with_seg flat LDTR (mkseg 0x28 0x4000 0x1F 0x8200) (machine 0 2 (qwords 0x4000 [0; 0x0000820050000027] m0))).
  exists s, 12. split; [lia |]. split; [unfold tables_ok; cbn; lia |]. split; [reflexivity |]. split; [reflexivity |].
  destruct (C64_lldt_partial flat 12 s ltac:(lia) ltac:(unfold tables_ok; cbn; lia)) as (_ & _ & H).
  assert (D : descriptor flat s 12 (mem flat s) 0x0000820050000027) by (apply flat_desc; vm_compute; reflexivity).
  rewrite (H _ _ eq_refl eq_refl D). change (negb (is_ldt 0x0000820050000027)) with false. change (negb (is_present 0x0000820050000027)) with false. cbv iota.
  eexists. eexists. split; reflexivity.
Qed.
Print Assumptions C64_refuted_lldt_ti.

Theorem C64_ltr : forall X sl s, 0 <= sl < 2 ^ 16 -> tables_ok X s ->
  (is_null sl = true -> ltr X sl s = Exc X _ (faulted X EXP_GP 0 (mem X s) s)) /\
  (is_null sl = false -> in_ldt sl || negb (in_table X s sl) = true -> ltr X sl s = Exc X _ (faulted X EXP_GP (errcode sl) (mem X s) s)) /\
  (forall m d, is_null sl = false -> in_ldt sl = false -> in_table X s sl = true -> descriptor X s sl m d ->
     ltr X sl s = if negb (is_free_tss d) then Exc X _ (faulted X EXP_GP (errcode sl) m s)
                  else if negb (is_present d) then Exc X _ (faulted X EXP_NP (errcode sl) m s)
                  else match wr X (ring X s) 2 8 ((gdtb X s + index sl * 8) mod 2 ^ 32) (Z.setbit d 41) m with
                       | (m', None) => Ok X _ tt (with_seg X TR (decode sl d) (set_mem X m' s))
                       | (m', Some (code, addr)) => PFault X _ (page_faulted X code addr m' s)
                       end).
Proof.
  intros X sl s Hs T. unfold ltr. rewrite (null_eq sl (proj1 Hs)).
  assert (TI : nz (sl .& 4) = in_ldt sl) by (change 4 with (1 << 2); apply nz_fld; lia).
  split; [intros ->; unfold raise_exp, faulted; rewrite set_mem_id; reflexivity |].
  split; intros *.
  - intros -> I. unfold bind. destruct (in_ldt sl) eqn:L.
    + unfold read_seg_desc at 1. cbv zeta. rewrite TI. cbn [andb]. unfold raise_exp, faulted. rewrite set_mem_id, err_eq by lia. reflexivity.
    + cbn [orb] in I. assert (I' : in_table X s sl = false) by now destruct (in_table X s sl).
      assert (E : read_seg_desc X true sl s = read_seg_desc X false sl s) by (unfold read_seg_desc; cbv zeta; rewrite TI; reflexivity).
      rewrite E, desc_eq, I' by assumption. reflexivity.
  - intros -> L I D. unfold bind.
    assert (E : read_seg_desc X true sl s = read_seg_desc X false sl s) by (unfold read_seg_desc; cbv zeta; rewrite TI, L; reflexivity).
    rewrite E, desc_eq, I by assumption. unfold descriptor in D. fold (ring X s) in D. rewrite D. cbn [fst snd].
    pose proof (rd_range X _ _ _ _ _ _ _ D) as R. change (8 * 8) with 64 in R. rewrite !sys_bits by lia. fold (is_free_tss d).
    destruct (is_free_tss d); cbn [negb].
    + unfold SEG_DESC_P. rewrite z_fld by lia. fold (is_present d). destruct (is_present d); cbn [negb].
      * unfold mwrite, w32. rewrite Z.mod_mod by lia. rewrite cpl_mod. change (ring X (set_mem X m s)) with (ring X s). change (mem X (set_mem X m s)) with m.
        unfold tbl_base. rewrite L.
        assert (B : (d .| SEG_DESC_BY) mod 2 ^ (8 * 8) = Z.setbit d 41).
        { unfold SEG_DESC_BY, SEG_DESC_W, Z.setbit. apply Z.mod_small. change (8 * 8) with 64. split; [apply Z.lor_nonneg; split; [lia | discriminate] |].
          assert (P : 0 < d .| (1 << 41)) by (assert (0 <= d .| (1 << 41)) by (apply Z.lor_nonneg; split; [lia | discriminate]);
            assert (d .| (1 << 41) <> 0) by (intros Z0; apply Z.lor_eq_0_iff in Z0; destruct Z0; discriminate); lia).
          apply Z.log2_lt_pow2; [exact P |]. rewrite Z.log2_lor by (try lia; discriminate). change (Z.log2 (1 << 41)) with 41.
          assert (Z.log2 d < 64) by (destruct (Z.eq_dec d 0) as [-> |]; [cbn; lia |]; apply Z.log2_lt_pow2; lia). lia. }
        rewrite B. destruct (wr X (ring X s) 2 8 _ (Z.setbit d 41) m) as [m' [[c a] |]].
        -- reflexivity.
        -- unfold upd. rewrite load_sys by (auto; lia). reflexivity.
      * unfold raise_exp. rewrite err_eq by lia. reflexivity.
    + unfold raise_exp. rewrite err_eq by lia. reflexivity.
Qed.
Print Assumptions C64_ltr.

(** VERR ([r = true]) and VERW answer no for a null selector and one beyond its table and
    otherwise exactly if the segment could be read (written) from this ring.  The only
    state that may differ is memory, through the read of the descriptor, and the unused
    fault registers. *)
Theorem C64_verify : forall X (r : bool) sl s, 0 <= sl < 2 ^ 16 -> tables_ok X s ->
  (is_null sl = true -> verrw X r sl s = Ok X _ false s) /\
  (is_null sl = false -> in_table X s sl = false -> verrw X r sl s = Ok X _ false (faulted X EXP_GP (errcode sl) (mem X s) s)) /\
  (forall m d, is_null sl = false -> in_table X s sl = true -> descriptor X s sl m d ->
     verrw X r sl s = Ok X _ ((if r then readable else writable) (ring X s) sl d) (set_mem X m s)).
Proof.
  intros X r sl s Hs T. unfold verrw. rewrite (null_eq sl (proj1 Hs)). split; [intros ->; reflexivity |].
  split; intros *.
  - intros -> I. rewrite desc_eq, I by assumption. reflexivity.
  - intros -> I D. rewrite desc_eq, I by assumption. unfold descriptor in D. fold (ring X s) in D. rewrite D.
    rewrite conf_bits, exec_bits, wdata_bits, dpl_eq, cpl_mod, rpl_eq. unfold SEG_DESC_S. rewrite z_fld by lia. fold (is_system d).
    assert (P : (negb (is_conforming d) && ((dpl_of d <? ring X s) || (dpl_of d <? rpl sl))) = negb (data_priv_ok (ring X s) sl d)).
    { unfold data_priv_ok. destruct (is_conforming d); cbn [negb andb orb]; [reflexivity |]. lia. }
    rewrite P. clear P. destruct r; unfold readable, writable;
      destruct (is_system d), (data_priv_ok (ring X s) sl d), (is_code d), (is_rw d); reflexivity.
Qed.
Print Assumptions C64_verify.

(** a machine with an LDT and a busy TSS in the GDT; ring 3 may read its data but not the code it executes only *)
Example C64_example :
  let m := qwords 0x1000 [0; 0x00CF9A000000FFFF; 0x00CFF2000000FFFF; 0x00CFF8000000FFFF; 0x0000820040000027; 0x0000890030000067; 0x00008B0030000067] m0 in
  let s := machine 0 2 m in let u := machine 3 2 m in
  tables_ok flat s /\ tables_ok flat u /\
  ok (lldt flat 0x20 s) (fun s => (base (seg flat s LDTR) =? 0x4000) && (limit (seg flat s LDTR) =? 0x27)) = true /\
  ok (ltr flat 0x28 s) (fun s => (sel (seg flat s TR) =? 0x28) && (le 8 0x1028 (mem flat s) =? 0x00008B0030000067)) = true /\
  ok (ltr flat 0x30 s) (fun _ => true) = false /\ ok (ltr flat 0x20 s) (fun _ => true) = false /\
  readable 3 0x13 0x00CFF2000000FFFF = true /\ readable 3 0x1B 0x00CFF8000000FFFF = false /\ writable 3 0x0B 0x00CF92000000FFFF = false.
Proof. cbv zeta. split; [apply machine_tables |]. split; [apply machine_tables |]. repeat split; vm_compute; reflexivity. Qed.
