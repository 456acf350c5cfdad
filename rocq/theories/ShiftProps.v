(** * Properties of shifts, rotates, bit instructions, multiplications,
      conversions, decimal adjustments and counted branches *)

From Coq Require Import ZArith Bool List Lia ZifyBool.
From Verif Require Import HostModel AluModel AluSpec HostProofs LazyFlagsProofs FlagsApiProofs
  FlagArith SymExec EaProofs AluProofs AluForms UnaryProofs XchgProofs CondProofs ShiftModel ShiftSpec
  ShiftProofs ShiftForms RotateProofs BitProofs MulProofs BcdProofs BranchProofs AluProps.
Import ListNotations.
Local Open Scope Z_scope.

(** ** C54: shifts *)

(** SHL, SHR, SAR of a register or memory operand by an immediate or CL.  The
    count is taken modulo 32; with a count of zero nothing changes. *)
Theorem C54_shift : forall E op w o count s,
  arith_w w -> h_rcx (hr s) = P PCtx -> ctx_ok (ctx s) -> rm_ok o (ctx s) ->
  let a := read_rm w o s in let n := count_of count (ctx s) in
  (n = 0 -> no_change E (emit_shift op w o count) s) /\
  (n <> 0 -> exists fl, shift_flags op w a n fl /\
     effect E (emit_shift op w o count) w s (rm_mem o) (rm_mem o)
       (regs_after w o (shift_value op w a n) s) (mem_after w o (shift_value op w a n) s) fl).
Proof. exact shift_ok. Qed.
Print Assumptions C54_shift.

(** SHLD and SHRD; a count above the width leaves result and flags undefined *)
Theorem C54_double_shift : forall E op w o src count s,
  arith_w w -> h_rcx (hr s) = P PCtx -> ctx_ok (ctx s) -> rm_ok o (ctx s) ->
  let a := read_rm w o s in let b := read_gop w src (ctx s) in let n := count_of count (ctx s) in
  (n = 0 -> no_change E (emit_dshift op w o src count) s) /\
  (0 < n <= wbits w -> exists fl, dshift_flags op w a b n fl /\
     effect E (emit_dshift op w o src count) w s (rm_mem o) (rm_mem o)
       (regs_after w o (dshift_value op w a b n) s) (mem_after w o (dshift_value op w a b n) s) fl).
Proof. exact dshift_ok. Qed.
Print Assumptions C54_double_shift.

Example C54_example :
  h_rcx (hr st0) = P PCtx /\ ctx_ok (ctx st0) /\ rm_ok (RmMem mop0) (ctx st0) /\
  count_of None (ctx st0) = 1 /\ count_of (Some 0x45) (ctx st0) = 5 /\
  first_fault env0 W32 (Some mop0) (Some mop0) st0 = None /\
  shift_value SSar W8 0x85 2 = 0xE1 /\ shift_carry SSar W8 0x85 3 = true /\
  dshift_value DShld W16 0x1234 0xABCD 4 = 0x234A.
Proof. vm_compute. repeat split; discriminate. Qed.

(** ** C55: rotates *)

(** ROL, ROR rotate a ring of the operand's bits, RCL, RCR one that also holds
    CF.  PF, AF, ZF and SF keep their values. *)
Theorem C55_rotate : forall E op w o count s,
  arith_w w -> h_rcx (hr s) = P PCtx -> ctx_ok (ctx s) -> rm_ok o (ctx s) ->
  let a := read_rm w o s in let n := count_of count (ctx s) in
  (n = 0 -> no_change E (emit_rotate op w o count) s) /\
  (n <> 0 -> exists v c fl,
     rotated op w a (f_cf (flags_now s)) n v c /\ rotate_flags op w v c n (flags_now s) fl /\
     effect E (emit_rotate op w o count) w s (rm_mem o) (rm_mem o)
       (regs_after w o v s) (mem_after w o v s) fl).
Proof. exact rotate_ok. Qed.
Print Assumptions C55_rotate.

(** the description of a rotate leaves no choice *)
Theorem C55_unique : forall op w a cf n v c v' c',
  rotated op w a cf n v c -> rotated op w a cf n v' c' -> v = v' /\ c = c'.
Proof.
  intros op w a cf n v c v' c' [R H] [R' H'].
  assert (V : (forall i, 0 <= i < wbits w -> Z.testbit v i = Z.testbit v' i) -> v = v').
  { intros B. apply Z.bits_inj'. intros i Hi. destruct (Z.ltb_spec i (wbits w)); [apply B; lia |].
    rewrite !(testbit_over w) by assumption. reflexivity. }
  assert (G : (forall i, 0 <= i <= wbits w -> ring_bit w v c i = ring_bit w v' c' i) -> v = v' /\ c = c').
  { intros B. split.
    - apply V. intros i Hi. specialize (B i). unfold ring_bit in B.
      replace (i <? wbits w) with true in B by lia. apply B. lia.
    - specialize (B (wbits w)). unfold ring_bit in B. rewrite Z.ltb_irrefl in B. apply B.
      pose proof (n8 w). lia. }
  destruct op.
  all: try (apply G; intros i Hi; now rewrite H, H' by exact Hi).
  all: destruct H as [H ->], H' as [H' ->]; assert (K : v = v') by (apply V; intros i Hi; now rewrite H, H' by exact Hi);
    now subst.
Qed.
Print Assumptions C55_unique.

Example C55_example : rotated ORol W8 0x81 false 1 0x03 true /\ rotated ORcr W8 0x02 true 1 0x81 false.
Proof.
  split; (split; [split; vm_compute; congruence |]).
  - split; [| reflexivity]. intros i Hi. cbn [wbits] in Hi.
    assert (K : i = 0 \/ i = 1 \/ i = 2 \/ i = 3 \/ i = 4 \/ i = 5 \/ i = 6 \/ i = 7) by lia.
    now repeat (destruct K as [-> | K]; [reflexivity |]); subst.
  - intros i Hi. cbn [wbits] in Hi.
    assert (K : i = 0 \/ i = 1 \/ i = 2 \/ i = 3 \/ i = 4 \/ i = 5 \/ i = 6 \/ i = 7 \/ i = 8) by lia.
    now repeat (destruct K as [-> | K]; [reflexivity |]); subst.
Qed.

(** ** C56: bit tests *)

(** BT, BTC, BTR, BTS with a register operand or an immediate index, and with a
    memory operand when the index in the register is below the width.  What is
    missing: indices outside the addressed word, see the refutation. *)
Theorem C56_bit_test_partial : forall E op w o src s,
  arith_w w -> h_rcx (hr s) = P PCtx -> ctx_ok (ctx s) -> rm_ok o (ctx s) ->
  bit_in_range w o src (ctx s) ->
  let a := read_rm w o s in let i := bit_index w src (ctx s) mod wbits w in
  let v := bit_value op a i in
  exists fl, bit_flags a i (flags_now s) fl /\
    effect E (emit_bit op w o src) w s (rm_mem o) (if is_bt op then None else rm_mem o)
      (bit_regs op w o v s) (bit_mem op w o v s) fl.
Proof. exact bit_ok. Qed.
Print Assumptions C56_bit_test_partial.

(** With a memory operand and an index outside the word the instruction should
    work on the bit string at [bit_address]; in every state it reads or writes
    host memory beside the emulator's own local variable instead. *)
Theorem C56_bit_string_refuted : forall E op w m g s,
  arith_w w -> h_rcx (hr s) = P PCtx -> memop_ok m (ctx s) ->
  e_fault E false (ea m (ctx s)) (wbytes w) = false ->
  wbits w <= read_gop w g (ctx s) ->
  run E (emit_bit op w (RmMem m) (BReg g)) s = Stuck.
Proof. exact bit_out. Qed.
Print Assumptions C56_bit_string_refuted.

Example C56_example :
  bit_in_range W32 (RmMem mop0) (BReg (mkgop false ECX)) (ctx st0) /\
  wbits W32 <= read_gop W32 (mkgop false EBX) (ctx st0) /\ memop_ok mop0 (ctx st0) /\
  e_fault env0 false (ea mop0 (ctx st0)) (wbytes W32) = false /\
  bit_address W32 (ea mop0 (ctx st0)) (read_gop W32 (mkgop false EBX) (ctx st0)) = 0x4010 + 0x3000 / 8.
Proof. vm_compute. repeat split; congruence. Qed.

(** ** C57: multiplication and conversion *)

Theorem C57_mul : forall E w o s,
  arith_w w -> h_rcx (hr s) = P PCtx -> ctx_ok (ctx s) -> rm_ok o (ctx s) ->
  let p := gget w false EAX (gprs (ctx s)) * read_rm w o s in
  exists fl, mul_flags_ok (modulus w <=? p) fl /\
    effect E (emit_mul w o) w s (rm_mem o) None (product_regs w p s) (gmem s) fl.
Proof.
  intros E w o s Hw Hcx Hok Hm p. destruct (mul_ok E w o s Hw Hcx Hok Hm) as (fl & F & K).
  exists fl. split; [| exact K]. fold p in F.
  replace (modulus w <=? p) with (negb (Z.shiftr p (wbits w) =? 0)); [exact F |].
  assert (0 <= p) by (apply Z.mul_nonneg_nonneg; [apply gget_range | apply read_rm_range]).
  rewrite Z.shiftr_div_pow2 by (pose proof (n8 w); lia). fold (modulus w).
  assert (0 < modulus w) by (pose proof (gget_range w false EAX (gprs (ctx s))); lia).
  destruct (Z.leb_spec (modulus w) p).
  - assert (0 < p / modulus w) by (apply Z.div_str_pos; lia). lia.
  - rewrite Z.div_small by lia. reflexivity.
Qed.
Print Assumptions C57_mul.

Theorem C57_imul : forall E w o s,
  arith_w w -> h_rcx (hr s) = P PCtx -> ctx_ok (ctx s) -> rm_ok o (ctx s) ->
  let p := signed w (gget w false EAX (gprs (ctx s))) * signed w (read_rm w o s) in
  exists fl, mul_flags_ok (negb (fits w p)) fl /\
    effect E (emit_imul1 w o) w s (rm_mem o) None (product_regs w p s) (gmem s) fl.
Proof. exact imul1_ok. Qed.
Print Assumptions C57_imul.

Theorem C57_imul_register : forall E w dst src s,
  arith_w w -> h_rcx (hr s) = P PCtx -> ctx_ok (ctx s) -> rm_ok src (ctx s) ->
  let p := signed w (gget w false dst (gprs (ctx s))) * signed w (read_rm w src s) in
  exists fl, mul_flags_ok (negb (fits w p)) fl /\
    effect E (emit_imul2 w dst src) w s (rm_mem src) None
      (gput w false dst p (gprs (ctx s))) (gmem s) fl.
Proof. exact imul2_ok. Qed.
Print Assumptions C57_imul_register.

Theorem C57_imul_immediate : forall E short w dst src imm s,
  arith_w w -> h_rcx (hr s) = P PCtx -> ctx_ok (ctx s) -> rm_ok src (ctx s) ->
  let p := signed w (read_rm w src s) * imm_value short w imm in
  exists fl, mul_flags_ok (negb (fits w p)) fl /\
    effect E (emit_imul3 short w dst src imm) w s (rm_mem src) None
      (gput w false dst p (gprs (ctx s))) (gmem s) fl.
Proof. exact imul3_ok. Qed.
Print Assumptions C57_imul_immediate.

(** MOVSX ([sx]) and MOVZX, from width [sw] to [w] *)
Theorem C57_extend : forall E (sx : bool) w sw dst src s,
  arith_w w -> arith_w sw -> h_rcx (hr s) = P PCtx -> ctx_ok (ctx s) -> rm_ok src (ctx s) ->
  let v := read_rm sw src s in
  effect E (emit_movx sx w sw dst src) sw s (rm_mem src) None
    (gput w false dst (if sx then signed sw v else v) (gprs (ctx s))) (gmem s) (flags_now s).
Proof. exact movx_ok. Qed.
Print Assumptions C57_extend.

(** CBW, CWDE, CWD, CDQ *)
Theorem C57_convert : forall E k s, h_rcx (hr s) = P PCtx -> ctx_ok (ctx s) ->
  exists s', run E (emit_conv k) s = Done s' /\
    becomes s s' (conv_regs k (gprs (ctx s))) (gmem s) (flags_now s).
Proof. exact conv_ok. Qed.
Print Assumptions C57_convert.

(** BSWAP reverses the four bytes of a register *)
Theorem C57_bswap : forall E r s, h_rcx (hr s) = P PCtx -> ctx_ok (ctx s) ->
  exists s' v, run E (emit_bswap r) s = Done s' /\ 0 <= v < 2 ^ 32 /\
    (forall k, 0 <= k < 4 -> byte_of v k = byte_of (gget W32 false r (gprs (ctx s))) (3 - k)) /\
    becomes s s' (gput W32 false r v (gprs (ctx s))) (gmem s) (flags_now s).
Proof.
  intros E r s Hcx Hok. destruct (bswap_ok E r s Hcx Hok) as (s' & R & B).
  exists s', (bswap_val (gget W32 false r (gprs (ctx s)))).
  split; [exact R |]. split; [apply bswap_range |]. split; [| exact B].
  intros k Hk. now apply bswap_bytes.
Qed.
Print Assumptions C57_bswap.

Example C57_example :
  rm_ok (RmMem mop0) (ctx st0) /\ first_fault env0 W32 (Some mop0) None st0 = None /\
  fits W16 (signed W16 0xFFFF * signed W16 0x7FFF) = true /\ fits W16 (signed W16 0x8000 * signed W16 0xFFFF) = false /\
  imm_value true W32 0xFE = -2.
Proof. vm_compute. repeat split; discriminate. Qed.

(** ** C58: decimal adjustments *)

Theorem C58_aaa : forall E s, h_rcx (hr s) = P PCtx -> ctx_ok (ctx s) ->
  let '(al', ah', c) := aaa_spec (gget W8 false EAX (gprs (ctx s))) (gget W8 true EAX (gprs (ctx s))) (f_af (flags_now s)) in
  exists s' fl, run E emit_aaa s = Done s' /\ f_af fl = c /\ f_cf fl = c /\
    becomes s s' (gput W16 false EAX (256 * ah' + al') (gprs (ctx s))) (gmem s) fl.
Proof. exact aaa_ok. Qed.
Print Assumptions C58_aaa.

Theorem C58_aas : forall E s, h_rcx (hr s) = P PCtx -> ctx_ok (ctx s) ->
  let '(al', ah', c) := aas_spec (gget W8 false EAX (gprs (ctx s))) (gget W8 true EAX (gprs (ctx s))) (f_af (flags_now s)) in
  exists s' fl, run E emit_aas s = Done s' /\ f_af fl = c /\ f_cf fl = c /\
    becomes s s' (gput W16 false EAX (256 * ah' + al') (gprs (ctx s))) (gmem s) fl.
Proof. exact aas_ok. Qed.
Print Assumptions C58_aas.

Theorem C58_aad : forall E imm s, h_rcx (hr s) = P PCtx -> ctx_ok (ctx s) -> 0 <= imm < 256 ->
  let v := (gget W8 true EAX (gprs (ctx s)) * imm + gget W8 false EAX (gprs (ctx s))) mod 256 in
  exists s' fl, run E (emit_aad imm) s = Done s' /\ result_flags W8 v fl /\
    becomes s s' (gput W16 false EAX v (gprs (ctx s))) (gmem s) fl.
Proof. exact aad_ok. Qed.
Print Assumptions C58_aad.

(** a divisor of zero raises the divide error and changes nothing *)
Theorem C58_aam : forall E imm s, h_rcx (hr s) = P PCtx -> ctx_ok (ctx s) -> 0 <= imm < 256 ->
  let a := gget W8 false EAX (gprs (ctx s)) in
  if imm =? 0 then run E (emit_aam imm) s = Raise 0 0 s
  else exists s' fl, run E (emit_aam imm) s = Done s' /\ result_flags W8 (a mod imm) fl /\
    becomes s s' (gput W16 false EAX (256 * (a / imm) + a mod imm) (gprs (ctx s))) (gmem s) fl.
Proof.
  intros E imm s Hcx Hok Hi. cbv zeta. destruct (Z.eqb_spec imm 0) as [-> | H]; [apply aam_zero |].
  apply aam_ok; (assumption || lia).
Qed.
Print Assumptions C58_aam.

(** DAA ([sum] true) and DAS *)
Theorem C58_daa_das : forall E (sum : bool) s, h_rcx (hr s) = P PCtx -> ctx_ok (ctx s) ->
  let a := gget W8 false EAX (gprs (ctx s)) in
  let '(al', af', cf') := (if sum then daa_spec else das_spec) a (f_af (flags_now s)) (f_cf (flags_now s)) in
  exists s' fl, run E (if sum then emit_daa else emit_das) s = Done s' /\
    result_flags W8 al' fl /\ f_af fl = af' /\ f_cf fl = cf' /\
    becomes s s' (gput W8 false EAX al' (gprs (ctx s))) (gmem s) fl.
Proof. exact da_ok. Qed.
Print Assumptions C58_daa_das.

(** 38 + 45 and 47 - 28 in packed decimal, 8 + 9 in unpacked decimal *)
Example C58_example :
  daa_spec (0x38 + 0x45) false false = (0x83, true, false) /\
  das_spec (0x47 - 0x28) true false = (0x19, true, false) /\
  aaa_spec 0x11 0 true = (7, 1, true).
Proof. repeat split. Qed.

(** ** C59: bit scans *)

(** what a scan of [a] has to find *)
Definition scan_found (fwd : bool) (w : width) (a i : Z) : Prop :=
  i < wbits w /\ if fwd then lowest_set a i else highest_set a i.

(** What is missing: the destination when the source is zero. *)
Theorem C59_scan_partial : forall E (fwd : bool) w dst src s,
  arith_w w -> h_rcx (hr s) = P PCtx -> ctx_ok (ctx s) -> rm_ok src (ctx s) ->
  let a := read_rm w src s in
  exists fl i, f_zf fl = (a =? 0) /\ (a <> 0 -> scan_found fwd w a i) /\
    effect E (emit_bscan fwd w dst src) w s (rm_mem src) None (gput w false dst i (gprs (ctx s))) (gmem s) fl.
Proof.
  intros E fwd w dst src s Hw Hcx Hok Hm a. destruct (scan_ok E fwd w dst src s Hw Hcx Hok Hm) as (fl & Z1 & _ & K).
  fold a in Z1, K.
  exists fl. eexists. split; [exact Z1 |]. split; [| exact K].
  intros Ha. destruct (Z.eqb_spec a 0); [contradiction |].
  assert (Ra : 0 <= a < modulus w) by apply read_rm_range.
  unfold scan_found, scan_val. destruct fwd.
  - destruct (bsf_ok w a Ra Ha). split; assumption.
  - destruct (bsr_ok w a Ra Ha). split; assumption.
Qed.
Print Assumptions C59_scan_partial.

(** With a zero source the destination receives whatever the host register held:
    two states that the guest cannot tell apart end with different values. *)
Theorem C59_zero_source_refuted : exists E s1 s2 s1' s2',
  untouched s1 s2 /\ h_rcx (hr s1) = P PCtx /\ h_rcx (hr s2) = P PCtx /\
  read_rm W32 (RmReg (mkgop false EDX)) s1 = 0 /\
  run E (emit_bscan true W32 EAX (RmReg (mkgop false EDX))) s1 = Done s1' /\
  run E (emit_bscan true W32 EAX (RmReg (mkgop false EDX))) s2 = Done s2' /\
  gget W32 false EAX (gprs (ctx s1)) <> gget W32 false EAX (gprs (ctx s1')) /\
  gget W32 false EAX (gprs (ctx s1')) <> gget W32 false EAX (gprs (ctx s2')).
Proof.
  exists env0, st0, (set_hr (mkregs (N 1) (N 2) (P PCtx) (N 3) (N 99) (N 5) (N 6) (N 7)) st0).
  do 2 eexists. split; [repeat split |]. split; [reflexivity |]. split; [reflexivity |]. split; [reflexivity |].
  split; [reflexivity |]. split; [reflexivity |]. split; vm_compute; discriminate.
Qed.
Print Assumptions C59_zero_source_refuted.

Example C59_example : scan_found true W16 0x0150 4 /\ scan_found false W16 0x0150 8 /\ rm_ok (RmMem mop0) (ctx st0).
Proof.
  split; [| split; [| vm_compute; repeat split; discriminate]].
  - split; [reflexivity |]. cbv iota. split; [lia |]. split; [reflexivity |]. intros j Hj.
    assert (K : j = 0 \/ j = 1 \/ j = 2 \/ j = 3) by lia.
    now repeat (destruct K as [-> | K]; [reflexivity |]); subst.
  - split; [reflexivity |]. cbv iota. split; [lia |]. split; [reflexivity |]. intros j Hj.
    apply Z.bits_above_log2; [lia |]. exact Hj.
Qed.

(** ** C60: counted branches, BOUND, XLAT *)

(** LOOP, LOOPE ([Some true]), LOOPNE ([Some false]): the count is decremented,
    no flag changes, EIP becomes the target or the next instruction, and the
    linear address handed to the block linker is that of the new EIP *)
Theorem C60_loop : forall E k a32 s sz nxt disp base, h_rcx (hr s) = P PCtx -> ctx_ok (ctx s) ->
  let w := addr_w a32 in
  let left := (gget w false ECX (gprs (ctx s)) - 1) mod modulus w in
  exists s' ip g, run E (emit_loop k a32 sz nxt disp base) s = Left s' /\
    gmem s' = gmem s /\ masked s' = masked s /\
    ctx s' = set_eip ip (set_gprs g (ctx s)) /\ h_rbx (hr s') = N (w32 (ip + base)) /\
    (forall r, g r = gput w false ECX left (gprs (ctx s)) r) /\
    w32 ip = if loop_taken k left (f_zf (flags_now s)) then branch_target sz nxt disp else w32 nxt.
Proof. intros. rewrite <- target_eq. now apply loop_ok. Qed.
Print Assumptions C60_loop.

Theorem C60_jcxz : forall E a32 s sz nxt disp base, h_rcx (hr s) = P PCtx ->
  exists s' ip, run E (emit_jcxz a32 sz nxt disp base) s = Left s' /\
    gmem s' = gmem s /\ masked s' = masked s /\
    ctx s' = set_eip ip (ctx s) /\ h_rbx (hr s') = N (w32 (ip + base)) /\
    w32 ip = if gget (addr_w a32) false ECX (gprs (ctx s)) =? 0 then branch_target sz nxt disp else w32 nxt.
Proof. intros. rewrite <- target_eq. now apply jcxz_ok. Qed.
Print Assumptions C60_jcxz.

(** BOUND raises #BR exactly when the index is outside the signed bounds; it
    never changes what the guest sees *)
Theorem C60_bound : forall E w dst m s, w = W16 \/ w = W32 -> h_rcx (hr s) = P PCtx -> rm_ok (RmMem m) (ctx s) ->
  let a := ea m (ctx s) in
  let b := w32 (a + wbytes w) in
  let i := signed w (gget w false dst (gprs (ctx s))) in
  let lo := signed w (mload (gmem s) w a) in
  let hi := signed w (mload (gmem s) w b) in
  exists s', untouched s s' /\
    run E (emit_bound w dst m) s =
      if e_fault E false a (wbytes w) then Fault false a (wbytes w) s'
      else if e_fault E false b (wbytes w) then Fault false b (wbytes w) s'
      else if (i <? lo) || (hi <? i) then Raise 5 0 s' else Done s'.
Proof. exact bound_ok. Qed.
Print Assumptions C60_bound.

(** XLAT reads the byte at BX or EBX plus AL, an offset that wraps at the address
    size.  What is missing: 16-bit offsets that wrap. *)
Definition xlat_address (a32 : bool) (seg : sreg) (c : gctx) : Z :=
  w32 (segb c seg + (gget (addr_w a32) false EBX (gprs c) + gget W8 false EAX (gprs c)) mod modulus (addr_w a32)).

Theorem C60_xlat_partial : forall E a32 seg z s, h_rcx (hr s) = P PCtx -> ctx_ok (ctx s) ->
  (z = true -> segb (ctx s) seg = 0) ->
  a32 = true \/ gget W16 false EBX (gprs (ctx s)) + gget W8 false EAX (gprs (ctx s)) < 2 ^ 16 ->
  let a := xlat_address a32 seg (ctx s) in
  if e_fault E false a 1
  then exists s', run E (emit_xlat a32 seg z) s = Fault false a 1 s' /\ untouched s s'
  else exists s', run E (emit_xlat a32 seg z) s = Done s' /\
    becomes s s' (gput W8 false EAX (mload (gmem s) W8 a) (gprs (ctx s))) (gmem s) (flags_now s).
Proof.
  intros E a32 seg z s Hcx Hok Hz Hw a. pose proof (xlat_ok E a32 seg z s Hcx Hok Hz) as H. cbv zeta in H.
  replace a with (w32 (segb (ctx s) seg + gget (addr_w a32) false EBX (gprs (ctx s)) + gget W8 false EAX (gprs (ctx s)))); [exact H |].
  subst a. unfold xlat_address. destruct a32; cbn [addr_w].
  - change w32 with (getw W32). rewrite !getw_mod. rewrite Zplus_mod_idemp_r. f_equal. lia.
  - pose proof (gget_range W16 false EBX (gprs (ctx s))). pose proof (gget_range W8 false EAX (gprs (ctx s))).
    destruct Hw as [Hw | Hw]; [discriminate |].
    rewrite Z.mod_small by (change (modulus W16) with (2 ^ 16); lia). f_equal. lia.
Qed.
Print Assumptions C60_xlat_partial.

Theorem C60_xlat_refuted : exists E seg s s',
  h_rcx (hr s) = P PCtx /\ ctx_ok (ctx s) /\ segb (ctx s) seg = 0 /\
  e_fault E false (xlat_address false seg (ctx s)) 1 = false /\
  run E (emit_xlat false seg true) s = Done s' /\
  gget W8 false EAX (gprs (ctx s')) <> mload (gmem s) W8 (xlat_address false seg (ctx s)).
Proof.
  exists env0, ES, (set_ctx (set_gprs (fun r => match r with EBX => 0xFFFF | EAX => 1 | _ => 0 end) ctx0) st0).
  eexists. split; [reflexivity |]. split; [reflexivity |]. split; [reflexivity |]. split; [reflexivity |].
  split; [reflexivity |]. vm_compute. discriminate.
Qed.
Print Assumptions C60_xlat_refuted.

Example C60_example :
  loop_taken None ((gget W32 false ECX (gprs ctx0) - 1) mod modulus W32) false = false /\
  loop_taken (Some false) ((0 - 1) mod modulus W16) false = true /\
  rm_ok (RmMem mop0) (ctx st0) /\ segb (ctx st0) ES = 0 /\
  gget W16 false EBX (gprs (ctx st0)) + gget W8 false EAX (gprs (ctx st0)) < 2 ^ 16.
Proof. vm_compute. repeat split; discriminate. Qed.
