(** * A word stored on the stack is read back; CALL and RET match *)

From Coq Require Import ZArith Bool List Lia ZifyBool.
From Verif Require Import HostModel AluModel AluSpec StackModel StackSpec MoveModel MoveSpec HostProofs LazyFlagsProofs
  FlagsApiProofs FlagArith SymExec EaProofs AluProofs AluForms UnaryProofs XchgProofs StackProofs StackProofs2
  MoveProofs MoveProofs2 MoveProofs3 MoveProofs4.
Import ListNotations.
Local Open Scope Z_scope.

Lemma w32_mod x : w32 x = x mod 2 ^ 32.
Proof. exact (getw_mod W32 x). Qed.

Lemma byte_part v i n : 0 <= i -> 0 <= n ->
  Z.testbit (Z.shiftl (Z.land (Z.land (Z.shiftr v i) 255) 255) i) n = Z.testbit v n && (i <=? n) && (n <? i + 8).
Proof.
  intros Hi Hn. rewrite Z.shiftl_spec by lia. change 255 with (Z.ones 8). 
  destruct (Z.leb_spec i n).
  - rewrite !Z.land_spec, Z.shiftr_spec by lia. replace (n - i + i) with n by lia. rewrite andb_true_r.
    rewrite Z.testbit_ones by lia. rewrite <- andb_assoc, andb_diag. f_equal. lia.
  - rewrite Z.testbit_neg_r by lia. now rewrite andb_false_r.
Qed.

Lemma in_store m w a v i : 0 <= a < 2 ^ 32 -> 0 <= i < wbytes w ->
  mstore m w a v (w32 (a + i)) = Z.land (Z.shiftr v (8 * i)) 255.
Proof.
  intros Ha Hi. unfold mstore. rewrite !w32_mod.
  assert (0 <= (a + i) mod 2 ^ 32 < 2 ^ 32) by (apply Z.mod_pos_bound; lia).
  assert (B : wbytes w < 2 ^ 32) by (destruct w; reflexivity).
  assert (X : ((a + i) mod 2 ^ 32 - a) mod 2 ^ 32 = i).
  { rewrite Zminus_mod_idemp_l. replace (a + i - a) with i by lia. apply Z.mod_small. lia. }
  rewrite X. change 4294967295 with (2 ^ 32 - 1).
  replace (0 <=? (a + i) mod 2 ^ 32) with true by lia.
  replace ((a + i) mod 2 ^ 32 <=? 2 ^ 32 - 1) with true by lia. replace (i <? wbytes w) with true by lia. reflexivity.
Qed.

Lemma load_store m w a v : w = W16 \/ w = W32 -> 0 <= a < 2 ^ 32 -> mload (mstore m w a v) w a = v mod modulus w.
Proof.
  intros Hw Ha. apply Z.bits_inj'. intros n Hn.
  assert (P : Z.testbit (v mod modulus w) n = Z.testbit v n && (n <? wbits w)).
  { rewrite <- getw_mod. now apply getw_testbit. }
  rewrite P. unfold mload. destruct Hw as [-> | ->]; rewrite !in_store by (cbn [wbytes wbits]; lia); change (8 * 0) with 0; change (8 * 1) with 8;
    try (change (8 * 2) with 16; change (8 * 3) with 24); rewrite !Z.lor_spec, !byte_part by lia; cbn [wbits];
    destruct (Z.testbit v n); rewrite ?andb_false_l, ?andb_true_l; lia.
Qed.

Lemma load_ext m1 m2 w a : w = W16 \/ w = W32 -> (forall i, 0 <= i < wbytes w -> m1 (w32 (a + i)) = m2 (w32 (a + i))) ->
  mload m1 w a = mload m2 w a.
Proof.
  intros Hw H. unfold mload. destruct Hw as [-> | ->]; cbn [wbytes] in H; rewrite !H by lia; reflexivity.
Qed.

(** two words of the stack do not overlap *)
Lemma other_slot k c : k_w k = W16 \/ k_w k = W32 -> forall m v,
  mload (mstore m (k_w k) (slot k (-2 * k_n k) c) v) (k_w k) (slot k (- k_n k) c) = mload m (k_w k) (slot k (- k_n k) c).
Proof.
  intros Hw m v. apply load_ext; [exact Hw |]. intros i Hi. unfold mstore. change (wbytes (k_w k)) with (k_n k) in Hi |- *.
  set (n := k_n k) in *. assert (Hn : n = 2 \/ n = 4) by (unfold n, k_n; destruct Hw as [-> | ->]; cbn; lia).
  replace (w32 (w32 (slot k (- n) c + i) - slot k (-2 * n) c) <? n) with false; [now rewrite andb_false_r |].
  symmetry. apply Z.ltb_ge. rewrite !w32_mod. unfold slot. rewrite Zminus_mod_idemp_l.
  rewrite Zminus_mod_idemp_r. unfold Z.sub at 1. rewrite <- Z.add_assoc, Zplus_mod_idemp_l, Z.add_assoc.
  unfold sp_off. set (e := gprs c ESP). 
  assert (D : exists j, (e + - n) mod (if k_ss32 k then 2 ^ 32 else 2 ^ 16) - (e + -2 * n) mod (if k_ss32 k then 2 ^ 32 else 2 ^ 16)
    = n + j * (if k_ss32 k then 2 ^ 32 else 2 ^ 16) /\ (j = 0 \/ j = -1)).
  { set (M := if k_ss32 k then _ else _). assert (HM : 8 < M) by (unfold M; destruct (k_ss32 k); lia).
    pose proof (Z.mod_pos_bound (e + - n) M ltac:(lia)). pose proof (Z.mod_pos_bound (e + -2 * n) M ltac:(lia)).
    pose proof (Z.div_mod (e + - n) M ltac:(lia)). pose proof (Z.div_mod (e + -2 * n) M ltac:(lia)).
    exists ((e + -2 * n) / M - (e + - n) / M). split; [lia | nia]. }
  destruct D as (j & D & Hj).
  replace (segb c SS + (e + - n) mod (if k_ss32 k then 2 ^ 32 else 2 ^ 16) + i + - (segb c SS + (e + -2 * n) mod (if k_ss32 k then 2 ^ 32 else 2 ^ 16)))
    with (n + i + j * (if k_ss32 k then 2 ^ 32 else 2 ^ 16)) by lia.
  destruct (k_ss32 k).
  - rewrite Z.mod_add by lia. rewrite Z.mod_small; lia.
  - destruct Hj as [-> | ->].
    + rewrite Z.mod_small; lia.
    + replace (n + i + -1 * 2 ^ 16) with (n + i + (2 ^ 32 - 2 ^ 16) + (-1) * 2 ^ 32) by lia. rewrite Z.mod_add by lia.
      rewrite Z.mod_small; lia.
Qed.

Lemma moved_0 k c r : moved k 0 c r = gprs c r.
Proof.
  unfold moved, set_sp, sp_off, gput. rewrite Z.add_0_r, <- sp_mod. destruct (greg_eqb r ESP) eqn:Hr; [| reflexivity].
  replace r with ESP by (destruct r; try discriminate; reflexivity).
  apply Z.bits_inj'. intros i Hi. rewrite putw_testbit by assumption. rewrite <- getw_mod, getw_testbit by assumption.
  destruct (i <? wbits (k_sp k)); [apply andb_true_r | reflexivity].
Qed.

Lemma same_sp k k' d c c' : k_ss32 k' = k_ss32 k -> gprs c' ESP = gprs c ESP -> segb c' SS mod 2 ^ 32 = segb c SS mod 2 ^ 32 ->
  sp_off k' d c' = sp_off k d c /\ slot k' d c' = slot k d c.
Proof.
  intros H1 H2 H3. assert (S : sp_off k' d c' = sp_off k d c) by (unfold sp_off; now rewrite H1, H2).
  split; [exact S |]. unfold slot. rewrite S. rewrite <- Zplus_mod_idemp_l, H3, Zplus_mod_idemp_l. reflexivity.
Qed.

Lemma slot_range k d c : 0 <= slot k d c < 2 ^ 32.
Proof. apply Z.mod_pos_bound. reflexivity. Qed.

(** ** Matching a call and its return *)

Lemma mload_pt m1 m2 w a : w = W16 \/ w = W32 -> (forall x, m1 x = m2 x) -> mload m1 w a = mload m2 w a.
Proof. intros Hw H. apply load_ext; [exact Hw | intros; apply H]. Qed.

Lemma after_call k d s s1 mem :
  k_w k = W16 \/ k_w k = W32 -> (forall r, gprs (ctx s1) r = moved k d (ctx s) r) ->
  (forall x, gmem s1 x = mem x) -> segb (ctx s1) SS mod 2 ^ 32 = segb (ctx s) SS mod 2 ^ 32 ->
  forall e, slot k e (ctx s1) = slot k (d + e) (ctx s) /\
    top_of k e s1 = mload mem (k_w k) (slot k (d + e) (ctx s)) /\ sp_off k e (ctx s1) = sp_off k (d + e) (ctx s).
Proof.
  intros Hw Hg Hm Hs e.
  destruct (same_sp k k e (set_gprs (moved k d (ctx s)) (ctx s)) (ctx s1) eq_refl (Hg ESP) Hs) as [S1 S2].
  rewrite slot_moved in S2. rewrite sp_off_moved in S1. split; [exact S2 |]. split; [| exact S1].
  unfold top_of. rewrite S2. now apply mload_pt.
Qed.

Lemma ESP_only k d c r : r <> ESP -> moved k d c r = gprs c r.
Proof. intros H. unfold moved, set_sp, gput. destruct r; try reflexivity. now elim H. Qed.

Lemma moved_sp k d d' c c' : gprs c' ESP = moved k d c ESP -> moved k d' c' ESP = moved k (d + d') c ESP.
Proof.
  intros H. rewrite <- moved_moved. unfold moved at 1 3, set_sp, gput, sp_off. cbn [greg_eqb gprs set_gprs]. now rewrite H.
Qed.

Lemma near_return E k imm s1 s2 ret spv :
  h_rcx (hr s2) = P PCtx -> ctx_ok (ctx s2) -> stk_ok k (ctx s2) -> kept k 1 s1 s2 ->
  top_of k 0 s1 = ret -> (moved k (k_n k + released imm) (ctx s1) ESP = spv) ->
  e_fault E false (slot k 0 (ctx s1)) (k_n k) = false ->
  exists s3, run E (emit_ret k imm) s2 = Left s3 /\
    lands s2 s3 (near s2 (fun r => if greg_eqb r ESP then spv else gprs (ctx s2) r) (gmem s2) ret).
Proof.
  intros Hcx Hok Hk (K1 & K2 & K3) Ht Hv Hf.
  pose proof (ret_ok E k imm s2 Hcx Hok Hk) as P. unfold transfers in P. cbn [first_bad] in P.
  destruct (same_sp k k 0 (ctx s1) (ctx s2) eq_refl K1 K2) as [_ S]. rewrite S, Hf in P.
  destruct P as (s3 & R & L). exists s3. split; [exact R |].
  specialize (K3 0 ltac:(lia)). rewrite Z.mul_0_r in K3. rewrite K3, Ht in L.
  destruct L as (A & B). split; [| exact B]. intros r. rewrite A. cbn [near l_regs].
  destruct (greg_eqb r ESP) eqn:Hr.
  - replace r with ESP by (destruct r; try discriminate; reflexivity). rewrite <- Hv.
    unfold moved, set_sp, gput, sp_off. cbn [greg_eqb]. now rewrite K1.
  - apply ESP_only. intros ->. discriminate.
Qed.

Lemma far_return E k imm s1 s2 ret sel spv :
  h_rcx (hr s2) = P PCtx -> ctx_ok (ctx s2) -> stk_ok k (ctx s2) -> kept k 2 s1 s2 ->
  top_of k 0 s1 = ret -> top_of k (k_n k) s1 mod 2 ^ 16 = sel -> (moved k (2 * k_n k + released imm) (ctx s1) ESP = spv) ->
  e_fault E false (slot k 0 (ctx s1)) (k_n k) = false -> e_fault E false (slot k (k_n k) (ctx s1)) (k_n k) = false ->
  exists s3, run E (emit_retf k imm) s2 = Left s3 /\
    lands s2 s3 (far s2 (fun r => if greg_eqb r ESP then spv else gprs (ctx s2) r) (gmem s2) sel ret).
Proof.
  intros Hcx Hok Hk (K1 & K2 & K3) Ht Hu Hv Hf Hf'.
  pose proof (retf_ok E k imm s2 Hcx Hok Hk) as P. unfold transfers in P. cbn [first_bad] in P.
  destruct (same_sp k k 0 (ctx s1) (ctx s2) eq_refl K1 K2) as [_ S]. rewrite S, Hf in P.
  destruct (same_sp k k (k_n k) (ctx s1) (ctx s2) eq_refl K1 K2) as [_ S']. rewrite S', Hf' in P.
  destruct P as (s3 & R & L). exists s3. split; [exact R |].
  pose proof (K3 0 ltac:(lia)) as K30. specialize (K3 1 ltac:(lia)). rewrite Z.mul_0_r in K30. rewrite Z.mul_1_r in K3.
  rewrite K3, K30, Ht, Hu in L.
  destruct L as (A & B). split; [| exact B]. intros r. rewrite A. cbn [far l_regs].
  destruct (greg_eqb r ESP) eqn:Hr.
  - replace r with ESP by (destruct r; try discriminate; reflexivity). rewrite <- Hv.
    unfold moved, set_sp, gput, sp_off. cbn [greg_eqb]. now rewrite K1.
  - apply ESP_only. intros ->. discriminate.
Qed.

Lemma left_lands E l s acc L s1 : transfers E l s acc L -> run E l s = Left s1 -> lands s s1 L.
Proof.
  unfold transfers. intros H R. rewrite R in H. destruct (first_bad E acc) as [[[wr a] n] |].
  - destruct H as (s' & H & _). discriminate.
  - destruct H as (s' & H & Q). injection H as <-. exact Q.
Qed.

Lemma call_word E E' k imm l acc ip ret s s1 s2 :
  transfers E l s acc (near s (moved k (- k_n k) (ctx s)) (mstore (gmem s) (k_w k) (slot k (- k_n k) (ctx s)) (ret mod modulus (k_w k))) ip) ->
  stk_ok k (ctx s) -> run E l s = Left s1 ->
  h_rcx (hr s2) = P PCtx -> ctx_ok (ctx s2) -> stk_ok k (ctx s2) -> kept k 1 s1 s2 ->
  e_fault E' false (slot k (- k_n k) (ctx s)) (k_n k) = false ->
  exists s3, run E' (emit_ret k imm) s2 = Left s3 /\
    lands s2 s3 (near s2 (fun r => if greg_eqb r ESP then moved k (released imm) (ctx s) ESP else gprs (ctx s2) r)
      (gmem s2) (ret mod modulus (k_w k))).
Proof.
  intros T [Hw _] R Hcx Hok Hk K F. destruct (left_lands _ _ _ _ _ _ T R) as (A & B & _ & C & _).
  cbn [near l_regs l_mem l_base] in A, B, C.
  destruct (after_call k (- k_n k) s s1 _ Hw A B (C SS) 0) as (S1 & S2 & S3). rewrite Z.add_0_r in *.
  apply (near_return E' k imm s1 s2); try assumption.
  - rewrite S2, load_store by (try exact Hw; apply slot_range). apply Z.mod_mod. pose proof (modulus_pos (k_w k)). lia.
  - rewrite (moved_sp k (- k_n k) _ (ctx s)) by apply A. f_equal. lia.
  - rewrite S1. exact F.
Qed.

Lemma callf_words E E' k imm l acc cs sel ip ret s s1 s2 :
  transfers E l s acc (far s (moved k (-2 * k_n k) (ctx s)) (far_frame k cs ret s) sel ip) ->
  stk_ok k (ctx s) -> run E l s = Left s1 ->
  h_rcx (hr s2) = P PCtx -> ctx_ok (ctx s2) -> stk_ok k (ctx s2) -> kept k 2 s1 s2 ->
  e_fault E' false (slot k (-2 * k_n k) (ctx s)) (k_n k) = false -> e_fault E' false (slot k (- k_n k) (ctx s)) (k_n k) = false ->
  exists s3, run E' (emit_retf k imm) s2 = Left s3 /\
    lands s2 s3 (far s2 (fun r => if greg_eqb r ESP then moved k (released imm) (ctx s) ESP else gprs (ctx s2) r)
      (gmem s2) (cs mod 2 ^ 16) (ret mod modulus (k_w k))).
Proof.
  intros T [Hw _] R Hcx Hok Hk K F F'. destruct (left_lands _ _ _ _ _ _ T R) as (A & B & _ & C & _).
  cbn [far l_regs l_mem l_base] in A, B, C. specialize (C SS). unfold put_seg in C. cbn [sreg_eqb] in C.
  destruct (after_call k _ s s1 _ Hw A B C 0) as (S1 & S2 & S3).
  destruct (after_call k _ s s1 _ Hw A B C (k_n k)) as (U1 & U2 & U3). rewrite Z.add_0_r in *.
  replace (-2 * k_n k + k_n k) with (- k_n k) in * by lia. unfold far_frame in *.
  apply (far_return E' k imm s1 s2); try assumption.
  - rewrite S2, load_store by (try exact Hw; apply slot_range). apply Z.mod_mod. pose proof (modulus_pos (k_w k)). lia.
  - rewrite U2, other_slot, load_store by (try exact Hw; apply slot_range).
    destruct Hw as [-> | ->]; change (modulus W16) with (2 ^ 16); change (modulus W32) with (2 ^ 16 * 2 ^ 16);
      rewrite !Z.mod_mod by lia; [reflexivity |].
    rewrite Z.rem_mul_r by lia. rewrite Z.mul_comm, Z.mod_add by lia. apply Z.mod_mod. lia.
  - rewrite (moved_sp k (-2 * k_n k) _ (ctx s)) by apply A. f_equal. lia.
  - rewrite S1. exact F.
  - rewrite U1. exact F'.
Qed.
