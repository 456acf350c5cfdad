(** * Effective addresses *)

From Coq Require Import ZArith Bool List Lia ZifyBool.
From Verif Require Import HostModel AluModel AluSpec HostProofs LazyFlagsProofs FlagsApiProofs
  FlagArith SymExec.
Import ListNotations.
Local Open Scope Z_scope.

Lemma setw32 o v : setw W32 o v = v mod 4294967296.
Proof. change (getw W32 v = v mod 4294967296). now rewrite getw_mod. Qed.

Lemma setw16 o v : 0 <= o < 65536 -> setw W16 o v = v mod 65536.
Proof.
  intros H. apply Z.bits_inj'. intros i Hi. rewrite setw_testbit by assumption. cbn [wbits].
  change 65536 with (2 ^ 16) in *.
  destruct (Z.ltb_spec i 16); [now rewrite Z.mod_pow2_bits_low by lia |].
  rewrite Z.mod_pow2_bits_high by lia.
  rewrite <- (Z.mod_small o (2 ^ 16)) by assumption. apply Z.mod_pow2_bits_high. lia.
Qed.

Lemma m16 x : 0 <= x mod 65536 < 65536.
Proof. now apply Z.mod_pos_bound. Qed.

Lemma m16_32 x : (x mod 65536) mod 4294967296 = x mod 65536.
Proof. apply Z.mod_small. pose proof (m16 x). lia. Qed.

Lemma getw16 v : getw W16 v = v mod 65536.
Proof. apply getw_mod. Qed.
Lemma getw32 v : getw W32 v = v mod 4294967296.
Proof. apply getw_mod. Qed.
Lemma gget32 r g : gget W32 false r g = g r mod 4294967296.
Proof. apply getw_mod. Qed.
Lemma gget16 r g : gget W16 false r g = g r mod 65536.
Proof. apply getw_mod. Qed.

Lemma sext8 d : sext W8 d = signed W8 (d mod 256).
Proof. rewrite sext_signed, getw_mod. reflexivity. Qed.

(** ** Congruences *)

Definition cg (n a b : Z) : Prop := (n | a - b).

Lemma cg_refl n a : cg n a a.
Proof. exists 0. lia. Qed.
Lemma cg_mod_l n a b : 0 < n -> cg n a b -> cg n (a mod n) b.
Proof.
  intros Hn [k H]. exists (k - a / n). pose proof (Z.div_mod a n). lia.
Qed.
Lemma cg_mod_r n a b : 0 < n -> cg n a b -> cg n a (b mod n).
Proof.
  intros Hn [k H]. exists (k + b / n). pose proof (Z.div_mod b n). lia.
Qed.
Lemma cg_add n a b c d : cg n a b -> cg n c d -> cg n (a + c) (b + d).
Proof. intros [k H] [l G]. exists (k + l). lia. Qed.
Lemma cg_mul n a b c : cg n a b -> cg n (a * c) (b * c).
Proof. intros [k H]. exists (k * c). lia. Qed.
Lemma cg_eq n a b : 0 < n -> cg n a b -> a mod n = b mod n.
Proof.
  intros Hn [k H]. replace a with (b + k * n) by lia. apply Z.mod_add. lia.
Qed.
Lemma cg_trans n a b c : cg n a b -> cg n b c -> cg n a c.
Proof. intros [k H] [l G]. exists (k + l). lia. Qed.

Lemma cg_canon n a b a' b' : 0 < n -> cg n a a' -> cg n b b' -> a' = b' -> a mod n = b mod n.
Proof.
  intros Hn [k H] [l G] ->. replace a with (b + (k - l) * n) by lia. apply Z.mod_add. lia.
Qed.

(** strip the inner remainders on both sides, compare with [ring] *)
Ltac strip := repeat first [ apply cg_mod_l; [reflexivity |] | apply cg_add | apply cg_mul ];
  try apply cg_refl.
Ltac solve_cong := eapply cg_canon; [reflexivity | strip | strip | ring].

(** innermost 16-bit writes first *)
Ltac inner16 :=
  repeat match goal with
  | |- context [setw W16 ?o ?v] =>
      lazymatch o with context [setw] => fail | _ => idtac end;
      rewrite (setw16 o v) by (apply m16 || (split; [discriminate | reflexivity]))
  end.

Lemma outer0 a b : a mod 65536 = b mod 65536 ->
  a mod 65536 = (0 + b mod 65536) mod 4294967296.
Proof. intros ->. now rewrite Z.add_0_l, m16_32. Qed.
Lemma outer1 x a b : a mod 65536 = b mod 65536 ->
  (x mod 4294967296 + a mod 65536) mod 4294967296 = (x + b mod 65536) mod 4294967296.
Proof. intros ->. apply Zplus_mod_idemp_l. Qed.

Ltac outer16 :=
  lazymatch goal with
  | |- _ mod 65536 = (0 + _ mod 65536) mod 4294967296 => apply outer0; solve_cong
  | |- _ => apply outer1; solve_cong
  end.

Definition at_ea (m : memop) (s s1 : hst) : Prop :=
  exists f r10 r11,
    s1 = mkst (mkregs (h_rax (hr s)) (h_rbx (hr s)) (P PCtx) (N (ea m (ctx s)))
                      (h_r8 (hr s)) (h_r9 (hr s)) r10 r11)
              f (ctx s) (gmem s) (loc s) (ncall s) (masked s).

Ltac fin_ea :=
  eexists; split; [reflexivity |]; eexists _, _, _;
  match goal with |- mkst (mkregs _ _ _ (N ?v) _ _ _ _) _ _ _ _ _ _ = mkst (mkregs _ _ _ (N ?u) _ _ _ _) _ _ _ _ _ _ =>
    let H := fresh in enough (H : v = u) by (rewrite H; reflexivity) end;
  unfold ea; cbn [gprs segb ctx];
  rewrite ?gget32, ?gget16, ?getw32, ?getw16, ?setw32, ?sext8;
  repeat (rewrite setw16 by (apply m16 || (rewrite ?m16_32; apply m16)));
  rewrite ?m16_32; change (2 ^ 32) with 4294967296; change (2 ^ 16) with 65536.

Lemma sc_cases sc : 0 <= sc <= 3 -> sc = 0 \/ sc = 1 \/ sc = 2 \/ sc = 3.
Proof. lia. Qed.

Lemma ea_run E m s : h_rcx (hr s) = P PCtx -> memop_ok m (ctx s) ->
  exists s1, run E (emit_ea m) s = Done s1 /\ at_ea m s s1.
Proof.
  intros Hcx Hm.
  destruct s as [[rax rbx rcx rdx r8 r9 r10 r11] hf0 [gp sb ef ip rs ax c4 sl] gm lc nc mk].
  cbn [hr h_rcx] in Hcx. subst rcx.
  unfold at_ea; cbn [hr h_rax h_rbx h_rcx h_rdx h_r8 h_r9 h_r10 h_r11 ctx gmem loc ncall masked].
  destruct m as [a32 disp seg z | a32 base index disp mod1 seg z]; unfold run.
  - cbn [memop_ok segb ctx] in Hm. destruct a32, z; expand_list; sym; fin_ea;
      try rewrite (Hm eq_refl).
    all: try change (Z.land disp 65535) with (getw W16 disp); rewrite ?getw16.
    all: try solve_cong.
  - cbn [memop_ok segb ctx] in Hm. destruct Hm as [Hz Hi].
    destruct a32.
    + destruct base as [b |], index as [[i sc] |], disp as [d |], mod1, z; try rewrite (Hz eq_refl);
      try (destruct (sc_cases _ Hi) as [-> | [-> | [-> | ->]]]);
      expand_list; sym; fin_ea;
      rewrite ?Z.shiftl_mul_pow2 by discriminate; rewrite ?Z.lxor_nilpotent;
      try rewrite (Hz eq_refl); change (0 mod 4294967296) with 0; solve_cong.
    + destruct base as [b |], index as [[i sc] |], disp as [d |], mod1, z; try rewrite (Hz eq_refl);
      try (destruct (sc_cases _ Hi) as [-> | [-> | [-> | ->]]]);
      expand_list; sym; fin_ea;
      rewrite ?Z.shiftl_mul_pow2 by discriminate; rewrite ?Z.lxor_nilpotent;
      change (0 mod 4294967296) with 0; change (0 mod 65536) with 0;
      try rewrite (Hz eq_refl); inner16; rewrite ?m16_32; try reflexivity;
      first [outer16 | change ((0 + 0 + 0) mod 65536) with 0; solve_cong].
Qed.
