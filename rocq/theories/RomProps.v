(** * Properties of the rom views of the xbox build on Linux *)

From Coq Require Import ZArith Bool List Lia.
From Verif Require Import RamModel RamSpec RomModel.
Import ListNotations.
Local Open Scope Z_scope.

(** ** C95: what is taken for a rom is what is asked for, and it is given back *)

(** A rom that could be made: it is at one of the two addresses, the process holds two
    views of its bytes and 16 more and nothing else for it, and the region has the
    pointers to them. *)
Theorem C95_rom_partial : forall start n buffer junk a s r s' tr,
  mem_init_rom start n buffer junk a s = (Some r, s', tr) -> 0 < n -> n + 16 < 2 ^ 64 ->
  (start = FLASH \/ start = MCPX) /\ r_ptr r = b_ptr a /\ r_alias r = b_alias a /\
  exists t, tr = Some t /\ holds [] t [View (r_alias r) (n + 16); View (r_ptr r) (n + 16)].
Proof.
  intros start n buffer junk a s r s' tr E N B. unfold mem_init_rom in E.
  destruct ((n =? 0) || (buffer =? 0)); [discriminate E |].
  destruct (negb (start =? FLASH) && negb (start =? MCPX)) eqn:St; [discriminate E |].
  assert (S : start = FLASH \/ start = MCPX).
  { apply andb_false_iff in St. rewrite !negb_false_iff, !Z.eqb_eq in St. exact St. }
  unfold rom_init in E. destruct (b_fd a =? -1) eqn:F; [discriminate E |].
  destruct (negb (b_trunc a)); [discriminate E |]. destruct (b_ptr a =? failed); [discriminate E |].
  destruct (b_alias a =? failed); [discriminate E |]. destruct (b_prot a); [| discriminate E].
  unfold opened in E. rewrite F in E. cbn [app] in E. injection E as <- _ <-. cbn [r_ptr r_alias].
  split; [exact S |]. split; [reflexivity |]. split; [reflexivity |]. eexists. split; [reflexivity |].
  unfold w64. rewrite Z.mod_small by lia. do 3 apply holds_get. apply (holds_put _ [_; _] []). apply holds_end.
Qed.
Print Assumptions C95_rom_partial.

(** It is reported as made exactly when the parameters are right and no call failed. *)
Theorem C95_reported : forall start n buffer junk a s,
  fst (fst (mem_init_rom start n buffer junk a s)) <> None <->
  n <> 0 /\ buffer <> 0 /\ (start = FLASH \/ start = MCPX) /\ b_fd a <> -1 /\ b_trunc a = true /\ b_ptr a <> failed /\
  b_alias a <> failed /\ b_prot a = true.
Proof.
  intros start n buffer junk a s. unfold mem_init_rom, rom_init. generalize failed. intro X.
  destruct (Z.eqb_spec n 0) as [E | N]; [cbn [orb fst]; split; [congruence | tauto] |].
  destruct (Z.eqb_spec buffer 0) as [E | N0]; [cbn [orb fst]; split; [congruence | tauto] |]. cbn [orb].
  destruct (Z.eqb_spec start FLASH) as [E1 | N1]; destruct (Z.eqb_spec start MCPX) as [E2 | N2]; cbn [negb andb];
    try (cbn [fst]; split; [congruence | tauto]);
    (destruct (Z.eqb_spec (b_fd a) (-1)); [cbn [fst]; split; [congruence | tauto] |];
     destruct (b_trunc a); cbn [negb]; [| cbn [fst]; split; [congruence | intros (_ & _ & _ & _ & F & _); discriminate F]];
     destruct (Z.eqb_spec (b_ptr a) X); [cbn [fst]; split; [congruence | tauto] |];
     destruct (Z.eqb_spec (b_alias a) X); [cbn [fst]; split; [congruence | tauto] |];
     destruct (b_prot a); cbn [fst]; split; [| discriminate | | intros (_ & _ & _ & _ & _ & _ & _ & F); discriminate F];
     [intros _; tauto | congruence]).
Qed.
Print Assumptions C95_reported.

(** Refuted, for every rom that was made: its release reads the arrays of the library
    with the index -1, whatever earlier roms left in them. *)
Theorem C95_refuted_release : forall start n buffer junk a s r s' tr,
  mem_init_rom start n buffer junk a s = (Some r, s', tr) -> rom_deinit r s' = None.
Proof.
  intros start n buffer junk a s r s' tr E. unfold mem_init_rom in E.
  destruct ((n =? 0) || (buffer =? 0)); [discriminate E |].
  destruct (negb (start =? FLASH) && negb (start =? MCPX)); [discriminate E |].
  unfold rom_init in E. destruct (b_fd a =? -1); [discriminate E |].
  destruct (negb (b_trunc a)); [discriminate E |]. destruct (b_ptr a =? failed); [discriminate E |].
  destruct (b_alias a =? failed); [discriminate E |]. destruct (b_prot a); [| discriminate E].
  injection E as <- <- _. unfold rom_deinit, set_slot. cbn [r_at]. unfold slot. destruct (start =? FLASH); reflexivity.
Qed.
Print Assumptions C95_refuted_release.

(** Refuted, for every rom that could not be made although its parameters are right,
    unless the file it got was the standard input or output: the same. *)
Theorem C95_refuted_failed : forall start n buffer junk a s s' tr, n <> 0 -> buffer <> 0 -> start = FLASH \/ start = MCPX ->
  b_fd a = -1 \/ 2 <= b_fd a < 2 ^ 31 ->
  mem_init_rom start n buffer junk a s = (None, s', tr) -> tr = None.
Proof.
  intros start n buffer junk a s s' tr N0 N1 S F E. unfold mem_init_rom in E.
  apply Z.eqb_neq in N0. apply Z.eqb_neq in N1. rewrite N0, N1 in E. cbn [orb] in E.
  replace (negb (start =? FLASH) && negb (start =? MCPX)) with false in E.
  2: { symmetry. apply andb_false_iff. rewrite !negb_false_iff, !Z.eqb_eq. exact S. }
  assert (X : forall p q f, f = -1 \/ 2 <= f < 2 ^ 31 -> rom_deinit (Rom start p q) (set_slot start f n s) = None).
  { intros p q f Hf. unfold rom_deinit, set_slot, fd_at at 1. cbn [r_at]. unfold slot.
    assert (Hm : 1 < f mod 2 ^ 32).
    { destruct Hf as [-> | Hf]; [vm_compute; reflexivity | rewrite Z.mod_small by lia; lia]. }
    destruct (start =? FLASH); cbn [fd0 fd1]; change (0 =? 0) with true; change (1 =? 0) with false; change (1 =? 1) with true;
      cbv iota; cbn [fd0 fd1]; unfold size_at; replace (f mod 2 ^ 32 =? 0) with false by (symmetry; apply Z.eqb_neq; lia);
      replace (f mod 2 ^ 32 =? 1) with false by (symmetry; apply Z.eqb_neq; lia); reflexivity. }
  unfold rom_init in E. destruct (b_fd a =? -1); [rewrite X in E by exact F; congruence |].
  destruct (negb (b_trunc a)); [rewrite X in E by exact F; congruence |].
  destruct (b_ptr a =? failed); [rewrite X in E by exact F; congruence |].
  destruct (b_alias a =? failed); [rewrite X in E by exact F; congruence |].
  destruct (b_prot a); [discriminate E |]. rewrite X in E by (now left). congruence.
Qed.
Print Assumptions C95_refuted_failed.

(** Refuted: a first rom at another address is refused, after the client's own buffer was
    unmapped and the standard input closed. *)
Theorem C95_refuted_start : forall start n buffer junk a, n <> 0 -> buffer <> 0 -> buffer <> failed ->
  start <> FLASH -> start <> MCPX -> exists t,
  mem_init_rom start n buffer junk a no_roms = (None, no_roms, Some t) /\
  In (Put (View buffer 16)) t /\ In (Put (File 0)) t /\ forall l, ~ holds [] t l.
Proof.
  intros start n buffer junk a N0 N1 N2 N3 N4. unfold mem_init_rom.
  apply Z.eqb_neq in N0. apply Z.eqb_neq in N1. apply Z.eqb_neq in N2. apply Z.eqb_neq in N3. apply Z.eqb_neq in N4.
  rewrite N0, N1, N3, N4. cbn [orb negb andb].
  exists (Put (View buffer 16) :: unmapped junk 16 ++ [Put (File 0)]). split.
  - unfold rom_deinit. cbn [r_at r_ptr r_alias]. unfold slot. rewrite N3. change (fd_at no_roms 1) with (Some 0).
    change (0 mod 2 ^ 32) with 0. change (size_at no_roms 0) with (Some 0). change (fd_at no_roms 0) with (Some 0).
    change (w64 (0 + 16)) with 16. cbv iota zeta. unfold unmapped at 1. rewrite N2. reflexivity.
  - split; [now left |]. split; [right; apply in_or_app; right; now left |].
    intros l H. inversion H as [| | r0 l1 l2 tr l' H0 Hl | |]. destruct l1; discriminate Hl.
Qed.
Print Assumptions C95_refuted_start.

Example C95_example : exists r s, mem_init_rom 0xFFFFFE00 512 77 0 (RAnswers 3 true 4096 8192 true) no_roms =
  (Some r, s, Some [Get (File 3); Get (View 4096 528); Get (View 8192 528); Put (File 3)]) /\ rom_deinit r s = None.
Proof. do 2 eexists. split; [vm_compute; reflexivity |]. vm_compute. reflexivity. Qed.
