(** * The flag words VERR and VERW leave *)

From Coq Require Import ZArith Bool List Lia ZifyBool.
From Verif Require Import HostModel AluModel AluSpec HostProofs LazyFlagsProofs FlagsApiProofs SymExec EaProofs AluProofs FlagArith XchgProofs.
Import ListNotations.
Local Open Scope Z_scope.

(** verrw_helper's updates of the lazy flags (core/instructions.cpp 762-764, 769-773,
    776-784, 787-799): [ok] is the answer of SegModel.verrw; uint32_t arithmetic *)
Definition verrw_flags (ok : bool) (c : gctx) : gctx :=
  if ok then
    let sfd := Z.lxor (Z.shiftr (w32 (res c)) 31) (Z.land (aux c) 1) in
    let pdb := Z.land (Z.lxor (w32 (Z.shiftl (res c) 8)) (aux c)) 0xFF00 in
    set_aux (Z.lor (Z.land (w32 (aux c)) 0xFFFF00FE) (Z.lor sfd pdb)) (set_res 0 c)
  else set_res (Z.lor (res c) 0x100) c.

(** ZF tells the answer, no other flag changes *)
Theorem C64_flags : forall ok c, ctx_ok c ->
  flags_of_eflags (read_eflags (verrw_flags ok c)) = with_zf ok (flags_of_eflags (read_eflags c)) /\
  control_bits (read_eflags (verrw_flags ok c)) = control_bits (read_eflags c) /\
  gprs (verrw_flags ok c) = gprs c.
Proof.
  intros ok c H. split; [| split; [rewrite !control_read |]; destruct ok; reflexivity].
  rewrite !read_flags by (try exact H; destruct ok; exact H). destruct ok; unfold verrw_flags; cbn [res aux set_res set_aux].
  - unfold lazy_flags, with_zf. cbn [f_cf f_pf f_af f_sf f_of]. f_equal.
    + bits. reflexivity.
    + f_equal. apply odd_ones_ext. intros i Hi. byte_cases i Hi; bits; reflexivity.
    + bits. reflexivity.
    + bits. reflexivity.
    + bits. reflexivity.
  - unfold lazy_flags, with_zf. cbn [f_cf f_pf f_af f_sf f_of]. f_equal.
    + f_equal. apply odd_ones_ext. intros i Hi. byte_cases i Hi; bits; reflexivity.
    + apply Z.eqb_neq. intros H0. assert (B : Z.testbit (w32 (Z.lor (res c) 256)) 8 = false) by (rewrite H0; apply Z.testbit_0_l).
      revert B. bits. discriminate.
    + f_equal. bits. reflexivity.
Qed.
Print Assumptions C64_flags.
Example C64_flags_example :
  let c := mkg (fun _ => 0) (fun _ => 0) 2 0 0x80000001 0x80000108 0 (fun _ => 0) in
  ctx_ok c /\ read_eflags c = 0x897 /\ read_eflags (verrw_flags true c) = 0x8D7 /\ read_eflags (verrw_flags false c) = 0x897.
Proof. repeat split; vm_compute; reflexivity. Qed.
