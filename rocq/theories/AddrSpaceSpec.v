(** What a client may expect of the region map, independent of how the map is
    stored: every address belongs to the last range registered or destroyed
    over it. *)
From Coq Require Import ZArith List Bool.
From Verif Require Import AddrSpaceModel.
Import ListNotations.
Open Scope Z_scope.

(** What [search] tells a client about address [a]: the type, handlers and
    other properties of the region that owns it. [None] is undefined
    behaviour inside [search]. *)
Definition lookup (s : aspace) (a : Z) : option rinfo :=
  option_map r_info (search s a).

(** The ideal memory map: a total function from addresses. *)
Definition ideal := Z -> rinfo.

Definition ideal_init : ideal := fun _ => info_default.

Definition ideal_step (f : ideal) (o : asop) : ideal :=
  match o with
  | OpInsert r => fun a => if (r_start r <=? a) && (a <=? r_end r) then r_info r else f a
  | OpErase s e => fun a => if (s <=? a) && (a <=? e) then info_default else f a
  end.

Definition ideal_run (f : ideal) (ops : list asop) : ideal := fold_left ideal_step ops f.

Definition op_start (o : asop) : Z := match o with OpInsert r => r_start r | OpErase s _ => s end.
Definition op_end (o : asop) : Z := match o with OpInsert r => r_end r | OpErase _ e => e end.

(** A call with a non-empty range inside the space; only real region types are
    ever inserted. *)
Definition valid_op (M : Z) (o : asop) : Prop :=
  0 <= op_start o <= op_end o /\ op_end o <= M /\
  match o with OpInsert r => i_type (r_info r) <> unmapped | OpErase _ _ => True end.

Definition contains (a : Z) (n : node) : Prop := r_start (n_reg n) <= a <= r_end (n_reg n).

(** The stored regions partition [0..M] and are keyed by their start. *)
Definition partition (M : Z) (s : aspace) : Prop :=
  (forall n, In n (nodes s) ->
     n_key n = r_start (n_reg n) /\ 0 <= r_start (n_reg n) <= r_end (n_reg n) /\ r_end (n_reg n) <= M) /\
  (forall a, 0 <= a <= M ->
     exists n, In n (nodes s) /\ contains a n /\
       forall n', In n' (nodes s) -> contains a n' -> n' = n).

(** The situation in which the code is right: the range does not end on the
    first address of a longer region that starts inside the range. *)
Definition safe_end (s : aspace) (o : asop) : Prop :=
  forall n, In n (nodes s) ->
    r_start (n_reg n) = op_end o -> op_start o < op_end o -> r_end (n_reg n) = op_end o.

(** [safe_end] before every call of a history. *)
Fixpoint safe_history (M : Z) (s : aspace) (ops : list asop) : Prop :=
  match ops with
  | [] => True
  | o :: t =>
      valid_op M o /\ safe_end s o /\
      match as_step M s o with Some s' => safe_history M s' t | None => True end
  end.

(** A layout in units of [g] addresses (pages, paragraphs, words). *)
Definition aligned_op (g : Z) (o : asop) : Prop :=
  op_start o mod g = 0 /\ (op_end o + 1) mod g = 0.

(** No two neighbouring unmapped regions. *)
Definition merged (s : aspace) : Prop :=
  forall n n', In n (nodes s) -> In n' (nodes s) ->
    r_start (n_reg n') = r_end (n_reg n) + 1 ->
    i_type (r_info (n_reg n)) = unmapped -> i_type (r_info (n_reg n')) <> unmapped.

(** ** The memory-region API *)

(** What owns an address, as far as a client can see (the target of an alias
    is the subject of a separate property). *)
Inductive mapping :=
| Nothing
| Ram (origin : Z)
| Mmio (h opaque : Z)
| Rom (buffer origin : Z)
| Alias.

Definition visible (i : rinfo) : mapping :=
  match i_type i with
  | unmapped => Nothing
  | ram => Ram (i_buff_off i)
  | mmio | pmio => Mmio (i_handlers i) (i_opaque i)
  | rom => Rom (i_rom_ptr i) (i_buff_off i)
  | alias => Alias
  end.

Definition call_start (c : call) : Z :=
  match c with
  | CallRam st _ | CallMmio st _ _ _ | CallRom st _ _ | CallAlias st _ _ | CallDestroy st _ => st
  end.

Definition call_size (c : call) : Z :=
  match c with
  | CallRam _ sz | CallMmio _ sz _ _ | CallRom _ sz _ | CallAlias _ _ sz | CallDestroy _ sz => sz
  end.

Definition call_effect (c : call) : mapping :=
  match c with
  | CallRam st _ => Ram st
  | CallMmio _ _ h o => Mmio h o
  | CallRom st _ b => Rom b st
  | CallAlias _ _ _ => Alias
  | CallDestroy _ _ => Nothing
  end.

Definition covers (c : call) (a : Z) : bool :=
  (call_start c <=? a) && (a <? call_start c + call_size c).

(** The most recent accepted call that covers [a]. *)
Definition most_recent (history : list (call * bool)) (a : Z) : option call :=
  option_map fst (find (fun p => snd p && covers (fst p) a) (rev history)).

(** A call whose 64-bit size does not wrap and whose range is in units of [g]
    addresses (or runs to the top of the address space). *)
Definition call_ok (g : Z) (c : call) : Prop :=
  0 <= call_start c < 2 ^ 32 /\ 0 < call_size c /\ call_start c + call_size c <= 2 ^ 64 /\
  call_start c mod g = 0 /\ (call_size c mod g = 0 \/ 2 ^ 32 <= call_start c + call_size c) /\
  match c with
  | CallAlias _ ori sz => 0 <= ori < 2 ^ 32 /\ ori + sz <= 2 ^ 64
  | _ => True
  end.

Definition unit_ok (g : Z) : Prop := 1 < g /\ 2 ^ 32 mod g = 0.

(** The call's range does not touch [lo..hi]. *)
Definition apart (lo hi : Z) (c : call) : Prop :=
  call_start c + call_size c <= lo \/ hi < call_start c.
