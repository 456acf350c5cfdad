(** * What string instructions are supposed to do

    One element at a time on the state the guest sees. *)

From Coq Require Import ZArith Bool List.
From Verif Require Import HostModel AluModel AluSpec StringModel.
Local Open Scope Z_scope.

(** general registers, memory, status flags *)
Record gst := mkgst { g_regs : greg -> Z; g_mem : Z -> Z; g_fl : aflags }.

Definition guest (s : hst) : gst := mkgst (gprs (ctx s)) (gmem s) (flags_now s).

Section Spec.
(** whether an access faults, the segment bases, and the instruction: operand
    width, 32-bit addresses?, source segment, direction flag *)
Variables (fault : bool -> Z -> bool) (base : sreg -> Z).
Variables (w : width) (a32 : bool) (seg : sreg) (df : bool).

Definition index_w : width := if a32 then W32 else W16.
Definition index (r : greg) (g : gst) : Z := gget index_w false r (g_regs g).

(** the linear addresses of the source and of the destination element *)
Definition source (g : gst) : Z := (base seg + index ESI g) mod 2 ^ 32.
Definition dest (g : gst) : Z := (base ES + index EDI g) mod 2 ^ 32.

Definition set_index (r : greg) (v : Z) (g : gst) : gst :=
  mkgst (gput index_w false r (v mod modulus index_w) (g_regs g)) (g_mem g) (g_fl g).
(** the index moves by one element *)
Definition move (r : greg) (g : gst) : gst :=
  set_index r (if df then index r g - wbytes w else index r g + wbytes w) g.

(** the new state, or the access that faulted *)
Definition result : Type := gst + bool * Z.

(** the order in which the two accesses of MOVS and CMPS are tried is the
    emulator's, the architecture does not fix it *)
Definition element (k : strop) (g : gst) : result :=
  let a := source g in let b := dest g in
  match k with
  | SMovs =>
      if fault false a then inr (false, a) else if fault true b then inr (true, b)
      else inl (move ESI (move EDI (mkgst (g_regs g) (mstore (g_mem g) w b (mload (g_mem g) w a)) (g_fl g))))
  | SStos =>
      if fault true b then inr (true, b)
      else inl (move EDI (mkgst (g_regs g) (mstore (g_mem g) w b (gget w false EAX (g_regs g))) (g_fl g)))
  | SLods =>
      if fault false a then inr (false, a)
      else inl (move ESI (mkgst (gput w false EAX (mload (g_mem g) w a) (g_regs g)) (g_mem g) (g_fl g)))
  | SCmps =>
      if fault false b then inr (false, b) else if fault false a then inr (false, a)
      else inl (move ESI (move EDI
             (mkgst (g_regs g) (g_mem g) (sub_flags_spec w (mload (g_mem g) w a) (mload (g_mem g) w b) 0))))
  | SScas =>
      if fault false b then inr (false, b)
      else inl (move EDI
             (mkgst (g_regs g) (g_mem g) (sub_flags_spec w (gget w false EAX (g_regs g)) (mload (g_mem g) w b) 0)))
  end.

(** the condition that ends a repetition before the count is used up *)
Definition stops (p : repk) (fl : aflags) : bool :=
  match p with KRep => false | KRepz => negb (f_zf fl) | KRepnz => f_zf fl end.

(** at most [n] elements; every completed element decrements the count.  The
    state reached and, if the last element faulted, its access. *)
Fixpoint repeated (k : strop) (p : repk) (n : nat) (g : gst) : gst * option (bool * Z) :=
  match n with
  | O => (g, None)
  | S n' =>
      match element k g with
      | inr f => (g, Some f)
      | inl g1 =>
          let g2 := set_index ECX (index ECX g1 - 1) g1 in
          if stops p (g_fl g2) then (g2, None) else repeated k p n' g2
      end
  end.

End Spec.
