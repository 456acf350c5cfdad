(** * What port instructions are supposed to do *)

From Coq Require Import ZArith Bool List.
From Verif Require Import HostModel AluModel AluSpec StringModel StringSpec PortModel.
From Verif Require IoPrivModel.
Import ListNotations.
Local Open Scope Z_scope.

(** why an instruction did not complete: an access to memory faulted, or #GP(0) *)
Inductive cause := CFault (wr : bool) (a : Z) | CGp.

Definition dx (g : gst) : Z := gget W16 false EDX (g_regs g).

Section Spec.
(** the devices; whether an access faults; segment bases; operand width,
    32-bit addresses?, source segment, direction flag *)
Variables (dev : list ioev -> width -> Z -> Z) (fault : bool -> Z -> bool) (base : sreg -> Z).
Variables (w : width) (a32 : bool) (seg : sreg) (df : bool).

(** the value the device gives *)
Definition read_port (t : list ioev) (port : Z) : Z := dev t w port mod modulus w.

(** IN and OUT of the accumulator *)
Definition spec_in (port : Z) (g : gst) (t : list ioev) : gst * list ioev :=
  let v := read_port t port in
  (mkgst (gput w false EAX v (g_regs g)) (g_mem g) (g_fl g), t ++ [ERead w port v]).
Definition spec_out (port : Z) (g : gst) (t : list ioev) : list ioev :=
  t ++ [EWrite w port (gget w false EAX (g_regs g))].

(** one element; [ok]: the port may be accessed.  INS reads the port before it
    stores, so that a store that faults has used up the value (the manual leaves
    this open); OUTS loads before it checks the port. *)
Definition port_element (k : portop) (ok : bool) (g : gst) (t : list ioev) : (gst + cause) * list ioev :=
  match k with
  | PIns =>
      if ok then
        let v := read_port t (dx g) in let b := dest base a32 g in let t' := t ++ [ERead w (dx g) v] in
        if fault true b then (inr (CFault true b), t')
        else (inl (move w a32 df EDI (mkgst (g_regs g) (mstore (g_mem g) w b v) (g_fl g))), t')
      else (inr CGp, t)
  | POuts =>
      let a := source base a32 seg g in
      if fault false a then (inr (CFault false a), t)
      else if ok then (inl (move w a32 df ESI g), t ++ [EWrite w (dx g) (mload (g_mem g) w a)])
      else (inr CGp, t)
  end.

(** at most [n] elements, each with its own permission *)
Inductive port_elements (permission : gst -> bool -> Prop) (k : portop)
  : nat -> gst -> list ioev -> gst -> list ioev -> option cause -> Prop :=
| pe_done g t : port_elements permission k 0 g t g t None
| pe_stop n g t ok x t' : permission g ok -> port_element k ok g t = (inr x, t') ->
    port_elements permission k (S n) g t g t' (Some x)
| pe_next n g t ok g1 t1 g' t' x : permission g ok -> port_element k ok g t = (inl g1, t1) ->
    port_elements permission k n (set_index a32 ECX (index a32 ECX g1 - 1) g1) t1 g' t' x ->
    port_elements permission k (S n) g t g' t' x.
End Spec.

(** the answer [ok] of the privilege check of [IoPrivModel] for the [w] bytes at
    [port]; [mem] is the memory; whatever R10 and R11 hold at that moment *)
Definition permission (E : penv) (imm : bool) (port : Z) (w : width) (mem : Z -> Z) (ok : bool) : Prop :=
  exists r10 r11, IoPrivModel.check (priv_env E mem) imm port (wbytes w) r10 r11 = ok.
