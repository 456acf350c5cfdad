(** * What the A20 gate should do

    The API ([cpu_set_a20], interface.cpp 385-393) calls the gate closed when
    addresses pass unchanged and open when bit 20 is cleared. *)

From Coq Require Import ZArith Bool List.
From Verif Require Import A20Model.
Import ListNotations.
Local Open Scope Z_scope.

(** the physical address a guest access to [p] should use *)
Definition gated (closed : bool) (p : Z) : Z :=
  if closed then p else if p / 2 ^ 20 mod 2 =? 1 then p - 2 ^ 20 else p.

(** The gate after a history of requests: an immediate request is in force at
    once; a deferred one when the CPU next processes interrupts; the last request
    made is the one that counts.  First component: in force; second: last
    requested. *)
Definition gate_step (x : bool * bool) (o : gop) : bool * bool :=
  match o with
  | GMem _ => x
  | GSet c false => (c, c)
  | GSet c true => (fst x, c)
  | GInt => (snd x, snd x)
  end.
Definition gate_after (l : list gop) : bool * bool := fold_left gate_step l (true, true).

(** the same for requests interleaved with the steps of the CPU thread: the last
    one made *)
Definition last_request (l : list gev) : bool :=
  fold_left (fun c e => match e with EvReq c' => c' | _ => c end) l true.
