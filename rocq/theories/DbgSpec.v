(** * Specification of a transparent debugger (C78, C79, C80) *)

From Coq Require Import ZArith Bool List.
Import ListNotations.
From Verif Require Import DbgModel.
Local Open Scope Z_scope.

(** The breakpoint addresses, and the RAM bytes under them *)
Definition keys (d : dst) : list Z := map fst (brk d).
Definition covered (d : dst) (p : Z) : Prop := exists a, In a (keys d) /\ tr d a = Some p.

(** Addresses and kinds of the breakpoints *)
Definition entries (d : dst) : list (Z * btype) := map (fun e => (fst e, snd (snd e))) (brk d).

(** ** The memory of the guest as if there were no debugger: only its own writes and the
    memory editor change it *)
Definition gideal1 (m : Z -> Z) (g : gact) : Z -> Z := match g with GWrite p v => put p v m | GMap _ => m end.
Definition gideal (gs : list gact) (m : Z -> Z) : Z -> Z := fold_left gideal1 gs m.
Definition uideal1 (t : Z -> option Z) (m : Z -> Z) (c : ucmd) : Z -> Z :=
  match c with UEdit a v => match t a with Some p => put p v m | None => m end | _ => m end.
Definition uideal (t : Z -> option Z) (cs : list ucmd) (m : Z -> Z) : Z -> Z := fold_left (uideal1 t) cs m.
Definition eideal1 (t : Z -> option Z) (m : Z -> Z) (e : event) : Z -> Z :=
  match e with
  | EHit gs cs ws1 st =>
      let m := gideal ws1 (uideal t cs (gideal gs m)) in
      match st with Some cs' => uideal t cs' m | None => m end
  | EStop gs cs => uideal t cs (gideal gs m)
  | EMode gs => gideal gs m
  end.
Definition eideal (t : Z -> option Z) (es : list event) (m : Z -> Z) : Z -> Z := fold_left (eideal1 t) es m.

(** ** The state of a running guest: [m] is what its memory should be *)
Record armed (d : dst) (m : Z -> Z) : Prop := {
  ar_uniq : NoDup (keys d);
  ar_alias : forall a b p, In a (keys d) -> In b (keys d) -> tr d a = Some p -> tr d b = Some p -> a = b;
  ar_brk : forall a o t, In (a, (o, t)) (brk d) -> exists p, tr d a = Some p /\ mem d p = INT3 /\ o = m p;
  ar_rest : forall p, ~ covered d p -> mem d p = m p }.

(** ** What is excluded *)

(** The guest writes 0xCC over a breakpoint or changes its page tables *)
Definition gclean (d : dst) (gs : list gact) : Prop :=
  forall g, In g gs -> match g with GWrite p v => v <> INT3 \/ ~ covered d p | GMap _ => False end.
(** The user edits a byte under a breakpoint, or puts two breakpoints on one byte *)
Definition alone (d : dst) (a : Z) : Prop := forall b p, In b (keys d) -> tr d b = Some p -> tr d a = Some p -> b = a.
Definition uclean1 (c : ucmd) (d : dst) : Prop :=
  match c with
  | UToggle a | UStepOver a | UMove _ a => alone d a
  | UDelete _ => True
  | UEdit a _ => forall p, tr d a = Some p -> ~ covered d p
  end.
Fixpoint uclean (cs : list ucmd) (d : dst) : Prop :=
  match cs with [] => True | c :: tl => uclean1 c d /\ forall d', ustep c d = Some d' -> uclean tl d' end.
Definition wclean (cs : list ucmd) (d : dst) : Prop := forall d', pause d = Some d' -> uclean cs d'.
(** In addition, an [EHit] is at a breakpoint, and before a mode switch the guest does not
    write to breakpoints *)
Definition eclean (e : event) (d : dst) : Prop :=
  match e with
  | EHit gs cs ws1 st =>
      gclean d gs /\ find (hit_pc (gsteps gs d)) (brk (gsteps gs d)) <> None /\
      forall d1, hit_stop (gsteps gs d) = Some d1 ->
        uclean cs d1 /\
        forall d2 d3, usteps cs d1 = Some d2 -> hit_resume (hit_pc (gsteps gs d)) d2 = Some d3 ->
          gclean d3 ws1 /\ match st with Some cs' => wclean cs' (gsteps ws1 d3) | None => True end
  | EStop gs cs => gclean d gs /\ wclean cs (gsteps gs d)
  | EMode gs => forall g, In g gs -> match g with GWrite p _ => ~ covered d p | GMap _ => False end
  end.
Fixpoint esclean (es : list event) (d : dst) : Prop :=
  match es with [] => True | e :: tl => eclean e d /\ forall d', estep e d = Some d' -> esclean tl d' end.

(** ** Watchpoints (C80): address, length and type of the enabled ones *)
Definition watch (r : drs) (i : Z) : option (Z * Z * Z) :=
  if enabled (r7 r) i then Some (ra r i, wlen (r7 r) i, bp_type (r7 r) i) else None.
Definition bytes_of_code (c : Z) : Z := if c =? 2 then 8 else c + 1.
(** What the settings keep of one: instruction breakpoints (type 0) are the guest's *)
Definition kept (w : option (Z * Z * Z)) : option (Z * Z * Z) := match w with Some (_, _, 0) | None => None | w => w end.
