(** * Exceptions and interrupts: what the architecture says, on its own terms

    Nothing here uses the functions of SegModel.v, only its state type.  The tables
    are those of the Intel manual, volume 3, 6.15 (table 6-5) and 6.12. *)

From Coq Require Import ZArith Bool List.
From Verif Require Import SegModel SegSpec.
Import ListNotations.
Local Open Scope Z_scope.

(** ** Escalation of nested exceptions *)
Inductive class := Benign | Contributory | PageFault | DoubleFault.
Definition class_of (v : Z) : class :=
  if v =? 8 then DoubleFault
  else if v =? 14 then PageFault
  else if existsb (Z.eqb v) [0; 10; 11; 12; 13] then Contributory
  else Benign.
Inductive verdict := Serially | AsDoubleFault | Shutdown.
(** a [second] exception while the [first] is being delivered *)
Definition escalate (first second : class) : verdict :=
  match first, second with
  | Benign, _ => Serially
  | Contributory, Contributory => AsDoubleFault
  | Contributory, _ => Serially
  | PageFault, (Contributory | PageFault) => AsDoubleFault
  | PageFault, _ => Serially
  | DoubleFault, _ => Shutdown
  end.

(** vectors whose handler gets an error code *)
Definition with_code (v : Z) : bool := existsb (Z.eqb v) [8; 10; 11; 12; 13; 14; 17].

(** ** IDT gates (64-bit values; selector and offset as in SegSpec.v) *)
Definition gate_kind (g : Z) : Z := g / 2 ^ 40 mod 32.        (* S bit and type *)
Definition int_gate (g : Z) : bool := (gate_kind g =? 6) || (gate_kind g =? 14).
Definition trap_gate (g : Z) : bool := (gate_kind g =? 7) || (gate_kind g =? 15).
Definition gate32 (g : Z) : bool := (gate_kind g =? 14) || (gate_kind g =? 15).
Definition item_size (g : Z) : Z := if gate32 g then 4 else 2.

Section Spec.
Context (X : memsys).
Notation st := (st X).

(** ring [c] pushes [vs] (first one first) of [n] bytes each at stack offsets below
    [e], in the segment with base [b]; offsets wrap at [w] *)
Fixpoint pushed (c p n w b : Z) (vs : list Z) (e : Z) (m m' : M X) : Prop :=
  match vs with
  | [] => m' = m
  | v :: vs => exists m1, wr X c p n ((b + (e - n) mod w) mod 2 ^ 32) (v mod 2 ^ (8 * n)) m = (m1, None)
                          /\ pushed c p n w b vs (e - n) m1 m'
  end.

(** EFLAGS after entering a handler through the gate [g]: TF, NT, RF and VM are
    cleared, IF by interrupt gates only, the rest is unchanged *)
Definition entry_flags (g old new : Z) : Prop :=
  forall i, 0 <= i < 32 ->
    Z.testbit new i = if existsb (Z.eqb i) [8; 14; 16; 17] then false
                      else if i =? 9 then Z.testbit old 9 && negb (int_gate g)
                      else Z.testbit old i.

(** the ring of a handler in the code segment [c] entered from ring [r] *)
Definition handler_ring (r c : Z) : Z := if Z.testbit c 42 then r else dpl_of c.

(** the low [w] of a stack pointer is replaced *)
Definition new_esp (w old e : Z) : Z := old / w * w + e mod w.

(** the gate for vector [v], as read from the IDT with supervisor rights *)
Definition idt_gate (s : st) (v : Z) (m : M X) (g : Z) : Prop :=
  v * 8 + 7 <= idtl X s /\ rd X (ring X s) 2 8 ((idtb X s + v * 8) mod 2 ^ 32) (mem X s) = (m, MVal g).
(** it may be used: a present interrupt or trap gate; the DPL counts for INT n only *)
Definition gate_usable (s : st) (soft : bool) (g : Z) : bool :=
  (int_gate g || trap_gate g) && is_present g && (negb soft || (ring X s <=? dpl_of g)).

(** a descriptor of a code or data segment that is loaded gets its accessed bit set *)
Definition accessed (c d a : Z) (m m' : M X) : Prop :=
  if negb (is_system d) && negb (Z.testbit d 40) then wr X c 2 8 (a mod 2 ^ 32) (d + 2 ^ 40) m = (m', None) else m' = m.
Definition desc_addr (s : st) (sl : Z) : Z := (tbl_base X s sl + index sl * 8) mod 2 ^ 32.

(** the stack for ring [c] in the TSS, read with rights [p] *)
Definition tss32 (s : st) : bool := Z.testbit (sflags (seg X s TR)) 11.
Definition tss_stack (s : st) (p c : Z) (m m' : M X) (e ss : Z) : Prop :=
  let b := base (seg X s TR) in
  let o := if tss32 s then 4 + 8 * c else 2 + 4 * c in
  let n := if tss32 s then 4 else 2 in
  o + 2 * n - 1 <= limit (seg X s TR) /\
  exists m1, rd X (ring X s) p n ((b + o) mod 2 ^ 32) m = (m1, MVal e) /\
             rd X (ring X s) p 2 ((b + o + n) mod 2 ^ 32) m1 = (m', MVal ss).

Definition stack_width (big : bool) : Z := if big then 2 ^ 32 else 2 ^ 16.

(** the inner stack, from the TSS through its descriptor *)
Definition inner_stack (s : st) (p c : Z) (m m' : M X) (e ss sd : Z) : Prop :=
  exists m1 m2, tss_stack s p c m m1 e ss /\ is_null ss = false /\ descriptor X (set_mem X m1 s) ss m2 sd /\
    stack_ok c ss sd = true /\ is_present sd = true /\ accessed (ring X s) sd (desc_addr s ss) m2 m'.

(** the error code, for exceptions that have one; never for interrupts *)
Definition codes (intn : Z) (hw : bool) (code idx : Z) : list Z := if (intn =? 0) && negb hw && with_code idx then [code] else [].

(** A handler has been entered: the vector is [idx], [cds] the error code (if any),
    [fa] the faulting address, [ofl] the flags image that is saved, [soft] is true
    for INT n. *)
Definition entered (s : st) (soft : bool) (cds : list Z) (idx fa ofl : Z) (s' : st) : Prop :=
  exists m g m1 c m2, idt_gate s idx m g /\ gate_usable s soft g = true /\
    is_null (gate_sel g) = false /\ descriptor X (set_mem X m s) (gate_sel g) m1 c /\ is_present c = true /\ dpl_of c <= ring X s /\
    accessed (ring X s) c (desc_addr s (gate_sel g)) m1 m2 /\
    entry_flags g (ef X s) (ef X s') /\ oldexp X s' = EXP_INVALID /\
    cr2 X s' = (if idx =? 14 then fa else cr2 X s) /\
    (forall i, 0 <= i < 32 -> Z.testbit (dr7 X s') i = Z.testbit (dr7 X s) i && negb ((idx =? 1) && (i =? 13))) /\
    let r := handler_ring (ring X s) c in
    let n := item_size g in
    r <= ring X s /\ ring X s' = r /\
    (if vm X s then
       r = 0 /\ (exists cs, seg X s' CS = decode cs c) /\
       (forall q, q = DS \/ q = ES \/ q = FS \/ q = GS -> seg X s' q = mkseg 0 0 0 0) /\
       eip X s' = (if gate32 g then gate_off32 g else gate_off16 g) /\
       exists e ss sd m3, let w := stack_width (is_big sd) in
         inner_stack s 2 r m2 m3 e ss sd /\ seg X s' SS = decode ss sd /\
         let vs := [sel (seg X s GS); sel (seg X s FS); sel (seg X s DS); sel (seg X s ES); sel (seg X s SS);
                    esp X s; ofl; sel (seg X s CS); eip X s] ++ cds in
         pushed (ring X s) 2 n w (base_of sd) vs e m3 (mem X s') /\
         esp X s' = new_esp w (esp X s) (e - n * Z.of_nat (length vs))
     else
       seg X s' CS = decode (errcode (gate_sel g) + r) c /\ eip X s' = gate_off32 g /\
       (forall q, q <> CS -> q <> SS -> seg X s' q = seg X s q) /\
       if r <? ring X s then
         exists e ss sd m3, let w := stack_width (is_big sd) in
           inner_stack s 0 r m2 m3 e ss sd /\ seg X s' SS = decode ss sd /\
           let vs := [sel (seg X s SS); esp X s; ofl; sel (seg X s CS); eip X s] ++ cds in
           pushed (ring X s) 2 n w (base_of sd) vs e m3 (mem X s') /\
           esp X s' = new_esp w (esp X s) (e - n * Z.of_nat (length vs))
       else
         seg X s' SS = seg X s SS /\ let w := stack_width (Z.testbit (hfl X s) 3) in
         let vs := [ofl; sel (seg X s CS); eip X s] ++ cds in
         pushed (ring X s) 0 n w (base (seg X s SS)) vs (esp X s) m2 (mem X s') /\
         esp X s' = new_esp w (esp X s) (esp X s - n * Z.of_nat (length vs))).

End Spec.
