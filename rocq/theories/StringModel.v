(** * Transcription of the string instructions

    Sequences emitted by lib86cpu/core/emitter/x64/jit.cpp (line numbers refer to
    it), on [HostModel] as in [AluModel].  The jump back to the start of a
    repeated instruction names label 2, which is bound before it: executing one
    pass of the body then ends in [Skip 2 s], and [rep_runs] starts the next pass
    from [s].  Simplification: whether an access faults ([e_fault]) does not
    change during the instruction. *)

From Coq Require Import ZArith Bool List.
From Verif Require Import HostModel AluModel.
Import ListNotations.
Local Open Scope Z_scope.

(** the prefix: REP (also REPNZ on MOVS, STOS, LODS), REPZ, REPNZ *)
Inductive repk := KRep | KRepz | KRepnz.

(** [rep_start] (2205-2219), without the binding of the start label *)
Definition rep_start (a32 : bool) : list instr :=
  [(if a32 then MOV hEAX (c_reg W32 false ECX) else MOVZX hEAX (c_reg W16 false ECX));
   TEST hEAX hEAX; IJcc CEQ 0].

(** [rep] (2221-2249); labels 0 end, 2 start *)
Definition rep_tail (k : repk) (a32 : bool) : list instr :=
  (if a32 then [MOV hEAX (c_reg W32 false ECX); SUB hEAX (i32 1); MOV (c_reg W32 false ECX) hEAX]
   else [MOVZX hEAX (c_reg W16 false ECX); SUB AX (Im W16 1); MOV (c_reg W16 false ECX) AX]) ++
  [TEST hEAX hEAX; IJcc CEQ 0] ++
  (match k with
   | KRep => []
   | KRepz => LD_ZF hEAX ++ [TEST hEAX hEAX; IJcc CNE 0]
   | KRepnz => LD_ZF hEAX ++ [TEST hEAX hEAX; IJcc CEQ 0]
   end) ++ [IJmp 2].

(** an index register is loaded into EDX, zero-extended with 16-bit addresses *)
Definition ld_index (a32 : bool) (r : greg) : instr :=
  if a32 then MOV hEDX (c_reg W32 false r) else MOVZX hEDX (c_reg W16 false r).
(** [z]: the segment base was zero at translation time *)
Definition add_base (seg : sreg) (z : bool) : list instr := if z then [] else [ADD hEDX (c_segb seg)].
(** the moved index is stored *)
Definition st_index (a32 : bool) (r : greg) (h : hreg) : instr :=
  if a32 then MOV (c_reg W32 false r) (Rg W32 h) else MOV (c_reg W16 false r) (Rg W16 h).

Inductive strop := SMovs | SStos | SLods | SCmps | SScas.

(** the accesses of one element: MOVSD 8497-8536, STOSD 10474-10515, LODSD
    7708-7726, CMPSD 5354-5398, SCASD 10048-10076.  Afterwards the unmoved
    indices are in the registers that [st_moves] names. *)
Definition str_access (k : strop) (w : width) (a32 : bool) (seg : sreg) (z ze : bool) : list instr :=
  match k with
  | SMovs =>
      [ld_index a32 ESI; MOV (local W32 0) hEDX] ++ add_base seg z ++ [ILoad w] ++
      [ld_index a32 EDI; MOV hEBX hEDX] ++ add_base ES ze ++
      [MOV (Rg w R8) (Rg w RAX); IStore w; MOV hEAX (local W32 0)]
  | SStos =>
      [ld_index a32 EDI; MOV hEBX hEDX] ++ add_base ES ze ++ [MOV (Rg w R8) (c_reg w false EAX); IStore w]
  | SLods =>
      [ld_index a32 ESI; MOV hEBX hEDX] ++ add_base seg z ++ [ILoad w; MOV (c_reg w false EAX) (Rg w RAX)]
  | SCmps =>
      [ld_index a32 EDI; MOV (local W32 0) hEDX] ++ add_base ES ze ++ [ILoad w; MOV (Rg w RBX) (Rg w RAX)] ++
      [ld_index a32 ESI; MOV (local W32 1) hEDX] ++ add_base seg z ++
      [ILoad w; MOV (Rg w R8) (Rg w RAX); SUB (Rg w R8) (Rg w RBX)] ++ set_flags_sub w (Rg w RAX) (Rg w RBX) ++
      [MOV hEDX (local W32 0); MOV hEAX (local W32 1)]
  | SScas =>
      [ld_index a32 EDI; MOV hEBX hEDX] ++ add_base ES ze ++
      [ILoad w; MOV (Rg w RDX) (Rg w RAX); MOV (Rg w RAX) (c_reg w false EAX);
       MOV (Rg w R8) (Rg w RAX); SUB (Rg w R8) (Rg w RDX)] ++ set_flags_sub w (Rg w RAX) (Rg w RDX)
  end.

(** the scratch register that takes the direction flag *)
Definition df_reg (k : strop) : hreg :=
  match k with SMovs => RDX | SStos | SLods | SScas => RAX | SCmps => RBX end.
Definition df_test (k : strop) : list instr :=
  let r := Rg W32 (df_reg k) in [MOV r c_eflags; AND r (i32 0x400); TEST r r; IJcc CNE 1].

(** index registers and the host registers that hold them *)
Definition st_moves (k : strop) : list (greg * hreg) :=
  match k with
  | SMovs => [(EDI, RBX); (ESI, RAX)]
  | SStos | SScas => [(EDI, RBX)]
  | SLods => [(ESI, RBX)]
  | SCmps => [(EDI, RDX); (ESI, RAX)]
  end.
Definition str_move (op : binop) (k : strop) (w : width) (a32 : bool) : list instr :=
  map (fun p => IBin op (Rg W32 (snd p)) (i32 (wbytes w))) (st_moves k) ++
  map (fun p => st_index a32 (fst p) (snd p)) (st_moves k).

(** one pass: MOVSD 8537-8576, STOSD 10516-10552, LODSD 7727-7766, CMPSD
    5399-5444, SCASD 10077-10120; labels 1 sub, 0 end *)
Definition str_body (k : strop) (rep : option repk) (w : width) (a32 : bool) (seg : sreg) (z ze : bool)
  : list instr :=
  str_access k w a32 seg z ze ++ df_test k ++
  str_move BAdd k w a32 ++ (match rep with Some p => rep_tail p a32 | None => [IJmp 0] end) ++ [ILab 1] ++
  str_move BSub k w a32 ++ (match rep with Some p => rep_tail p a32 | None => [] end) ++ [ILab 0].

(** a repeated instruction: the count is tested once in front, every further
    pass starts at label 2 *)
Inductive rep_runs (E : henv) (body : list instr) : hst -> outcome -> Prop :=
| rr_last s o : run E body s = o -> (forall s', o <> Skip 2 s') -> rep_runs E body s o
| rr_again s s' o : run E body s = Skip 2 s' -> rep_runs E body s' o -> rep_runs E body s o.

Definition rep_instr (E : henv) (k : strop) (p : repk) (w : width) (a32 : bool) (seg : sreg) (z ze : bool)
    (s : hst) (o : outcome) : Prop :=
  match run E (rep_start a32) s with
  | Skip 0 s' => o = Done s'
  | Done s' => rep_runs E (str_body k (Some p) w a32 seg z ze) s' o
  | _ => False
  end.
