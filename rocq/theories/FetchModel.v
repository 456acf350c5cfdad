(** * Transcription of instruction fetching and of the formation of translated blocks

    lib86cpu/core/memory_management.cpp (MM), core/decode.cpp (DE), core/translate.cpp (TR),
    core/breakpoint.cpp (BR), dbg/debugger.cpp (DB).
    Simplifications: the translation of linear addresses is a function [xl] of the moment of
    the call (the walk and the TLB are in [MmuModel]; setting accessed bits and [smc] bits is
    not shown, the latter is in [CodeModel]); aliases are resolved ([AddrSpaceModel]), so a
    physical address is either in RAM or ROM, where [avail] bytes follow up to the end of its
    region, or not ([avail] is 0).  Zydis is any decoder that reads one byte after the other and
    stops as soon as it knows the instruction.  Of the emitters only what [cpu_translate]
    looks at is kept: whether the instruction ends the block. *)

From Coq Require Import ZArith Bool List.
Import ListNotations.
Local Open Scope Z_scope.

Definition w32 (x : Z) : Z := x mod 2 ^ 32.
(** addr & ~PAGE_MASK as a page number, addr & PAGE_MASK (internal.hpp 280-284) *)
Definition page (a : Z) : Z := a / 4096.
Definition off (a : Z) : Z := a mod 4096.

(** mmu_translate_addr: a physical address, or the error code of a page fault *)
Inductive xres := Xok (p : Z) | Xpf (c : Z).

(** The guest's memory as fetches see it, and the addresses with an entry in wp_data *)
Record world := mkw { xl : Z -> xres; avail : Z -> Z; rd : Z -> Z; wp : Z -> option Z; rf : bool }.

(** what the emitter of an instruction leaves in translate_next: [i_term] is translate_next = 0 *)
Record instr := mkI { i_id : Z; i_term : bool }.
Inductive zstep (S : Type) := More (s : S) | Done (i : instr) | Bad.
Arguments More {S} _.  Arguments Done {S} _.  Arguments Bad {S}.
Record decoder := mkdec { zst : Type; z0 : zst; znext : zst -> Z -> zstep zst }.

(** ZydisDecoderDecodeFull on a buffer (DE 76).  Asking for a byte after the fifteenth is
    INSTRUCTION_TOO_LONG, asking for one after the buffer is NO_MORE_DATA.  The other
    failures (BAD_REGISTER, ILLEGAL_LOCK, DECODING_ERROR) are treated alike (TR 1280-1286) *)
Inductive zstatus := Zok (i : instr) (n : Z) | Zbad | Znomore | Ztoolong.
Fixpoint zrun (d : decoder) (s : zst d) (n : Z) (bs : list Z) : zstatus :=
  if 15 <=? n then Ztoolong
  else match bs with
       | [] => Znomore
       | b :: tl => match znext d s b with More s' => zrun d s' (n + 1) tl | Done i => Zok i (n + 1) | Bad => Zbad end
       end.
Definition decode (d : decoder) (bs : list Z) : zstatus := zrun d (z0 d) 0 bs.

(** cpu->disas_ctx.exp_data: the fault address and code recorded by mmu_raise_page_fault
    (MM 296-299) when idx is EXP_PF; None while idx has never been set *)
Definition exp_data : Type := option (Z * Z).

(** as_ram_dispatch_read (MM 631-658) *)
Definition dispatch (w : world) (p n : Z) : list Z := map (fun j => rd w (p + Z.of_nat j)) (seq 0 (Z.to_nat (Z.min (avail w p) n))).

(** get_code_addr<true>(cpu, addr, exp_data) (MM 616-629): a success does not write exp_data *)
Definition code_addr (w : world) (a : Z) (e : exp_data) : Z * exp_data := match xl w a with Xok p => (p, e) | Xpf c => (0, Some (a, c)) end.

(** ram_fetch (MM 661-694), without the check for breakpoints *)
Definition ram_fetch (w : world) (vpc pc : Z) (e : exp_data) : list Z * exp_data :=
  if page vpc =? page (w32 (vpc + 14)) then (dispatch w pc 15, e)
  else
    let k := 4096 - off vpc in
    let b1 := dispatch w pc k in
    if Z.of_nat (length b1) <? k then (b1, e)
    else
      let (p2, e) := code_addr w (w32 (vpc + k)) e in
      match e with
      | Some _ => (b1, e)
      | None => (b1 ++ dispatch w p2 (15 - k), e)
      end.

(** cpu_check_data_watchpoints for a fetch (BR 55-70, 74-82): the debug register that throws *)
Definition hits (w : world) (a : Z) : option Z := if rf w then None else wp w a.

(** How a block ends: in an instruction that ends blocks, by handing over to the next block,
    by raising an exception (vector, code, address), or by LIB86CPU_ABORT *)
Inductive tail := Tterm | Tlink | Texc (v c a : Z) | Tabort.
Definition DB_ : Z := 1.
Definition UD_ : Z := 6.
Definition GP_ : Z := 13.
Definition PF_ : Z := 14.

(** instructions with their linear address and length, end, DISAS_FLG_PAGE_CROSS (also
    DISAS_FLG_FETCH_FAULT and DISAS_INSTR_BREAKPOINT, the same bit), exp_data and DR6 afterwards *)
Record block := mkb { ins : list (Z * instr * Z); fin : tail; cross : bool; exp' : exp_data; dr6' : Z }.
Definition consb (x : Z * instr * Z) (b : block) : block := mkb (x :: ins b) (fin b) (cross b) (exp' b) (dr6' b).

(** cpu_translate (TR 1230-1353).  [one] is DISAS_FLG_ONE_INSTR; [fuel] bounds the number of
    instructions, None: not enough *)
Fixpoint tloop (fuel : nat) (w : world) (d : decoder) (vpc pc : Z) (one : bool) (e : exp_data) (dr6 : Z) : option block :=
  match fuel with
  | O => None
  | S f =>
      match hits w vpc with
      | Some i => Some (mkb [] (Texc DB_ 0 0) true e (Z.lor dr6 (Z.shiftl 1 i)))
      | None =>
          let (bs, e) := ram_fetch w vpc pc e in
          match decode d bs with
          | Zok i n =>
              let c := negb (page vpc =? page (w32 (vpc + n - 1))) in
              let nx := negb (page vpc =? page (w32 (vpc + n))) in
              if i_term i then Some (mkb [(vpc, i, n)] Tterm c e dr6)
              else if c || nx || one then Some (mkb [(vpc, i, n)] Tlink c e dr6)
              else match tloop f w d (w32 (vpc + n)) (w32 (pc + n)) one e dr6 with
                   | Some b => Some (consb (vpc, i, n) b)
                   | None => None
                   end
          | Zbad => Some (mkb [] (Texc UD_ 0 0) false e dr6)
          | Znomore => match e with
                       | Some (a, c) => Some (mkb [] (Texc PF_ c a) true e dr6)
                       | None => Some (mkb [] Tabort false e dr6)
                       end
          | Ztoolong => let (_, e) := code_addr w (w32 (vpc + 15)) e in
                        match e with
                        | Some (a, c) => Some (mkb [] (Texc PF_ c a) true e dr6)
                        | None => Some (mkb [] (Texc GP_ 0 0) false e dr6)
                        end
          end
      end
  end.

(** disas_ctx.flags, a uint8_t (TR 1524-1530; support.hpp 16-17, internal.hpp 65-66, 131-137, 231, 236) *)
Definition disas_flags (hfl cfl efl : Z) : Z :=
  (Z.lor (Z.shiftr (Z.land hfl (2 ^ 2)) 2)
  (Z.lor (Z.shiftr (Z.land hfl (2 ^ 3)) 2)
  (Z.lor (Z.land hfl (2 ^ 4))
  (Z.lor (Z.land cfl (2 ^ 7))
  (Z.lor (Z.shiftr (Z.land cfl (2 ^ 10)) 3)
  (Z.lor (Z.shiftr (Z.land efl (2 ^ 16)) 9) (Z.shiftr (Z.land efl (2 ^ 8)) 1))))))) mod 256.

(** init_instr_decoder (DE 61-67): the indices into to_zydis_cpu_mode and to_zydis_stack_mode *)
Inductive zmode := Real16 | Legacy16 | Legacy32.
Definition cpu_mode (i : Z) : option zmode := nth_error [Real16; Real16; Legacy16; Legacy32] (Z.to_nat i).
Definition stack_width (i : Z) : option Z := nth_error [16; 32; 32] (Z.to_nat i).
Definition decoder_mode (fl : Z) : option (zmode * Z) :=
  match cpu_mode (Z.lor (Z.land fl 1) (Z.shiftr (Z.land fl (2 ^ 4)) 3)), stack_width (Z.land fl 2) with
  | Some m, Some s => Some (m, s)
  | _, _ => None
  end.

(** One round of cpu_main_loop (TR 1487-1572) when no block is cached: check for a breakpoint,
    translate the address, translate the block.  Blocks are short of 4096 instructions *)
Definition translate (w : world) (d : decoder) (fl vpc : Z) (e : exp_data) (dr6 : Z) : option block :=
  match hits w vpc with
  | Some i => Some (mkb [] (Texc DB_ 0 0) true e (Z.lor dr6 (Z.shiftl 1 i)))
  | None =>
      match xl w vpc with
      | Xpf c => Some (mkb [] (Texc PF_ c vpc) true e dr6)
      | Xok pc => tloop 4097 w d vpc pc (Z.testbit fl 7) e dr6
      end
  end.
(** TR 1564: the block is kept in the code cache *)
Definition cached (fl : Z) (b : block) : bool := negb (cross b) && negb (Z.testbit fl 7).
(** tc->size (TR 1342) *)
Fixpoint size_of (l : list (Z * instr * Z)) : Z := match l with [] => 0 | (_, _, n) :: tl => n + size_of tl end.

(** A history of rounds, each with the memory, mode and address of its moment; exp_data is a
    member of cpu_t and stays from one round to the next *)
Record req := mkr { q_w : world; q_d : decoder; q_fl : Z; q_vpc : Z; q_dr6 : Z }.
Fixpoint rounds (e : exp_data) (l : list req) : list (req * block) :=
  match l with
  | [] => []
  | q :: tl => match translate (q_w q) (q_d q) (q_fl q) (q_vpc q) e (q_dr6 q) with
               | Some b => (q, b) :: rounds (exp' b) tl
               | None => []
               end
  end.

(** dbg_disas_code_block (DB 110-142): [n] instructions.  Watchpoints are taken away around it *)
Fixpoint disas_loop (n : nat) (w : world) (d : decoder) (vpc pc : Z) (e : exp_data) : list (Z * instr) :=
  match n with
  | O => []
  | S n =>
      let (bs, e) := ram_fetch w vpc pc e in
      match decode d bs with
      | Zok i l =>
          let next := w32 (vpc + l) in
          (vpc, i) ::
          (if page vpc =? page (w32 (next - 1)) then disas_loop n w d next (w32 (pc + l)) e
           else let (pc, e) := code_addr w next e in
                match e with Some _ => [] | None => disas_loop n w d next pc e end)
      | _ => []
      end
  end.
(** dbg_disas_code_block(cpu, pc, instr_num) (DB 144-172): disas_ctx is a local variable whose exp_data
    is not initialised; [junk] is what happens to be there, None if its idx is not EXP_PF *)
Definition disas (n : nat) (w : world) (d : decoder) (vpc : Z) (junk : exp_data) : list (Z * instr) :=
  let (pc, e) := code_addr w vpc junk in
  match e with Some _ => [] | None => disas_loop n w d vpc pc e end.
