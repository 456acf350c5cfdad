(** * Transcription of the paths of debug exceptions

    core/translate.cpp (TR), core/emitter/x64/jit.cpp (JT), core/breakpoint.cpp (BP),
    core/instructions.cpp (IS).  What is kept of the cpu: the linear address of the next
    instruction, TF and RF, DR6, the armed instruction breakpoints, CPU_DBG_TRAP_INT and
    CPU_MASKED_INT of the interrupt word, whether exp_data.idx is EXP_DB, the code cache, and
    what is left of the block being executed.  What the instructions compute is left open: an
    instruction has a kind and a length known when it is translated, and an effect that is
    an arbitrary choice at each execution.
    Simplifications: INTO with OF set is left out; no other thread makes requests ([IrqModel], [RunModel]); delivering an
    exception always succeeds ([ExcModel]) and hits no watchpoint; no debugger and no hooks; the
    jump table and the return stack may lead to any place of any block in the cache
    ([CodeModel] says which); which accesses hit which register is in [DrModel]. *)

From Coq Require Import ZArith Bool List.
Import ListNotations.
Local Open Scope Z_scope.

(** How the translation of an instruction ends.  [Seq]: the block goes on, with [gen_interrupt_check]
    (TR 1345-1350).  [Call]: [gen_tc_linking_jmp], and the block goes on.  [Jump]: [gen_tc_linking_jmp]
    or [gen_tc_linking_ret], and the block ends (all branches, POPF JT 9443, IRET JT 7127, segment loads JT 8149,
    9212, MOV DR6 JT 8030).  [MovDr]: [gen_no_link_checks], and the block ends (JT 8029-8038).  [Int]: [cpu_raise_exception]
    of INT n and INT3 (JT 3761-3801).  [Halt]: [hlt_helper], and the block ends without checks (JT 6656-6668). *)
Inductive kind := Seq | Call | Jump | MovDr | Int | Halt.

(** What an execution does: the watchpoints it hits, in order; the exception it raises after that; the
    address it leaves in EIP and the TF, RF and DR6 it loads, if it ends a block; whether it raises CPU_MASKED_INT
    (MOV SS JT 8145, POP SS JT 9208, STI JT 10456); the breakpoints armed after MOV DR; the vector of
    INT n or of the interrupt that ends HLT *)
Record effect := mkeff {
  hits : list Z; fault : option Z; target : Z; ltf : option bool; lrf : option bool; ldr6 : option Z;
  shadow : bool; larm : option (Z -> option Z); vector : Z }.

(** The guest's code and its interrupt table *)
Record prog := mkprog { knd : Z -> kind; len : Z -> Z; vec : Z -> Z }.

Record st := mkst {
  pc : Z; tf : bool; rf : bool; dr6 : Z; arm : Z -> option Z;
  pend : bool;   (* CPU_DBG_TRAP_INT *)
  idb : bool;    (* exp_data.idx == EXP_DB *)
  cache : list (list Z);   (* the addresses of the instructions of each block; all were translated with TF = RF = 0 *)
  run : option (list Z * bool * bool * bool)   (* instructions left; a #DB follows them; TF and RF when translated *)
}.
Definition set_run x s := mkst (pc s) (tf s) (rf s) (dr6 s) (arm s) (pend s) (idb s) (cache s) x.
Definition set_cache x s := mkst (pc s) (tf s) (rf s) (dr6 s) (arm s) (pend s) (idb s) x (run s).
Definition set_dr6 x s := mkst (pc s) (tf s) (rf s) x (arm s) (pend s) (idb s) (cache s) (run s).
Definition set_pend x s := mkst (pc s) (tf s) (rf s) (dr6 s) (arm s) x (idb s) (cache s) (run s).
Definition set_idb x s := mkst (pc s) (tf s) (rf s) (dr6 s) (arm s) (pend s) x (cache s) (run s).
Definition set_rf x s := mkst (pc s) (tf s) x (dr6 s) (arm s) (pend s) (idb s) (cache s) (run s).

(** What can be seen: the execution of the instruction at [a], begun with TF = [t] and RF = [r], which did [e];
    the delivery of an exception or interrupt with the saved address, TF and RF and the value of DR6; all
    code is dropped from the cache *)
Inductive obs :=
| Exec (a : Z) (t r : bool) (e : effect)
| Exc (v p : Z) (t r : bool) (d6 : Z)
| Flushed.

Definition DB : Z := 1.
Definition BS : Z := 0x4000.

(** [cpu_raise_exception] (TR 523-973): the handler is entered with TF and RF clear (TR 825, 922, 954) *)
Definition deliver (P : prog) (v : Z) (s : st) : st * obs :=
  (mkst (vec P v) false false (dr6 s) (arm s) (pend s) (v =? DB) (cache s) None,
   Exc v (pc s) (tf s) (rf s) (dr6 s)).

(** [cpu_check_watchpoints] of a data or I/O access (BP 61-72) *)
Definition hit1 (s : st) (i : Z) : st := set_idb true (set_pend true (set_dr6 (Z.lor (dr6 s) (Z.shiftl 1 i)) s)).
Definition hit_all (l : list Z) (s : st) : st := fold_left hit1 l s.

(** [cpu_translate] (TR 1230-1353) from address [a]: at most [n] instructions, the rest being decided by page
    ends; before each one [ram_fetch] checks for a breakpoint (memory_management.cpp 666), which ends the block with
    the raising of #DB (TR 1248-1256).  Third component: the register whose bit was set in DR6 *)
Definition next_addr (P : prog) (a : Z) : Z := (a + len P a) mod 2 ^ 32.
Definition ends (k : kind) : bool := match k with Seq | Call => false | _ => true end.
Definition same_page (a b : Z) : bool := a / 4096 =? b / 4096.
Fixpoint trans (P : prog) (n : nat) (r : bool) (f : Z -> option Z) (a : Z) : list Z * option Z :=
  match n with
  | O => ([], None)
  | S m =>
    match (if r then None else f a) with
    | Some i => ([], Some i)
    | None =>
      if ends (knd P a) || negb (same_page a (next_addr P a)) then ([a], None)
      else let '(l, b) := trans P m r f (next_addr P a) in (a :: l, b)
    end
  end.

(** One round of [cpu_main_loop] (TR 1482-1584): the check for a breakpoint (TR 1489), the search of the cache
    (TR 1513, by flags that contain TF and RF), the translation; blocks with a breakpoint, of a single step or ([c]) crossing a page are not
    inserted (TR 1564-1578).  With TF or RF set the block has one instruction (TR 1527-1529) *)
Definition main_loop (P : prog) (n : nat) (c : bool) (s : st) : st * list obs :=
  match (if rf s then None else arm s (pc s)) with
  | Some i =>
    let '(s', o) := deliver P DB (set_dr6 (Z.lor (dr6 s) (Z.shiftl 1 i)) s) in (s', [o])
  | None =>
    let one := tf s || rf s in
    match (if one then None else find (fun b => match b with a :: _ => a =? pc s | [] => false end) (cache s)) with
    | Some b => (set_run (Some (b, false, false, false)) s, [])
    | None =>
      let '(l, b) := trans P (if one then 1 else S n) (rf s) (arm s) (pc s) in
      match b with
      | Some i => (set_run (Some (l, true, tf s, rf s)) (set_dr6 (Z.lor (dr6 s) (Z.shiftl 1 i)) s), [])
      | None => (set_run (Some (l, false, tf s, rf s)) (if one || negb c then s else set_cache (l :: cache s) s), [])
      end
    end
  end.

(** A jump through the jump table or the return stack: instruction [j] of block [i] of the cache, if it is
    at the address and the flags are those of the block (JT 985-996) *)
Definition linked (lk : nat * nat) (s : st) : option (list Z) :=
  let l := skipn (snd lk) (nth (fst lk) (cache s) []) in
  match l with
  | a :: _ => if (a =? pc s) && negb (tf s) && negb (rf s) then Some l else None
  | [] => None
  end.

(** The registers after an instruction that completes *)
Definition completed (P : prog) (a : Z) (e : effect) (s : st) : st :=
  let k := knd P a in
  mkst (match k with Seq => next_addr P a | MovDr => next_addr P a | _ => target e end)
       (match k, ltf e with Jump, Some b => b | _, _ => tf s end)
       (match k, lrf e with Jump, Some b => b | _, _ => rf s end)
       (match k, ldr6 e with Jump, Some d => d | _, _ => dr6 s end)
       (match k, larm e with MovDr, Some f => f | _, _ => arm s end)
       (pend s) (idb s) (cache s) (run s).

(** The end of an instruction that completes: [gen_check_rf_single_step] (JT 909-942) with the TF and RF of
    the translation, then [gen_interrupt_check] (JT 799-809) with the debug part of [cpu_do_int] (TR 1366-1378, 1449) *)
Definition boundary (P : prog) (a : Z) (rest : list Z) (brk bt br : bool) (e : effect) (lk : nat * nat) (s : st) : st * list obs :=
  let s := if br then set_rf false s else s in
  if bt then
    let '(s', o) := deliver P DB (set_dr6 (Z.lor (dr6 s) BS) s) in (s', [o])
  else if pend s then
    if idb s then let '(s', o) := deliver P DB s in (set_pend false s', [o])
    else (set_run None (set_pend false s), [])
  else if shadow e then (set_run None s, [])
  else
    match knd P a with
    | Seq => (set_run (match rest, brk with [], false => None | _, _ => Some (rest, brk, bt, br) end) s, [])
    | MovDr => (set_run None s, [])
    | _ => (set_run (match linked lk s with Some l => Some (l, false, false, false) | None => None end) s, [])
    end.

(** One instruction of the running block *)
Definition instr (P : prog) (e : effect) (lk : nat * nat) (s : st) : st * list obs :=
  match run s with
  | None => (s, [])
  | Some ([], brk, _, _) =>
    if brk then let '(s', o) := deliver P DB s in (s', [o]) else (set_run None s, [])
  | Some (a :: rest, brk, bt, br) =>
    let x := Exec a (tf s) (rf s) e in
    let s := hit_all (hits e) s in
    match fault e with
    | Some v => let '(s', o) := deliver P v s in (s', [x; o])
    | None =>
      match knd P a with
      | Int => let '(s', o) := deliver P (vector e) (mkst (next_addr P a) (tf s) (rf s) (dr6 s) (arm s) (pend s) (idb s) (cache s) (run s)) in (s', [x; o])
      | Halt => let '(s', o) := deliver P (vector e) (mkst (next_addr P a) (tf s) (rf s) (dr6 s) (arm s) (pend s) (idb s) (cache s) (run s)) in (s', [x; o])
      | _ => let '(s', l) := boundary P a rest brk bt br e lk (completed P a e s) in (s', x :: l)
      end
    end
  end.

(** [Flush]: any of the operations that drop all blocks; they leave the running block (TR 1156-1169) *)
Inductive ev := Main (n : nat) (c : bool) | Instr (e : effect) (lk : nat * nat) | Flush.
Definition step (P : prog) (v : ev) (s : st) : st * list obs :=
  match v with
  | Main n c => match run s with None => main_loop P n c s | Some _ => (s, []) end
  | Instr e lk => instr P e lk s
  | Flush => match run s with None => (set_cache [] s, [Flushed]) | Some _ => (s, []) end
  end.
Fixpoint trace (P : prog) (l : list ev) (s : st) : list obs :=
  match l with [] => [] | v :: t => let '(s', o) := step P v s in o ++ trace P t s' end.

(** At reset: nothing armed, nothing cached (TR 400-440) *)
Definition init (p : Z) (d6 : Z) : st := mkst p false false d6 (fun _ => None) false false [] None.
