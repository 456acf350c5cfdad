# Formal model of lib86cpu: design

Target: ergo720/lib86cpu at the pinned commit in /repo. Language: C++ (x86 emulator
with a JIT). The model is Gallina for Rocq/Coq 8.16.1, in `rocq/theories`.

## Conventions

* Machine words are `Z` (or `N`) with explicit wrap-around (`mod 2^32`, masks) wherever
  the C++ type wraps. Undefined behaviour (out-of-bounds, overflowing signed division,
  shifts past the width, dangling pointers) is a distinct outcome, never a default value.
* Every module has a model file (`*Model.v`, definitions only, each citing file and lines
  in /repo), a specification file or section (`*Spec.v`) that does not use the model's
  helpers, proof files and a property file (`*Props.v`) holding the property theorems, their
  `Print Assumptions`, and Examples that show a concrete case meeting the hypotheses. In the
  smaller modules proofs and properties share one file.
* A property that is false of the faithful model gets (a) a `_refuted` theorem with a
  concrete witness, and (b) the strongest true theorem with the exact extra hypothesis.

## Trusted base

* Coq's kernel (including `vm_compute`), and whatever `Print Assumptions` lists per theorem
  ("Closed under the global context" everywhere, see Assumptions).
* The reading of the C++ source: the theorems are about the model. The code is not run.
* Not modelled: Zydis decoding, asmjit encoding, host CPU semantics of emitted
  instructions beyond the integer subset used in the flag code, host memory allocation,
  OS calls, floating-point arithmetic values, the debugger GUI.

## Plan per property

| Id | Model | Proof |
|----|-------|-------|
| C01 | `address_space` as an ordered list of regions with insert/erase/split as written | refinement: `search` after any history equals the last covering operation, under the exact guard the code needs; refutation for the `start != end` test |
| C02 | same | partition invariant by induction over operations; refutation witness |
| C03 | region records with alias links, both resolution loops | induction on chain length; agreement of the two loops; refutation for split aliases |
| C04 | block transfer loops over a byte memory | induction on the remaining size; frame property |
| C05 | lazy eflags codec | bit-level extensionality |
| C06, C07 | emitted integer sequences as functions on words | carry/borrow-vector lemma by induction on bits, then decode with the reader of C05 |
| C08 | the sixteen condition evaluators | case analysis on the decoded bits |
| C09 | six division helpers with a UB outcome | arithmetic; refutation witnesses for overflow |
| C10 | permission tables and masks | full finite case analysis; refutation for WP |
| C11 | two-level walk over abstract physical memory | unfolding plus frame lemmas |
| C12-C14 | set-associative TLB with nondeterministic victim | invariant over histories; refutations |
| C15 | slow paths with per-byte translation | case analysis on crossing, frame |
| C16 | descriptor field extraction | bit extensionality |
| C17-C21 | helper functions over an abstract descriptor reader | case analysis; refutations |
| C22 | hflags recomputation | invariant per operation; refutations |
| C23, C24 | exception state machine and delivery | finite table; bounded nesting |
| C25-C27 | CR/DR/MSR helpers | case analysis |
| C28-C30 | FPU tag/TOP state, fxsave image | invariants, round trips |
| C31, C32 | code cache, page map, jump table, RSB as finite maps | invariants over histories |
| C33 | save/load state functions | record equality; refutation for the halted flag |
| C34, C35 | threads as program counters over shared flags, all interleavings | invariant over a transition relation; deadlock witness |
| C36 | A20 masking in dispatch and TLB fill | equational |
| C37 | allocator free lists | disjointness invariant |
| C38 | hook map with permissions | refutation plus conditional theorem |
| C39 | I/O bitmap check | bit-level equivalence |
| C40 | clock arithmetic with 128-bit intermediate | monotonicity; wrap guard |
| C41 | argument checks of the region calls | 64-bit arithmetic; refutations |
| C42-C46 | emitted sequences | symbolic execution |
| C47-C49 | stack and flag sequences | symbolic execution |
| C50, C51 | far transfer helpers | case analysis; refutations |
| C52 | status word updates | case analysis |
| C53 | MOV DR | case analysis |
| C54-C60 | emitted sequences of shifts, rotates, bit tests, multiplication, BCD and loop instructions | symbolic execution, bit extensionality; refutations for bit strings, scans of zero and XLAT |
| C62 | pushes and pops of far CALL, RETF and IRET over any memory system | inversion of completed runs; read-back on flat memory; refutations |
| C63 | MOV CRn, LMSW and CLTS | bit by bit; refutation for PAE |
| C64 | LLDT, LTR, VERR, VERW over any memory system; the flag words | equations; refutation for LDT selectors |
| C65 | MOV, LEA, segment register moves outside protected mode | symbolic execution of the host code; refutations for MOV r16, Sreg and MOV Sreg, m16 |
| C66 | near JMP, CALL, RET and their real-mode far forms | symbolic execution; CALL/RET round trip through memory; refutations for a faulting far CALL and a stale selector |
| C67 | ENTER with all levels | induction over the copied display; refutation for a display that wraps |
| C68 | ARPL | symbolic execution and flag bits; refutation for real mode |
| C69 | the run calls, the main loop, requests and the clock as one machine over events | invariant and a measure of the steps left; refutations for old code, endless exceptions and a halted cpu |
| C70 | the same | simulation of the wait; refutations for pause, exit and a page fault on waking |
| C71 | emitted sequences of IN, OUT, INS, OUTS over a device that is any function of its history | symbolic execution of one pass, induction over the count |
| C72 | emitted SSE moves and shuffles over XMM registers as 128-bit numbers | symbolic execution; lanes by division and remainder |
| C73 | emitted SSE arithmetic, host and guest MXCSR, arbitrary single precision functions | symbolic execution of the check, bitwise; refutation witnesses |
| C74 | emitted sequences of the table register instructions over arbitrary memory and faults | symbolic execution; refutation witnesses |
| C75 | emitted sequences of the privileged instructions, their helpers as arbitrary functions | symbolic execution of each instruction; a refutation witness |
| C76 | the emitted code of INT3, INT n and INTO followed by exception delivery over any memory system | case analysis on the delivery theorems of C24; refutation witnesses |
| C77 | delivery (C24), any handler, IRET (C62) on flat memory | the frame of C24 is read back by the pops of C62; flags by C05's lemmas; a refutation witness |
| C78 | breakpoint list, RAM and translation; sessions of guest and user actions | induction over sessions with an invariant relating memory, saved bytes and the ideal memory; refutation witnesses |
| C79 | the exception hook and the breakpoint handler around an arbitrary original instruction | the state handed to the instruction is computed from the invariant of C78; refutation witnesses |
| C80 | packing and unpacking of DR7, settings | bitwise, field by field |
| C81 | ram_fetch, decoding and the translation loop over an arbitrary page map and byte-wise decoder | the buffer is shown to agree with linear memory, then induction over the loop and over histories; refutation witnesses |
| C82 | the translation loop and the flags it is started with | induction over the loop with the offset in the page as measure; bitwise for the flags |
| C83 | dbg_disas_code_block on the same fetch | induction over the listing; refutation witnesses |
| C84 | the emitted host x87 code over an arbitrary host arithmetic: register stack, control word, status word | every emitted sequence is shown to do what the instruction of C28 with the documented function does; induction over programs; refutation witness |
| C85 | translation of blocks, the checks at the end of instructions, delivery of exceptions; instructions have arbitrary effects | invariant over all histories (running block agrees with TF, RF and the program), trace compared with the documented registers; refutation witnesses |
| C86 | same model: the pending debug trap | same invariant; refutation witnesses for the doubled and the late report |
| C87 | same model: breakpoints checked at translation, cache, links | invariant that no cached block holds an armed address since the last flush; refutation witnesses |
| C88 | the lists of waiting changes, the interrupt bits and the region part of cpu_do_int over the region maps of C01 | invariant: applying the waiting changes gives the map of the calls made at once; induction over histories; refutation witnesses |
| C89 | same model: waiting updates of handlers | an update maps one function over the nodes that keeps the partition; induction over updates and histories; refutation witnesses |
| C90 | the dispatch of a data access by region, the lines of the TLB with their kind and region, page crossing, over the maps of C01 and the host memory of C04 | invariant on the lines over all histories; hit and miss both reduce to one access of the region; refutation witnesses |
| C91 | search and dispatch of ports over the same maps | from C01 for ports, by induction over the calls; refutation witnesses |
| C92 | the emitters as functions of the hflags, eflags and CS base seen at translation, the end of blocks, over the registers and helpers of `SegModel` | the emitters read only bits of the key, instructions that go on keep the key; induction over the block; refutation witness |
| C93 | the arithmetic of size and alignment, the acquisitions and releases of both builds as lists of events, the answers of the system as parameters | bits of power of two alignments; case analysis over the points of failure against a relation of what the process holds; refutation witnesses |
| C94 | get_host_ptr and get_ram_ptr as buffer and index over the region map, loads and stores of the client | against the cells of C04: same region, same index; the layouts of C01 for the agreement with get_ram_ptr; refutation witnesses |
| C95 | the acquisitions and releases for a rom of the Linux xbox build as lists of events, the arrays that outlive it with indices out of range undefined | case analysis over the points of failure against `holds`; the release refuted for every rom |
| C96 | `SetModel`: cpu flags, cached blocks with the HLT emitted for them, the formatter of the process. Invariant over histories: cached HLTs match the settings in force (`C96_hlt`, `C96_each`); `C96_call` for the call itself. The syntax with several cpus is refuted (`C96_refuted_syntax`). |
| C97 | `IdModel`: `cpuid_helper` over the registers of `MsrModel`. Induction over histories of CPUID and WRMSR (`C97_revision`, `C97_none_partial`); a made up revision is refuted (`C97_refuted_revision`). |
| C61 | emitted sequences of the string instructions and the repeat loop | symbolic execution of one pass, induction over the count |

## Modules: what is modelled, how it is proved, what is left out

Line references are in the comments of the definitions. "Histories" are inductive relations
(`reach`, `steps`, lists of operations) with no bound on their length.

### Region map: `AddrSpaceModel`, `AddrSpaceSpec`, `AddrSpaceProofs`, `RegionApiProofs`, `AddrSpaceProps`, `RegionApiProps` (C01, C02, C03, C41)
* Modelled: class `address_space` (insert, erase, split, search, merging), the region records with
  raw pointers between them, the argument checks of the `mem_init_region_*`/`mem_destroy_region`
  calls, both alias resolution loops (dispatch and TLB fill).
* Specification: the last operation covering an address decides what the address shows.
* Proof: refinement of the list of nodes to a function from addresses, by induction over the calls;
  the guard that excludes the defect is proved necessary as well as sufficient.
* Not modelled: `update` of I/O handlers, the `should_int` deferral (same operation, later), XBOX_CPU fields.

### Integer instructions: `HostModel`, `SymExec`, `AluModel`, `AluSpec`, `FlagArith`, `FlagsApiProofs`, `AluForms`, `AluProofs`, `UnaryProofs`, `XchgProofs`, `CondProofs`, `EaProofs`, `LahfProofs`, `LazyFlagsProofs`, `FlagInstrProofs`, `AluProps` (C05-C08, C42-C46)
* Modelled: the x64 instruction sequences emitted for ADD, ADC, SUB, SBB, CMP, AND, OR, XOR, TEST,
  INC, DEC, NEG, NOT, XADD, CMPXCHG, CMPXCHG8B, Jcc, SETcc, CMOVcc, CLC, CMC, STC, CLD, STD, LAHF,
  SAHF, all operand forms, the effective address code, `read_eflags`, `write_eflags`,
  `write_eflags_helper`. `HostModel` is an interpreter for the x64 subset with guest loads and
  stores that may fault.
* Trusted: the meaning given to the x64 instructions in `HostModel`, the encoding by asmjit, the Win64
  calling convention.
* Proof: symbolic execution of the sequences, then carry and borrow vectors by bit extensionality.
* Not modelled: decoding.

### Shifts, rotates, bits, multiplication, BCD, loops: `ShiftModel`, `ShiftSpec`, `ShiftProofs`, `ShiftForms`, `RotateProofs`, `BitProofs`, `MulProofs`, `BcdProofs`, `BranchProofs`, `ShiftProps` (C54-C60)
* Modelled: the sequences of SHL, SHR, SAR, SHLD, SHRD, ROL, ROR, RCL, RCR, BT, BTC, BTR, BTS, BSF, BSR,
  BSWAP, MUL, IMUL, MOVSX, MOVZX, CBW, CWDE, CWD, CDQ, AAA, AAS, AAD, AAM, DAA, DAS, LOOPcc, JCXZ, BOUND, XLAT,
  in all operand forms.
* Specification: arithmetic on operand values after the manual (`ShiftSpec`); undefined flags are not constrained.
* Proof: symbolic execution; rotates bit by bit on a ring; DAA and DAS by case analysis over all bytes.
* A bit test whose memory operand is the emulator's local variable and whose index leaves it is `Stuck`.

### String instructions: `StringModel`, `StringSpec`, `StringProofs`, `StringRep`, `StringForms`, `StringProps` (C61)
* Modelled: MOVS, STOS, LODS, CMPS, SCAS in three widths and two address sizes, with and without prefix. The
  jump back to the start of a repetition is an inductive relation over passes.
* Specification: one element on registers, memory and flags (`element`), repeated by recursion on the count.
* Proof: symbolic execution of a pass, induction over the count; uniqueness of the outcome; closed forms.
* Not modelled: INS and OUTS; faults that appear or disappear during one run.

### Port instructions: `PortModel`, `PortSpec`, `PortProofs`, `PortProps` (C71)
* The host actions are those of `HostModel` plus the two port calls and the check of `IoPrivModel`; the outcome carries
  the list of port accesses. A device is any function of that list.
* The check is nondeterministic in R10 and R11, which its first load destroys (see C39).
* INS reads the port before the store that may fault. The manual allows it; the theorems say it.
* Not modelled: handlers that act on the cpu, I/O watchpoints (`DrModel`), faults of the loads in the check.

### SSE instructions: `SseModel`, `SseSpec`, `SseArith`, `SseProofs`, `SseProofs2`, `SseProofs3`, `SseProps` (C72, C73)
* The host actions are those of `HostModel` plus XMM registers, pointers to them, and MXCSR. Host calls destroy all host
  XMM registers.
* The host's single precision operations are arbitrary functions of operation, rounding and flush bits, and operands,
  returning a result and flags. That they round correctly is not claimed.
* Specification: lanes by division and remainder, memory byte by byte, flags bit by bit (`SseSpec`).
* Simplified: a 16-byte access faults as a whole; exact tiny results with unmasked underflow are not distinguished.
* Not modelled: decoding, VZEROUPPER, the XBOX_CPU shortcut. MOVQ and MOVNTQ are in `FpuModel`.

### System instructions: `SysModel`, `SysSpec`, `SysProofs`, `SysEmProps` (C74, C75)
* `HostModel` plus the cells of GDTR, IDTR, LDTR, TR and the control registers, and calls to helpers.
* A helper is any function of its arguments and of the guest's state; what the real ones do is in `SegModel`,
  `ModeModel`, `MsrModel`, `MmuModel` and `ClockModel` (C13, C27, C40, C63, C64, C70).
* Specification: for each instruction what it reads, calls and changes, and which exception comes first (`SysSpec`).
* Not modelled: decoding (a LOCK prefix or register form where none is allowed); the effect of helpers on the code cache.

### Software interrupts: `IntModel`, `IntProps` (C76)
* The emitted registers of `int_` (vector, EIP of the next instruction, CR2 argument) followed by `SegModel.deliver`.
* Specification: `overflow`, `taken`, `vector`, the gate and frame relations of `ExcSpec`, and the redirected frame
  `vme_image`.
* Partial: the refused interrupt saves the address after the instruction (`C76_refuted_fault_eip`), INT 14 clears CR2
  (`C76_refuted_cr2`), and a redirected INT below IOPL 3 leaves VIF set (`C76_refuted_vif`).
* Not modelled: forwarding to an attached debugger.

### Interrupt and return: `IntRound` (C77)
* Composes `SegModel.deliver` and `SegModel.iret_pe` over flat memory (no paging faults); between them any state with
  the frame intact (`handled`).
* Specification: `runnable`, `handled`, `restored`.
* Partial: IRET to virtual 8086 mode does not restore DF and RF (`C77_refuted_vm86_df`), so a handler's CLD changes
  the task's direction flag. 16-bit gates and stacks are not covered.

### Debugger: `DbgModel`, `DbgSpec`, `DbgProofs`, `DbgProps` (C78, C79, C80)
* Modelled: the breakpoint list and all functions that apply, update, remove and set it up; the handlers of INT3, single
  step and watchpoints; the commands of the window that change the list or memory; the forwarding of vectors 1 and 3;
  the removal at a mode switch; DR7 updates and the settings.
* Not modelled: the window, threads, disassembler; code cache invalidation (`CodeModel`); ROM and device memory, where
  breakpoints are refused. The guest is an arbitrary list of byte writes and page table changes.
* Specification: `armed` (running guest), `eideal` (memory without debugger), `gclean`, `uclean` (what is excluded),
  `watch`, `kept`.
* Refuted: an INT3 written by the guest over a breakpoint is lost; the guest reads the debugger's INT3; after a page table
  change the INT3 stays in the old page; an edit of the byte stopped at is undone; a mode switch undoes guest writes;
  two addresses of one byte; the guest's INT3 is swallowed; its hardware instruction breakpoint hangs it, or is mistaken
  for a breakpoint one byte before; the settings drop instruction breakpoints.

### Fetching and blocks: `FetchModel`, `FetchSpec`, `FetchProofs`, `FetchProps` (C81, C82, C83)
* Modelled: `ram_fetch` with its two pages, `exp_data` kept between calls, the decoding loop of `cpu_translate` with all its
  exits, the flags it starts with and the mode of the decoder, one round of `cpu_main_loop`, the debugger's listing.
* Not modelled: Zydis, which is any decoder that reads byte after byte (`decoder`), and the emitters (only whether the
  instruction ends the block). Translation of addresses is a function, RAM and ROM regions are given by how many bytes follow.
* Specification: `afetch` (what is executed at an address), `straight` (a run of instructions), `in_a_row`, `listing`;
  `paged` and `backed` say that pages are mapped as a whole and that regions end with pages.
* Refuted: a page fault recorded for the page after code is never cleared, so that no instruction that crosses pages is
  executed again (`C81_refuted_forever`), even if no fault was raised; instructions across adjacent regions abort the
  emulator; DR6 is set before the instructions in front of a breakpoint are executed; undecodable bytes of the next page
  are cached; the listing goes wrong after an instruction that ends with its page and depends on an uninitialised variable.

### Host x87 code: `HfModel`, `HfSpec`, `HfProofs`, `HfProps` (C84)
* Modelled: the host x87 instructions emitted for each guest x87 instruction, in order and on every path: EMMS, FNCLEX, saving
  and loading the control word, the loads of guest registers on the host's stack, the operation with its host operands, the
  exception check, the stores, dummy pops and RESTORE_FPU_CTX.
* Not modelled: the arithmetic itself, which is any `arith` (functions from control word and operands to results, exception
  flags and condition codes; `sane` states the two facts used about it), and the decoding of mnemonics from opcodes.
* Specification: `documented` (destination and source, no host registers), `doc` (the instruction of `FpuModel` with the
  documented function), `host_kept`, `working_cw`.
* Refuted: after FSIN, FCOS or FSINCOS with an operand out of range the host keeps the guest's control word, for good, and a
  value on its register stack (`C84_refuted_host`).

### Debug exceptions: `DtModel`, `DtSpec`, `DtProofs`, `DtProps` (C85, C86, C87)
* Modelled: cpu_main_loop and cpu_translate as far as TF, RF and instruction breakpoints decide how blocks are cut, cached and
  linked; gen_check_rf_single_step and gen_interrupt_check at the end of each instruction; the debug part of cpu_do_int; the
  TF, RF and DR6 side of exception delivery. Instructions are a kind, a length and an arbitrary effect per execution.
* Not modelled: requests of other threads, INTO, faults while delivering, the debugger, hooks, MOV to DR with GD (C53), the
  iterations of REP instructions (the emulator steps over the whole instruction).
* Specification: `after` (the documented registers computed from the observations alone) and `right` (what may be observed
  next); `plain` lists the executions for which the emulator is right.
* Refuted: HLT is not stepped; MOV SS does not hold back the single step; a stepped instruction that hits a data breakpoint is reported a second time
  inside the handler; a hit followed by a fault whose handler begins with INT 1 is reported late; arming an instruction
  that is already translated has no effect; INT n saves RF set; IRET executed with RF loses the RF it loads; faults save RF unchanged.

### Deferred changes of the region maps: `RgModel`, `RgSpec`, `RgProofs`, `RgProps` (C88, C89)
* Modelled: the region calls with and without should_int, updates of handlers (update 1, 2, 3), port regions, the region, handler
  and A20 part of cpu_do_int in its order, cpu_load_state as far as it clears interrupts and caches; the caches as the maps they
  were filled from.  The maps are those of `AddrSpaceModel`.
* Not modelled: other threads (the calls are documented as unsafe there), the A20 mask itself (C36), the XBOX_CPU build.
* Specification: `calls`, `statuses`, `waits`, `in_turn` (histories), `outline` (which regions are where), `with_updates`.
* Refuted: a call without interrupt overtakes waiting ones (`C88_refuted_overtaken`); aliases are judged by the map without the
  waiting changes (`C88_refuted_alias_of_waiting`, `C88_refuted_alias_of_destroyed`, the latter a dangling pointer); loading a
  snapshot strands waiting calls and updates (`C88_refuted_load`, `C89_refuted_load`); updates are served before waiting regions
  exist and so go to another region (`C89_refuted_waiting_region`) or to ports created meanwhile (`C89_refuted_replaced_ports`);
  port numbers are truncated (`C89_refuted_port_number`); a region split by a later one is updated in part (`C89_refuted_split`).

### Data and port accesses by region: `AccModel`, `AccSpec`, `AccProofs`, `AccProps` (C90, C91)
* Modelled: the kind and region kept in a TLB line by tlb_fill, mem_read_helper and mem_write_helper on a hit, mem_read_slow and
  mem_write_slow on a miss (also across pages, bytewise), as_memory_dispatch_read and as_memory_dispatch_write with the loop over
  a rom that ends inside the access, the calls of handlers (answers may depend on all earlier calls), as_io_dispatch_read and
  as_io_dispatch_write, port regions.
* Not modelled here: page walks and permissions (`MmuModel`), A20 (`A20Model`), watchpoints (`DrModel`), code invalidation
  (`CodeModel`), changes of the map between accesses (`RgModel`), log messages.
* Specification: `content`, `device_at`, `stored`, `each_read`, `each_write`, `phys`, `port_owner`.
* Partial: an access inside a page must stay inside one region, the map must have no alias, and ports are mapped in units of at
  least two.  Refuted beyond that: `C90_refuted_two_regions` (the neighbour is not asked, bytes beyond the ram are read and
  written), `C90_refuted_overrun` (outside the host buffer), `C90_refuted_rom_end` (zeros), `C90_refuted_wide_device` (10 and 16
  bytes end the process), `C90_refuted_two_rams` (all ram regions start at the same byte of the buffer),
  `C90_refuted_small_alias` (the result depends on the TLB), `C91_refuted_next_port`, `C91_refuted_odd_ports`.

### The context of translated code: `CtxModel`, `CtxSpec`, `CtxProofs`, `CtxProps` (C92)
* Modelled: the guest flags and CS base of a block, what the emitters of MOV Sreg, LTR, LLDT, MOV CRn, LMSW, CLTS, CLI, STI, CLD,
  STD, POPF, PUSH, a load, JMP, CALL and HLT read at translation and what their code does, which of them end the translation,
  which leave the block, the store of eip.  The helpers are those of `SegModel`.
* Not modelled here: the other instructions (they write neither hflags, nor the base of CS, nor the flags in the key, by reading
  every store to these fields in the emitter), general registers but ESP, writes to the code of the running block (`CodeModel`),
  interrupts between instructions (they leave the block in the state reached), the CS selector (C66), cpu_flags.
* Specification: `steps` (fetch at CS:EIP and execute with the context of that moment), `by_tables`, `by_mode`, `agrees`.
* Partial: MOV CR3 only as the last instruction executed.  `C92_shared_code` drops that for code all page tables map alike.
  Refuted beyond that: `C92_refuted_cr3` (MOV CR3 does not end the block, so the instructions after it are those of the old
  page tables).

### The ram buffer: `RamModel`, `RamSpec`, `RamProps` (C93)
* Modelled: the tests of the parameters, size and alignment of the buffer in 64 bit arithmetic, allocation and release in the
  ordinary build and in the xbox build on Linux (guard page, temporary file, four views, signal handler, the variables that
  outlive a cpu), each call of the system as a parameter that may fail, the range a snapshot copies.
* Not modelled: the cpu_t object and the translator's own memory, the name of the temporary file, the Windows xbox build, the
  rom views, bytes of the buffer (C33), several cpus at once (documented as not allowed).
* Specification: `holds` (what a process holds after some events, each release being of something held), `clean`, `inside`.
* Partial: sizes whose sum with the alignment fits 64 bits, alignments other than zero, snapshots of blocks that are aligned
  already, the xbox build with alignments up to a page and its two sizes.  Refuted beyond that: `C93_refuted_zero_alignment`,
  `C93_refuted_wrap`, `C93_refuted_snapshot` (every block the allocator did not align itself is read past its end),
  `C93_refuted_xbox_size` (closes file 0), `C93_refuted_xbox_alignment` (unmaps address 0), `C93_refuted_xbox_free` (unmaps
  behind the views), `C93_refuted_xbox_guard`, `C93_refuted_xbox_twice`.

### Host pointers: `PtrModel`, `PtrProps` (C94)
* Modelled: get_host_ptr from translation and region search to the index in the ram or rom buffer, get_ram_ptr, loads and stores
  of the client through them.
* Not modelled: the accessed bits and cached pages of the translation, translated code that such a store makes stale (the code
  watches guest writes only), pointers kept over a later change of the layout.
* Specification: `byte_cell`, `cell_of` and `peek` of `BlockSpec`, `points_to`.
* Refuted: `C94_refuted_alias` (an alias of ram gives null), `C94_refuted_outside` (a ram region larger than ram gives a pointer
  outside the buffer).

### Rom views of the xbox build: `RomModel`, `RomProps` (C95)
* Modelled: the parameters mem_init_region_rom tests, ipt_rom_init with every call of the system as a parameter that may fail,
  ipt_rom_deinit with the index it reads out of rom_fd, rom_fd and g_romsize over several roms, the destruction of the region on
  every error.
* Not modelled: the bytes copied, the name of the temporary file, the copies of a region that splitting and swapping in the region
  map make and destroy (each of them releases the views again), Windows.
* Specification: `holds` of `RamSpec`.
* Partial: what a rom takes and when it is reported.  Refuted: `C95_refuted_release` (destroying a rom reads the arrays at index
  -1, for every rom), `C95_refuted_failed` (so does nearly every failure), `C95_refuted_start` (another address: the client's
  buffer is unmapped and file 0 closed).

### Settings: `SetModel`, `SetSpec`, `SetProps`

Modelled: cpu_set_flags (interface.cpp 355-384), the other writers of cpu_flags (timed runs,
single steps, one instruction blocks, restores), the choice HLT makes at translation
(jit.cpp 6651), lookup and insertion of blocks, and the formatter, one static object per process.
Not modelled: what else is in a block, links between blocks (C31, C32), cpu_free, and the choice
between timed and untimed HLT (C69). A block is its key and the kind of HLT in it.
Finding: a new cpu, or cpu_set_flags on another one, changes the syntax every cpu prints in
(`C96_refuted_syntax`; `C96_printed` says which is printed). `C96_settings_partial` is the part that holds with one cpu. All theorems
are closed under the global context.

### Identification: `IdModel`, `IdProps`

Modelled: cpuid_helper (instructions.cpp 1461-1493), on top of RDMSR and WRMSR of `MsrModel`. A
#GP leaves the registers, an abort ends the history. Not modelled: the privilege checks of RDMSR
and WRMSR (`SysModel`), the meaning of the feature bits (setting PAE aborts:
`CrProps`), other writers of the revision (snapshots, C33). Finding: without an update CPUID does
not write the revision, so what a guest wrote there itself is reported (`C97_refuted_revision`).
All theorems are closed under the global context.

### Division: `DivModel`, `DivProps` (C09)
* Modelled: the six helpers with C++ integer promotion; signed overflow is a separate outcome.

### Stack and flag instructions: `StackModel`, `StackSpec`, `StackProofs*`, `StackProps` (C47-C49)
* Modelled: PUSH, POP, PUSHA, POPA, LEAVE, PUSHF, POPF, CLI, STI sequences on `HostModel`.
* Not modelled here: ENTER and segment register operands (see MoveModel).

### Address translation: `MmuModel`, `MmuSpec`, `MmuProofs`, `Tlb*`, `CrTlbProps`, `MmuProps` (C10-C15, C25)
* Modelled: the page walk, permission tables, accessed/dirty updates, both TLBs with an arbitrary
  victim choice, guest reads/writes/fetches with page crossing, host reads and writes, flushes.
* Specification: a two-level walk written from the architecture manual.
* Proof: invariant relating every TLB line to a walk, over all histories.
* Not modelled: page tables in MMIO or ROM, the region pointer in a line.

### Moves, near and real-mode far transfers, ENTER, ARPL: `MoveModel`, `MoveSpec`, `MoveProofs*`, `EnterProofs`, `ArplProofs`, `MoveRound`, `MoveProps` (C65-C68)
* Modelled: the sequences of MOV, LEA, MOV/PUSH/POP Sreg, LxS, near JMP/CALL/RET, far JMP/CALL/RETF in their
  branches outside protected mode, ENTER, ARPL. `HostModel` keeps the selectors (`gsel`) beside the bases.
* Specification: `does` and `transfers`: the list of accesses in order, the first that faults, the state after.
* Not modelled: the same instructions in protected mode (see SegModel for the helpers they call).

### Segmentation, far transfers, exceptions, control registers: `SegModel`, `SegSpec`, `SegBits`, `SegCall`, `SegFar`, `SegRet`, `SegProofs`, `SegProps`, `Mode*`, `Exc*`, `Far*`, `CrProps`, `SysProps`, `VerFlags` (C16-C24, C50, C51, C62-C64)
* Modelled: descriptor reading, segment loads, far CALL/JMP/RET/IRET in all modes, LLDT/LTR, CR
  writes, hflags, `cpu_raise_exception` in real, protected and VM86 mode, escalation to double fault
  and shutdown. Memory is any memory system with page faults.
* Not modelled: task switches and task gates (the code aborts), VME software interrupt redirection.

### Debug registers: `DrModel`, `DrProps` (C26, C53)
* Modelled: DR writes, the watchpoint lists, checks for data, I/O and fetch, MOV DR.
* Not modelled: host page protection used by the XBOX_CPU build.

### MSRs: `MsrModel`, `MsrProps` (C27). RDMSR and WRMSR over all indices and values.

### FPU: `FpuModel`, `FpuSpec`, `FpuProofs`, `FpuProps*`, `FxModel`, `FxProps` (C28-C30, C52)
* Modelled: stack, tags, status and control word of every x87 instruction the code implements, host
  arithmetic as an arbitrary function, FXSAVE/FXRSTOR images through a page map.
* Not modelled: the numerical results, MMX arithmetic. SSE is in `SseModel`.

### Code cache: `CodeModel`, `CodeProofs`, `CodeProps` (C31, C32); hooks: `HookModel`, `HookProps` (C38)
* Modelled: block lookup, page map, self-modifying code marks, invalidation, jump table, return
  stack buffer, flushes, purge, hook add/remove and the choice between hook and guest code.
* Not modelled: the code of a block, the effect of a host function.

### Allocator: `AllocModel`, `AllocProps` (C37)
* Modelled: the pool's free list inside the blocks, big blocks, the main loop as a client.
* Not modelled: unwind information, failure of the host allocation.

### I/O permission: `IoPrivModel`, `IoPrivProps` (C39). The check; a page fault of its loads is left out.

### Clock: `ClockModel`, `ClockProps` (C40). TSC, 128-bit scaling, snapshot offset, timeouts.

### Block transfers: `BlockModel`, `BlockSpec`, `BlockProofs`, `BlockProps` (C04)
* Modelled: `mem_read_block_*`, `mem_write_block_*`, `mem_fill_block_*`: the page loop, the region test
  in 32-bit arithmetic, aliases, ram and rom buffers with bounds. Leaving a buffer is undefined behaviour.
* Specification: where each byte lives (`cell_of`), and the last store to a cell wins.
* Proof: induction on the iterations of the loop; layouts come from any history of the region API.
* Not modelled: accessed/dirty updates of the translation, invalidation of translated code.

### A20 gate: `A20Model`, `A20Spec`, `A20Proofs`, `A20Props` (C36)
* Modelled: gate requests (immediate and deferred), the mask, its effect on dispatch, TLB fill and page walk.
* Proof: invariant over histories that mix gate requests and accesses; refutations for aliases, page
  walks and lost requests.
* Not modelled: a region map that changes during a history.

### Snapshots: `SnapModel`, `SnapProps` (C33)
* Modelled: `cpu_save_state`, `cpu_load_state`: every field stored, checked and restored.
* Proof: equality of the observable state after a round trip; refutations for halted state and ram size.
* Not modelled: regions, hooks, timers (neither function touches them).

### Interrupt requests: `IrqModel`, `IrqProps` (C35)
* Modelled: the shared interrupt word with its atomic accesses, the check at instruction boundaries, IF,
  the interrupt shadow, HLT. A schedule is a list of atomic steps of all threads.
* Proof: invariants over schedules; delivery and delay bounds; refutations.
* Not modelled: single-stepping, timeouts, the bodies of instructions.

### Suspension and snapshot threads: `SuspModel`, `SuspProps`, `SuspControl` (C34)
* Modelled: `cpu_run`, `cpu_suspend`, `cpu_resume`, the snapshot calls as program counters over shared flags.
* Proof: invariants over all interleavings; deadlock and race witnesses. `SuspControl` takes one
  controlling thread that alternates suspend and resume any number of times.
* Not modelled: weak memory orders, `cpu_exit`, calls from the cpu thread itself.

### Run calls, timeouts, HLT: `RunModel`, `RunProps` (C69, C70)
* Modelled: `cpu_run`, `cpu_run_until`, `cpu_start`, the main loop, the checks at the end of a block, `hlt_helper`, the
  abort, suspend and interrupt parts of `cpu_do_int`, which translated blocks have the check of the clock.
* The guest is an arbitrary choice at each step. A theorem about progress bounds the steps of the cpu thread.
* Not modelled: the debugger, trampolines, interrupts inside a block, a clock that wraps (see ClockModel).

## Assumptions

`Print Assumptions` follows every property theorem in the sources. Every theorem of MANIFEST.json
reports "Closed under the global context". The gate also lists axioms found in loaded standard
library modules; no theorem depends on them:
`Coq.ssr.ssrunder.Under_rel.{Over_rel, Under_rel, Under_relE, Under_rel_from_rel, over_rel, over_rel_done, under_rel_done}`
(opaque module fields of the ssreflect library that ships with Coq).

## Code that is not modelled at all

The tables of the decoder (Zydis), instruction selection in `cpu_translate`, the emitters not listed above, the
debugger's window, logging, the Windows-only and XBOX_CPU-only branches, the test programs.

## Testing the theorems

`seeded/LOG.jsonl` records edits of the model that mimic bugs: the definition, the edit, the claim
it breaks, the theorems whose proofs failed, and the theorems that were tightened because of it.
