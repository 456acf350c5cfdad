{
 "claims": [
  {
   "property": "C01",
   "status": "partial",
   "theorems": [
    "C01_most_recent_mapping_wins_partial",
    "C01_refuted",
    "C01_condition_is_exact",
    "C01_aligned_layouts_are_safe",
    "C01_memory_api",
    "C01_memory_api_status"
   ],
   "note": "The full property is false of the code: as.hpp lines 73 and 115 compare next_it->start instead of next_it->end, so a range ending on the first address of a longer region swallows that region (C01_refuted, ports 0x64-0x67 then 0x60-0x64). Proved for every history that avoids exactly that situation, proved that the situation always misbehaves, and proved that layouts in units of more than one address (any page layout) never meet it, up to the level of the memory API calls."
  },
  {
   "property": "C02",
   "status": "partial",
   "theorems": [
    "C02_region_map_is_partition_partial",
    "C02_refuted",
    "C01_condition_is_exact",
    "C01_aligned_layouts_are_safe"
   ],
   "note": "Same defect as C01: partition, containment and merging proved for every history avoiding the defect, refuted by a concrete history otherwise."
  },
  {
   "property": "C03",
   "status": "partial",
   "theorems": [
    "C03_alias_translates_every_offset_partial",
    "C03_fast_and_slow_path_agree",
    "C03_refuted_by_split",
    "C03_refuted_dangling"
   ],
   "note": "Holds while later calls stay outside the alias and its direct target; fast and slow path agree for every chain. False when a later region splits the alias (alias_offset is not adjusted) or when the aliased region is destroyed (dangling raw pointer)."
  },
  {
   "property": "C04",
   "status": "partial",
   "theorems": [
    "C04_layouts_are_coherent",
    "C04_read_returns_contents",
    "C04_write_stores_exactly",
    "C04_failure_position",
    "C04_transfer_completes",
    "C04_write_then_read_partial",
    "C04_plain_layouts_are_unshared",
    "C04_refuted_rom_write_succeeds",
    "C04_refuted_shared_storage",
    "C04_refuted_split_page",
    "C04_refuted_overrun"
   ],
   "note": "Reads return the contents of each address and actual_size counts the bytes; writes store exactly the first actual_size bytes and change nothing else, rom included; failures stop at a page boundary for the stated reason; the round trip holds for every layout in which no two addresses share ram. Refuted: rom writes report success, two ram regions share storage, a page split between ram regions fails, ram regions larger than the buffer overrun it. Translation is an arbitrary page-wise function; accessed/dirty updates and code invalidation are not part of this model."
  },
  {
   "property": "C05",
   "status": "proved",
   "theorems": [
    "C05_write_read_32",
    "C05_write_read_16",
    "C05_reserved_bit_always_set",
    "C05_guest_restore"
   ],
   "note": "The hypothesis that the reserved bit 1 is set is proved to hold after any history of flag writes from reset."
  },
  {
   "property": "C06",
   "status": "proved",
   "theorems": [
    "C06_add",
    "C06_adc",
    "C06_xadd",
    "C06_inc",
    "C46_lahf",
    "C08_setcc",
    "C08_cmovcc",
    "C08_jcc",
    "C48_pushf"
   ],
   "note": "Result and flags of every addition form; read_eflags, LAHF, the sixteen conditions and PUSHF read the same flags (C46_lahf, C08_*, C48_pushf)."
  },
  {
   "property": "C07",
   "status": "partial",
   "theorems": [
    "C07_sub",
    "C07_sbb",
    "C07_cmp",
    "C07_neg",
    "C07_dec",
    "C07_cmpxchg_partial",
    "C07_refuted_cmpxchg"
   ],
   "note": "All but CMPXCHG are as specified. CMPXCHG computes destination minus accumulator, so after a failed comparison CF, OF, SF, AF and PF can be wrong (C07_refuted_cmpxchg); ZF and the exchange are right (C07_cmpxchg_partial)."
  },
  {
   "property": "C08",
   "status": "proved",
   "theorems": [
    "C08_setcc",
    "C08_cmovcc",
    "C08_jcc"
   ],
   "note": "All sixteen conditions."
  },
  {
   "property": "C09",
   "status": "partial",
   "theorems": [
    "C09_div",
    "C09_idiv_partial",
    "C09_refuted_host_trap"
   ],
   "note": "DIV is exact or #DE for all operands. IDIV likewise except the smallest dividend divided by -1 at 16 and 32 bits, where the C++ division overflows (C09_refuted_host_trap): the emulator process traps instead of delivering #DE."
  },
  {
   "property": "C10",
   "status": "partial",
   "theorems": [
    "C10_walk_partial",
    "C10_guest_partial",
    "C10_refuted_supervisor_write"
   ],
   "note": "False in full: on a supervisor-only page whose two levels disagree about writing, a supervisor write with CR0.WP set succeeds. Proved exactly for all other pages, for walks and for whole guest accesses after any history."
  },
  {
   "property": "C11",
   "status": "partial",
   "theorems": [
    "C11_success",
    "C11_fault",
    "C11_fault_user_bit_partial",
    "C11_refuted_system_access",
    "C11_unpaged"
   ],
   "note": "Success and faults proved for all tables and registers; the U bit of the error code is the CPL even for system accesses at CPL 3, which is refuted against the architecture."
  },
  {
   "property": "C12",
   "status": "partial",
   "theorems": [
    "C12_hits_agree",
    "C12_refuted_unaligned_alias"
   ],
   "note": "Proved for every history when physical address correction works page by page (uniform); false when an alias region maps to an unaligned target."
  },
  {
   "property": "C13",
   "status": "partial",
   "theorems": [
    "C13_fetch",
    "C13_data_partial",
    "C13_refuted_duplicate_line",
    "C13_refuted_crossing_reads"
   ],
   "note": "Proved for code fetches after any history; for data false in general (duplicate lines survive), proved for histories without guest writes and page-crossing reads."
  },
  {
   "property": "C14",
   "status": "partial",
   "theorems": [
    "C14_guest_partial",
    "C14_refuted_host_write"
   ],
   "note": "Proved for guest writes in histories without host writes; false after a host write that hits a clean line."
  },
  {
   "property": "C15",
   "status": "proved",
   "theorems": [
    "C15_access"
   ],
   "note": "For page-uniform address correction (see C12)."
  },
  {
   "property": "C16",
   "status": "partial",
   "theorems": [
    "C16_decode",
    "C16_limit",
    "C16_refuted_wrap"
   ],
   "note": "Proved for tables that do not wrap around the end of the linear space; C16_refuted_wrap shows a valid selector refused when base + limit wraps."
  },
  {
   "property": "C17",
   "status": "partial",
   "theorems": [
    "C17_data_implemented",
    "C17_data_partial",
    "C17_refuted_rpl",
    "C17_stack"
   ],
   "note": "SS proved exactly. For DS/ES/FS/GS the exact outcome is proved for the implemented rule (CPL <= DPL or RPL <= DPL) and for the architectural one when RPL = CPL; C17_refuted_rpl: ring 3 loads a ring 0 segment with RPL 0."
  },
  {
   "property": "C18",
   "status": "proved",
   "theorems": [
    "C18_retf",
    "C18_retf_imm",
    "C18_iret",
    "C18_iret_vm86"
   ],
   "note": "For every memory system with page faults. A return to VM86 mode has CPL 3 whatever the popped CS."
  },
  {
   "property": "C19",
   "status": "partial",
   "theorems": [
    "C19_partial",
    "C19_refuted_vm"
   ],
   "note": "Proved for IRETs that leave VM unchanged; C19_refuted_vm: at ring 3 a popped image with VM set changes VM, IOPL and IF."
  },
  {
   "property": "C20",
   "status": "partial",
   "theorems": [
    "C20_partial",
    "C20_refuted_kept",
    "C20_refuted_dropped"
   ],
   "note": "The code takes bits 0-1 of the hidden flags (base bits 16-17) for the DPL; proved when they equal the DPL, refuted in both directions otherwise."
  },
  {
   "property": "C21",
   "status": "partial",
   "theorems": [
    "C21_call_partial",
    "C21_refuted_gate16",
    "C21_refuted_jmp",
    "C21_jmp_partial"
   ],
   "note": "CALL through a 32-bit gate proved; a 16-bit gate keeps the upper offset half (refuted); JMP through a gate uses the instruction offset and the gate selector (refuted), its privilege checks are proved."
  },
  {
   "property": "C22",
   "status": "partial",
   "theorems": [
    "C22_history_partial",
    "C22_sync_protected",
    "C22_boot",
    "C22_refuted_far_jump",
    "C22_refuted_iret",
    "C22_refuted_vm86_interrupt",
    "C22_refuted_sync"
   ],
   "note": "Every history of segment loads, control register writes, far transfers, interrupts and returns from the reset state keeps the derived flags equal to what cpu_sync_state computes, as far as the code does; the four places where it does not (far jump, IRET, interrupt from virtual-8086 mode, cpu_sync_state itself in real mode) are each refuted by a concrete history."
  },
  {
   "property": "C23",
   "status": "proved",
   "theorems": [
    "C23_table",
    "C23_terminates",
    "C23_shutdown",
    "C23_failed_attempt",
    "C23_fresh"
   ],
   "note": "Escalation table for all vector pairs, bounded nesting (at most five attempts), shutdown only after a failed double fault, failed attempts leave registers unchanged, a completed delivery clears the memory of earlier exceptions."
  },
  {
   "property": "C24",
   "status": "partial",
   "theorems": [
    "C24_entry_partial",
    "C24_real",
    "C24_refuted_16bit_gate",
    "C24_refuted_code_type",
    "C24_refuted_vm86_selector",
    "C24_refuted_tss_rights"
   ],
   "note": "Frame, masks, stack switch and privilege level proved for every completed delivery in protected and real mode, except INT n in virtual 8086 mode with CR4.VME. Refuted: upper offset half of 16-bit gates, gates to data segments, selectors cut to 12 bits from virtual 8086 mode, TSS read with user rights. Missing: one theorem for the round trip through IRET."
  },
  {
   "property": "C25",
   "status": "proved",
   "theorems": [
    "C25_refused",
    "C25_cr0",
    "C25_cr3",
    "C25_cr4",
    "C25_tlb",
    "C12_hits_agree"
   ],
   "note": "Refusal, stored value and flushes for every old and new value; C25_tlb says what the TLBs hold afterwards, C12_hits_agree extends this to histories. Setting CR4.PAE ends the emulation, as in the code."
  },
  {
   "property": "C26",
   "status": "partial",
   "theorems": [
    "C26_data",
    "C26_io_partial",
    "C26_fetch_partial",
    "C26_fetch_complete",
    "C26_refuted_fetch",
    "C26_refuted_wrap",
    "C26_refuted_io_stale",
    "C26_refuted_io_high",
    "C26_refuted_fetch_all"
   ],
   "note": "Data accesses are exact for every history and access below the top of memory. I/O accesses are exact if no enabled I/O breakpoint is moved while CR4.DE is clear. Fetches miss no breakpoint, but also fire for data watchpoints, report only the first match, and accesses that wrap past 2^32 are missed; each is refuted with a witness."
  },
  {
   "property": "C27",
   "status": "partial",
   "theorems": [
    "C27_reserved",
    "C27_readback",
    "C27_readback_masked",
    "C27_frame",
    "C27_accepts",
    "C27_pat_partial",
    "C27_refuted_pat",
    "C27_refuted_types",
    "C27_refuted_readback",
    "C27_refuted_write_back",
    "C27_refuted_unknown"
   ],
   "note": "Reserved bits, readback, frame and acceptance are proved for every index and value. The code differs from the documentation for the last PAT entry, range register memory types, APIC base, machine check controls, EBL_CR_POWERON write-back, and unknown indices, each refuted with a witness."
  },
  {
   "property": "C28",
   "status": "partial",
   "theorems": [
    "C28_load",
    "C28_load_register_partial",
    "C28_refuted_load_register",
    "C28_store_register",
    "C28_store_memory_partial",
    "C28_refuted_store_memory",
    "C28_compare",
    "C28_arith_register_partial",
    "C28_refuted_arith_pop",
    "C28_compute_st0",
    "C28_change_sign",
    "C28_trig",
    "C28_refuted_host_control",
    "C28_sincos",
    "C28_patan",
    "C28_exchange",
    "C28_traps_partial",
    "C28_refuted_trap",
    "C28_refuted_no_ne",
    "C28_history",
    "C28_tags_agree_partial",
    "C28_refuted_tags_fxch",
    "C28_refuted_tags_fpatan"
   ],
   "note": "Push, pop and stack fault responses hold for the listed instruction forms; refuted for FLD ST(i) of an empty register, FST m underflow, pop forms of arithmetic, FXCH/FPATAN tags, FCHS with EM/TS and CR0.NE=0. FBLD, FPREM and other unimplemented x87 instructions do not exist in the code."
  },
  {
   "property": "C29",
   "status": "proved",
   "theorems": [
    "C29_tag_word",
    "C29_status_word"
   ],
   "note": "Both words, with the frame."
  },
  {
   "property": "C30",
   "status": "partial",
   "theorems": [
    "C30_save",
    "C30_save_fault",
    "C30_footprint",
    "C30_refuted_layout",
    "C30_layout_partial",
    "C30_restore_atomic",
    "C30_roundtrip",
    "C30_roundtrip_tags"
   ],
   "note": "Image written, fault behaviour, restore from any image location and round trip proved; the register slots of the image are by register number instead of stack position, so the documented layout is refuted for TOP <> 0."
  },
  {
   "property": "C31",
   "status": "partial",
   "theorems": [
    "C31_marked",
    "C31_write_partial",
    "C31_host_write_partial",
    "C31_cross_partial",
    "C31_leave_partial",
    "C31_refuted_cross",
    "C31_refuted_running",
    "C31_refuted_return",
    "C31_refuted_full",
    "C31_refuted_undecodable",
    "C31_refuted_alias"
   ],
   "note": "Proved for all histories: a guest write inside one page, or a host write, removes exactly the overlapping blocks and no lookup, jump or predicted return reaches one of them, provided blocks decode fully, no call ends a page and (guest writes) the cache has never been full. Refuted in the excluded cases, for page crossing writes, for host writes through an alias, and for leaving the running block."
  },
  {
   "property": "C32",
   "status": "partial",
   "theorems": [
    "C32_lookup",
    "C32_jump",
    "C32_link_total",
    "C32_return_partial",
    "C32_fixed_mapping_partial",
    "C32_refuted_alias",
    "C32_refuted_remap",
    "C32_refuted_return"
   ],
   "note": "Proved for all histories: lookups match physical address, base and mode; jumps reach a live block for the same virtual address, base and mode; link assertions never fail; predicted returns hit only a matching call (no call at a page end); with one injective mapping both addresses match. Refuted: aliased virtual addresses, remapping, returns after a call at a page end."
  },
  {
   "property": "C33",
   "status": "partial",
   "theorems": [
    "C33_save_changes_nothing",
    "C33_round_trip_partial",
    "C33_rejected",
    "C33_refuted_halted",
    "C33_halted_kept",
    "C33_refuted_ram_size",
    "C33_pending_dropped"
   ],
   "note": "Proved: saving changes nothing; restoring gives back registers, MSRs, lazy flags, FPU/SSE mode words, mode flags, microcode flag, A20 mask and ram, with breakpoints rebuilt, the counter continued and caches dropped; wrong id or size is refused unchanged. Refuted: the halted state is never restored, the ram size is not checked (accepted snapshot overruns the ram buffer). Pending requests are dropped. Missing: the thread protocol (C34)."
  },
  {
   "property": "C34",
   "status": "partial",
   "theorems": [
    "C34_stays_suspended_partial",
    "C34_refuted_still_running",
    "C34_suspend_is_prompt_partial",
    "C34_suspend_resume_return",
    "C34_snapshot_returns_partial",
    "C34_refuted_snapshot_deadlocks",
    "C34_refuted_snapshot_deadlocks_reached",
    "C34_refuted_overlap",
    "C34_refuted_copy_while_running",
    "C34_two_snapshots_partial",
    "C34_controlled_held",
    "C34_controlled_suspend",
    "C34_controlled_resume",
    "C34_controlled_running",
    "C34_controlled_calls",
    "C34_copy_begins_suspended",
    "C34_snapshot_not_running",
    "C34_snapshot_excludes_resume"
   ],
   "note": "Proved for every interleaving and any number of threads: a suspended cpu that is not just leaving an earlier suspension executes nothing until cpu_resume; a new suspend request takes effect within one instruction unless an earlier suspension is still being handled; cpu_suspend and cpu_resume return when no snapshot is in progress; a snapshot of a suspended cpu returns; two snapshots exclude each other. Refuted: a snapshot of a running cpu always deadlocks with itself; a suspend following a resume can be lost while cpu_is_suspended still answers yes; three snapshots overlap; the guest can run while a snapshot copies."
  },
  {
   "property": "C35",
   "status": "partial",
   "theorems": [
    "C35_line_kept",
    "C35_not_spurious",
    "C35_refuted_line_low",
    "C35_delay_partial",
    "C35_delivered",
    "C35_prompt",
    "C35_shadow",
    "C35_if_clear",
    "C35_halted",
    "C35_halt_wakes",
    "C35_refuted_starved",
    "C35_refuted_after_exception",
    "C35_hlt"
   ],
   "note": "Proved for every interleaving: the line changes only by the two line calls; a delivery was preceded, at the same boundary, by a look at the line with the line raised and IF set; with nothing else pending it is delivered at that boundary; in general it is put off by at most one instruction per other request, SS load or shadow; a halted cpu runs nothing until delivery or exit, and wakes. Refuted: delivered while the line is low (lowered after the look), starved while other requests keep coming, and the boundary after an exception is skipped."
  },
  {
   "property": "C36",
   "status": "partial",
   "theorems": [
    "C36_last_request_partial",
    "C36_region_partial",
    "C36_walk_partial",
    "C36_accesses_partial",
    "C36_refuted_lost_request",
    "C36_refuted_alias_target",
    "C36_refuted_alias_source",
    "C36_refuted_walk"
   ],
   "note": "Proved for maps without aliases: the mask in force after any sequence of requests is the specified one, hits and misses reach the region and the address of the gated address, and in any history mixing accesses, fetches and requests every byte goes where the gated page walk says. Refuted: the mask is applied after alias resolution (alias whose target or own address has bit 20 set), page walks use the region of the unmasked address, and a request made by another thread while an earlier one is being applied is lost. Not modelled here: the code cache flush (CodeModel)."
  },
  {
   "property": "C37",
   "status": "partial",
   "theorems": [
    "C37_disjoint",
    "C37_size",
    "C37_available",
    "C37_reuse",
    "C37_full_again",
    "C37_loop_never_exhausts",
    "C37_refuted_non_pooled",
    "C37_refuted_nested",
    "C37_refuted_double_free"
   ],
   "note": "Proved for all histories of allocations (any size), frees, writes into live blocks and Destroy: live blocks are disjoint, large enough, a freed block is the next one returned, the pool fails only with 32768 live blocks, it is full again after destroying all, and the main loop never exhausts it. Refuted: the block of auxiliary functions ignores the requested size; nested runs exhaust the pool or free a block twice."
  },
  {
   "property": "C38",
   "status": "partial",
   "theorems": [
    "C38_added_partial",
    "C38_removed_partial",
    "C38_not_found",
    "C38_refuted_readonly",
    "C38_refuted_modes",
    "C38_refuted_replace"
   ],
   "note": "Over an injective address mapping and any history of executions, writes, flushes and hook calls: a new hook is called in every mode and the trampoline runs the guest code; a removed hook is never called again if it was executed in one mode only. Refuted: hook_remove fails on a read only page with WP set, a hook executed in two modes stays, a second hook_add has no effect after the first hook ran. The host function's effect is not modelled."
  },
  {
   "property": "C39",
   "status": "partial",
   "theorems": [
    "C39_privileged",
    "C39_small_tss",
    "C39_effect_partial",
    "C39_refuted",
    "C39_refuted_registers"
   ],
   "note": "Unrestricted accesses pass, a small TSS refuses. The bitmap lookup is characterised exactly under the assumption that two scratch registers survive the load; it is off by 102 bytes, so the property is refuted in both directions, and the scratch registers are not preserved either."
  },
  {
   "property": "C40",
   "status": "partial",
   "theorems": [
    "C40_value",
    "C40_monotone",
    "C40_rate",
    "C40_snapshot",
    "C40_privilege",
    "C40_run_until",
    "C40_windows",
    "C40_timeout_partial",
    "C40_refuted_timeout"
   ],
   "note": "The value, rate, monotonicity, snapshot continuity and privilege of the counter are proved for every host frequency, and the timeout is exact in host ticks. In real time a timeout may come up to one microsecond early because the host time is cut to microseconds."
  },
  {
   "property": "C41",
   "status": "partial",
   "theorems": [
    "C41_region_arguments_partial",
    "C41_refuted_wrap",
    "C41_refuted_destroy_zero",
    "C41_ports",
    "C41_alias",
    "C41_refused"
   ],
   "note": "Holds when start+size does not exceed 2^64 and size is not 0. start+size-1 wraps in 64 bits otherwise, and mem_destroy_region does not reject size 0 and unmaps the rest of the region."
  },
  {
   "property": "C42",
   "status": "proved",
   "theorems": [
    "C42_fault_leaves_no_trace",
    "C42_unary_fault"
   ],
   "note": "For the modelled integer instructions."
  },
  {
   "property": "C43",
   "status": "proved",
   "theorems": [
    "C43_logic",
    "C43_not"
   ],
   "note": ""
  },
  {
   "property": "C44",
   "status": "proved",
   "theorems": [
    "C44_cmpxchg8b"
   ],
   "note": ""
  },
  {
   "property": "C45",
   "status": "proved",
   "theorems": [
    "C45_effective_address"
   ],
   "note": ""
  },
  {
   "property": "C46",
   "status": "proved",
   "theorems": [
    "C46_lahf",
    "C46_sahf",
    "C46_carry",
    "C46_direction"
   ],
   "note": ""
  },
  {
   "property": "C47",
   "status": "partial",
   "theorems": [
    "C47_push",
    "C47_pop_register",
    "C47_pop_memory_partial",
    "C47_refuted_pop_memory",
    "C47_leave_partial",
    "C47_refuted_leave_fault",
    "C47_pusha",
    "C47_popa"
   ],
   "note": "Holds for PUSH, POP register, PUSHA and POPA. POP m computes its address before ESP is incremented (C47_refuted_pop_memory; true when the operand does not use ESP), and a faulting LEAVE has already written ESP (C47_refuted_leave_fault). ENTER is C67, the segment register forms are in C65."
  },
  {
   "property": "C48",
   "status": "partial",
   "theorems": [
    "C48_pushf",
    "C48_popf",
    "C48_popf_privilege",
    "C48_trapped",
    "C48_refuted_vme_popf"
   ],
   "note": "Proved outside virtual-8086 mode with extensions. There a 16-bit POPF raises #GP although the image has IF clear, when IF and VIP are set (C48_refuted_vme_popf)."
  },
  {
   "property": "C49",
   "status": "partial",
   "theorems": [
    "C49_cli",
    "C49_sti",
    "C49_virtual_partial",
    "C49_refuted_missing_fault"
   ],
   "note": "IF handling proved for all modes. VIF is used whenever VME or PVI is set, whatever the mode: C49_refuted_missing_fault; as the architecture when (VME or PVI) agrees with the mode."
  },
  {
   "property": "C50",
   "status": "partial",
   "theorems": [
    "C50_target_partial",
    "C50_refuted_dpl"
   ],
   "note": "All checks but the DPL of a nonconforming segment, which is missing in the code (C50_refuted_dpl)."
  },
  {
   "property": "C51",
   "status": "partial",
   "theorems": [
    "C51_jmp",
    "C51_direct",
    "C51_gate_partial",
    "C51_refuted_conforming"
   ],
   "note": "Proved for JMP, direct CALL and gates to nonconforming segments; C51_refuted_conforming: a gate to a conforming DPL 0 segment raises ring 3 to ring 0 without a stack switch."
  },
  {
   "property": "C52",
   "status": "partial",
   "theorems": [
    "C52_partial",
    "C52_refuted",
    "C52_clear",
    "C52_reset",
    "C52_control_word"
   ],
   "note": "Refuted for computations, which replace the flags; proved for SF and for all instructions that take no flags from the host."
  },
  {
   "property": "C53",
   "status": "proved",
   "theorems": [
    "C53_gd",
    "C53_privilege",
    "C53_readback"
   ],
   "note": "MOV to and from debug registers, the GD trap, privilege, DR4/DR5 aliases, readback and isolation."
  },
  {
   "property": "C54",
   "status": "proved",
   "theorems": [
    "C54_shift",
    "C54_double_shift"
   ],
   "note": "All operand forms, counts and widths; double shifts for counts up to the width (above it the architecture leaves the result undefined)."
  },
  {
   "property": "C55",
   "status": "proved",
   "theorems": [
    "C55_rotate",
    "C55_unique"
   ],
   "note": "All four rotates; the description is shown to determine value and carry."
  },
  {
   "property": "C56",
   "status": "partial",
   "theorems": [
    "C56_bit_test_partial",
    "C56_bit_string_refuted"
   ],
   "note": "Proved for register operands, immediate indices and indices inside the word. Refuted for a memory operand with a larger index in a register: host memory is accessed instead of the bit string."
  },
  {
   "property": "C57",
   "status": "proved",
   "theorems": [
    "C57_mul",
    "C57_imul",
    "C57_imul_register",
    "C57_imul_immediate",
    "C57_extend",
    "C57_convert",
    "C57_bswap"
   ],
   "note": "MUL, IMUL in its three forms, MOVSX, MOVZX, CBW, CWDE, CWD, CDQ, BSWAP."
  },
  {
   "property": "C58",
   "status": "proved",
   "theorems": [
    "C58_aaa",
    "C58_aas",
    "C58_aad",
    "C58_aam",
    "C58_daa_das"
   ],
   "note": "AAA, AAS, AAD, AAM (including a zero divisor), DAA, DAS against the manual's pseudo code."
  },
  {
   "property": "C59",
   "status": "partial",
   "theorems": [
    "C59_scan_partial",
    "C59_zero_source_refuted"
   ],
   "note": "Index and ZF proved. Refuted for a zero source: the destination receives a leftover host register."
  },
  {
   "property": "C60",
   "status": "partial",
   "theorems": [
    "C60_loop",
    "C60_jcxz",
    "C60_bound",
    "C60_xlat_partial",
    "C60_xlat_refuted"
   ],
   "note": "LOOP, LOOPE, LOOPNE, JCXZ, BOUND proved. XLAT proved except for 16-bit offsets that wrap, where it is refuted."
  },
  {
   "property": "C61",
   "status": "proved",
   "theorems": [
    "C61_string",
    "C61_repeat",
    "C61_restart",
    "C61_fill",
    "C61_copy",
    "C61_compare"
   ],
   "note": "Widths 8, 16, 32. Whether an access faults is fixed during one run of the instruction; interrupts are not taken inside it."
  },
  {
   "property": "C62",
   "status": "partial",
   "theorems": [
    "C62_direct_partial",
    "C62_refuted_direct16",
    "C62_gate_same",
    "C62_gate_inner_partial",
    "C62_refuted_param_width",
    "C62_retf_partial",
    "C62_refuted_retf_params",
    "C62_iret_partial",
    "C62_round_trip"
   ],
   "note": "Direct calls except 16-bit ones on a 32-bit stack, gate calls except parameters across stacks of different size, RETF except an immediate with a ring change, IRET except 16-bit ones on a 32-bit stack. Each exception is refuted. The CALL/RETF round trip is for direct 32-bit calls on flat memory."
  },
  {
   "property": "C63",
   "status": "partial",
   "theorems": [
    "C63_cr0",
    "C63_lmsw",
    "C63_clts",
    "C63_cr2_cr3",
    "C63_cr4_partial",
    "C63_refuted_pae",
    "C63_privileged"
   ],
   "note": "Every operand and state. Refuted for CR4.PAE: CPUID advertises PAE, the reserved mask lets it through, and setting it aborts the process. The mode flags derived from CR0/CR4 are C22."
  },
  {
   "property": "C64",
   "status": "partial",
   "theorems": [
    "C64_lldt_partial",
    "C64_refuted_lldt_ti",
    "C64_ltr",
    "C64_verify",
    "C64_flags"
   ],
   "note": "Every selector, descriptor and memory system. Refuted for LLDT with a selector into the LDT itself, which is accepted."
  },
  {
   "property": "C65",
   "status": "partial",
   "theorems": [
    "C65_mov",
    "C65_lea",
    "C65_mov_from_segment_partial",
    "C65_mov_to_segment_partial",
    "C65_push_segment",
    "C65_pop_segment",
    "C65_load_far_pointer",
    "C65_refuted_mov_r16_segment",
    "C65_refuted_mov_segment_m16"
   ],
   "note": "MOV, LEA, PUSH/POP Sreg, LxS proved. Refuted: MOV r16,Sreg clobbers the upper half of the register; MOV Sreg,m16 with a 32-bit operand size reads four bytes. The _partial theorems state what holds for these two."
  },
  {
   "property": "C66",
   "status": "partial",
   "theorems": [
    "C66_jmp_relative",
    "C66_jmp_indirect",
    "C66_call_relative",
    "C66_call_indirect",
    "C66_ret",
    "C66_jmp_far",
    "C66_jmp_far_indirect",
    "C66_retf",
    "C66_call_far_partial",
    "C66_call_far_indirect_partial",
    "C66_call_return",
    "C66_call_indirect_return",
    "C66_call_far_return",
    "C66_refuted_call_far_fault",
    "C66_refuted_stale_selector"
   ],
   "note": "All forms proved and the CALL/RET round trip. Far CALL is partial: refuted when the second push faults (ESP has moved) and when the block was translated under another selector with the same base."
  },
  {
   "property": "C67",
   "status": "partial",
   "theorems": [
    "C67_enter_partial",
    "C67_refuted_display_wrap"
   ],
   "note": "Proved for every level, size and fault position, if the display does not wrap below offset 0 of a 16-bit stack; refuted there."
  },
  {
   "property": "C68",
   "status": "partial",
   "theorems": [
    "C68_arpl",
    "C68_result",
    "C68_vm86",
    "C68_refuted_real_mode"
   ],
   "note": "Result, flags, accesses and #UD in virtual-8086 mode proved; refuted in real mode, where it executes."
  },
  {
   "property": "C69",
   "status": "partial",
   "theorems": [
    "C69_not_early",
    "C69_returns_partial",
    "C69_refuted_old_code",
    "C69_refuted_exceptions",
    "C69_free_partial",
    "C69_refuted_not_free",
    "C69_run_refused",
    "C69_exit_once",
    "C69_exit_partial"
   ],
   "note": "Proved: a timeout is never early, in any history. Return within a bounded number of steps holds if cpu_run was never used and the guest does not raise exceptions forever; both conditions are needed (C69_refuted_old_code: code translated by cpu_run has no check of the clock; C69_refuted_exceptions). After a return every thread can take a snapshot unless the cpu is halted: a timeout in a run that began halted leaves the cpu owned (C69_refuted_not_free)."
  },
  {
   "property": "C70",
   "status": "partial",
   "theorems": [
    "C70_waits_partial",
    "C70_refuted_forgotten",
    "C70_refuted_crash",
    "C70_wakes",
    "C70_masked"
   ],
   "note": "The wait survives timeouts, snapshots and blocking pauses (C70_waits_partial). A pause that returns and cpu_exit lose it (C70_refuted_forgotten), and a page fault while an interrupt wakes a run that began halted ends the host program (C70_refuted_crash)."
  },
  {
   "property": "C71",
   "status": "proved",
   "theorems": [
    "C71_in",
    "C71_out",
    "C71_string",
    "C71_repeat",
    "C71_privileged",
    "C71_small_tss",
    "C71_rep_ins",
    "C71_rep_outs"
   ],
   "note": "IN, OUT, INS and OUTS with and without REP, for every device, fault and answer of the privilege check; closed forms for whole repetitions of code that may use all ports. What the check answers is C39 (partly refuted there)."
  },
  {
   "property": "C72",
   "status": "partial",
   "theorems": [
    "C72_loads",
    "C72_stores",
    "C72_gate_partial",
    "C72_refuted_ud_priority"
   ],
   "note": "Values, memory, alignment and faults of all ten instructions are proved in full. The availability test is proved except when TS is set together with EM or a clear OSFXSR: then the code raises #NM where #UD is documented (refuted)."
  },
  {
   "property": "C73",
   "status": "partial",
   "theorems": [
    "C73_arith_partial",
    "C73_cvttss2si_partial",
    "C73_arith_latest_partial",
    "C73_reciprocals_partial",
    "C73_in_step_reset",
    "C73_in_step_fxrstor",
    "C73_in_step_kept",
    "C73_refuted_sticky",
    "C73_refuted_sub_rounding",
    "C73_refuted_sub_exception",
    "C73_refuted_alignment"
   ],
   "note": "ADD, MUL and CVTTSS2SI proved when no MXCSR flag was set before; otherwise the old flags are lost (refuted), all else is proved. SUB ignores the guest rounding mode, raises no exceptions and dirties the host MXCSR (refuted). Packed memory operands are never checked for alignment (refuted). RCP and RSQRT proved apart from alignment."
  },
  {
   "property": "C74",
   "status": "partial",
   "theorems": [
    "C74_tables",
    "C74_selectors_partial",
    "C74_round_trip",
    "C74_refuted_register_size",
    "C74_refuted_real_mode"
   ],
   "note": "Refuted: SLDT and STR to a register with a 16-bit operand clear its upper half; SLDT and STR are not #UD in real mode. The rest is proved for all addressing forms and faults."
  },
  {
   "property": "C75",
   "status": "partial",
   "theorems": [
    "C75_unprivileged",
    "C75_system_partial",
    "C75_refuted_real_mode"
   ],
   "note": "Refuted: LLDT, LTR, VERR and VERW are not #UD in real mode. Everything else is proved; what the system operations do is the subject of C13, C27, C40, C63, C64 and C70."
  },
  {
   "property": "C76",
   "status": "partial",
   "theorems": [
    "C76_into",
    "C76_protected_partial",
    "C76_refused",
    "C76_real",
    "C76_real_refused",
    "C76_vm86",
    "C76_redirect_partial",
    "C76_not_redirected",
    "C76_refuted_fault_eip",
    "C76_refuted_cr2",
    "C76_refuted_vif"
   ],
   "note": "INT3, INT n and INTO enter their handler, are refused or are redirected as stated. Refuted: the saved address of a refused interrupt, CR2 after INT 14, VIF after a redirected INT below IOPL 3. Missing from the model: an attached debugger."
  },
  {
   "property": "C77",
   "status": "partial",
   "theorems": [
    "C77_resume_partial",
    "C77_refuted_vm86_df"
   ],
   "note": "Delivery through a 32-bit gate, any handler that keeps the frame, and IRET come back to the same instruction, segments, level, stack and flags. Refuted: DF (and RF) of a virtual 8086 task. Missing: 16-bit gates and stacks, faulting memory."
  },
  {
   "property": "C78",
   "status": "partial",
   "theorems": [
    "C78_start",
    "C78_session_partial",
    "C78_pause_partial",
    "C78_refuted_guest_writes_int3",
    "C78_refuted_guest_reads",
    "C78_refuted_page_tables",
    "C78_refuted_edit",
    "C78_refuted_mode_switch",
    "C78_refuted_two_addresses"
   ],
   "note": "Proved for every session in which the guest does not write 0xCC over a breakpoint or change the page tables, the user does not edit a byte under a breakpoint, no two breakpoints share a byte, and breakpoints are not overwritten before a mode switch; each excluded case is refuted."
  },
  {
   "property": "C79",
   "status": "partial",
   "theorems": [
    "C79_hit_partial",
    "C79_rearmed",
    "C79_temporary",
    "C79_kinds_kept",
    "C79_forwarded",
    "C79_refuted_guest_int3",
    "C79_refuted_guest_hw_breakpoint",
    "C79_refuted_mistaken"
   ],
   "note": "Proved for breakpoints of the debugger; refuted for INT3 and debug exceptions of the guest."
  },
  {
   "property": "C80",
   "status": "partial",
   "theorems": [
    "C80_update",
    "C80_settings_partial",
    "C80_refuted_instruction_breakpoints"
   ],
   "note": "Data and I/O watchpoints and breakpoints survive; instruction breakpoints in the debug registers do not (refuted)."
  },
  {
   "property": "C81",
   "status": "partial",
   "theorems": [
    "C81_block_partial",
    "C81_history_partial",
    "C81_refuted_forever",
    "C81_refuted_recorded",
    "C81_refuted_adjacent_regions",
    "C81_refuted_early_dr6",
    "C81_breakpoint"
   ],
   "note": "Proved from a state in which no page fault is on record and for histories in which the page after executed code can be fetched; refuted otherwise, and for instructions across region boundaries and the moment DR6 is set."
  },
  {
   "property": "C82",
   "status": "partial",
   "theorems": [
    "C82_total",
    "C82_one_page",
    "C82_single",
    "C82_mode",
    "C82_refuted_undecodable_tail"
   ],
   "note": "Proved for the decoded instructions of a block; refuted for undecodable bytes at its end."
  },
  {
   "property": "C83",
   "status": "partial",
   "theorems": [
    "C83_listing_partial",
    "C83_refuted_page_end",
    "C83_refuted_uninitialised"
   ],
   "note": "Proved up to the first instruction that ends with its page and when the uninitialised variable does not read as a fault; refuted otherwise."
  },
  {
   "property": "C84",
   "status": "partial",
   "theorems": [
    "C84_arith_register",
    "C84_arith_memory",
    "C84_compare",
    "C84_compare_memory",
    "C84_sqrt_patan",
    "C84_sine_cosine_partial",
    "C84_load",
    "C84_store",
    "C84_instructions",
    "C84_control_word",
    "C84_host_partial",
    "C84_no_host_fault",
    "C84_refuted_host"
   ],
   "note": "Operand order, control word and host state are proved for every instruction and history; refuted for FSIN, FCOS and FSINCOS with an operand out of range, which leave the host with the guest's control word for good."
  },
  {
   "property": "C85",
   "status": "partial",
   "theorems": [
    "C85_step",
    "C85_order_partial",
    "C85_handler",
    "C85_refuted_halt",
    "C85_refuted_mov_ss"
   ],
   "note": "Every history: a completed instruction begun with TF is followed by its debug exception (C85_step). No others, in order and with the right address and flags, outside the listed cases (C85_order_partial). Refuted for HLT and after MOV SS. REP iterations are not stepped one by one."
  },
  {
   "property": "C86",
   "status": "partial",
   "theorems": [
    "C86_reported",
    "C85_order_partial",
    "C86_refuted_twice",
    "C86_refuted_late"
   ],
   "note": "Every history: the hit is reported at once with all registers (C86_reported). Refuted: a second report when the instruction is also single stepped, and a late one when the instruction faults and the handler begins with INT 1. Exactness outside these cases is C85_order_partial."
  },
  {
   "property": "C87",
   "status": "partial",
   "theorems": [
    "C87_armed_partial",
    "C87_once",
    "C85_order_partial",
    "C87_refuted_cached",
    "C87_refuted_int",
    "C87_refuted_iret",
    "C87_refuted_fault"
   ],
   "note": "Every history: no armed instruction is executed with RF clear if translated code was dropped since the breakpoints last changed; RF covers one instruction. Refuted for code already translated, and for RF across INT n, IRET and faults."
  },
  {
   "property": "C88",
   "status": "partial",
   "theorems": [
    "C88_in_turn_partial",
    "C88_owner_partial",
    "C88_not_before",
    "C88_caches",
    "C88_refuted_overtaken",
    "C88_refuted_alias_of_waiting",
    "C88_refuted_alias_of_destroyed",
    "C88_refuted_load",
    "C88_served"
   ],
   "note": "Proved for histories in which immediate calls are not made while others wait, without aliases, handler updates and snapshots loaded in between; caches and the time before the interrupt without these limits. Refuted for immediate calls overtaking, aliases and loaded snapshots."
  },
  {
   "property": "C89",
   "status": "partial",
   "theorems": [
    "C89_served_partial",
    "C89_collected",
    "C89_refuted_waiting_region",
    "C89_refuted_replaced_ports",
    "C89_refuted_port_number",
    "C89_refuted_split",
    "C89_refuted_load"
   ],
   "note": "Proved for updates served while no region change waits, with port numbers below 65536. Refuted for regions that wait, replaced ports, port numbers above 65535, split regions and loaded snapshots."
  },
  {
   "property": "C90",
   "status": "partial",
   "theorems": [
    "C90_read_memory_partial",
    "C90_read_device_partial",
    "C90_read_crossing",
    "C90_write_memory_partial",
    "C90_write_device_partial",
    "C90_write_crossing",
    "C90_read_back",
    "C90_refuted_two_regions",
    "C90_refuted_overrun",
    "C90_refuted_rom_end",
    "C90_refuted_wide_device",
    "C90_refuted_two_rams",
    "C90_refuted_small_alias"
   ],
   "note": "Partial: inside a page the access must stay in one region and the map must have no alias; the refutations show what happens otherwise."
  },
  {
   "property": "C91",
   "status": "partial",
   "theorems": [
    "C91_port_partial",
    "C91_refuted_next_port",
    "C91_refuted_odd_ports"
   ],
   "note": "Partial: ranges are in units of at least two ports; an access wider than the region is seen by the first device alone."
  },
  {
   "property": "C92",
   "status": "partial",
   "theorems": [
    "C92_block_partial",
    "C92_shared_code",
    "C92_lookup",
    "C92_direct_link",
    "C92_instructions",
    "C92_refuted_cr3"
   ],
   "note": "MOV CR3 does not end a block, so the instructions after it are those of the old page tables (C92_refuted_cr3); full agreement otherwise, and for code all page tables map alike"
  },
  {
   "property": "C93",
   "status": "partial",
   "theorems": [
    "C93_buffer_partial",
    "C93_free",
    "C93_refused",
    "C93_granted",
    "C93_reported",
    "C93_refuted_zero_alignment",
    "C93_refuted_wrap",
    "C93_snapshot_partial",
    "C93_refuted_snapshot",
    "C93_xbox_free_partial",
    "C93_xbox_views_partial",
    "C93_xbox_reported_partial",
    "C93_refuted_xbox_size",
    "C93_refuted_xbox_alignment",
    "C93_refuted_xbox_free",
    "C93_refuted_xbox_guard",
    "C93_refuted_xbox_twice"
   ],
   "note": "Buffer size and alignment for all documented parameters without 64 bit overflow; give-back proved for all parameters and points of failure in the ordinary build, and in the Linux xbox build for its two sizes and alignments up to a page. Refuted: alignment 0, overflow of the size, snapshots of blocks the allocator did not align, and releases of things not held on refused parameters and large alignments of the xbox build."
  },
  {
   "property": "C94",
   "status": "partial",
   "theorems": [
    "C94_host_ptr",
    "C94_load",
    "C94_store",
    "C94_null_partial",
    "C94_ram_ptr",
    "C94_refuted_alias",
    "C94_refuted_outside"
   ],
   "note": "All but aliases and ram regions larger than ram: pointer, loads, stores, consecutive addresses, null with its error, agreement with get_ram_ptr. Refuted: an alias of ram gives null; a ram region larger than ram gives a pointer outside the buffer."
  },
  {
   "property": "C95",
   "status": "partial",
   "theorems": [
    "C95_rom_partial",
    "C95_reported",
    "C95_refuted_release",
    "C95_refuted_failed",
    "C95_refuted_start"
   ],
   "note": "Success and what is held then are proved for all parameters and answers. The give-back is refuted: the release indexes its arrays with a file descriptor, out of range for every rom that was made and for nearly every failure; a rom at another address unmaps the client's buffer."
  },
  {
   "property": "C96",
   "status": "partial",
   "theorems": [
    "C96_hlt",
    "C96_settings_partial",
    "C96_call",
    "C96_total",
    "C96_each",
    "C96_refuted_syntax",
    "C96_printed"
   ],
   "note": "HLT follows the settings in force in every history, on any number of cpus; the call accepts exactly documented settings. The syntax follows them with one cpu only: with several it is refuted, since the formatter is one object per process, and what is printed then is proved instead (C96_printed)."
  },
  {
   "property": "C97",
   "status": "partial",
   "theorems": [
    "C97_cpuid",
    "C97_only",
    "C97_revision",
    "C97_none_partial",
    "C97_refuted_revision"
   ],
   "note": "CPUID proved for every leaf; the revision after an update for every history. Without an update it reads 0 only if the guest writes nothing but zero there; other values are refuted."
  }
 ]
}