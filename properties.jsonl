{"id": "C01", "title": "Most recent mapping wins", "statement": "After any sequence of memory-region creations and destructions, an access to a physical address is handled by the most recent call whose range contains that address (its type, handlers, opaque value and backing-buffer origin), or by nothing if that call was a destroy or no call ever covered it. Ranges not named by a call are unaffected by it.", "quantifier": "every finite sequence of mem_init_region_*/mem_destroy_region calls with valid ranges, and every 32-bit address (16-bit port for the io space)", "why_tests_cant": "The region map is an ordered container mutated by split, swap, merge and erase; the outcome depends on every relative position of the new range against all existing ones, an unbounded family of histories.", "anchors": ["lib86cpu/as.hpp: address_space::insert/erase/search/split", "lib86cpu/interface.cpp: mem_init_region_ram/_io/_alias/_rom, mem_destroy_region"]}
{"id": "C02", "title": "The region map is always a partition", "statement": "After any sequence of region creations and destructions the address space is covered without gaps and without overlap: every address belongs to exactly one region, the region an address lookup returns contains that address, and two adjacent unmapped regions are never left behind by a destroy.", "quantifier": "every finite sequence of insert/erase calls with start <= end", "why_tests_cant": "A gap or overlap only appears for particular coincidences between boundaries of unrelated regions; sampling calls does not enumerate those coincidences.", "anchors": ["lib86cpu/as.hpp: address_space::insert/erase/split/get_it"]}
{"id": "C03", "title": "Alias regions translate every offset to the aliased region", "statement": "An access at alias_start + k, for every k inside the alias, reads and writes exactly the byte at ori_start + k, through alias chains of any length, and the memory fast path and slow path agree on that byte.", "quantifier": "every alias chain, every offset inside it, every history of other regions being created or destroyed around it", "why_tests_cant": "Chains and later splits of aliases compose; a test fixes one chain and one offset.", "anchors": ["lib86cpu/core/memory_management.hpp: AS_RESOLVE_ALIAS", "lib86cpu/core/memory_management.cpp: correct_phys_addr", "lib86cpu/as.hpp: split", "lib86cpu/interface.cpp: mem_init_region_alias"]}
{"id": "C04", "title": "Block writes are read back and touch nothing else", "statement": "mem_write_block_* (or mem_fill_block_*) returning success stores exactly the given bytes at the given addresses, and a following mem_read_block_* of any range returns the written bytes inside the written range and the previous contents outside it. ROM contents never change. actual_size is the number of bytes really transferred, for success and failure alike.", "quantifier": "every address, size, buffer contents, region layout and failure position", "why_tests_cant": "Chunking by page and region makes the number of code paths grow with the size and layout; tests cover a few sizes.", "anchors": ["lib86cpu/interface.cpp: mem_read_block, mem_write_handler, mem_read_block_phys, mem_write_block_phys, mem_fill_block_phys"]}
{"id": "C05", "title": "EFLAGS set through the API are read back", "statement": "read_eflags after write_eflags(v) returns v restricted to the implemented flag bits with bit 1 set, for both the 32 and 16 bit form (the 16 bit form keeps the upper half), whatever the flags were before.", "quantifier": "all 2^32 values of v and all prior register states", "why_tests_cant": "Flags are stored in a lossy lazy form (result/auxbits); the claim is about all 2^32 inputs times all prior states.", "anchors": ["lib86cpu/interface.cpp: read_eflags, write_eflags", "lib86cpu/core/helpers.cpp: write_eflags_helper"]}
{"id": "C06", "title": "Addition flags are architectural", "statement": "After a guest ADD/ADC/XADD/INC of any operand size, the flags CF, OF, SF, ZF, AF, PF seen by read_eflags, PUSHF, LAHF and every conditional instruction equal those of the x86 definition; INC leaves CF unchanged.", "quantifier": "all operand values, all operand sizes, both carry-in values, all prior flag states", "why_tests_cant": "2^65 operand combinations per size; the lazy representation is only decoded later.", "anchors": ["lib86cpu/core/emitter/x64/jit.cpp: set_flags_sum, gen_sum_vec32, gen_sum_vec16_8, ADC, ADD_, INC_, ld_of, ld_sf, ld_pf"]}
{"id": "C07", "title": "Subtraction and comparison flags are architectural", "statement": "After a guest SUB/SBB/CMP/NEG/DEC/CMPXCHG of any operand size all six status flags equal those of the x86 definition; DEC leaves CF unchanged; CMP changes no register or memory.", "quantifier": "all operand values, all sizes, both borrow-in values, all prior flag states", "why_tests_cant": "As for addition: the value space is astronomically larger than any test vector set.", "anchors": ["lib86cpu/core/emitter/x64/jit.cpp: set_flags_sub, gen_sub_vec32, gen_sub_vec16_8, SBB, SUB_, CMP_, NEG_, DEC_"]}
{"id": "C08", "title": "Conditional instructions decide by the architectural condition", "statement": "Each of the sixteen Jcc/SETcc/CMOVcc conditions is taken exactly when the architectural predicate over the flags returned by read_eflags holds.", "quantifier": "all lazy-flag states reachable by any sequence of flag-writing operations", "why_tests_cant": "The conditions are evaluated on the lazy form, not on EFLAGS; agreement is needed for all 2^64 lazy states.", "anchors": ["lib86cpu/core/emitter/x64/jit.cpp: JO..JNLE, CMOVO..CMOVNLE, SETO..SETNLE, ld_of, ld_sf, ld_pf"]}
{"id": "C09", "title": "Division delivers the exact quotient or #DE, and never crashes the host", "statement": "For every dividend and divisor DIV and IDIV either store the truncated quotient and remainder or raise #DE exactly when the divisor is zero or the quotient does not fit, leaving EAX/EDX unchanged in the #DE case. No operand makes the emulator itself fault.", "quantifier": "all dividends and divisors of the three sizes", "why_tests_cant": "The host-crash case is a single operand pair per size out of 2^96.", "anchors": ["lib86cpu/core/instructions.cpp: divd_helper, divw_helper, divb_helper, idivd_helper, idivw_helper, idivb_helper"]}
{"id": "C10", "title": "Page protection follows the x86 rules", "statement": "A guest access succeeds only if the page tables allow it: a user access needs U/S set at both levels, a user write also R/W at both levels, and a supervisor write with CR0.WP set needs R/W at both levels; with CR0.WP clear supervisor accesses to present pages always succeed.", "quantifier": "all page-directory and page-table entry values, all privilege levels, read/write, both WP values", "why_tests_cant": "The permission decision is a table combined with masks; only a full case analysis shows no combination grants too much.", "anchors": ["lib86cpu/core/memory_management.cpp: check_page_access, check_page_privilege, tlb_gen_access_mask, mmu_translate_addr"]}
{"id": "C11", "title": "Page walks compute the architectural translation", "statement": "A successful translation returns the frame named by the page-table (or 4MB page-directory) entry plus the page offset, sets the Accessed bit on the used entries and the Dirty bit on writes and changes no other memory; a failing one changes no TLB entry, and reports CR2 and an error code whose P, W and U bits describe the fault.", "quantifier": "all page-table contents, linear addresses, CR0/CR3/CR4 values and access kinds", "why_tests_cant": "Page tables are arbitrary guest memory; a test builds a handful.", "anchors": ["lib86cpu/core/memory_management.cpp: mmu_translate_addr, mmu_raise_page_fault"]}
{"id": "C12", "title": "TLB hits agree with the page tables", "statement": "While the guest does not modify a page's mapping without invalidating it, every access served from the TLB uses the same physical address and the same permission decision as a fresh page walk would, at every privilege level.", "quantifier": "all histories of fills, hits, evictions (any random replacement choice) and flushes", "why_tests_cant": "Replacement is random and entries outlive privilege changes; only an invariant over all histories settles it.", "anchors": ["lib86cpu/core/memory_management.cpp: tlb_fill, tlb_get_read_addr, tlb_get_write_addr, tlb_get_code_addr, mem_read_helper, mem_write_helper"]}
{"id": "C13", "title": "Invalidating a page removes every cached translation of it", "statement": "After tlb_invalidate(addr) (and the guest INVLPG) no later access to that page, read, write or fetch, is served from a translation cached before the call.", "quantifier": "all TLB contents reachable by any history of accesses", "why_tests_cant": "Stale entries depend on which lines were free at fill time in earlier history.", "anchors": ["lib86cpu/interface.cpp: tlb_invalidate", "lib86cpu/core/memory_management.cpp: tlb_fill, tlb_flush", "lib86cpu/core/instructions.cpp: invlpg_helper"]}
{"id": "C14", "title": "Every write to a page leaves its Dirty bit set", "statement": "After any successful write through a paged address, by the guest or by mem_write_block_virt/mem_fill_block_virt, the page-table entry mapping it has its Dirty bit set.", "quantifier": "all orders of reads and writes, by the guest and by the host API, to a page", "why_tests_cant": "The dirty state is cached in the TLB; only some orders of read and write expose the missing update.", "anchors": ["lib86cpu/core/memory_management.cpp: tlb_get_write_addr, mem_write_helper, mmu_translate_addr", "lib86cpu/interface.cpp: mem_write_handler"]}
{"id": "C15", "title": "Page-crossing accesses are all-or-nothing with respect to faults", "statement": "A guest access spanning two pages reads or writes exactly the bytes of both pages in order, and if either page faults no byte is stored.", "quantifier": "all addresses, sizes, and mappings of the two pages", "why_tests_cant": "Needs every combination of offset, size and per-page permission.", "anchors": ["lib86cpu/core/memory_management.hpp: mem_read_slow, mem_write_slow"]}
{"id": "C16", "title": "Descriptor fields decode to base, limit and flags", "statement": "The hidden base, limit and flags loaded for a selector equal the architectural decoding of its 8 descriptor bytes (including granularity scaling), and the descriptor read is the one at index*8 of the GDT or LDT chosen by the TI bit, or #GP(selector) if it lies beyond the table limit.", "quantifier": "all 2^64 descriptors, all selectors and table bases and limits", "why_tests_cant": "Bit-field assembly over a 64-bit domain, plus wrap-around at the end of the linear space.", "anchors": ["lib86cpu/core/helpers.cpp: read_seg_desc_base_helper, read_seg_desc_limit_helper, read_seg_desc_flags_helper, read_seg_desc_helper"]}
{"id": "C17", "title": "Data segment loads obey privilege", "statement": "Loading DS/ES/FS/GS in protected mode succeeds exactly when the selector is null or names a present data or readable code segment with (for data and nonconforming code) CPL and RPL not greater than DPL; otherwise #GP or #NP with the selector as error code is raised and the segment register is unchanged. Loading SS additionally needs a writable data segment with DPL = RPL = CPL.", "quantifier": "all descriptors, selectors and CPLs", "why_tests_cant": "Privilege checks are a conjunction over many bit fields; a hole is a single unlucky combination.", "anchors": ["lib86cpu/core/helpers.cpp: check_seg_desc_priv_helper, check_ss_desc_priv_helper", "lib86cpu/core/instructions.cpp: mov_sel_pe_helper"]}
{"id": "C18", "title": "Far returns never raise privilege", "statement": "A protected-mode RETF or IRET never completes with a CPL numerically lower than before, and the new CPL equals the RPL of the popped CS selector.", "quantifier": "all stack contents, descriptor tables and CPLs", "why_tests_cant": "The guest controls the stack and the selector completely.", "anchors": ["lib86cpu/core/instructions.cpp: lret_pe_helper"]}
{"id": "C19", "title": "IRET cannot be used to gain I/O privilege", "statement": "IRET executed at CPL > 0 never changes IOPL or VM, and changes IF only if CPL <= IOPL.", "quantifier": "all popped EFLAGS images, stack contents and CPLs", "why_tests_cant": "An adversarial guest picks the EFLAGS image; tests use well-formed ones.", "anchors": ["lib86cpu/core/instructions.cpp: lret_pe_helper", "lib86cpu/core/helpers.cpp: write_eflags_helper"]}
{"id": "C20", "title": "Returning to an outer ring drops exactly the inaccessible segments", "statement": "On a privilege-lowering return each of DS, ES, FS, GS that holds a data or nonconforming code segment with DPL < new CPL is replaced by the null selector, and every other one is kept.", "quantifier": "all contents of the four segment registers and all CPL pairs", "why_tests_cant": "Depends on descriptor bits the test authors do not vary.", "anchors": ["lib86cpu/core/instructions.cpp: validate_seg_helper, lret_pe_helper"]}
{"id": "C21", "title": "Call gates transfer control to the gate's entry point", "statement": "A far JMP or CALL through a call gate continues at the selector and offset stored in the gate (16-bit offset for 16-bit gates), never at the offset in the instruction, and only if the gate and target privilege checks pass.", "quantifier": "all gate descriptors, target descriptors and instruction operands", "why_tests_cant": "Gate contents and the ignored instruction offset are independent 32-bit values.", "anchors": ["lib86cpu/core/instructions.cpp: ljmp_pe_helper, lcall_pe_helper"]}
{"id": "C22", "title": "Derived mode flags always match the architectural registers", "statement": "Whenever guest code runs, the translation-mode state the emulator derived (CPL, code/stack size, zero-base shortcuts, CR0/CR4 mirrors) equals what cpu_sync_state would compute from the register file.", "quantifier": "all sequences of segment loads, mode switches, interrupts, returns and CR writes", "why_tests_cant": "The shortcut bits are maintained incrementally at dozens of places; one missing update shows only on a particular sequence.", "anchors": ["lib86cpu/interface.cpp: cpu_sync_state", "lib86cpu/core/instructions.cpp: write_seg_reg_helper, iret_real_helper, lret_pe_helper, update_crN_helper", "lib86cpu/core/translate.cpp: cpu_raise_exception"]}
{"id": "C23", "title": "Nested exceptions escalate to double and triple fault as on x86", "statement": "An exception raised while delivering another is delivered serially, turned into #DF, or terminates the emulation as a triple fault exactly as the architecture prescribes by exception class; delivery of any exception needs only boundedly many nested faults before completing or terminating.", "quantifier": "all pairs and sequences of exception vectors", "why_tests_cant": "Requires all vector pairs and a termination argument over nested delivery.", "anchors": ["lib86cpu/core/translate.cpp: check_dbl_exp, cpu_raise_exception"]}
{"id": "C24", "title": "Interrupt delivery saves a return frame and masks as the gate says", "statement": "Delivering an interrupt or exception pushes EFLAGS, CS, EIP (and the error code where defined, and SS:ESP on a stack switch) so that an IRET returns to the interrupted state, clears IF only for interrupt gates, clears TF/NT/RF/VM, and sets the new CPL from the target code segment.", "quantifier": "all IDT, descriptor and stack contents, all vectors", "why_tests_cant": "The IDT, GDT and TSS are guest data.", "anchors": ["lib86cpu/core/translate.cpp: cpu_raise_exception"]}
{"id": "C25", "title": "Control register writes are validated atomically", "statement": "A MOV to CR0 or CR4 with a reserved or contradictory combination faults and changes nothing; a successful one stores the value (with the fixed bits forced), and afterwards the TLB holds no translation that the new mode forbids.", "quantifier": "all old and new values of CR0, CR3 and CR4", "why_tests_cant": "2^64 old/new pairs; flush conditions depend on their difference.", "anchors": ["lib86cpu/core/instructions.cpp: update_crN_helper"]}
{"id": "C26", "title": "Debug registers trigger exactly the configured accesses", "statement": "After any sequence of debug-register writes, a data access or instruction fetch reports a match for breakpoint i exactly when DR7 enables i, its R/W type covers the access kind, and the access overlaps the LEN-sized, LEN-aligned range at DRi.", "quantifier": "all DR0-3 and DR7 values, all accesses", "why_tests_cant": "The watch lists are updated incrementally on register writes.", "anchors": ["lib86cpu/core/instructions.cpp: update_drN_helper", "lib86cpu/core/breakpoint.cpp: cpu_check_data_watchpoints, cpu_check_io_watchpoints"]}
{"id": "C27", "title": "MSR writes are validated and read back", "statement": "WRMSR of a value with reserved bits or an invalid memory type faults and changes nothing; any accepted value is returned by the following RDMSR of the same register and no other register is changed.", "quantifier": "all MSR indices handled and all 64-bit values", "why_tests_cant": "Index arithmetic over interleaved ranges and 2^64 values.", "anchors": ["lib86cpu/core/instructions.cpp: msr_read_helper, msr_write_helper"]}
{"id": "C28", "title": "FPU stack operations keep TOP and tags consistent", "statement": "A load on a full register reports stack overflow and an access to an empty one stack underflow with the documented C1/IE/SF response; otherwise push and pop move TOP modulo 8 and mark exactly the affected register full or empty.", "quantifier": "all tag/TOP states and all sequences of pushes and pops", "why_tests_cant": "Wrap-around of TOP and tag aliasing depends on the operation history.", "anchors": ["lib86cpu/core/fpu.cpp: fpu_push, fpu_pop, fpu_update_tag, fpu_stack_overflow, fpu_stack_underflow"]}
{"id": "C29", "title": "FPU tag and status words survive the API", "statement": "read_ftags after write_ftags(v) returns v, and read_fstatus after write_fstatus(v) returns v, for every v, without disturbing any other FPU state.", "quantifier": "all 16-bit values and prior states", "why_tests_cant": "Words are stored split into per-register tags and a separate TOP.", "anchors": ["lib86cpu/interface.cpp: read_ftags, write_ftags, read_fstatus, write_fstatus"]}
{"id": "C30", "title": "FXSAVE followed by FXRSTOR restores the state", "statement": "FXRSTOR of an image written by FXSAVE restores the x87/MMX/SSE state (with the abridged tag word), and FXRSTOR with reserved MXCSR bits faults without changing anything.", "quantifier": "all FPU/SSE states and image contents", "why_tests_cant": "512-byte image with re-encoded tags over all register contents.", "anchors": ["lib86cpu/core/fpu_instructions.cpp: fxsave_helper, fxrstor_helper"]}
{"id": "C31", "title": "Writes to code are never executed stale", "statement": "After a write to physical memory that overlaps a translated block, that block is no longer reachable by lookup, by block linking or by return prediction; blocks that do not overlap the write stay valid.", "quantifier": "all sets of translated blocks and all writes (address, size)", "why_tests_cant": "Overlap conditions and several caches (code cache, jump table, RSB, SMC bits) must agree for all layouts.", "anchors": ["lib86cpu/core/translate.cpp: tc_invalidate, tc_unlink, tc_cache_search, tc_cache_insert, tc_link_jmp", "lib86cpu/core/helpers.cpp: rsb_push, rsb_pop, rsb_flush"]}
{"id": "C32", "title": "A code lookup returns a block for exactly the current context", "statement": "A block found through the code cache, the jump table or the return stack buffer was translated for the same code address, the same CS base and the same mode flags as the current CPU state.", "quantifier": "all histories of translation, linking, invalidation and mode switches", "why_tests_cant": "Hash collisions and table replacement depend on history.", "anchors": ["lib86cpu/core/translate.cpp: tc_cache_search, tc_link_jmp", "lib86cpu/core/helpers.cpp: rsb_pop", "lib86cpu/core/emitter/x64/jit.cpp: gen_tc_linking_jmp"]}
{"id": "C33", "title": "Snapshots round trip", "statement": "cpu_restore_snapshot of a state taken by cpu_take_snapshot restores every architectural register, MSR, lazily kept flag, FPU/SSE mode, A20 and halted state and all RAM bytes; a snapshot with a wrong id or size is rejected leaving the CPU unchanged.", "quantifier": "all CPU and RAM states", "why_tests_cant": "A forgotten field is invisible unless the test happens to set it.", "anchors": ["lib86cpu/support.cpp: cpu_save_state, cpu_load_state", "lib86cpu/interface.cpp: cpu_take_snapshot, cpu_restore_snapshot"]}
{"id": "C34", "title": "Snapshot, suspend and resume from other threads always complete", "statement": "Calls to cpu_suspend, cpu_resume, cpu_take_snapshot and cpu_restore_snapshot from other threads never deadlock while the CPU thread keeps running, never overlap two snapshot operations, and no guest instruction runs between a completed suspend and the next resume.", "quantifier": "all interleavings of the API threads and the CPU thread", "why_tests_cant": "Deadlocks and lost exclusion depend on the schedule.", "anchors": ["lib86cpu/interface.cpp: cpu_suspend, cpu_resume, cpu_snapshot_handler", "lib86cpu/core/translate.cpp: cpu_do_int, cpu_start"]}
{"id": "C35", "title": "Hardware interrupts are neither lost nor spurious", "statement": "A hardware interrupt is delivered only while the line is raised and IF is set; if the line stays raised and IF is set, it is delivered at the next instruction boundary not following an interrupt shadow; raising other requests concurrently never clears it.", "quantifier": "all interleavings of line changes with the CPU thread and all IF/shadow states", "why_tests_cant": "Concurrent bit sets and clears on one word under all schedules.", "anchors": ["lib86cpu/core/emitter/x64/jit.cpp: gen_interrupt_check, gen_aux_funcs", "lib86cpu/core/translate.cpp: cpu_do_int", "lib86cpu/interface.cpp: cpu_raise_hw_int_line, cpu_lower_hw_int_line"]}
{"id": "C36", "title": "The A20 gate masks every physical access", "statement": "After cpu_set_a20 takes effect (at once, or when the CPU next processes interrupts if should_int was passed), every guest access (data, code fetch, page table) to a physical address with bit 20 set behaves, while the gate is open in the API's sense (closed = false, mask 0xFFEFFFFF), as the access with bit 20 cleared, and every other access, and every access while closed = true, is unmodified; this does not depend on what the TLBs held before; the last requested value is the one that ends up in force.", "quantifier": "all addresses, access sizes and privileges, all request sequences (immediate, deferred, and from another thread), all memory maps, all histories of TLB contents", "why_tests_cant": "Depends on whether cached translations were created before or after the change.", "anchors": ["lib86cpu/interface.cpp: cpu_set_a20", "lib86cpu/core/translate.cpp: cpu_do_int", "lib86cpu/core/memory_management.hpp: as_memory_dispatch_read/_write", "lib86cpu/core/memory_management.cpp: tlb_fill", "lib86cpu/core/memory_management.cpp: correct_phys_addr, mmu_translate_addr"]}
{"id": "C37", "title": "JIT memory blocks never overlap and are reusable", "statement": "Two live code blocks handed out by the JIT allocator never overlap, each is at least as large as requested, freeing one makes exactly that block available again, and destroying all blocks leaves the allocator able to serve a full cache again.", "quantifier": "all sequences of allocations (any size) and frees", "why_tests_cant": "Allocator state depends on the whole history.", "anchors": ["lib86cpu/core/allocator.cpp: mem_manager::allocate_sys_mem, release_sys_mem, create_pool, destroy_all_blocks"]}
{"id": "C38", "title": "A hook can always be removed again", "statement": "hook_add followed by hook_remove of the same address always succeeds and leaves the guest code at that address executing exactly as if it had never been hooked, whatever the page permissions are.", "quantifier": "all addresses, page permissions and orders of hook_add/hook_remove and executions", "why_tests_cant": "Requires permissions and cache states to be varied together.", "anchors": ["lib86cpu/interface.cpp: hook_add, hook_remove", "lib86cpu/core/translate.cpp: tc_invalidate, cpu_main_loop"]}
{"id": "C39", "title": "Port accesses obey IOPL and the I/O permission bitmap", "statement": "IN/OUT/INS/OUTS in protected mode with CPL > IOPL (or in VM86) are allowed exactly when every permission bit of the accessed ports is clear in the TSS bitmap and within its limit; otherwise #GP(0) and no port is accessed.", "quantifier": "all ports, sizes, TSS contents and limits", "why_tests_cant": "Bitmap straddling bytes and the limit check combine for all ports.", "anchors": ["lib86cpu/core/emitter/x64/jit.cpp: gen_check_io_priv"]}
{"id": "C40", "title": "The time stamp counter never runs backwards", "statement": "Successive RDTSC reads never decrease while the host clock does not, at any host frequency, and run_until never returns timeout before the requested time.", "quantifier": "all host clock readings and frequencies", "why_tests_cant": "Rounding and 64-bit overflow appear only at particular tick counts.", "anchors": ["lib86cpu/core/linux/clock.cpp: cpu_rdtsc_helper, cpu_timer_helper", "lib86cpu/support.cpp: muldiv128"]}
{"id": "C41", "title": "Region calls cover exactly the requested bytes", "statement": "A successful mem_init_region_* or mem_destroy_region call with start and size affects exactly the addresses start .. start+size-1, cut at the top of the address space; a call with size 0 changes nothing.", "quantifier": "every 32-bit start and every 64-bit size", "why_tests_cant": "The interesting sizes are at the 64-bit wrap and at zero; tests use a few sensible sizes only.", "anchors": ["lib86cpu/interface.cpp: mem_init_region_ram, mem_init_region_io, mem_init_region_alias, mem_init_region_rom, mem_destroy_region", "lib86cpu/as.hpp: insert, erase"]}
{"id": "C42", "title": "A faulting integer instruction can be restarted", "statement": "If a memory access of an arithmetic, logic or exchange instruction faults, the guest's general registers, flags, instruction pointer and memory are exactly as before the instruction.", "quantifier": "all instructions of the family, sizes, operand forms, states and all choices of faulting pages", "why_tests_cant": "Which of the accesses fault, and what state was half-written, ranges over all page configurations and operand values.", "anchors": ["lib86cpu/core/emitter/x64/jit.cpp: ADC, ADD_, AND_, CMP_, OR_, SBB, SUB_, TEST, XOR, INC_, DEC_, NEG_, NOT_, XADD, CMPXCHG"]}
{"id": "C43", "title": "Logical instructions compute result and flags", "statement": "AND/OR/XOR/TEST/NOT of any size give the bitwise result; the binary ones clear CF and OF and set SF, ZF and PF from the result; NOT changes no flag; TEST writes nothing.", "quantifier": "all operands, sizes, forms and prior states", "why_tests_cant": "The flags are left in the lazy form and only decoded later; all values matter.", "anchors": ["lib86cpu/core/emitter/x64/jit.cpp: AND_, OR_, XOR, TEST, NOT_, set_flags"]}
{"id": "C44", "title": "CMPXCHG8B compares and exchanges 64 bits", "statement": "CMPXCHG8B stores ECX:EBX when the memory operand equals EDX:EAX and otherwise loads the operand into EDX:EAX (storing back what was there); ZF tells which and no other flag changes.", "quantifier": "all operand values and prior states, all fault positions", "why_tests_cant": "2^128 operand pairs and the lazy ZF encoding.", "anchors": ["lib86cpu/core/emitter/x64/jit.cpp: CMPXCHG8B"]}
{"id": "C45", "title": "Effective addresses wrap at the address size", "statement": "The linear address of a memory operand is segment base plus (base + index*scale + displacement) reduced modulo the address size (64 KB or 4 GB), the sum modulo 4 GB; computing it changes nothing the guest can see.", "quantifier": "all addressing forms, register values, displacements and segment bases", "why_tests_cant": "Wrap-around corner cases over all register values.", "anchors": ["lib86cpu/core/emitter/x64/jit.cpp: get_operand"]}
{"id": "C46", "title": "LAHF, SAHF, CLC, STC, CMC, CLD, STD act on exactly their flags", "statement": "LAHF puts SF, ZF, AF, PF, CF of read_eflags in AH; SAHF sets exactly those from AH; CLC/STC/CMC change only CF; CLD/STD change only DF.", "quantifier": "all states of the lazy flags", "why_tests_cant": "2^64 lazy states must all decode to the same visible flags.", "anchors": ["lib86cpu/core/emitter/x64/jit.cpp: LAHF, SAHF, CLC, STC, CMC, CLD, STD"]}
{"id": "C47", "title": "Stack instructions store and restore the right values at the right addresses", "statement": "PUSH, POP, PUSHA, POPA and LEAVE access the slots at the stack pointer in the order the architecture gives, push the operand's value from before the instruction, wrap at the width of the stack, move ESP only on success and leave a faulting instruction restartable; the address of a memory destination of POP is computed with the incremented ESP.", "quantifier": "all register values, both operand sizes, both stack widths, all SS bases, all placements of a fault", "why_tests_cant": "Depends on every wrap-around of SP and every fault placement over eight accesses.", "anchors": ["lib86cpu/core/emitter/x64/jit.cpp: gen_stack_push, gen_stack_pop, PUSH, POP, PUSHA, POPA, LEAVE"]}
{"id": "C48", "title": "POPF changes only the flags the privilege level permits", "statement": "PUSHF stores read_eflags with RF and VM clear; POPF replaces exactly the status flags, TF, DF, NT, (in ring 0) IOPL, (when CPL <= IOPL) IF and (32-bit) ID and AC, keeping all others; in virtual-8086 mode with IOPL < 3 both are trapped, or handled through VIF when the mode extensions are on.", "quantifier": "all flag images, privilege levels, IOPL values and operand sizes", "why_tests_cant": "A privilege leak shows only for particular images and levels.", "anchors": ["lib86cpu/core/emitter/x64/jit.cpp: PUSHF, POPF"]}
{"id": "C49", "title": "CLI and STI respect the I/O privilege level", "statement": "CLI and STI change IF in real mode or when CPL <= IOPL, change VIF where the virtual interrupt extensions apply (virtual-8086 with VME, ring 3 with PVI), and otherwise raise #GP(0) with nothing changed; STI holds off interrupts for one instruction exactly when IF was clear.", "quantifier": "all modes, privilege levels, IOPL, CR4 settings and flag states", "why_tests_cant": "All combinations of mode, CPL, IOPL, VME, PVI and VIP matter.", "anchors": ["lib86cpu/core/emitter/x64/jit.cpp: CLI, STI"]}
{"id": "C50", "title": "A far return lands in a code segment the privilege rules allow", "statement": "A completed protected-mode RETF or IRET has loaded CS from a present code segment whose DPL equals the popped RPL (nonconforming) or does not exceed it (conforming).", "quantifier": "all stack contents, selectors and descriptor tables", "why_tests_cant": "The guest picks both the selector and the descriptor; the missing case is one combination of conforming bit, DPL and RPL.", "anchors": ["lib86cpu/core/instructions.cpp: lret_pe_helper"]}
{"id": "C51", "title": "Far jumps and calls change the privilege level only through a gate and only with a stack switch", "statement": "Far JMP and direct far CALL keep the CPL and the stack segment. A CALL through a gate to a nonconforming segment ends in the ring of that segment, never an outer one, and switches to the stack the TSS holds for that ring exactly when the ring changes; a CALL to a conforming segment keeps the CPL.", "quantifier": "all selectors, gates, target descriptors, TSS contents and CPLs", "why_tests_cant": "Combination of gate, target descriptor, CPL and TSS contents, all guest data.", "anchors": ["lib86cpu/core/instructions.cpp: ljmp_pe_helper, lcall_pe_helper"]}
{"id": "C52", "title": "x87 exception flags are sticky", "statement": "An exception flag (IE, DE, ZE, OE, UE, PE) or the stack fault flag set in the x87 status word stays set until the guest clears it with FNCLEX or FNINIT or loads a new status word; computations only add flags. FNCLEX clears exactly the exception bits and the busy bit, FNINIT resets the control, status and tag words, and FLDCW changes no exception flag but makes exactly the unmasked ones pending.", "quantifier": "all FPU states, instructions, operands and host results", "why_tests_cant": "A lost flag shows only in histories where an operation that raises nothing follows one that raised something.", "anchors": ["lib86cpu/core/emitter/x64/jit.cpp: gen_fpu_exp_post_check", "lib86cpu/core/fpu.cpp: fpu_stack_fault"]}
{"id": "C53", "title": "Debug register accesses are guarded and read back", "statement": "With DR7.GD set every MOV to or from a debug register raises #DB with DR6.BD set and changes nothing else. Otherwise an access from CPL other than 0 raises #GP, and an access to DR4 or DR5 raises #UD when CR4.DE is set and is an access to DR6 or DR7 when it is clear. A value written is read back, with the fixed bits of DR6 set, and no other debug register changes.", "quantifier": "all register values, register numbers and privilege levels", "why_tests_cant": "The guards depend on the joint state of DR7, CR4 and CPL, and the aliases must agree for every value.", "anchors": ["lib86cpu/core/emitter/x64/jit.cpp: mov (0x21, 0x23)", "lib86cpu/core/instructions.cpp: update_drN_helper"]}
{"id": "C54", "title": "Shifts and double shifts compute the architectural result and flags", "statement": "SHL, SHR, SAR, SHLD and SHRD of a register or memory operand by an immediate or by CL use the count modulo 32, change nothing when it is zero, store the shifted value, set CF to the last bit shifted out, OF for a count of one, and PF, ZF and SF from the result. A memory fault leaves registers, flags and memory unchanged.", "quantifier": "all operand values, counts, widths, operand forms, previous flags and memory contents", "why_tests_cant": "Value and flags depend on operand, count and the lazily kept flags; the space of combinations is far beyond any test suite.", "anchors": ["lib86cpu/core/emitter/x64/jit.cpp: shift", "lib86cpu/core/emitter/x64/jit.cpp: double_shift"]}
{"id": "C55", "title": "Rotates are exact rotations of the operand, with or without the carry", "statement": "ROL and ROR rotate the bits of the operand, RCL and RCR the ring formed by the operand and CF, by the count modulo 32; CF and, for a count of one, OF follow the architecture and no other status flag changes.", "quantifier": "all operand values, counts 0 to 31 including those above the width, widths, forms and previous flags", "why_tests_cant": "Rotations through carry by every count mix the previous lazy flags with the operand; only a proof covers all of them.", "anchors": ["lib86cpu/core/emitter/x64/jit.cpp: rotate"]}
{"id": "C56", "title": "Bit tests read and change exactly the addressed bit", "statement": "BT, BTC, BTR and BTS put the addressed bit in CF and leave, complement, reset or set that bit and nothing else. With a memory operand and an index in a register the bit string extends over the whole address space on both sides of the operand.", "quantifier": "all operands, indices (also negative ones and those beyond the operand), widths and states", "why_tests_cant": "A test checks a few indices; the property concerns all 2^32 indices and the memory around the operand.", "anchors": ["lib86cpu/core/emitter/x64/jit.cpp: bit"]}
{"id": "C57", "title": "Multiplication and sign or zero extension are exact", "statement": "MUL and IMUL in all forms deliver the low or double-width product and set CF and OF exactly when the upper half is significant. MOVSX, MOVZX, CBW, CWDE, CWD, CDQ extend exactly, BSWAP reverses the bytes; none of these changes a flag.", "quantifier": "all operand values, widths, forms and states", "why_tests_cant": "The overflow flags depend on the full product of two arbitrary words.", "anchors": ["lib86cpu/core/emitter/x64/jit.cpp: mul", "lib86cpu/core/emitter/x64/jit.cpp: imul", "lib86cpu/core/emitter/x64/jit.cpp: movsx", "lib86cpu/core/emitter/x64/jit.cpp: movzx", "lib86cpu/core/emitter/x64/jit.cpp: cbw", "lib86cpu/core/emitter/x64/jit.cpp: cwde", "lib86cpu/core/emitter/x64/jit.cpp: cwd", "lib86cpu/core/emitter/x64/jit.cpp: cdq", "lib86cpu/core/emitter/x64/jit.cpp: bswap"]}
{"id": "C58", "title": "Decimal adjustments follow the architecture for every input", "statement": "AAA, AAS, AAD, AAM, DAA and DAS produce the documented AL, AH, AF and CF for every AX and flag combination, and AAM by zero raises the divide error with nothing changed.", "quantifier": "all values of AX, immediates and previous flags", "why_tests_cant": "Results depend on AL, AH, AF and CF jointly, where AF and CF are reconstructed from the result of an arbitrary earlier instruction.", "anchors": ["lib86cpu/core/emitter/x64/jit.cpp: aaa", "lib86cpu/core/emitter/x64/jit.cpp: aas", "lib86cpu/core/emitter/x64/jit.cpp: aad", "lib86cpu/core/emitter/x64/jit.cpp: aam", "lib86cpu/core/emitter/x64/jit.cpp: daa", "lib86cpu/core/emitter/x64/jit.cpp: das"]}
{"id": "C59", "title": "Bit scans find the first or last set bit and are deterministic", "statement": "BSF and BSR write the index of the lowest or highest set bit and clear ZF; with a zero source they set ZF, and the result is determined by the guest state.", "quantifier": "all source values, widths, forms and host register contents", "why_tests_cant": "Whether a leftover host value leaks into a guest register depends on the host state at the time, which no guest test controls.", "anchors": ["lib86cpu/core/emitter/x64/jit.cpp: bsf", "lib86cpu/core/emitter/x64/jit.cpp: bsr"]}
{"id": "C60", "title": "Counted branches, BOUND and XLAT use the right count, bounds and address", "statement": "LOOP, LOOPE, LOOPNE decrement CX or ECX and branch as documented, JCXZ/JECXZ test it, all without touching flags; BOUND raises #BR exactly when the signed index is outside the bounds in memory; XLAT reads the byte at BX or EBX plus AL with the offset wrapped at the address size.", "quantifier": "all counts, flags, displacements, index and bound values, segment bases and memory contents", "why_tests_cant": "Wrap-around cases (count zero, offset overflow, signed bounds) sit at the ends of 2^32 ranges and combine with lazy flags.", "anchors": ["lib86cpu/core/emitter/x64/jit.cpp: loop", "lib86cpu/core/emitter/x64/jit.cpp: loope", "lib86cpu/core/emitter/x64/jit.cpp: loopne", "lib86cpu/core/emitter/x64/jit.cpp: jcxz", "lib86cpu/core/emitter/x64/jit.cpp: jecxz", "lib86cpu/core/emitter/x64/jit.cpp: bound", "lib86cpu/core/emitter/x64/jit.cpp: xlat"]}
{"id": "C61", "title": "String instructions process exactly the counted elements, in order, and restart after a fault", "statement": "MOVS, STOS, LODS, CMPS and SCAS process one element in the direction DF gives. With a repeat prefix they process as many elements as CX or ECX says, or stop early when ZF says so. A refused access leaves the index and count registers at the faulting element, and starting the instruction again ends in the state an uninterrupted run would have reached. REP STOS fills, REP MOVS copies disjoint areas, REPE/REPNE CMPS and SCAS stop at the first difference or match.", "quantifier": "all counts up to 2^32-1, widths, address sizes, segment bases, indices with wrap-around, memory contents, fault positions and flags", "why_tests_cant": "The number of iterations is a 32-bit register value and a fault may occur at any of them; only induction over the count covers them.", "anchors": ["lib86cpu/core/emitter/x64/jit.cpp: rep_start", "lib86cpu/core/emitter/x64/jit.cpp: rep", "lib86cpu/core/emitter/x64/jit.cpp: movs", "lib86cpu/core/emitter/x64/jit.cpp: stos", "lib86cpu/core/emitter/x64/jit.cpp: lods", "lib86cpu/core/emitter/x64/jit.cpp: cmps", "lib86cpu/core/emitter/x64/jit.cpp: scas"]}
{"id": "C62", "title": "A far CALL leaves the documented frame and RETF or IRET takes it back", "statement": "A far CALL pushes CS and the return offset, and nothing else, on the current stack. Through a call gate into an inner ring it switches to the stack the TSS names and pushes SS, ESP, the parameters the gate counts in their order, CS and the return offset there. RETF and IRET pop the same items, take SS and ESP of the caller from the frame exactly if they leave the ring, and release the bytes of an immediate operand on both stacks. A CALL followed by RETF resumes the caller with its stack.", "quantifier": "all memory systems, selectors, descriptors, gates, parameter counts, stack sizes and positions with wrap-around, operand sizes, rings and immediates", "why_tests_cant": "The frame depends on descriptors in guest memory, on two independent stack sizes, on wrap-around at any stack position and on 32 parameter counts.", "anchors": ["lib86cpu/core/instructions.cpp: lcall_pe_helper", "lib86cpu/core/instructions.cpp: lret_pe_helper", "lib86cpu/core/helpers.cpp: stack_push_helper", "lib86cpu/core/helpers.cpp: stack_pop_helper", "lib86cpu/core/emitter/x64/jit.cpp: RET_"]}
{"id": "C63", "title": "Control register writes store exactly the documented bits", "statement": "At ring 0, MOV to CR0 stores the defined bits of the operand with ET set, and faults with #GP(0) changing nothing if it sets PG without PE or NW without CD. LMSW replaces the low four bits only and never clears PE. CLTS clears TS only. MOV to CR2 stores the operand, MOV to CR3 its defined bits. MOV to CR4 stores the operand, or faults with #GP(0) changing nothing if it sets a reserved bit. Above ring 0 all of them fault with #GP(0) and change nothing.", "quantifier": "all operands, all CPU states, all memory systems", "why_tests_cant": "The operand has 2^32 values and the outcome depends on the old register; a test fixes both.", "anchors": ["lib86cpu/core/instructions.cpp: update_crN_helper", "lib86cpu/core/emitter/x64/jit.cpp: LMSW", "lib86cpu/core/emitter/x64/jit.cpp: CLTS", "lib86cpu/core/emitter/x64/jit.cpp: MOV"]}
{"id": "C64", "title": "LLDT and LTR accept exactly LDT and free TSS descriptors; VERR and VERW answer what a load would", "statement": "LLDT loads the descriptor a selector names if it is a present LDT descriptor, clears LDTR for a null selector, and otherwise faults with the documented vector and error code, changing nothing. LTR loads a present, available TSS descriptor of the GDT and marks it busy in memory, and otherwise faults likewise. VERR and VERW set ZF exactly if the segment could be read or written from the current ring through this selector, leave every other flag alone and never fault on a bad selector.", "quantifier": "all selectors, descriptor tables within the address space, rings, flags and memory systems", "why_tests_cant": "The guest chooses the selector and the 64-bit descriptor; the answer combines type, DPL, RPL and CPL.", "anchors": ["lib86cpu/core/instructions.cpp: lldt_helper", "lib86cpu/core/instructions.cpp: ltr_helper", "lib86cpu/core/instructions.cpp: verrw_helper"]}
{"id": "C65", "title": "Data moves copy exactly the operand and nothing else", "statement": "MOV between registers, memory and immediates copies the source to the destination, makes one memory access of the operand size, changes no flag, and changes nothing if the access faults. LEA stores the offset without the segment base, cut to the operand size, and never faults. MOV from and to segment registers and PUSH and POP of them transfer the 16-bit selector; outside protected mode a load sets the base to 16 times the selector; loading SS by MOV or POP opens an interrupt shadow. LDS, LES, LFS, LGS, LSS load offset and selector of a far pointer.", "quantifier": "all operand forms and sizes, register contents, segment bases, addresses with wrap-around, memory contents, fault positions and flags", "why_tests_cant": "Partial registers, address wrap-around and the position of a fault combine with 2^32 values; a test fixes all of them.", "anchors": ["lib86cpu/core/emitter/x64/jit.cpp: MOV", "lib86cpu/core/emitter/x64/jit.cpp: LEA", "lib86cpu/core/emitter/x64/jit.cpp: PUSH", "lib86cpu/core/emitter/x64/jit.cpp: POP", "lib86cpu/core/emitter/x64/jit.cpp: lxs", "lib86cpu/core/instructions.cpp: mov_sel_real_helper"]}
{"id": "C66", "title": "Near transfers, and far transfers outside protected mode, continue at the documented address and return", "statement": "JMP, CALL and RET in all their near forms, and far JMP, CALL and RETF in real and virtual-8086 mode, continue at the documented instruction pointer (cut to 16 bits with a 16-bit operand size) and code segment, push or pop exactly the documented words at the width of the stack, release the bytes of an immediate, change no flag and no other register, and change nothing if an access faults. A CALL followed by a RET returns after the CALL with ESP as before, whatever runs in between, if that restores ESP and leaves the return address alone.", "quantifier": "all displacements, targets, operand and stack sizes, stack positions with wrap-around, segment bases, memory contents, fault positions and callee behaviours", "why_tests_cant": "The return depends on everything the callee does; wrap-around of IP and SP sits at the ends of 2^16 and 2^32 ranges.", "anchors": ["lib86cpu/core/emitter/x64/jit.cpp: CALL", "lib86cpu/core/emitter/x64/jit.cpp: JMP", "lib86cpu/core/emitter/x64/jit.cpp: RET", "lib86cpu/core/emitter/x64/jit.cpp: gen_stack_push", "lib86cpu/core/emitter/x64/jit.cpp: gen_stack_pop"]}
{"id": "C67", "title": "ENTER builds the documented frame or changes no register", "statement": "ENTER size, level pushes EBP, copies level-1 words of the enclosing display, pushes the new frame pointer, reserves size bytes and sets EBP to the new frame, all at the width of the stack and with the level taken modulo 32. It probes the word at the final stack pointer. If any access faults, no register has changed.", "quantifier": "all sizes, levels, operand and stack sizes, register contents, segment bases, memory contents and fault positions", "why_tests_cant": "There are 32 levels, any of up to 63 accesses can fault, and the copied words may overlap the words being written.", "anchors": ["lib86cpu/core/emitter/x64/jit.cpp: ENTER", "lib86cpu/core/emitter/x64/jit.cpp: gen_virtual_stack_push"]}
{"id": "C68", "title": "ARPL raises the requested privilege level and only it", "statement": "ARPL raises the RPL of the destination selector to that of the source if it is lower, and sets ZF exactly in this case; no other flag and no other bit of the selector changes; memory is written only if the selector changes; a fault changes nothing. Outside protected mode it raises #UD.", "quantifier": "all selectors, operand forms, flags, memory contents and fault positions", "why_tests_cant": "The lazily evaluated flags have many encodings, and ZF alone must change in each of them.", "anchors": ["lib86cpu/core/emitter/x64/jit.cpp: ARPL"]}
{"id": "C69", "title": "A timed run returns when its time is up and leaves the cpu ready for the next call", "statement": "cpu_run_until reports a timeout only after the requested time (as last set by cpu_set_timeout) has passed since the call, and once it has passed it returns after a bounded amount of further guest code. cpu_exit ends the run in progress, or the next one, and every successful end answers one cpu_exit. After a call has returned, any thread can take or restore a snapshot, and a cpu that was run with a timeout is refused by cpu_run.", "quantifier": "all histories of cpu_run, cpu_run_until, cpu_exit, cpu_suspend, cpu_resume, cpu_set_timeout, interrupt lines and passing time, all guests, all contents of the code cache", "why_tests_cant": "It depends on code translated by earlier calls, on where in the guest the time runs out and on the order of requests from other threads.", "anchors": ["lib86cpu/core/translate.cpp: cpu_start, cpu_main_loop, cpu_do_int", "lib86cpu/interface.cpp: cpu_run, cpu_run_until, cpu_exit, cpu_snapshot_handler", "lib86cpu/core/emitter/x64/jit.cpp: gen_timeout_check, HLT", "lib86cpu/core/instructions.cpp: hlt_helper"]}
{"id": "C70", "title": "A halted cpu waits for an interrupt", "statement": "After HLT the guest executes nothing until it takes a hardware interrupt, however often the emulation returns to its caller and is entered again; it then takes the interrupt at once if IF is set, and not if IF is clear. Waking it never ends the host program.", "quantifier": "all histories of run calls, timeouts, pauses, exits, interrupt lines and guest code", "why_tests_cant": "The wait may be cut at any point by a timeout, a pause or an exit, and must survive each of them.", "anchors": ["lib86cpu/core/instructions.cpp: hlt_helper", "lib86cpu/core/translate.cpp: cpu_start, cpu_do_int", "lib86cpu/core/emitter/x64/jit.cpp: HLT"]}
{"id": "C71", "title": "Port instructions transfer exactly the counted values, in order", "statement": "IN reads the addressed port once with the operand width and puts the value in AL, AX or EAX; OUT writes AL, AX or EAX once. INS and OUTS transfer one element between the port in DX and ES:(E)DI or the source segment and (E)SI, and move the index by the direction flag. With REP they do so as many times as the count register says, in order, with nothing else changed. An access the I/O privilege check refuses raises #GP(0) without touching the port, and a repetition that is stopped leaves the index and count registers at the stopped element.", "quantifier": "all ports, widths, address sizes, segment bases, counts, directions, memory contents and faults, all devices (any function of the accesses made so far), all privilege levels and TSS contents", "why_tests_cant": "The values depend on the whole history of accesses to a device, and a count may be any 32-bit number with a fault or a refusal at any element.", "anchors": ["lib86cpu/core/emitter/x64/jit.cpp: IN, OUT, INSB, INSW, INSD, OUTSB, OUTSW, OUTSD, load_io, store_io, gen_check_io_priv, rep_start, rep", "lib86cpu/core/memory_management.cpp: io_read_helper, io_write_helper"]}
{"id": "C72", "title": "SSE moves and shuffles have their documented effect and nothing else", "statement": "MOVAPS, MOVUPS, MOVSS, MOVLPS, MOVHPS, MOVNTPS, SHUFPS, UNPCKHPS, UNPCKLPS and XORPS give their destination the documented value and change nothing else. The forms that need a 16-byte aligned operand raise #GP(0) otherwise, and a faulting access faults, before anything changes. Where SSE is unavailable the documented exception is raised instead: #UD if emulation is on or the operating system did not enable SSE, else #NM after a task switch.", "quantifier": "all registers, memory operands, immediates, register and memory contents, alignments, faults and control bits", "why_tests_cant": "128-bit operands, all shuffle immediates, all addresses and all combinations of control bits.", "anchors": ["lib86cpu/core/emitter/x64/jit.cpp: MOVAPS, MOVUPS, MOVSS, MOVLPS, MOVHPS, MOVNTPS, SHUFPS, UNPCKHPS, UNPCKLPS, XORPS, gen_simd_mem_align_check"]}
{"id": "C73", "title": "SSE arithmetic obeys MXCSR and leaves the host's MXCSR alone", "statement": "ADDPS, ADDSS, MULPS, MULSS, SUBPS, SUBSS and CVTTSS2SI compute with the guest's rounding and flush modes. The exceptions they raise are added to the flags in MXCSR. If one of them is unmasked, #XM (or #UD if not enabled) is raised and the destination keeps its value; otherwise it gets the result. RCPPS, RCPSS, RSQRTPS and RSQRTSS do the same without flags. Packed memory operands must be aligned. The host's own floating point control is unchanged afterwards, whatever the outcome.", "quantifier": "all operands, MXCSR values, host MXCSR values, memory contents and faults, all floating point units (any function of operation, modes and operands)", "why_tests_cant": "Flags accumulate over the whole history; masks, modes and operands combine without bound, and the host's control word must survive every exit.", "anchors": ["lib86cpu/core/emitter/x64/jit.cpp: simd_arithmetic, CVTTSS2SI, gen_set_host_simd_ctx, gen_simd_exp_post_check, RESTORE_SIMD_CTX", "lib86cpu/core/fpu_instructions.cpp: fxrstor_helper"]}
{"id": "C74", "title": "System table registers are loaded and stored as a whole", "statement": "LGDT and LIDT read a 2-byte limit and a 4-byte base (cut to 24 bits with a 16-bit operand size) and change the register only after both reads succeeded; a page fault or #GP leaves it unchanged. SGDT and SIDT store exactly those six bytes, unless CR4.UMIP forbids it above level 0. Storing a table register and loading it again restores it. SLDT and STR store the selector to 16 bits of memory or to a register.", "quantifier": "all addressing forms, register contents, memory contents and faults, operand sizes, privilege levels and modes", "why_tests_cant": "Which of the two accesses faults, and where, depends on page tables and addresses; a partially loaded register shows only after a fault at the wrong byte.", "anchors": ["lib86cpu/core/emitter/x64/jit.cpp: load_sys_seg_reg, store_sys_seg_reg, LGDT, LIDT, SGDT, SIDT, SLDT, STR"]}
{"id": "C75", "title": "Privileged instructions do nothing above level 0 and one thing at level 0", "statement": "Above privilege level 0, LGDT, LIDT, LLDT, LTR, LMSW, CLTS, MOV to and from control registers, RDMSR, WRMSR, INVLPG, WBINVD and HLT raise #GP(0) (#UD for LLDT and LTR in virtual 8086 mode) with no register, memory or system register changed. At level 0 each performs its system operation exactly once with the documented argument, obeys a fault the operation reports, and otherwise continues at the next instruction. RDTSC obeys CR4.TSD, LMSW cannot clear CR0.PE, and VERR and VERW only change ZF.", "quantifier": "all operands, register and memory contents, privilege levels and modes, all outcomes of the system operations (arbitrary functions of their arguments and of the guest's state)", "why_tests_cant": "Absence of any effect before the privilege check cannot be observed by sampling states; the argument must be right for every register and addressing form.", "anchors": ["lib86cpu/core/emitter/x64/jit.cpp: LLDT, LTR, VERR, VERW, LMSW, CLTS, MOV_, RDMSR, WRMSR, RDTSC, INVLPG, WBINVD, HLT, CPUID, load_sys_seg_reg, verx"]}
{"id": "C76", "title": "Software interrupts enter the handler of their vector and nothing else", "statement": "INTO with OF clear only advances EIP. Otherwise INT3, INT n and INTO enter the handler of their vector through an interrupt or trap gate whose DPL is not below the current privilege level, with CS, the address of the next instruction and EFLAGS saved and no error code. A gate that does not allow it gives #GP(8v+2), a gate that is not present #NP(8v+2), with registers and memory unchanged. Real mode uses the vector table. In virtual 8086 mode INT n needs IOPL 3, or is redirected to the task's own vector table when CR4.VME and the redirection bitmap say so. Addresses saved for a refused interrupt are those of the INT instruction; CR2 is kept.", "quantifier": "all vectors, gates, descriptor tables and memory behaviours, all register contents, privilege levels and modes", "why_tests_cant": "The gate, descriptor, stack and bitmap checks depend on arbitrary guest memory; each combination of mode, level and gate behaves differently.", "anchors": ["lib86cpu/core/emitter/x64/jit.cpp: int_, INT3_, INTN, INTO, ld_of", "lib86cpu/core/translate.cpp: cpu_raise_exception"]}
{"id": "C77", "title": "An interrupted program goes on where it was", "statement": "Whatever interrupts a program in protected or virtual 8086 mode through a 32-bit gate, and whatever the handler does as long as it leaves the frame and its stack segment alone and drops the error code: when its IRET completes, the program continues at the same instruction in the same code segment, at the same privilege level and mode, on the same stack, with the same flags; a virtual 8086 task also gets its data segments back.", "quantifier": "all interrupted states, all vectors, error codes, gates and descriptor tables, all handlers (any register and memory contents outside the frame when IRET is executed)", "why_tests_cant": "It relates two instructions separated by arbitrary code, and must hold for every gate, stack switch and handler.", "anchors": ["lib86cpu/core/translate.cpp: cpu_raise_exception", "lib86cpu/core/instructions.cpp: lret_pe_helper, iret_pe_helper, write_eflags_helper"]}
{"id": "C78", "title": "Breakpoints do not change the guest's memory", "statement": "With the debugger attached, through any sequence of breakpoints set, hit, stepped over, moved and deleted, stops and continues, the guest's memory is what its own writes and the memory editor made of it: whenever the guest is stopped every byte is as if there were no breakpoints, and a byte the guest writes over a breakpoint is kept.", "quantifier": "all sessions (any number of stops, guest writes and user commands in any order), all breakpoint lists and memories", "why_tests_cant": "The saved byte of every breakpoint must be right after every history of guest writes, stops and list edits.", "anchors": ["lib86cpu/dbg/debugger.cpp: dbg_apply_sw_breakpoints, dbg_remove_sw_breakpoints, dbg_update_sw_breakpoints, dbg_wait, dbg_sw_breakpoint_handler, dbg_exp_handler", "lib86cpu/dbg/imgui_wnd.cpp: dbg_handle_breakpoint_toggle, dbg_handle_step_over", "lib86cpu/core/translate.cpp: cpu_raise_exception, cpu_start, dbg_exec_original_instr", "lib86cpu/core/instructions.cpp: update_crN_helper"]}
{"id": "C79", "title": "A breakpoint stops the guest without changing what it executes", "statement": "When the guest reaches a breakpoint it stops there, and on continuing the original instruction is executed once at its own address in the guest's own memory, after which all breakpoints are set again; a temporary breakpoint of step-over is gone once a breakpoint is hit. INT3 instructions and debug exceptions of the guest itself reach its own handlers.", "quantifier": "all states in which an exception 1 or 3 is raised, all breakpoint lists, all user commands while stopped, all effects of the original instruction", "why_tests_cant": "It must hold for every instruction under a breakpoint, every set of other breakpoints, and every origin of the exception.", "anchors": ["lib86cpu/dbg/debugger.cpp: dbg_apply_sw_breakpoints, dbg_remove_sw_breakpoints, dbg_update_sw_breakpoints, dbg_wait, dbg_sw_breakpoint_handler, dbg_exp_handler", "lib86cpu/dbg/imgui_wnd.cpp: dbg_handle_breakpoint_toggle, dbg_handle_step_over", "lib86cpu/core/translate.cpp: cpu_raise_exception, cpu_start, dbg_exec_original_instr", "lib86cpu/core/instructions.cpp: update_crN_helper"]}
{"id": "C80", "title": "Watchpoints are set one at a time and survive in the settings", "statement": "Setting or clearing a watchpoint in the debugger changes that watchpoint only; the settings written when the debugger closes and read when it starts give back the same breakpoints, without the temporary ones, and the same watchpoints with the same address, length and type.", "quantifier": "all debug register contents before and after, all addresses, lengths and types, all breakpoint lists", "why_tests_cant": "All encodings of four packed register fields, combined with any previous contents.", "anchors": ["lib86cpu/dbg/debugger.cpp: dbg_update_watchpoint, read_dbg_opt, write_dbg_opt", "lib86cpu/core/breakpoint.cpp: cpu_check_watchpoint_enabled, cpu_get_watchpoint_type, cpu_get_watchpoint_length"]}
{"id": "C81", "title": "The instruction executed is the one in memory", "statement": "At every linear address the processor executes the instruction whose bytes lie there, each byte read through the page tables, also when the instruction crosses into another page; if a byte it needs cannot be fetched, #PF is raised with the address of that byte, #UD if the bytes are no instruction, #GP if there are more than fifteen, #DB if an instruction breakpoint is set there; nothing else stops it.", "quantifier": "all memories, page tables and addresses, all instruction sets decoded byte by byte, all histories of code executed before", "why_tests_cant": "A fetch must not depend on what was fetched before, for every history and every position of an instruction relative to page and region boundaries.", "anchors": ["lib86cpu/core/memory_management.cpp: ram_fetch, as_ram_dispatch_read, get_code_addr", "lib86cpu/core/decode.cpp: decode_instr, init_instr_decoder", "lib86cpu/core/translate.cpp: cpu_translate, cpu_main_loop"]}
{"id": "C82", "title": "A translated block holds the instructions of one page, and one when single stepping", "statement": "Translation always ends. A block that is kept consists of instructions that follow each other and lie in one page, so that only changes to this page can change it; with TF, RF or a request for a single instruction it holds at most one instruction and is not kept; instructions are decoded in the mode of the code and stack segments.", "quantifier": "all memories, page tables, addresses and flags, all decoders, all histories", "why_tests_cant": "The invariant is needed for every sequence of instruction lengths and every alignment.", "anchors": ["lib86cpu/core/memory_management.cpp: ram_fetch, as_ram_dispatch_read, get_code_addr", "lib86cpu/core/decode.cpp: decode_instr, init_instr_decoder", "lib86cpu/core/translate.cpp: cpu_translate, cpu_main_loop"]}
{"id": "C83", "title": "The debugger lists the instructions that would be executed", "statement": "The disassembly shown by the debugger consists of the instructions that the processor would fetch, each following the one before it.", "quantifier": "all memories, page tables, start addresses and lengths of the listing", "why_tests_cant": "All alignments of instructions to pages and all mappings of neighbouring pages.", "anchors": ["lib86cpu/dbg/debugger.cpp: dbg_disas_code_block", "lib86cpu/core/memory_management.cpp: ram_fetch"]}
{"id": "C84", "title": "x87 instructions compute the documented function with the guest's settings and give the host its unit back", "statement": "Every x87 instruction applies the documented operation to its destination and source in the documented order (FSUB destination minus source, FSUBR source minus destination, FPATAN ST1 over ST0, FCOM ST0 with the operand), under the guest's precision and rounding and with all exceptions masked on the host, and afterwards the host's control word is what it was and no value is left on the host's register stack.", "quantifier": "all operands, register numbers, opcodes, control words, host states, host arithmetics and sequences of x87 instructions", "why_tests_cant": "The order of operands must be right for every form and register; the state of the host must be preserved on every path of every instruction and over any history.", "anchors": ["lib86cpu/core/emitter/x64/jit.cpp: gen_set_host_fpu_ctx, RESTORE_FPU_CTX, gen_fpu_exp_post_check, gen_fpu_load_stx, gen_fpu_store_stx, fpu_load_constant, fpu_store, fpu_load, fpu_arithmetic, FCHS_, FCOM, FCOS_, FSIN_, FSINCOS_, FSQRT_, FPATAN_, FXCH_"]}
{"id": "C85", "title": "Single stepping reports every instruction once", "statement": "While TF is set, every instruction that completes is followed at once by a debug exception with DR6.BS set and the address of the next instruction, also for instructions that change TF, which are judged by the TF they began with; INT n is not stepped, handlers start with TF clear, and no single step is reported otherwise.", "quantifier": "all programs, effects of instructions, faults, breakpoints, block boundaries, links between blocks and flushes of translated code", "why_tests_cant": "TF is looked at when a block is translated, so what happens depends on the whole history of cached blocks and links; it must hold for every program and every way of cutting it into blocks.", "anchors": ["lib86cpu/core/emitter/x64/jit.cpp: gen_check_rf_single_step, gen_no_link_checks, gen_interrupt_check, gen_tc_linking_jmp, gen_tc_linking_ret, int_, HLT", "lib86cpu/core/translate.cpp: cpu_do_int, cpu_main_loop, cpu_translate, cpu_raise_exception", "lib86cpu/core/breakpoint.cpp: cpu_check_watchpoints", "lib86cpu/core/instructions.cpp: update_drN_helper"]}
{"id": "C86", "title": "A data breakpoint is reported once, after the instruction that hit it", "statement": "An instruction that completes after hitting data or I/O breakpoints is followed at once by one debug exception whose DR6 names all registers that were hit, with the address of the next instruction; a later instruction never receives it.", "quantifier": "all programs, sets of hit registers, faults, single steps, handlers and histories", "why_tests_cant": "The report is a pending bit taken at the next check, which other exceptions can overtake; whether it is lost, doubled or late depends on all combinations.", "anchors": ["lib86cpu/core/emitter/x64/jit.cpp: gen_check_rf_single_step, gen_no_link_checks, gen_interrupt_check, gen_tc_linking_jmp, gen_tc_linking_ret, int_, HLT", "lib86cpu/core/translate.cpp: cpu_do_int, cpu_main_loop, cpu_translate, cpu_raise_exception", "lib86cpu/core/breakpoint.cpp: cpu_check_watchpoints", "lib86cpu/core/instructions.cpp: update_drN_helper"]}
{"id": "C87", "title": "An armed instruction is reported instead of executed, and RF lets it pass exactly once", "statement": "An instruction whose address is armed in the debug registers is never executed with RF clear: a debug exception with its address comes first. Returning with RF set executes it once; RF is clear for the instruction after it.", "quantifier": "all programs, breakpoints set and removed at any time, code already translated or not, returns with RF set, and histories", "why_tests_cant": "Breakpoints are looked at when code is translated; the code cache and the links make the outcome depend on everything executed before.", "anchors": ["lib86cpu/core/emitter/x64/jit.cpp: gen_check_rf_single_step, gen_no_link_checks, gen_interrupt_check, gen_tc_linking_jmp, gen_tc_linking_ret, int_, HLT", "lib86cpu/core/translate.cpp: cpu_do_int, cpu_main_loop, cpu_translate, cpu_raise_exception", "lib86cpu/core/breakpoint.cpp: cpu_check_watchpoints", "lib86cpu/core/instructions.cpp: update_drN_helper"]}
{"id": "C88", "title": "Changes of the memory map made while the cpu runs take effect in the order of the calls, all of them, and not before the interrupt", "statement": "A region call with should_int leaves the guest's map as it is until the interrupt it raised is served; afterwards the map, and the status each call returned, are those of the same calls taking effect one after the other, every address belongs to the last call over it, and no TLB or code cache entry is left of an earlier map.", "quantifier": "all histories of region calls with and without an interrupt, port regions, A20 requests, served interrupts, loaded snapshots and stretches of guest code", "why_tests_cant": "The order in which waiting and immediate calls meet an interrupt, and which other interrupts are served with it, ranges over unboundedly many histories.", "anchors": ["lib86cpu/interface.cpp: mem_init_region_ram, mem_init_region_io, mem_init_region_alias, mem_init_region_rom, mem_destroy_region", "lib86cpu/core/translate.cpp: cpu_do_int", "lib86cpu/support.cpp: cpu_load_state", "lib86cpu/as.hpp: insert, erase, search"]}
{"id": "C89", "title": "New handlers reach the region they were requested for, and only it", "statement": "After mem_init_region_io with update 1, 2 or 3, once the interrupt is served, the region that owns the address has the handlers and the pointer of the last update for it, every other region keeps its own, and until then nothing changes.", "quantifier": "all histories of region calls and updates, all addresses, ports, handlers and pointers", "why_tests_cant": "Regions are split, replaced and created between an update and the interrupt in unboundedly many ways.", "anchors": ["lib86cpu/interface.cpp: mem_init_region_ram, mem_init_region_io, mem_init_region_alias, mem_init_region_rom, mem_destroy_region", "lib86cpu/core/translate.cpp: cpu_do_int", "lib86cpu/support.cpp: cpu_load_state", "lib86cpu/as.hpp: insert, erase, search"]}
{"id": "C90", "title": "A data access does what the regions at its physical addresses do, with and without the TLB", "statement": "A read of 1 to 16 bytes returns the bytes kept in ram or rom at its physical addresses, zero where nothing is mapped, and one answer of the device where a device is mapped; a write stores exactly its bytes in ram, changes no rom, and is one call of the device with the physical address, the width and the value; an access that crosses a page is done byte by byte in order, each byte in its own page. The same holds whether the TLB has the page or not, and what was written to ram is read back.", "quantifier": "all region maps built by the API, all translations of pages, all histories of accesses and TLB evictions, all addresses, sizes and values", "why_tests_cant": "Histories, maps and the fill state of the TLB are unbounded.", "anchors": ["lib86cpu/core/memory_management.hpp: as_memory_dispatch_read, as_memory_dispatch_write, mem_read_slow, mem_write_slow", "lib86cpu/core/memory_management.cpp: tlb_fill, mem_read_helper, mem_write_helper"]}
{"id": "C91", "title": "A port access is one call of the device that was mapped last at the port", "statement": "After any history of port regions created and destroyed, a read or write of a port of any width calls the handler given by the last call over that port exactly once, with its pointer, the port and the width; a port of no device reads zero and ignores writes.", "quantifier": "all histories of port region calls, all ports, widths and values", "why_tests_cant": "Regions overlap, split and replace each other in unboundedly many ways.", "anchors": ["lib86cpu/core/memory_management.hpp: as_io_search_port, as_io_dispatch_read, as_io_dispatch_write", "lib86cpu/interface.cpp: mem_init_region_io, mem_destroy_region", "lib86cpu/as.hpp: insert, erase, search"]}
{"id": "C92", "title": "A translated block does what its instructions do one at a time in the mode the cpu is in", "statement": "Running a block of translated code, entered at its start or after a CALL inside it with the privilege level, operand and stack size, protection and virtual mode, I/O privilege, known zero bases, CS base and page tables it was translated for, has the same result as fetching and executing its instructions one at a time, each in the mode, flags, CS base and page tables it finds; in particular no instruction runs with decisions taken for another mode, and blocks linked without a look-up reach the next block in one and the same context.", "quantifier": "all programs, all blocks translated from them, all entries of a block, all states of the cpu with the guest flags and CS base of the block, all memory systems and page faults", "why_tests_cant": "the code of a block depends on about twenty bits of state read at translation; that no instruction inside a block changes one of them before the block ends, for every instruction sequence and state, is not visible from samples", "anchors": ["lib86cpu/core/translate.cpp: cpu_translate, tc_cache_search", "lib86cpu/core/internal.hpp: HFLG_CONST, EFLAGS_CONST", "lib86cpu/core/emitter/x64/jit.cpp: MOV, POPF, CLI, STI, CLTS, LMSW, LTR, LLDT, CALL_, JMP, HLT, gen_tc_linking_jmp, gen_stack_push", "lib86cpu/core/helpers.cpp: rsb lookup"]}
{"id": "C93", "title": "The ram buffer is as large and as aligned as asked for, and everything taken for a cpu is given back once", "statement": "For every size and power of two alignment that cpu_new accepts, the ram it returns begins at a multiple of the alignment, and its bytes and the 16 behind them lie in the memory allocated for it; other parameters are refused.  A cpu_new that fails, at whatever point, leaves no memory, mapping, open file or signal handler behind and releases none that it did not acquire, and neither does cpu_new followed by cpu_free.  A snapshot touches only memory of the buffer.", "quantifier": "all sizes and alignments of 64 bits, all answers of the allocator and of the operating system, all points of failure, all earlier calls", "why_tests_cant": "where the allocator puts the block and which of its calls fail are not under the control of a test; the arithmetic has to be right for all 64 bit values", "anchors": ["lib86cpu/interface.cpp: cpu_new, cpu_free", "lib86cpu/core/emitter/x64/linux/ipt.cpp: ipt_ram_init, ipt_ram_deinit, ipt_signal_init", "lib86cpu/support.cpp: cpu_save_state, cpu_load_state"]}
{"id": "C94", "title": "A host pointer to guest memory names the bytes the guest uses", "statement": "A pointer obtained from get_host_ptr for a guest virtual address is null exactly when the address does not map to ram or rom or a guest exception occurs, with the error that tells which; otherwise loads through it give what the memory read API gives, stores through it are what the guest reads at that address and change no other byte, consecutive pointers name consecutive addresses to the end of the page or region, and pointers to ram agree with get_ram_ptr.", "quantifier": "all region layouts made through the API, all translations, all addresses and offsets, all memory contents", "why_tests_cant": "whether the index into the host buffer is the one every other access computes depends on the whole history of region calls and on the page tables", "anchors": ["lib86cpu/interface.cpp: get_host_ptr, get_ram_ptr", "lib86cpu/core/memory_management.hpp: get_ram_host_ptr, get_rom_host_ptr"]}
{"id": "C95", "title": "What the xbox build takes for a rom is what was asked for, and it is given back once", "statement": "In the xbox build mem_init_region_rom succeeds exactly when its parameters are valid and no call of the system failed; the process then holds two views of the rom and of 16 more bytes and nothing else for it.  A call that fails leaves nothing behind and releases nothing it did not acquire, in particular not the buffer of the client, and destroying the region gives back both views.", "quantifier": "all start addresses, sizes and buffers, all answers of the operating system, all points of failure, all earlier roms", "why_tests_cant": "the system calls that fail are not under the control of a test, and releases of things not held show no effect until something else needs them", "anchors": ["lib86cpu/interface.cpp: mem_init_region_rom", "lib86cpu/core/emitter/x64/linux/ipt.cpp: ipt_rom_init, ipt_rom_deinit", "lib86cpu/lib86cpu_priv.hpp: memory_region_t"]}
{"id": "C96", "title": "The settings in force are those of the last valid call", "statement": "cpu_set_flags succeeds exactly for one of the three documented syntaxes with or without the debugger and the abort-on-HLT setting; otherwise it changes nothing. In every history HLT at privilege level 0 ends the emulation exactly when the last valid call asked for it, also in blocks translated before that call, after a restored snapshot, in single steps and with other cpus in the process; the syntax in which a cpu prints instructions is the one last set on it.", "quantifier": "all flag words and all histories of cpu_set_flags, executions of HLT in cached and uncached blocks, timed runs, single steps, restores and cache flushes, on any number of cpus", "why_tests_cant": "whether old code survives a change of settings depends on every order of translations and calls; a test sees one order, and most tests have one cpu", "anchors": ["lib86cpu/interface.cpp: cpu_set_flags, cpu_new", "lib86cpu/core/emitter/x64/jit.cpp: HLT", "lib86cpu/core/translate.cpp: cpu_main_loop, cpu_start", "lib86cpu/support.cpp: cpu_load_state", "lib86cpu/core/decode.cpp: set_instr_format, formatter"]}
{"id": "C97", "title": "CPUID and the microcode revision", "statement": "CPUID names the vendor GenuineIntel with highest leaf 2, answers every higher leaf like leaf 2, reports family 6, model 8, stepping 10 in leaf 1, and changes no model specific register but the microcode revision, that only in leaf 1. After an update was triggered, CPUID with leaf 1 makes the revision register read 1 in its upper half until the register is written; without an update it makes it read 0.", "quantifier": "all leaves, all register contents and all histories of CPUID and WRMSR with any register and value that do not abort", "why_tests_cant": "the revision read depends on the order of triggers, writes and CPUIDs in the whole history, and the leaf is any 32 bit word", "anchors": ["lib86cpu/core/instructions.cpp: cpuid_helper, msr_read_helper, msr_write_helper"]}
