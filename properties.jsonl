{"id": "C01", "title": "Memory cells behave like masked storage", "statement": "In a configuration where every cell is as wide as the elements of the chip it is mapped on: after a program or user writes v to a decoded, writable, callback-free address of an address space, reading that address returns v truncated to the width of the space (a one bit cell takes any non-zero value as 1), every address that is mapped on the same chip location shows the same new value, and every address mapped elsewhere still returns what it returned before, through any further accesses that do not store to the same place. Without that condition, which the simulator does not check, a write may change a neighbouring address.", "quantifier": "all address spaces, chips, decode maps, addresses, values and access histories", "why_tests_cant": "The aliasing structure is an arbitrary map of addresses to chip locations; tests only sample a few maps and addresses.", "anchors": ["src/core/sim.src/mem.cc: cl_address_space::read/write/set, cl_memory_cell::write, cl_cell8/16/32::d"]}
{"id": "C02", "title": "Accesses outside an address space have no effect on it", "statement": "Reading, writing, setting or downloading to an address below the start or past the end of an address space changes no chip content and not the value readable at any decoded address of any space, and it is reported as an invalid-address error (if the space belongs to a controller). Addresses that are in range but not decoded are not protected: they all share one variable with the accesses out of range.", "quantifier": "all spaces, all 32 bit addresses outside of the range, all values", "why_tests_cant": "Every out-of-range 32 bit address for every start/size must be safe, including the wrap-around of address minus start.", "anchors": ["src/core/sim.src/mem.cc: cl_address_space::read/write/set/download/get_cell, cl_memory::valid_address"]}
{"id": "C03", "title": "Read-only cells are immutable for the program but can be loaded", "statement": "A cell flagged read-only keeps its value through any sequence of program writes and user sets to it; loading a file (download) still changes it.", "quantifier": "all histories of write/set/download on a cell", "why_tests_cant": "Needs induction over arbitrary access histories.", "anchors": ["src/core/sim.src/mem.cc: cl_memory_cell::write, set, download, CELL_READ_ONLY"]}
{"id": "C04", "title": "Activated address decoder maps exactly its window", "statement": "If the request for a decoder is accepted, then each address of its window is backed by chip location chip_begin + (address - window begin) if the chip has that location, otherwise it is without backing (only the last address of a window one longer than the chip, which is accepted), and no address outside of its window changes its backing.", "quantifier": "all spaces, chips, windows, chip offsets and earlier decode states", "why_tests_cant": "Ranges over all windows, sizes and previous maps; boundary sizes are easily missed by tests.", "anchors": ["src/core/sim.src/mem.cc: cl_address_decoder::activate, cl_address_space::decode_cell"]}
{"id": "C05", "title": "Decoder list and real mapping never diverge", "statement": "For a space that ends below 2^32: after any sequence of decoder creations the windows of listed decoders are pairwise disjoint, an address covered by a listed decoder is backed by the location which that decoder shows (by nothing if the chip has no such location), and an address covered by none is not backed. In a space that ends exactly at 2^32 a listed decoder may have no effect.", "quantifier": "all sequences of decoder creations (histories) over any windows", "why_tests_cant": "Overlap handling (remove, split, shrink) depends on the whole history of windows.", "anchors": ["src/core/sim.src/mem.cc: cl_address_space::undecode_area, cl_address_decoder::shrink_out_of, split, fully_covered_by, covers, is_in"]}
{"id": "C06", "title": "Bank switching selects the bank named by the selector", "statement": "For a selector whose mask is a group of adjacent bits and banks that are each defined once: after any write to the selector register that names a defined bank, every address of the banked window is backed by the location of that bank, chip start plus offset (nothing past the end of the chip); a selection of an undefined bank leaves the mapping unchanged; addresses outside of the window are never touched. Redefining a bank can leave the window without backing, and masks with gaps or no bits are accepted and crash.", "quantifier": "all selector masks, bank tables, written values and write histories", "why_tests_cant": "Selector values and masks are unbounded combinations; history of undefined selections matters.", "anchors": ["src/core/sim.src/mem.cc: cl_banker::init, actual_bank, activate, add_bank, cl_bank_switcher_operator::write"]}
{"id": "C07", "title": "Bit-band cells address exactly one bit", "statement": "In a bit-banded window cell number n stands for bit n mod bpc of chip location chip_begin + (n div bpc)*distance: writing the bit cell changes that bit and no other bit of the chip, and reading it returns that bit, if it is one of the lowest eight bits; cells that stand for bit 8 or above of a wider element read as 0 and ignore writes.", "quantifier": "all windows, bits-per-chip values, distances, chip contents and bit addresses", "why_tests_cant": "All combinations of bit position, window and content must hold.", "anchors": ["src/core/sim.src/mem.cc: cl_bander::activate, cl_bit_cell8::d"]}
{"id": "C08", "title": "Address arithmetic stays inside the memory", "statement": "inc_address returns an address of the memory for every input (unless the int sum overflows); stepping forward goes exactly that many addresses further around the end; in general the distance is taken modulo 2^32 first, so stepping backward is right exactly when this does not matter, e.g. when the size divides 2^32. validate_address ends and returns a congruent address of the memory for every input except start+size, which it returns unchanged.", "quantifier": "all start addresses, sizes, input addresses and increments", "why_tests_cant": "Boundary cases of modular 32 bit arithmetic over all sizes.", "anchors": ["src/core/sim.src/mem.cc: cl_memory::inc_address, validate_address"]}
{"id": "C09", "title": "Intel hex dump can be loaded back", "statement": "Dumping any range of an 8 bit memory of at most 64k in Intel hex format and loading the produced text restores the same bytes at the same addresses, and changes nothing else. Above address 0xffff the dump is not valid hex and is not loaded back.", "quantifier": "all memory contents, ranges and bytes-per-line values", "why_tests_cant": "Round trip over all contents and ranges, including lines that cross 64k.", "anchors": ["src/core/sim.src/mem.cc: cl_memory::dump_i", "src/core/sim.src/uc.cc: cl_uc::read_hex_file, ReadInt, set_rom"]}
{"id": "C10", "title": "Hex records with wrong checksum are ignored", "statement": "Loading into a byte memory: a record whose checksum does not match has no effect on memory, and the records around it are still loaded, if it is not of type 1; a record of type 1 ends the loading, also when its checksum is wrong. In general what is stored is the meaning of the correct records before the first record of type 1.", "quantifier": "all files (byte sequences) and all memories", "why_tests_cant": "Arbitrary corrupted input files.", "anchors": ["src/core/sim.src/uc.cc: cl_uc::read_hex_file"]}
{"id": "C11", "title": "Loading a hex file into memory wider than 8 bits writes only what the file says", "statement": "After loading a well-formed hex file with aligned records into a memory of 9-16 or 25-32 bit words, each word covered by data records has the little endian value of its bytes, word 0 is 0 whatever the file says, and all other words are unchanged.", "quantifier": "all well-formed files, all memories", "why_tests_cant": "Whole-memory frame condition over all files.", "anchors": ["src/core/sim.src/uc.cc: cl_uc::read_hex_file (tail of the function)"]}
{"id": "C12", "title": "S-records load exactly their payload", "statement": "In a byte memory every S1/S2/S3 line with a correct checksum stores its data bytes to consecutive addresses from its address field; in any memory a line of another type, shorter than its count or with a wrong checksum stores nothing. Characters that are not hex digits count as zero digits, and in 16 bit memories the address is divided by 24.", "quantifier": "all S-record lines and all memories", "why_tests_cant": "Arbitrary lines and contents.", "anchors": ["src/core/sim.src/uc.cc: cl_uc::read_s19_file, s19, h1, h2, a16, a24, a32"]}
{"id": "C13", "title": "OMF content records land three bytes too high", "statement": "The data of every OMF content record is stored to consecutive addresses starting three above the address given in the record.", "quantifier": "all OMF records", "why_tests_cant": "Holds for every record address/length.", "anchors": ["src/core/sim.src/uc.cc: cl_uc::read_omf_file, cl_omf_rec::pick_word"]}
{"id": "C14", "title": "Memory search finds the first match", "statement": "In a memory starting at address 0 (of byte width, if the search ignores case) search_next returns the lowest address not below the start address where the searched sequence is found, and reports failure only when there is no such place (the end of the pattern must not pass 2^32); the where commands print all occurrences, each once, in increasing order. In a memory starting elsewhere nothing may be found although it is there.", "quantifier": "all memory contents, patterns, start addresses", "why_tests_cant": "Universally quantified over content and patterns, plus completeness (no match missed).", "anchors": ["src/core/sim.src/mem.cc: cl_memory::search_next"]}
{"id": "C15", "title": "Sorted collections stay sorted and searchable", "statement": "After any sequence of insertions a sorted collection is ordered by its key; searching returns true exactly when an element with the key is present, with the index of the first such element (or the insertion point); collections without duplicates never contain two equal keys.", "quantifier": "all histories of insertions and removals, all key orders", "why_tests_cant": "Binary search correctness for all lengths and contents.", "anchors": ["src/core/utils.src/pobj.cc: cl_sorted_list::search, add, index_of"]}
{"id": "C16", "title": "Lists behave like abstract sequences", "statement": "As long as the list has at most 8192 elements, add, push, add_at, put_at, disconn_at, disconn, pop, top, at, next and index_of of a list have the effect of the same operation on a mathematical sequence, for any initial size and growth of the storage. For every initial size and growth there is a history of additions, with the 8193rd element, that writes outside of the storage.", "quantifier": "all operation sequences and storage limits", "why_tests_cant": "Capacity growth happens at arbitrary points of histories.", "anchors": ["src/core/utils.src/pobj.cc: cl_list::add_at, disconn_at, set_limit, ..."]}
{"id": "C17", "title": "Execution history is the run-length encoded tail of the executed addresses", "statement": "After fewer than 2^31 instructions and history commands the history shows the most recent addresses in order of execution with repeat counts, it never shows more than its capacity, and clearing or trimming it keeps the newest entries; listing one or more entries shows exactly the newest ones. Listing zero entries reads outside of the recorded ones, and a repeat counter overflows after 2^31-1 repeats.", "quantifier": "all execution traces and all trim requests", "why_tests_cant": "Ring buffer wrap-around happens only after thousands of entries in arbitrary traces.", "anchors": ["src/core/sim.src/uc.cc: cl_exec_hist::put, keep, get_used, get_insts, list"]}
{"id": "C18", "title": "Breakpoint numbers identify breakpoints", "statement": "At any time all existing breakpoints have different numbers; deleting a number removes the breakpoint with that number and no other one if it is not a fetch breakpoint outside of the code memory; such a breakpoint can be created, but deleting its number changes nothing and deleting all breakpoints does not end while it exists.", "quantifier": "all histories of break/tbreak/delete/clear/hit events", "why_tests_cant": "Arbitrary histories with counter restarts.", "anchors": ["src/core/sim.src/uc.cc: make_new_brknr, rm_brk", "src/core/sim.src/brk.cc: brk_coll::add_bp, del_bp, get_bp"]}
{"id": "C19", "title": "Fetch breakpoint flag and list agree", "statement": "A ROM cell is marked as fetch breakpoint if and only if there is a fetch breakpoint in the list at that address, at most one fetch breakpoint exists at a valid address, in every reachable state.", "quantifier": "all histories of breakpoint commands and hits", "why_tests_cant": "Invariant over histories.", "anchors": ["src/core/sim.src/brk.cc: brk_coll::bp_at, get_bp, activate, inactivate", "src/core/sim.src/mem.cc: cl_memory_cell::set_brk, del_brk"]}
{"id": "C20", "title": "Hit counts", "statement": "A breakpoint with hit count n and no condition (or a true one) breaks exactly at every n-th hit (and at every hit if n < 1), with a condition it breaks only at those when the condition is true.", "quantifier": "all hit counts and hit histories", "why_tests_cant": "Unbounded counting.", "anchors": ["src/core/sim.src/brk.cc: cl_brk::do_hit"]}
{"id": "C21", "title": "Setting an event breakpoint does not change what the program reads and writes", "statement": "With any read or write breakpoints added to a cell, program writes store the same values as without them, and program reads return the same values if the hardware hooked on the cell returns the content of the cell. Otherwise a read returns the value of the last hooked operator, so that a breakpoint set after the hardware hides its value.", "quantifier": "all cells, callbacks, breakpoints, access histories", "why_tests_cant": "Behavioural equivalence over all histories.", "anchors": ["src/core/sim.src/mem.cc: cl_memory_cell::read, write, cl_read_operator::read, cl_write_operator::write, cl_hw_operator::read"]}
{"id": "C22", "title": "Interrupt acceptance obeys enable, pending and priority", "statement": "For sources whose NMI property was set: an interrupt is accepted only if its source is active, enabled and pending, is not a slave, interrupts are enabled globally or it is an NMI, and its priority is strictly higher than the priority of the interrupted level; among the candidates the first one in polling order is selected; a source that qualifies is never passed over in favour of none. On the MCS51 this holds for all sources.", "quantifier": "all sets of interrupt sources, register contents, nested levels", "why_tests_cant": "All combinations of sources and states.", "anchors": ["src/core/sim.src/uc.cc: cl_uc::do_interrupt, accept_it", "src/core/sim.src/itsrc.cc: cl_it_src::enabled, pending, clear, cl_irqs"]}
{"id": "C23", "title": "Interrupt nesting is bounded and strictly increasing", "statement": "In every reachable state the stack of active interrupt levels is strictly increasing in priority above the main level, so its depth is bounded by the number of priorities, and it always keeps its bottom (main) entry.", "quantifier": "all histories of acceptances, returns and resets", "why_tests_cant": "Induction over histories.", "anchors": ["src/core/sim.src/uc.cc: do_interrupt, reset, it_levels"]}
{"id": "C24", "title": "Time counters are consistent", "statement": "The simulated clock counter equals the sum of clocks of executed cycles since reset, ISR/idle/halt counters equal the clocks spent in those states, none of them exceeds the total, stopped counters do not change and counters running backward decrease.", "quantifier": "all histories of ticks, state changes, counter start/stop", "why_tests_cant": "Sums over arbitrary histories.", "anchors": ["src/core/sim.src/uc.cc: cl_uc::tick, cl_ticker::tick, reset"]}
{"id": "C25", "title": "Step and run limits", "statement": "With no time limit pending, `step n` executes exactly n instructions unless something stops the simulation earlier, running with no limit stops only when an instruction or event requests it, and with an execution limit at most that many are executed. A time limit left over from an interrupted `step n clk` stops later runs.", "quantifier": "all programs (as sequences of instruction results) and all n", "why_tests_cant": "Arbitrary long runs.", "anchors": ["src/core/sim.src/sim.cc: cl_sim::step, start, stop, set_limit"]}
{"id": "C26", "title": "Invalid instructions leave PC on the instruction", "statement": "When the execution of an instruction reports an invalid or not yet finished instruction the program counter is the address of the instruction; fetching wraps PC by its mask so PC never leaves the mask.", "quantifier": "all processor states", "why_tests_cant": "All states.", "anchors": ["src/core/sim.src/uc.cc: do_inst, exec_inst_uctab, fetch"]}
{"id": "C27", "title": "Symbol table is a map from names", "statement": "For at most 8192 additions and addresses below 2^31: after any sequence of variable additions and removals each name denotes at most one variable, a lookup returns the last added and not removed variable of that name, and the address view contains the same memory variables. With addresses 2^31 or more apart a variable may be missing in the address view.", "quantifier": "all histories of var/rmvar", "why_tests_cant": "Histories with replacement and automatic removal.", "anchors": ["src/core/sim.src/var.cc: cl_var_list::add, del, cl_var_by_name_list, cl_var_by_addr_list"]}
{"id": "C28", "title": "Maximal symbol name length is an upper bound, exact with one exception", "statement": "The reported length of the longest symbol name is never less than the real maximum, and it equals the real maximum after any sequence of additions and removals in which no existing name is added again between a removal and the next query.", "quantifier": "all histories of var/rmvar and queries", "why_tests_cant": "Cached value with invalidation over histories.", "anchors": ["src/core/sim.src/var.cc: cl_var_list::get_max_name_len, add, del"]}
{"id": "C29", "title": "Interrupt sources round trip", "statement": "Requesting then testing a source shows it pending, clearing an auto-clear source shows it not pending, and neither changes other bits of the request register.", "quantifier": "all masks, values, register contents", "why_tests_cant": "All masks and contents.", "anchors": ["src/core/sim.src/itsrc.cc: cl_it_src::request, pending, clear"]}
{"id": "C30", "title": "Loading into a named memory goes to the code memory", "statement": "`load file@name` leaves the memory called name unchanged and stores the bytes of the file to the code memory, for every file.", "quantifier": "all files and all memories", "why_tests_cant": "Frame condition over all memories.", "anchors": ["src/core/sim.src/uc.cc: cl_uc::set_rom, cl_inspec::init"]}
{"id": "C31", "title": "Range and offset of a loaded file", "statement": "`load file#min-max:offset` stores exactly the bytes whose file address is in min..max, each at its address plus offset (32 bit), provided that is a valid address; every other byte of memory is unchanged.", "quantifier": "all file contents, windows and offsets", "why_tests_cant": "Frame condition over all files and windows, wrap-around of the offset.", "anchors": ["src/core/sim.src/uc.cc: cl_uc::set_rom, cl_inspec::init"]}
{"id": "C32", "title": "Temporary fetch breakpoints are deleted when accepted", "statement": "A temporary fetch breakpoint (tbreak, run start stop, next) stops the simulation at most once: it is deleted when it is accepted, and not before; other breakpoints are not affected. A hit of an event breakpoint, temporary or not, deletes nothing.", "quantifier": "all histories of breakpoint commands and hits", "why_tests_cant": "Histories of hits with hit counts and conditions.", "anchors": ["src/core/sim.src/uc.cc: cl_uc::do_brk, check_events", "src/core/sim.src/brk.cc: brk_coll::del_bp", "src/core/cmd.src/cmd_bp.cc: cl_tbreak_cmd"]}
{"id": "C33", "title": "A non maskable interrupt waits for the end of any interrupt service", "statement": "On the 6502 and 6809 simulators a requested, enabled and active NMI at the head of the polling order is accepted at the next instruction boundary if and only if no interrupt is being served.", "quantifier": "all register contents, nesting states and source lists", "why_tests_cant": "All nesting states.", "anchors": ["src/core/sim.src/uc.cc: cl_uc::do_interrupt", "src/sims/mos6502.src/mos6502.cc: mk_hw_elements", "src/sims/mos6502.src/mos6502cl.h: priority_of", "src/sims/m6809.src/m6809cl.h: priority_of"]}
{"id": "C34", "title": "6809 interrupt mask flags", "statement": "On the 6809 simulator IRQ requests are enabled exactly when the I flag is clear, and FIRQ requests exactly when the F flag is set.", "quantifier": "all condition code values", "why_tests_cant": "All register contents.", "anchors": ["src/sims/m6809.src/m6809.cc: mk_hw_elements", "src/core/sim.src/itsrc.cc: cl_it_src::enabled"]}
{"id": "C35", "title": "Timers are identified by name or number", "statement": "A name denotes at most one timer; `timer add` (with a number below 8192) creates a zeroed running timer in a free slot and leaves the others alone; delete, start, stop and set (to values below 2^31) affect exactly the designated timer. Larger numbers overrun the list, larger values are stored negative, and the time in seconds of a new timer is not initialised.", "quantifier": "all histories of timer commands and executed instructions", "why_tests_cant": "Histories of commands of any length.", "anchors": ["src/core/cmd.src/cmd_timer.cc: cl_timer_cmd", "src/core/sim.src/uc.cc: cl_uc::add_counter, get_counter, del_counter"]}
{"id": "C36", "title": "Stop command lets one more instruction run", "statement": "After a `stop` command has been processed exactly one more instruction is executed, and none after that until the simulation is started again.", "quantifier": "all machine states and moments of the command", "why_tests_cant": "Interleaving of console input and execution.", "anchors": ["src/core/sim.src/app.cc: cl_app::run_go", "src/core/sim.src/sim.cc: cl_sim::step"]}
{"id": "C37", "title": "Stepping for an amount of time", "statement": "`step n clk` stops at the first instruction boundary at which at least n clocks have passed since the command, if the target time is not 0 and nothing else stops it. With a target time of 0 it never stops.", "quantifier": "all n and all sequences of instruction durations", "why_tests_cant": "All sequences of instruction durations.", "anchors": ["src/core/cmd.src/cmd_exec.cc: cl_step_cmd", "src/core/sim.src/uc.cc: cl_time_measurer::reached", "src/core/sim.src/sim.cc: cl_sim::step"]}
{"id": "C38", "title": "MCS51 instructions do what the manual says", "statement": "Executing one instruction of the 8051/8052 simulator changes the program counter, internal RAM, special function registers and external RAM exactly as the MCS51 manual specifies, for every opcode except the situations of C48 and jumps whose sum is exactly 10000h (C39); bit P of PSW agrees if it showed the parity before and the instruction does not itself write PSW. The same holds along every run of any length.", "quantifier": "all programs, operand values, register banks, memory contents and run lengths", "why_tests_cant": "2^24 encodings times all memory contents; wrap-arounds of PC, SP, DPTR and bank switching.", "anchors": ["src/sims/s51.src/arith.cc", "src/sims/s51.src/logic.cc", "src/sims/s51.src/inc.cc", "src/sims/s51.src/bit.cc", "src/sims/s51.src/jmp.cc", "src/sims/s51.src/mov.cc", "src/sims/s51.src/uc51.cc: cl_51core::exec_inst, decode_regs, decode_bits, cl_uc51_cpu::write"]}
{"id": "C39", "title": "MCS51 program counter and memory stay in range", "statement": "Whatever bytes are executed, for any number of instructions, every memory cell stays a byte and the program counter stays in 0..10000h. 10000h occurs only as the sum of a jump; the opcode is then taken from the shared cell of non-existing memory.", "quantifier": "all programs and states, any number of steps", "why_tests_cant": "Needs an invariant over unbounded executions of arbitrary bytes.", "anchors": ["src/sims/s51.src/jmp.cc", "src/core/sim.src/mem.cc: cl_memory::validate_address", "src/core/sim.src/uc.cc: cl_uc::fetch"]}
{"id": "C40", "title": "MCS51 parity flag", "statement": "Bit P of PSW shows the parity of the accumulator after every instruction if it did before, except after instructions that write PSW (or bit D0h) as an operand, which store P as given.", "quantifier": "all instructions, accumulator values and histories", "why_tests_cant": "All opcodes and accumulator values, by invariant.", "anchors": ["src/sims/s51.src/uc51.cc: cl_uc51_cpu::write", "src/sims/s51.src/glob.cc: ptab51"]}
{"id": "C41", "title": "MCS51 decimal arithmetic", "statement": "ADD A,#x or ADDC A,#x followed by DA A, on packed decimal values, leaves the decimal sum (with the incoming carry for ADDC) in A, and the hundred in CY.", "quantifier": "all pairs of packed decimal bytes, all register contents", "why_tests_cant": "All 10^4 pairs, carries and surrounding states.", "anchors": ["src/sims/s51.src/arith.cc: instruction_24, instruction_34, instruction_d4"]}
{"id": "C42", "title": "MCS51 calls return, pushes pop", "statement": "LCALL and ACALL store the address of the following instruction low byte first above SP and change nothing else; a RET or RETI executed with the same SP and the same two stack bytes continues there with SP as before the call. PUSH d; POP e moves the byte and restores SP. SP wraps at FFh; the stack is in existing RAM.", "quantifier": "all call sites, targets, stack positions and subroutine bodies that restore the stack", "why_tests_cant": "All stack positions including wrap-around, all subroutine bodies.", "anchors": ["src/sims/s51.src/jmp.cc: inst_lcall, instruction_11, instruction_22, instruction_32", "src/sims/s51.src/mov.cc: instruction_c0, instruction_d0"]}
{"id": "C43", "title": "MCS51 bit instructions change one bit", "statement": "SETB, CLR, CPL and MOV bit,C give the addressed bit its new value and leave all other 255 bits (apart from P, which hardware owns), all bytes that are not bit addressable, and external RAM unchanged.", "quantifier": "all 256 bit addresses and all memory contents", "why_tests_cant": "Frame condition over all bits and memory contents.", "anchors": ["src/sims/s51.src/bit.cc", "src/sims/s51.src/uc51.cc: decode_bits"]}
{"id": "C44", "title": "MCS51 machine cycles", "statement": "Every instruction advances the simulated time by the number of machine cycles given in the manual.", "quantifier": "all opcodes, operands, taken and not taken branches", "why_tests_cant": "All opcodes in all states.", "anchors": ["src/sims/s51.src/arith.cc", "src/sims/s51.src/jmp.cc", "src/sims/s51.src/mov.cc", "src/core/sim.src/uc.cc: cl_uc::tick"]}
{"id": "C45", "title": "MCS51 instruction lengths", "statement": "The length the disassembler, `next` and the statement stepping use equals the number of bytes of the manual, and the distance the program counter moves over every instruction that does not transfer control; no instruction is longer than longest_inst.", "quantifier": "all opcodes and states", "why_tests_cant": "All opcodes in all states.", "anchors": ["src/sims/s51.src/glob.cc: disass_51", "src/core/sim.src/uc.cc: cl_uc::inst_length, longest_inst"]}
{"id": "C46", "title": "MCS51 command next", "statement": "`next` sets a dynamic breakpoint at PC + length and runs if the instruction at PC is LCALL or ACALL, except for ACALL into page 0 (opcode 11h), which it steps into like a non-call; the breakpoint is where the call returns to unless the call ends at the last byte of the code space.", "quantifier": "all opcodes and addresses", "why_tests_cant": "All opcodes and addresses.", "anchors": ["src/core/cmd.src/cmd_exec.cc: cl_next_cmd", "src/core/sim.src/uc.cc: cl_uc::is_call", "src/core/sim.src/uccl.h: next_inst", "src/sims/s51.src/glob.cc: disass_51"]}
{"id": "C47", "title": "MCS51 reserved opcode", "statement": "Opcode A5h is reported as an error, changes no memory or register, and execution continues at instPC + 1, where instPC is never assigned by instructions of this core: it keeps its value from reset (address 0), not the address of the instruction.", "quantifier": "all programs, states and addresses", "why_tests_cant": "History dependent: needs the invariant that no instruction writes instPC.", "anchors": ["src/sims/s51.src/uc51.cc: cl_51core::exec_inst, do_inst", "src/core/sim.src/uc.cc: cl_uc::exec_inst_uctab, inst_unknown"]}
{"id": "C48", "title": "MCS51 documented deviations", "statement": "PUSH SP stores the value SP had before the instruction; MOVC A,@A+DPTR beyond FFFFh reads the cell of non-existing memory instead of wrapping around; MOV A,ACC has no effect and is reported as an error; LJMP uses its two address bytes high byte first if the compiler evaluates the two fetches left to right, swapped otherwise.", "quantifier": "all operands and states", "why_tests_cant": "All operand values; the last depends on the compiler's choice.", "anchors": ["src/sims/s51.src/mov.cc: instruction_c0, instruction_93, instruction_e5", "src/sims/s51.src/jmp.cc: instruction_02"]}
{"id": "C49", "title": "MCS51 interrupt entry", "statement": "After every executed instruction that is neither RETI nor a write to IE, if EA is set, the first source in polling order that is enabled, requesting and of higher priority than the interrupt in service is entered: return address pushed, level recorded, request cleared when the device does so, PC at the vector, nothing else changed; otherwise nothing but the instruction happens.", "quantifier": "all programs, register contents, source lists and levels in service", "why_tests_cant": "All combinations of requests, enables, priorities and nesting.", "anchors": ["src/sims/s51.src/uc51.cc: cl_51core::do_inst, do_interrupt, accept_it, priority_of", "src/sims/s51.src/interrupt.cc: cl_interrupt::write", "src/sims/s51.src/jmp.cc: inst_lcall, instruction_32"]}
{"id": "C50", "title": "MCS51 return from interrupt", "statement": "RETI executed with SP, the two stacked bytes and the level in service as they were on entry continues at the interrupted address with SP and the level in service restored, and no interrupt is accepted before one more instruction, whatever is pending.", "quantifier": "all interrupted states, handlers that restore the stack, and pending requests", "why_tests_cant": "All handlers and request patterns.", "anchors": ["src/sims/s51.src/uc51.cc: cl_51core::do_interrupt", "src/sims/s51.src/jmp.cc: instruction_32"]}
{"id": "C51", "title": "MCS51 idle mode", "statement": "In idle mode without a qualifying request only time passes. A qualifying request clears IDL and ends idle mode without entering the handler: one further instruction is executed first.", "quantifier": "all states and source lists", "why_tests_cant": "All states in idle mode.", "anchors": ["src/sims/s51.src/uc51.cc: cl_51core::do_interrupt, idle_pd, do_inst"]}
{"id": "C52", "title": "MCS51 power down mode", "statement": "Whenever PD is set after a step that did not enter a handler the processor is in power down mode; a qualifying request is accepted even then (unlike the hardware), with the return address pushed and PD left set.", "quantifier": "all states and source lists", "why_tests_cant": "All states in power down mode.", "anchors": ["src/sims/s51.src/uc51.cc: cl_51core::do_interrupt, idle_pd, accept_it"]}
{"id": "C53", "title": "MOS6502 instructions do what the manual says", "statement": "Executing one instruction of the MOS6502 simulator changes A, X, Y, S, P, PC and memory exactly as the MCS6502 programming manual specifies, for every opcode the manual defines, except the situations of C54, C59 (decimal mode) and C60 (BRK inside a BRK handler); the same holds along every run of any length.", "quantifier": "all programs, operands, register and memory contents and run lengths", "why_tests_cant": "2^24 encodings times all register and memory contents; wrap-arounds of PC, S, indexed addresses.", "anchors": ["src/sims/mos6502.src/ialu.cc", "src/sims/mos6502.src/imove.cc", "src/sims/mos6502.src/ibranch.cc", "src/sims/mos6502.src/inst.cc", "src/sims/mos6502.src/mos6502.cc: imm8, zpg, abs, absX, indX, indY, exec_inst"]}
{"id": "C54", "title": "MOS6502 deviations at the ends of memory", "statement": "A page zero pointer at 00FF takes its high byte from 0100 instead of 0000; RTS with FFFF on the stack leaves PC at 10000h, whose opcode is the shared cell of non-existing memory; JMP (FFFF) takes the high byte from that cell. Apart from that these instructions follow the manual.", "quantifier": "all register and memory contents", "why_tests_cant": "Only visible at particular pointer values, for all contents.", "anchors": ["src/sims/mos6502.src/mos6502.cc: read_addr, indX, indY, pop_addr", "src/sims/mos6502.src/ibranch.cc: RTS, JMPi", "src/core/sim.src/mem.cc: cl_address_space::read"]}
{"id": "C55", "title": "MOS6502 undefined opcodes", "statement": "An instruction is executed exactly if the manual defines its opcode (151 of 256); otherwise the simulator reports an invalid instruction and no register, memory location, request or clock changes, whatever interrupts are requested.", "quantifier": "all opcodes, states and request patterns", "why_tests_cant": "All opcodes in all states.", "anchors": ["src/sims/mos6502.src/decode.h", "src/sims/mos6502.src/mos6502.cc: exec_inst", "src/core/sim.src/uc.cc: cl_uc::exec_inst_tab, do_inst"]}
{"id": "C56", "title": "MOS6502 state stays in range", "statement": "Whatever bytes are executed and whatever requests arrive, for any number of steps, registers and memory cells stay bytes and PC stays in 0..10000h; 10000h occurs only after RTS with FFFF on the stack.", "quantifier": "all programs, states, request patterns and run lengths", "why_tests_cant": "Invariant over unbounded executions of arbitrary bytes.", "anchors": ["src/sims/mos6502.src/mos6502.cc: push_addr, pop_addr, accept_it", "src/core/sim.src/uc.cc: cl_uc::do_inst, fetch"]}
{"id": "C57", "title": "MOS6502 clock cycles", "statement": "Every instruction takes the clock cycles of the manual, including page crossings and taken branches, except: NOP 1, JSR 3, BRK 8; STA abs,X and read-modify-write abs,X one more on a page crossing; STA abs,Y and STA (ind),Y one less without one.", "quantifier": "all opcodes, operands and states", "why_tests_cant": "All opcodes, operands and page crossings.", "anchors": ["src/sims/mos6502.src/mos6502.cc: absX, absY, indY", "src/sims/mos6502.src/ibranch.cc: branch, JSR", "src/sims/mos6502.src/inst.cc: NOP", "src/core/sim.src/uc.cc: cl_uc::tick"]}
{"id": "C58", "title": "MOS6502 calls return, pushes pull", "statement": "JSR continues at its operand, changes only S and two bytes of page one; an RTS executed later with S and these bytes unchanged continues after the JSR with S restored. PHA/PLA and PHP/PLP give back the byte or the flags likewise. S wraps within page one.", "quantifier": "all call sites, stack positions and code in between", "why_tests_cant": "All stack positions including wrap-around, all code in between.", "anchors": ["src/sims/mos6502.src/ibranch.cc: JSR, RTS", "src/sims/mos6502.src/inst.cc: PHA, PLA, PHP, PLP", "src/sims/mos6502.src/mos6502.cc: push_addr, pop_addr"]}
{"id": "C59", "title": "MOS6502 decimal mode", "statement": "With D set, ADC and SBC of packed decimal numbers 00..99 leave the two digits of the sum or difference in A and its carry in C, in every addressing mode; V and all other registers and memory are unchanged.", "quantifier": "all pairs of packed decimal bytes, carries, addressing modes and states", "why_tests_cant": "10^4 pairs times carries, modes and states.", "anchors": ["src/sims/mos6502.src/ialu.cc: adc, sbc"]}
{"id": "C60", "title": "MOS6502 interrupt acceptance", "statement": "After each instruction a NMI request is accepted if no handler is open, else an IRQ request if I is clear and neither an IRQ nor a BRK handler is open; entry pushes PC and P, sets I, loads PC from the vector and takes 7 clocks; otherwise nothing happens. A BRK inside a BRK handler is postponed until the handler's RTI and then pushes P with B clear.", "quantifier": "all programs, states, nesting and request patterns", "why_tests_cant": "All nesting states, request patterns and moments.", "anchors": ["src/core/sim.src/uc.cc: cl_uc::do_interrupt", "src/sims/mos6502.src/mos6502.cc: accept_it, mk_hw_elements", "src/sims/mos6502.src/inst.cc: BRK, RTI", "src/core/sim.src/itsrc.cc"]}
{"id": "C61", "title": "MOS6502 return from interrupt", "statement": "RTI executed with S, the three stacked bytes and the open handlers as they were on entry of a handler continues at the interrupted instruction (after BRK: two bytes further) with the flags, S and the open handlers restored.", "quantifier": "all interrupted states and handlers", "why_tests_cant": "All interrupted states and handler bodies.", "anchors": ["src/sims/mos6502.src/inst.cc: RTI, BRK", "src/sims/mos6502.src/mos6502.cc: accept_it"]}
{"id": "C62", "title": "MOS6502 instruction lengths", "statement": "The length used by the disassembler and `next` is the number of bytes of the manual (0 for undefined opcodes) and the distance PC moves over every instruction that does not transfer control; exactly JSR is treated as a call.", "quantifier": "all opcodes and states", "why_tests_cant": "All opcodes in all states.", "anchors": ["src/sims/mos6502.src/glob.cc: disass_mos6502", "src/sims/mos6502.src/mos6502.cc: get_dis_entry, inst_length, is_call"]}
{"id": "C63", "title": "MOS6502 reset", "statement": "Reset loads PC from FFFC, sets S to FD, sets I and clears the other flags, closes all handlers, and leaves A, X, Y and memory unchanged; this holds after every history of instructions and requests.", "quantifier": "all states and histories", "why_tests_cant": "All histories of nested handlers.", "anchors": ["src/sims/mos6502.src/mos6502.cc: reset", "src/core/sim.src/uc.cc: cl_uc::reset"]}
{"id": "C64", "title": "Input buffer is a queue", "statement": "Every sequence of put, get and free_place calls on a new input file returns what a first-in first-out queue of 1023 places returns: characters come out in the order of the accepted puts, each once; a put on a full buffer is refused, a get on an empty one returns -1.", "quantifier": "all call sequences, values and garbage in the uninitialised array", "why_tests_cant": "Wrap-around of the ring after any history; uninitialised memory.", "anchors": ["src/core/utils.src/fio.cc: cl_f::put, get, free_place", "src/core/utils.src/fiocl.h: cl_f"]}
{"id": "C65", "title": "Giving back a character", "statement": "unget after a get (and any number of puts) makes the value the next one read, followed by all pending input, if the buffer has room; if it is full the buffer reads as empty afterwards: the value and all pending input are lost. Before the first get the write goes to an uninitialised index, outside the buffer unless that happens to be 0..1023.", "quantifier": "all histories of puts and gets, all values", "why_tests_cant": "All fill levels and positions; uninitialised memory.", "anchors": ["src/core/utils.src/fio.cc: cl_f::unget"]}
{"id": "C66", "title": "Line editing", "statement": "Whatever keys the user presses (printable characters, cursor, Home, End, Up, Down, Backspace, Del, ^K, Enter, keys without function) in any of the encodings terminals use, and whenever the program fetches input in between, the line, the cursor and every value the program gets are those of a text with a cursor, a history and a queue; a line holds at most 1023 characters.", "quantifier": "all key sequences, encodings, interleavings with reads, initial memory contents", "why_tests_cant": "Unbounded key sequences; array shifts at every cursor position and line length.", "anchors": ["src/core/utils.src/fio.cc: cl_f::process, process_esc, process_csi, read_dev", "src/core/utils.src/fiocl.h: cl_f, cl_history"]}
{"id": "C67", "title": "Delivery of lines", "statement": "Lines typed with any one of the newline conventions LF, CR, CR LF, LF CR are read as the same lines ended by one LF each, cut at the 1023 values the buffer holds while nothing is read (a line of 1023 characters loses its newline). The convention must not change from line to line: a CR b LF delivers only the line a.", "quantifier": "all lists of printable lines up to 1023 characters, all four conventions", "why_tests_cant": "All line lists; depends on the history of newlines.", "anchors": ["src/core/utils.src/fio.cc: cl_f::process, put"]}
{"id": "C68", "title": "Byte sequences a terminal may send", "statement": "On a new console the processing of a byte sequence is undefined behaviour if and only if an escape or telnet sequence reaches 100 bytes without ending, or a mouse report names an unknown button away from the corner; otherwise the line stays at most 1023 characters with the cursor inside it. Input without ESC and FFh is always safe.", "quantifier": "all byte sequences", "why_tests_cant": "Attacker controlled input of any length; buffer overflow must be excluded for all of it.", "anchors": ["src/core/utils.src/fio.cc: cl_f::process_esc, process_csi, process_telnet, process", "src/core/utils.src/fiocl.h: esc_buffer"]}
{"id": "C69", "title": "Command history", "statement": "After entering non-empty lines, j times Up and then d<j times Down show the line entered j-d lines before the last, with the cursor at its end; the last 1001 lines are kept. A recalled line that is edited and left with Up or Down replaces the entry of the history.", "quantifier": "all lists of lines, all j and d, all newline conventions", "why_tests_cant": "All histories and positions, including the limit of 1000.", "anchors": ["src/core/utils.src/fio.cc: cl_history::up, down, enter, replace"]}
{"id": "C70", "title": "Echo", "statement": "The terminal shows the line being edited, blanks after it, and the cursor at its place, after every sequence of keys and from every start column; the start column changes only by Enter.", "quantifier": "all key sequences, encodings and start columns", "why_tests_cant": "The echo is incremental; only an invariant relates the screen to the line.", "anchors": ["src/core/utils.src/fio.cc: cl_f::process, echo_cursor_save, echo_cursor_restore, echo_cursor_go_left, echo_cursor_go_right, echo_write"]}
{"id": "C71", "title": "Raw input is lossless", "statement": "In raw mode without escape and telnet processing, for every interleaving of arriving bytes (none of them FFh) and reads, the values read, those readable and the bytes still on the device are together the bytes of the device in order; a byte of 128 or more reads as the negative number of the same 8 bits. A byte FFh ends a read and is dropped.", "quantifier": "all byte streams, arrival patterns and read sizes", "why_tests_cant": "All interleavings of arrival and reading.", "anchors": ["src/core/utils.src/fio.cc: cl_f::pick, process, read_dev, put, get"]}
{"id": "C72", "title": "String objects behave as values", "statement": "After any sequence of assign, append, appendn, case conversion, substr-in-place, trimming and character replacement on an empty string or a constant of the caller, the string is the one the same operations give on lists of characters and len() is its length, whatever malloc finds in memory. Outside its conditions: cutting the end of a constant in place writes into the constant; appending an object's own characters to it after it owns them reads freed memory.", "quantifier": "all operation sequences, strings, memory garbage", "why_tests_cant": "Unbounded sequences; ownership changes along the way; memory contents.", "anchors": ["src/core/utils.src/chars.cc: chars::append, allocate_string, appendn, uppercase, lowercase, ltrim, lrip, rrip, replace", "src/core/utils.src/charscl.h: chars"]}
{"id": "C73", "title": "Trimming the end of a string", "statement": "rtrim removes exactly the white space at the end of the value; len() keeps the old length, so a following appendn is lost and a following replacement may extend the string; on a constant with white space at its end it writes into the constant.", "quantifier": "all operation histories and strings", "why_tests_cant": "All histories; the stale length shows only in later calls.", "anchors": ["src/core/utils.src/chars.cc: chars::rtrim"]}
{"id": "C74", "title": "Searching and comparing strings", "statement": "starts_with, contains, icontains, pos answer by the (first) occurrence of a non-empty string; ends_with is true only if the first occurrence is at the end; ipos finds the string as given in the upper case form of the object; equal and iequal compare values, with and without case, null being different from the empty string.", "quantifier": "all pairs of strings made by any history of operations", "why_tests_cant": "All pairs of strings, overlapping occurrences.", "anchors": ["src/core/utils.src/chars.cc: chars::starts_with, contains, icontains, pos, ipos, ends_with, equal, iequal"]}
{"id": "C75", "title": "Words of a string", "statement": "Calling token repeatedly returns the maximal runs of non-delimiter characters in order and then null forever.", "quantifier": "all strings, delimiter sets and numbers of calls", "why_tests_cant": "All strings and delimiter runs.", "anchors": ["src/core/utils.src/chars.cc: chars::token, start_parse"]}
{"id": "C76", "title": "Numbers in strings", "statement": "toi reads decimal, octal (leading 0) and 0b/0o/0d/0x numerals with an optional sign, of values below 2^63; htoi reads every character as hexadecimal digit (others as 0) modulo 2^32; htoll stops at the first non-digit, modulo 2^64.", "quantifier": "all numerals, bases, signs and trailing characters", "why_tests_cant": "Unbounded numerals.", "anchors": ["src/core/utils.src/chars.cc: chars::toi, htoi, htoll", "src/core/utils.src/charscl.h"]}
{"id": "C77", "title": "Replacing a substring", "statement": "replace(what, with) does nothing if what is empty or absent, replaces the first occurrence if with is not shorter than what, and writes past the end of an allocated block whenever with is shorter.", "quantifier": "all strings", "why_tests_cant": "All strings and lengths; the overflow is not visible in the result.", "anchors": ["src/core/utils.src/chars.cc: chars::replace"]}
{"id": "C78", "title": "Expressions follow C's precedence", "statement": "Any text that spells an expression tree (with parentheses and blanks wherever one likes) is evaluated as that tree on 64 bit integers: C's precedence and left associativity, operands from left to right, every side effect once; the value reported is the result modulo 2^32 and no error is reported; an operation undefined in C (overflow, division by zero, bad shift count) is undefined here.", "quantifier": "all machines, name tables, texts, trees and machine states", "why_tests_cant": "Expressions are arbitrary texts: the claim ranges over all trees, all ways to put parentheses and blanks, all machines and all states; tests only see single texts.", "anchors": ["src/core/cmd.src/cmdpars.y:expression", "src/core/cmd.src/cmdlex.l:PTOK_NUMBER", "src/core/utils.src/app.cc:cl_app::eval"]}
{"id": "C79", "title": "Values agree with C although nothing is short-circuited", "statement": "If an expression without assignments or ++/-- gets a value on a machine where reading has no side effects, it is the value C defines and nothing changes; expressions without && || ?: always behave as in C. The right operand of && and || and both branches of ?: are always evaluated, with their side effects and undefined operations.", "quantifier": "all machines, texts, trees and states", "why_tests_cant": "Expressions are arbitrary texts: the claim ranges over all trees, all ways to put parentheses and blanks, all machines and all states; tests only see single texts.", "anchors": ["src/core/cmd.src/cmdpars.y:logical_and_expr", "src/core/cmd.src/cmdpars.y:conditional_expr"]}
{"id": "C80", "title": "Bit fields in expressions", "statement": "p[i:j] and p.i give exactly the named bits (limits in either order, 0..31). Assigning n to a field clears the field and ors bits lo..hi of n in at 2*lo..lo+hi, which is the expected result exactly for fields starting at bit 0; p.k=1 with k>=1 clears bit k.", "quantifier": "all machines, places, limits and values", "why_tests_cant": "Expressions are arbitrary texts: the claim ranges over all trees, all ways to put parentheses and blanks, all machines and all states; tests only see single texts.", "anchors": ["src/core/cmd.src/cmdpars.y:bit", "src/core/cmd.src/cmdpars.y:assignment_expr"]}
{"id": "C81", "title": "A dot takes the whole rest as bit number", "statement": "The bit number after a dot is the whole following expression, so x.1==2 is bit (1==2) of x and x.1+2 is bit 3.", "quantifier": "all machines, places, operators and numbers", "why_tests_cant": "Expressions are arbitrary texts: the claim ranges over all trees, all ways to put parentheses and blanks, all machines and all states; tests only see single texts.", "anchors": ["src/core/cmd.src/cmdpars.y:bit"]}
{"id": "C82", "title": "Numbers", "statement": "Decimal numbers, octal ones after 0, binary ones after 0b, hexadecimal ones after 0x, 0X or $ and characters between apostrophes have their usual value, modulo 2^32, if below 2^63.", "quantifier": "all digit strings", "why_tests_cant": "Expressions are arbitrary texts: the claim ranges over all trees, all ways to put parentheses and blanks, all machines and all states; tests only see single texts.", "anchors": ["src/core/cmd.src/cmdlex.l:PTOK_NUMBER"]}
{"id": "C83", "title": "Evaluation of any text ends", "statement": "For every text the evaluation ends with a 32 bit value, perhaps reporting an error, or in an operation undefined in C; the parser never reaches a configuration outside of its tables.", "quantifier": "all texts, machines and states", "why_tests_cant": "Expressions are arbitrary texts: the claim ranges over all trees, all ways to put parentheses and blanks, all machines and all states; tests only see single texts.", "anchors": ["src/core/cmd.src/cmdpars.y:expression", "src/core/cmd.src/cmdlex.l:PTOK_END"]}
{"id": "C84", "title": "Unknown names end an expression", "statement": "A name that is neither a memory nor a variable ends the expression silently: it and everything behind it is ignored and the value of what stands before it is the result, without any error.", "quantifier": "all texts and unknown names", "why_tests_cant": "Expressions are arbitrary texts: the claim ranges over all trees, all ways to put parentheses and blanks, all machines and all states; tests only see single texts.", "anchors": ["src/core/cmd.src/cmdlex.l:uc_yy_check_id"]}
{"id": "C85", "title": "Errors after a complete expression keep its effects", "statement": "If an expression is directly followed by a word that cannot continue it, an error is reported, but the expression's side effects have happened and its value is the result.", "quantifier": "all expressions and following words", "why_tests_cant": "Expressions are arbitrary texts: the claim ranges over all trees, all ways to put parentheses and blanks, all machines and all states; tests only see single texts.", "anchors": ["src/core/cmd.src/cmdpars.y:yyerror", "src/core/utils.src/app.cc:cl_app::eval"]}
{"id": "C86", "title": "Names and addresses in expressions", "statement": "A variable evaluates to the whole location it stands for (even if defined for some bits), a register name to the register; &p is the address of p, while &p.i is always 2^32-1 and &p[i:j] is 0.", "quantifier": "all name tables, names and machines", "why_tests_cant": "Expressions are arbitrary texts: the claim ranges over all trees, all ways to put parentheses and blanks, all machines and all states; tests only see single texts.", "anchors": ["src/core/cmd.src/cmdlex.l:uc_yy_check_id", "src/core/cmd.src/cmdpars.y:unary_expr", "src/core/sim.src/uccl.h:bit_address"]}
{"id": "C87", "title": "Compound assignments", "statement": "x op= n stores and gives what x = x op n does for * / % + - << >> & ^ |, if reading and n have no side effects and shift counts are below 32.", "quantifier": "all machines, locations, operators and expressions", "why_tests_cant": "Expressions are arbitrary texts: the claim ranges over all trees, all ways to put parentheses and blanks, all machines and all states; tests only see single texts.", "anchors": ["src/core/cmd.src/cmdpars.y:assignment_expr"]}
{"id": "C88", "title": "The cast (int)", "statement": "(int)p gives the location's value as a signed number of the memory's width (1..32 bits).", "quantifier": "all machines, places and widths", "why_tests_cant": "Expressions are arbitrary texts: the claim ranges over all trees, all ways to put parentheses and blanks, all machines and all states; tests only see single texts.", "anchors": ["src/core/cmd.src/cmdpars.y:cast_expr"]}
{"id": "C89", "title": "MCS51 timers 0 and 1 count as the manual says", "statement": "After any history since power on, while nobody writes the timer registers, a timer (C/T=0) advances by one for each machine cycle in which TR is set and it is not gated off (GATE=0 or INT pin high): 13 bit, 16 bit, 8 bit with reload, two 8 bit counters in mode 3; TMOD and the other bits of TCON do not change, whatever happens on port 3; a stopped timer keeps its value.", "quantifier": "all histories, register values, numbers of cycles and pin activities", "why_tests_cant": "Unbounded numbers of cycles and all pin histories in between.", "anchors": ["src/sims/s51.src/timer0.cc: tick, do_mode0, do_mode1, do_mode2, do_mode3, do_th", "src/sims/s51.src/timer1.cc: do_mode3", "src/sims/s51.src/port.cc: write, set_pin", "src/core/sim.src/uc.cc: cl_uc::tick_hw"]}
{"id": "C90", "title": "MCS51 timer overflow flags", "statement": "While nobody writes, TF0 gets set exactly if timer 0 overflows and TF1 exactly if timer 1 overflows or, in mode 3 of timer 0 with TR1 set, TH0 does; the flags are never cleared by the timers. A free running 16 bit timer raises its flag exactly when 65536 minus its start value cycles have passed.", "quantifier": "all histories, start values and numbers of cycles", "why_tests_cant": "Unbounded numbers of cycles.", "anchors": ["src/sims/s51.src/timer0.cc: do_mode0, do_mode1, do_mode2, do_mode3, do_th, overflow"]}
{"id": "C91", "title": "MCS51 counters", "statement": "A counter (C/T=1) counts the rising edges (the manual: falling) of T0/T1: edges wait and are counted together in the next cycle in which the counter runs, so while it runs ungated no edge is lost. A write of TMOD or TCON (of any bit) and the acceptance of a timer interrupt discard the waiting edges of both counters; writes of TL and TH keep them.", "quantifier": "all histories, edge patterns and interleavings with cycles", "why_tests_cant": "All interleavings of edges, cycles and writes.", "anchors": ["src/sims/s51.src/timer0.cc: happen, do_mode0, write, tick", "src/sims/s51.src/port.cc: write, set_pin", "src/core/sim.src/itsrc.cc: cl_it_src::clear"]}
{"id": "C92", "title": "MCS51 timer reset and control writes", "statement": "A reset, from any state of the timers, clears TMOD, TCON, TL, TH and waiting edges and sets port 3; a write to TMOD or TCON stores the byte, a bit write changes that bit, accepting a timer interrupt clears just its flag; the counters and the other registers stay.", "quantifier": "all states and histories, all bytes written", "why_tests_cant": "All prior states including uninitialised members.", "anchors": ["src/sims/s51.src/timer0.cc: write", "src/sims/s51.src/uc51.cc: clear_sfr", "src/core/sim.src/itsrc.cc: cl_it_src::clear"]}
{"id": "C93", "title": "8052 timer 2: reload and capture", "statement": "After any history since reset, while nobody writes the registers of timer 2 and no T2EX edge is acted on (EXEN2 clear or no edge): with TR2 set TH2:TL2 counts up once in every machine cycle, whatever C/T2 says, is loaded from RCAP2 (reload) or wraps to 0 (capture) on overflow, and TF2 gets set exactly if it overflows and is never cleared; with TR2 clear it stands still; RCAP2, T2MOD and the other bits of T2CON stay.", "quantifier": "all histories, register values, numbers of cycles and port activities", "why_tests_cant": "Unbounded numbers of cycles and all pin histories in between.", "anchors": ["src/sims/s51.src/timer2.cc: tick, do_t2_reload, do_t2_capture", "src/sims/s51.src/port.cc: write, set_pin"]}
{"id": "C94", "title": "8052 timer 2: T2EX", "statement": "With EXEN2 set, falling edges of T2EX since the last cycle (and those that were waiting) are acted on once, in the next machine cycle, before the count and even if TR2 is clear: EXF2 is set, and the count is loaded from RCAP2 (reload mode) or copied to RCAP2 (capture mode), or nothing more (baud rate mode). Edges seen while EXEN2 is clear wait until it is set.", "quantifier": "all histories, register values and pin activities", "why_tests_cant": "All interleavings of edges, cycles and writes.", "anchors": ["src/sims/s51.src/timer2.cc: happen, do_t2_reload, do_t2_capture, do_t2_baud", "src/sims/s51.src/port.cc: write, set_pin"]}
{"id": "C95", "title": "8052 timer 2: baud rate generator", "statement": "With RCLK or TCLK set and nobody writing the registers, the count goes up six times per machine cycle (C/T2=0) or once per falling edge of T2 (C/T2=1), is reloaded from RCAP2 on overflow, and each overflow is told to the serial port; TF2 and RCAP2 never change, whatever T2EX does.", "quantifier": "all histories, register values, numbers of cycles and pin activities", "why_tests_cant": "Unbounded numbers of cycles and edges.", "anchors": ["src/sims/s51.src/timer2.cc: do_t2_baud"]}
{"id": "C96", "title": "8052 timer 2: up/down counting", "statement": "In down mode, while T2EX keeps its level, the count goes up (T2EX high, reload from RCAP2 on overflow) or down (T2EX low, FFFF follows RCAP2), once per cycle or, with C/T2 set, per falling edge of T2. TF2 gets set by an overflow, and by an underflow unless RCAP2 is 0; EXF2 and EXEN2 play no role, but the cycle of such an event inverts bit 6 of port 1.", "quantifier": "all histories, register values (count not below RCAP2 when counting down), numbers of cycles and edges", "why_tests_cant": "Unbounded numbers of cycles and edges.", "anchors": ["src/sims/s51.src/timer2.cc: do_t2_down"]}
{"id": "C97", "title": "8052 timer 2: control writes and reset", "statement": "A write to T2CON stores the byte, changes no count and always leaves down mode; a write to T2MOD with DCEN set enters down mode if T2CON selects reload, and clearing DCEN does not leave it. Waiting edges are forgotten exactly if the write changes the mode or TR2. Reset clears T2CON, T2MOD, TH2:TL2 and RCAP2.", "quantifier": "all states, histories and bytes written", "why_tests_cant": "The mode depends on the history of writes, not on the registers.", "anchors": ["src/sims/s51.src/timer2.cc: write", "src/sims/s51.src/uc52.cc: clear_sfr", "src/sims/s51.src/uc51.cc: clear_sfr"]}
{"id": "C98", "title": "MCS51 serial port: sending", "statement": "After any history, when the rate in use is that of the registers, a byte written into SBUF is sent, and TI set, in the first tick before which the frame time has passed, and nothing is sent before: 8, 10, 11, 11 bits in modes 0..3, a bit taking 12 clocks (mode 0), 32 (16 with SMOD) overflows of timer 1 (modes 1, 3) or 32/16 clocks (mode 2; the manual: 64/32), and 16 units in every mode with RCLK or TCLK on; receiving, polling and bit writes to SCON below SM1 do not disturb it.", "quantifier": "all histories, modes, bytes and interleavings of ticks and overflows", "why_tests_cant": "Unbounded numbers of ticks and overflows and everything in between.", "anchors": ["src/sims/s51.src/serial.cc: tick, serial_bit_cnt, write", "src/sims/s51.src/serial.cc: happen"]}
{"id": "C99", "title": "MCS51 serial port: what is sent", "statement": "In every history the bytes sent are bytes written into SBUF, in the order written; a byte written is sent at most once, and a byte overwritten before its frame ends or cut by a reset is not sent.", "quantifier": "all histories", "why_tests_cant": "All interleavings of writes, ticks, mode changes and resets.", "anchors": ["src/sims/s51.src/serial.cc: tick, write, reset"]}
{"id": "C100", "title": "MCS51 serial port: the received stream", "statement": "In every history the bytes put into the receive register are, in order, without loss or repetition, a beginning of the input (setting nl=0) or of the input with each CR or LF replaced by the bytes of nl and the opposite characters directly after it dropped, and all of it when nothing is left in the device and the port; resets and mode changes do not lose input.", "quantifier": "all histories, inputs and settings of nl of at most three bytes", "why_tests_cant": "All interleavings of arrivals, polls, ticks and resets.", "anchors": ["src/core/sim.src/serial_hw.cc: get_input, proc_input", "src/sims/s51.src/serial.cc: tick"]}
{"id": "C101", "title": "MCS51 serial port: receiving", "statement": "With REN set, a character waiting and no reception going on, the next tick starts the reception; the character gets into SBUF and RI is set in the first tick before which the frame time has passed, and not earlier, whatever quiet things happen in between.", "quantifier": "all histories, modes and interleavings of ticks and overflows", "why_tests_cant": "Unbounded numbers of ticks and overflows.", "anchors": ["src/sims/s51.src/serial.cc: tick, serial_bit_cnt", "src/core/sim.src/serial_hw.cc: get_input"]}
{"id": "C102", "title": "Flow control of the serial input", "statement": "With flow control and a newline setting of at most one byte a program that reads SBUF only when there is an unread byte, however late, reads every received byte in order, and never is more than one unread; without flow control bytes are lost.", "quantifier": "all histories of a polite program, all inputs", "why_tests_cant": "All delays of the program.", "anchors": ["src/core/sim.src/serial_hw.cc: proc_input", "src/sims/s51.src/serial.cc: read"]}
{"id": "C103", "title": "Newlines of the serial input", "statement": "A text whose lines all end by one convention (LF, CR, CR LF, LF CR) is received with each line ended by the bytes of nl; in a text of mixed conventions lines can be lost.", "quantifier": "all texts, conventions and histories", "why_tests_cant": "All texts.", "anchors": ["src/core/sim.src/serial_hw.cc: get_input, proc_input"]}
{"id": "C104", "title": "MCS51 serial port: control", "statement": "SCON is changed only by writes, reset and ticks, and a tick only sets TI and RI; a write to SCON or a reset makes the rate of the registers the one in use, and only clearing RCLK/TCLK breaks that (their rate stays until the next write to SCON or flag). Reset clears SCON and drops the frames on their way but not input already taken. In modes 1 and 3 writing T2CON (RCLK, TCLK off) again and again keeps a byte from being sent forever.", "quantifier": "all histories", "why_tests_cant": "All histories; the rate depends on the order of writes.", "anchors": ["src/sims/s51.src/serial.cc: write, tick, happen, reset"]}
{"id": "C105", "title": "8051R watchdog", "statement": "Writing 1E and then E1 to WDTRST starts the count from zero in any state; unless that is repeated the controller is reset, once, exactly if more than 16383 machine cycles pass. After a reset the watchdog is off until E1 is written directly after 1E was stored, and the first write of the program after a reset never starts it.", "quantifier": "all states, histories and bytes written", "why_tests_cant": "Unbounded numbers of cycles and all write patterns.", "anchors": ["src/sims/s51.src/wdt.cc: write, tick, reset"]}
{"id": "C106", "title": "Words of a command line", "statement": "A command line is its name and its words and quoted strings, whatever separators (blank, tab, comma...) stand between them; text behind # is ignored, text behind ; is left for later; a string without closing quote reaches to the end of the line and is reported.", "quantifier": "all commands, words, strings and separators", "why_tests_cant": "Unbounded lines; all arrangements of separators and quotes.", "anchors": ["src/core/cmd.src/command.cc: cl_cmdline::split, split_commands, skip_delims"]}
{"id": "C107", "title": "Commands of a line are run in order", "statement": "Commands separated by ; run one after the other, each as if alone on its line; comments change nothing, separators and empty commands do nothing; a line runs the same commands at a console and in a command file. A composed command followed by a string with ; in it loses the following commands.", "quantifier": "all command sets, commands and lines", "why_tests_cant": "All lines and command sets.", "anchors": ["src/core/utils.src/app.cc: cl_app::exec", "src/core/cmd.src/newcmd.cc: cl_console_base::proc_input"]}
{"id": "C108", "title": "Parameters", "statement": "Every word gives one parameter or one error message; numbers (decimal, octal, hexadecimal, binary, with sign) get their value limited to 64 bits (binary: modulo 2^64), name.bit, name[high:low], array[index] and bits of array elements are recognised, everything else is a symbol.", "quantifier": "all words", "why_tests_cant": "Unbounded words.", "anchors": ["src/core/cmd.src/command.cc: cl_cmdline::split, add_bit, split_out_bit, split_out_array"]}
{"id": "C109", "title": "Data lists", "statement": "Every sequence of bytes can be typed as a quoted string, and a list of numbers and strings becomes the sequence of its values and bytes; a symbol in such a list is not refused, an uninitialised value is used.", "quantifier": "all byte sequences and lists", "why_tests_cant": "All byte sequences and escapes.", "anchors": ["src/core/cmd.src/command.cc: cl_cmdline::set_data_list", "src/core/cmd.src/cmdutil.cc: proc_escape", "src/core/sim.src/arg.cc: cl_cmd_arg::as_data"]}
{"id": "C110", "title": "Finding a command", "statement": "A name finds the first command that has exactly this name, otherwise the only command one of whose names begins with it, otherwise nothing; a line whose first word finds nothing is evaluated as an expression.", "quantifier": "all names and command sets", "why_tests_cant": "All command sets and abbreviations.", "anchors": ["src/core/cmd.src/command.cc: cl_cmdset::get_cmd, cl_cmd::name_match"]}
{"id": "C111", "title": "Composed commands", "statement": "A composed command runs its subcommand on the rest of the command as if the subcommand were typed alone, reports an unknown one, and without subcommand runs _no_parameters_ or lists the subcommands.", "quantifier": "all command sets and commands", "why_tests_cant": "All nestings of command sets.", "anchors": ["src/core/cmd.src/command.cc: cl_super_cmd::work, cl_cmdline::shift"]}
{"id": "C112", "title": "Repeating a command", "statement": "At an interactive console an empty line runs the last command again if it is a repeatable one, without its parameters; in all other cases it does nothing.", "quantifier": "all command sets, lines and consoles", "why_tests_cant": "All preceding lines.", "anchors": ["src/core/cmd.src/newcmd.cc: cl_console_base::proc_input", "src/core/cmd.src/command.cc: cl_cmdline::repeat"]}
{"id": "C113", "title": "Syntax of commands", "statement": "A syntax matches the parameters exactly when there are as many letters as parameters and each letter accepts its parameter; D at the end takes all remaining ones, at least one.", "quantifier": "all syntaxes, parameter lists and processors", "why_tests_cant": "All combinations of letters and parameters.", "anchors": ["src/core/cmd.src/command.cc: cl_cmdline::syntax_match"]}
{"id": "C114", "title": "Bit numbers", "statement": "Bit numbers outside 0..31 are refused, a range is put in order; a symbol as bit number is not refused, an uninitialised value is used.", "quantifier": "all numbers", "why_tests_cant": "All numbers.", "anchors": ["src/core/sim.src/arg.cc: cl_cmd_bit_arg::get_bit_address"]}
{"id": "C115", "title": "No line makes the interpreter read outside of its buffers", "statement": "Every line without backslash, dollar and newline and without both > and a quote is executed without reading outside of the buffers, and execution ends. A word that ends with a backslash or a dollar, and an unterminated quoted file name, make it read behind the end.", "quantifier": "all lines, command sets and consoles", "why_tests_cant": "All lines.", "anchors": ["src/core/cmd.src/command.cc: cl_cmdline::expand_commands, token_length, get_token, split"]}
{"id": "C116", "title": "Redirection", "statement": ">file and >>file redirect the output of a command to the file named, also a quoted name with blanks, and do not change its words; with a blank behind > the output goes to a file without name and the name becomes a parameter.", "quantifier": "all commands and file names", "why_tests_cant": "All names and commands.", "anchors": ["src/core/cmd.src/command.cc: cl_cmdline::split, token_length, get_token"]}
{"id": "C117", "title": "8080/8085 instructions do what the manual says", "statement": "Every instruction the assembly manual defines changes registers, flags, memory, SP and PC as the manual says, on both processors, except in listed cases (ADC, SBB, ANA flags, DAA, four RST, two-byte accesses at FFFF, PUSH PSW), which the other properties settle exactly.", "quantifier": "all states, codes, operands, both processors", "why_tests_cant": "All register, flag and memory contents and all 256 codes; tests try some.", "anchors": ["src/sims/i8085.src/i8080.cc:exec_inst", "src/sims/i8085.src/ialu.cc", "src/sims/i8085.src/ibranch.cc", "src/sims/i8085.src/imove.cc"]}
{"id": "C118", "title": "8080/8085 carry of ADC and SBB, auxiliary carry of ANA", "statement": "ADC loses the auxiliary carry if C is set and the operand ends with F, and the carry if the operand is FF; SBB loses the borrow if C is set and the operand equals A; ANA always sets the auxiliary carry (on the 8080 it should be the or of bits 3); everything else is as the manual says.", "quantifier": "all states and operands", "why_tests_cant": "All register, flag and memory contents and all 256 codes; tests try some.", "anchors": ["src/sims/i8085.src/ialu.cc:add8, sub8, ana"]}
{"id": "C119", "title": "8080/8085 decimal adjust", "statement": "DAA gives the manual's result except for high digit 9 with AC set and C clear, never keeps a carry that the correction does not produce, leaves AC. Decimal addition by ADI and DAA is right exactly unless the low digits add up to 16 or more and the high ones to 8; its carry is right exactly if the binary sum is below 256.", "quantifier": "all states; all pairs of two digit numbers", "why_tests_cant": "All register, flag and memory contents and all 256 codes; tests try some.", "anchors": ["src/sims/i8085.src/ialu.cc:DAA, add8"]}
{"id": "C120", "title": "8080/8085 restarts", "statement": "RST n pushes the return address but goes to 8n only for n=0,1,4,5; RST 2,3,6,7 go where 0,1,4,5 go.", "quantifier": "all states and n", "why_tests_cant": "All register, flag and memory contents and all 256 codes; tests try some.", "anchors": ["src/sims/i8085.src/ibranch.cc:rst"]}
{"id": "C121", "title": "8080/8085 clock cycles", "statement": "An instruction that does not overwrite itself takes the data sheet's cycles, but MOV A,H (8085) and XCHG (8080) 5, taken conditional jumps of the 8080 none; a hit breakpoint executes nothing yet counts the cycles of the instruction less one; an instruction that overwrites its code is counted as what it wrote.", "quantifier": "all states and codes", "why_tests_cant": "All register, flag and memory contents and all 256 codes; tests try some.", "anchors": ["src/sims/i8085.src/i8080.cc:exec_inst", "src/sims/i8085.src/glob.cc:tick_tab_8080, tick_tab_8085"]}
{"id": "C122", "title": "8080/8085 instruction lengths", "statement": "The disassembler has a length of 1..3 for every code; execution continues behind that many bytes unless the instruction goes elsewhere, and calls push that address.", "quantifier": "all states and codes", "why_tests_cant": "All register, flag and memory contents and all 256 codes; tests try some.", "anchors": ["src/sims/i8085.src/i8080.cc:get_dis_entry", "src/sims/i8085.src/glob.cc:disass_common"]}
{"id": "C123", "title": "8080/8085 stack", "statement": "A pair pushed is what a later POP gets, a RET returns behind the call, with SP as before, if SP and the two bytes are the same, also across address FFFF; a stack overflow is reported exactly by pushing instructions that leave SP below the limit; SHLD, LHLD and XTHL do not wrap around FFFF (a byte is lost or read from a dummy cell).", "quantifier": "all states, all things in between", "why_tests_cant": "All register, flag and memory contents and all 256 codes; tests try some.", "anchors": ["src/sims/i8085.src/i8080.cc:push2, pop2, stack_check_overflow", "src/sims/i8085.src/imove.cc:XTHL"]}
{"id": "C124", "title": "8085 additional instructions", "statement": "ARHL, RDEL, RSTV, SHLX, LHLX (DE below FFFF) are right; DSUB is right except that the carry is set if BC is 0; JX5 and JNX5 are exchanged; LDHI and LDSI load from memory instead of the address; RIM and SIM do nothing.", "quantifier": "all states", "why_tests_cant": "All register, flag and memory contents and all 256 codes; tests try some.", "anchors": ["src/sims/i8085.src/i8085.cc:ARHL, RDEL, DSUB, JNX5, LDHI"]}
{"id": "C125", "title": "8080/8085 flag byte", "statement": "The unused flag bits keep their fixed values by every instruction except POP PSW, which stores any byte; PUSH PSW stores the manual's byte on the 8080 as long as the bits are fixed.", "quantifier": "all states and codes", "why_tests_cant": "All register, flag and memory contents and all 256 codes; tests try some.", "anchors": ["src/sims/i8085.src/i8080.cc:cl_flag80_op", "src/sims/i8085.src/i8085.cc:cl_flag85_op"]}
{"id": "C126", "title": "8080/8085 histories", "statement": "In every history of instructions and breakpoints registers and memory hold bytes, SP and PC addresses, no code is refused, and only HLT stops the simulator.", "quantifier": "all histories", "why_tests_cant": "Unbounded histories.", "anchors": ["src/sims/i8085.src/i8080.cc:exec_inst"]}
{"id": "C127", "title": "Z80 instructions do what the manual says", "statement": "Every instruction of all code pages (no prefix, CB, ED, DD, FD, DDCB, FDCB) changes registers, alternate registers, memory, output ports, interrupt flip-flops, mode, SP, PC and flags as the manual says and reports its result (halt, undefined code), except in a list of cases given exactly (relative jumps and 16 bit accesses across the ends of the memory, CALL over its own operand, RETN/RETI, OUTI/OTIR, CPD/CPDR, SET b,(IX+d),L; and flags only: ADC/SBC with carry and low digit F, DAA after some subtractions, parity of CB rotations, IN r,(C), RRD/RLD, block input/output/compare).", "quantifier": "all states, codes, prefixes, operands", "why_tests_cant": "Seven code pages, 2^16 memory states, all registers and flags: a test can only sample them.", "anchors": ["src/sims/z80.src/z80.cc:exec_inst", "src/sims/z80.src/inst.cc", "src/sims/z80.src/inst_cb.cc", "src/sims/z80.src/inst_xd.cc", "src/sims/z80.src/inst_xxcb.cc", "src/sims/z80.src/inst_ed.cc"]}
{"id": "C128", "title": "Z80 breakpoints", "statement": "A breakpoint at the first byte of an instruction stops the simulator before anything is changed; one at a later code byte of a prefixed instruction stops it inside of the instruction, with PC at that byte, R counted and nothing else done, so the instruction is not executed when the simulator goes on.", "quantifier": "all states, instructions, sets of breakpoints", "why_tests_cant": "Seven code pages, 2^16 memory states, all registers and flags: a test can only sample them.", "anchors": ["src/sims/z80.src/z80.cc:exec_inst", "src/sims/z80.src/inst_cb.cc:inst_cb", "src/sims/z80.src/inst_ed.cc:inst_ed", "src/sims/z80.src/inst_xd.cc"]}
{"id": "C129", "title": "Z80 histories", "statement": "In every history of instructions and breakpoints registers, alternate registers, flags, I, R and memory hold bytes, IX, IY, SP 16 bit values; PC leaves the memory only by a taken JR or DJNZ across its ends.", "quantifier": "all histories of any length", "why_tests_cant": "Unbounded histories.", "anchors": ["src/sims/z80.src/z80.cc:exec_inst", "src/sims/z80.src/inst.cc:inst_djnz"]}
{"id": "C130", "title": "Z80 clock periods", "statement": "An instruction that does not overwrite its own codes takes the clock periods of the manual, with those of taken conditions and repetitions, except INC (HL) and DEC (HL) (7 instead of 11), BIT b,(HL) (15 instead of 12), OUT (C),E (1 instead of 12).", "quantifier": "all states and codes", "why_tests_cant": "Seven code pages, 2^16 memory states, all registers and flags: a test can only sample them.", "anchors": ["src/sims/z80.src/z80.cc:tickt, exec_inst"]}
{"id": "C131", "title": "Z80 block copy", "statement": "LDIR and LDDR copy BC bytes (65536 if it is 0) one after the other, with the byte by byte result for overlapping blocks; HL, DE, BC, PC, flags and the time at the end are the manual's.", "quantifier": "all lengths up to 65536, all blocks that do not cover the instruction, all memory contents", "why_tests_cant": "Any number of repetitions and overlaps.", "anchors": ["src/sims/z80.src/inst_ed.cc:inst_ed_"]}
{"id": "C132", "title": "Z80 decimal arithmetic", "statement": "ADD, ADC, SUB, SBC A,n followed by DAA gives the two digit decimal sum or difference and the decimal carry or borrow.", "quantifier": "all pairs of decimal numbers, both carries, all states", "why_tests_cant": "Seven code pages, 2^16 memory states, all registers and flags: a test can only sample them.", "anchors": ["src/sims/z80.src/inst.cc:inst_add, inst_adc, inst_sub, inst_sbc, inst_rst"]}
{"id": "C133", "title": "Z80 PUSH and POP", "statement": "PUSH qq followed by POP qq restores the pair, A and flags, changes only PC, R and the two bytes below SP, wherever SP is (except 1).", "quantifier": "all states, the four pairs", "why_tests_cant": "Seven code pages, 2^16 memory states, all registers and flags: a test can only sample them.", "anchors": ["src/sims/z80.src/inst.cc:inst_push, inst_pop"]}
{"id": "C134", "title": "Z80 subroutines", "statement": "CALL and RST go to their target with the address behind them on the stack and change nothing else; a RET in any later state with the same SP and the same two bytes returns there, with the SP from before.", "quantifier": "all states, all things in between", "why_tests_cant": "Seven code pages, 2^16 memory states, all registers and flags: a test can only sample them.", "anchors": ["src/sims/z80.src/inst.cc:inst_call, inst_rst, inst_ret"]}
{"id": "C135", "title": "Z80: what is done exactly", "statement": "In every state, with no exception, each instruction has the effect of the manual with the deviations of the simulator written out (carry and half carry cases, DAA, IN r,(C), RRD/RLD, block compare and input/output, RETN, words and jumps across the ends of the memory, parity of CB rotations, SET b,(IX+d),L), and counts the clock periods of the manual but for INC/DEC (HL), BIT b,(HL) and OUT (C),E whose counts are given.", "quantifier": "all states, codes, prefixes, operands", "why_tests_cant": "Seven code pages, 2^16 memory states, all registers and flags: a test can only sample them.", "anchors": ["src/sims/z80.src/z80.cc:exec_inst", "src/sims/z80.src/inst.cc", "src/sims/z80.src/inst_cb.cc", "src/sims/z80.src/inst_xd.cc", "src/sims/z80.src/inst_xxcb.cc", "src/sims/z80.src/inst_ed.cc"]}
{"id": "C136", "title": "Z80 stack errors", "statement": "A step reports a stack overflow exactly when a push, RST or call done moves SP below the limit (PUSH AF: once for each byte), with the address of the instruction and SP before and after; no other instruction reports one.", "quantifier": "all states, limits, codes", "why_tests_cant": "Seven code pages, 2^16 memory states, all registers and flags: a test can only sample them.", "anchors": ["src/sims/z80.src/z80.cc:stack_check_overflow", "src/sims/z80.src/z80mac.h:push2, push1"]}
{"id": "C137", "title": "Simulator interface follows its protocol", "statement": "Whatever a program writes to and reads from the interface's cell and the configuration cells, every value read, every byte printed or written, every stop, start, reset and limit is that of the protocol (a command, its parameters, its answer; the complement of the cell if nothing is going on), and no parameter buffer is used after it was freed.", "quantifier": "all histories of accesses, all cell widths of 2 to 32 bits, all files", "why_tests_cant": "Any sequence of reads and writes by the program, at any point of a command, parameter list or answer.", "anchors": ["src/core/sim.src/simif.cc:cl_simulator_interface::read, write, conf_op, cl_sif_command"]}
{"id": "C138", "title": "Answers are told whole", "statement": "A command given with its parameters is answered by exactly its answer, in order, also if the program writes anything in between; in particular a reset of the interface does not interrupt an answer.", "quantifier": "all histories before, all commands and parameters, all interleaved writes", "why_tests_cant": "Any sequence of reads and writes by the program, at any point of a command, parameter list or answer.", "anchors": ["src/core/sim.src/simif.cc:cl_sif_command::read, write, start_answer"]}
{"id": "C139", "title": "Resynchronisation", "statement": "Whatever a program did before, four writes of zero and as many reads as the longest answer has values make the interface idle.", "quantifier": "all histories", "why_tests_cant": "Any sequence of reads and writes by the program, at any point of a command, parameter list or answer.", "anchors": ["src/core/sim.src/simif.cc:cl_sif_command::write, read, finish_command"]}
{"id": "C140", "title": "Output of the program", "statement": "Calls of print, hex print and write put exactly the bytes given, in order, to the console or output file and change nothing else; hex text is the number with at least two digits.", "quantifier": "all histories before, all lists of values", "why_tests_cant": "Any sequence of reads and writes by the program, at any point of a command, parameter list or answer.", "anchors": ["src/core/sim.src/simif.cc:cl_sif_print, cl_sif_hex, cl_sif_write"]}
{"id": "C141", "title": "Input of the program", "statement": "With input available the n-th read command gets the n-th byte of the input file.", "quantifier": "all histories before, all files and counts", "why_tests_cant": "Any sequence of reads and writes by the program, at any point of a command, parameter list or answer.", "anchors": ["src/core/sim.src/simif.cc:cl_sif_read"]}
{"id": "C142", "title": "Execution limit", "statement": "A limit set by the program is the one answered and shown in the configuration; not 0, it counts from there; 0 leaves the count that is going on.", "quantifier": "all histories before, all limits", "why_tests_cant": "Any sequence of reads and writes by the program, at any point of a command, parameter list or answer.", "anchors": ["src/core/sim.src/simif.cc:cl_sif_setlimit, cl_sif_getlimit", "src/core/sim.src/sim.cc:set_limit"]}
{"id": "C143", "title": "Switching the interface off", "statement": "Clearing the interface's on cell changes nothing that the program reads, prints or writes later, except that cell.", "quantifier": "all histories before and after", "why_tests_cant": "Any sequence of reads and writes by the program, at any point of a command, parameter list or answer.", "anchors": ["src/core/sim.src/simif.cc:conf_op"]}
{"id": "C144", "title": "Cells that report", "statement": "Writes to the cells of the stop reason and of the counters change nothing, at any time; the stop reason is 0 until the program stops the simulation.", "quantifier": "all histories before and after", "why_tests_cant": "Any sequence of reads and writes by the program, at any point of a command, parameter list or answer.", "anchors": ["src/core/sim.src/simif.cc:conf_op"]}
{"id": "C145", "title": "MCS-48 instructions do what the manual says", "statement": "Every instruction of the 8048 changes accumulator, flags, registers, RAM, external RAM, ports, timer, interrupt state, stack and PC as the manual says, except in the cases of C146.", "quantifier": "all chips, programs, states, codes, operands", "why_tests_cant": "256 codes with all registers, flags, 256 bytes of RAM, ports and program memories: a test can only sample them.", "anchors": ["src/sims/i8048.src/i8048.cc", "src/sims/i8048.src/i8020.cc", "src/sims/i8048.src/arith.cc", "src/sims/i8048.src/branch.cc"]}
{"id": "C146", "title": "MCS-48: the deviations, exactly", "statement": "DJNZ Rn decrements R7 and always jumps; ADDC A,@R executes nothing and stays there while the clock runs; MOVD clears the upper half of P2; ORLD and ANLD use port 6 whatever port they name; a conditional jump whose second byte ends a page goes to the next page; JMP and CALL leave bank 0 in an interrupt routine after SEL MB1. In each the complete new state is given.", "quantifier": "all states in which these codes are executed", "why_tests_cant": "256 codes with all registers, flags, 256 bytes of RAM, ports and program memories: a test can only sample them.", "anchors": ["src/sims/i8048.src/branch.cc:djnz, jif, jmp", "src/sims/i8048.src/port.cc:set_low", "src/sims/i8048.src/i8020cl.h:ORLDP4A", "src/sims/i8048.src/decode.h"]}
{"id": "C147", "title": "MCS-48 undefined codes", "statement": "A step is refused as invalid exactly for the codes the 8048 does not have; then PC stays, no clock tick passes, no interrupt is taken and nothing changes but the address on the BUS.", "quantifier": "all states, codes", "why_tests_cant": "256 codes with all registers, flags, 256 bytes of RAM, ports and program memories: a test can only sample them.", "anchors": ["src/sims/i8048.src/i8020.cc:init", "src/core/sim.src/uc.cc:exec_inst_uctab"]}
{"id": "C148", "title": "MCS-48 clock", "statement": "Each instruction takes five ticks for each machine cycle of the manual, except ANL A,#data (one cycle instead of two), MOV @R,A and ENT0 CLK (two instead of one); taking an interrupt takes none.", "quantifier": "all states, codes", "why_tests_cant": "256 codes with all registers, flags, 256 bytes of RAM, ports and program memories: a test can only sample them.", "anchors": ["src/sims/i8048.src/decode.h", "src/sims/i8048.src/i8020.cc:tick_tab20"]}
{"id": "C149", "title": "MCS-48 histories", "statement": "In every history of instructions and input pins registers, RAM and ports hold bytes, PC twelve bits, bit 3 of PSW is one; the program leaves its 2048 byte bank only by JMP, CALL, RET, RETR or an interrupt.", "quantifier": "all histories of any length", "why_tests_cant": "Unbounded histories.", "anchors": ["src/sims/i8048.src/i8020.cc:set_PC, fetch"]}
{"id": "C150", "title": "MCS-48 stack", "statement": "Up to eight return addresses pushed come back in reverse order with flags and stack pointer; an overflow is reported exactly by the pushes that wrap the stack pointer.", "quantifier": "all states, all lists of up to eight addresses", "why_tests_cant": "256 codes with all registers, flags, 256 bytes of RAM, ports and program memories: a test can only sample them.", "anchors": ["src/sims/i8048.src/i8020.cc:push, pop, stack_check_overflow"]}
{"id": "C151", "title": "MCS-48 interrupts", "statement": "After an instruction an interrupt is taken exactly if enabled, INT is low and no routine runs, saves PC and flags and goes to 3; in any history without RETR no other is taken; RETR in any later state with the stack pointer and bytes unchanged restores PC and flags.", "quantifier": "all states, all histories inside of the routine", "why_tests_cant": "Arbitrary histories between the interrupt and its return.", "anchors": ["src/sims/i8048.src/i8048.cc:accept_it, make_irq_sources, RETR", "src/core/sim.src/uc.cc:do_interrupt"]}
{"id": "C152", "title": "MCS-48 timer", "statement": "In any history without timer instructions a running timer is a count of clock ticks divided by 512 (not by 32 machine cycles) and the flag is set exactly if it wrapped; from reset, in any history, the timer never causes an interrupt.", "quantifier": "all histories of any length", "why_tests_cant": "The count depends on the whole history.", "anchors": ["src/sims/i8048.src/timer.cc:tick, do_timer, do_overflow", "src/sims/i8048.src/i8048.cc:make_irq_sources"]}
{"id": "C153", "title": "MCS-48 event counter", "statement": "As event counter the timer never counts: in any history of edges at T1 without timer instructions its value and flag stay.", "quantifier": "all histories of instructions and pin changes", "why_tests_cant": "Every sequence of edges.", "anchors": ["src/sims/i8048.src/timer.cc:do_counter", "src/sims/i8048.src/i8020.cc:conf_op"]}
{"id": "C154", "title": "MCS-48 register banks", "statement": "SEL RB0 and RB1 make R0..R7 the RAM bytes 0..7 or 24..31 and change nothing else.", "quantifier": "all states", "why_tests_cant": "256 codes with all registers, flags, 256 bytes of RAM, ports and program memories: a test can only sample them.", "anchors": ["src/sims/i8048.src/i8048.cc:decode_regs"]}
{"id": "C155", "title": "MCS-48 instruction lengths", "statement": "An instruction which is not a branch moves PC over its one or two bytes; the length of the disassembler is that number except for ENT0 CLK (two for one) and ANL BUS,#data (one for two).", "quantifier": "all states, codes", "why_tests_cant": "256 codes with all registers, flags, 256 bytes of RAM, ports and program memories: a test can only sample them.", "anchors": ["src/sims/i8048.src/i8020.cc:inst_length", "src/sims/i8048.src/decode.h"]}
{"id": "C156", "title": "MISC16 instructions do what the table says", "statement": "Each instruction of MISC16 reads its source, advances PC by two and writes its destination as the design's table says: jumps on sign, zero, carry; addition and subtraction with carry and borrow, logic, shift through carry, access through A, also if A points at a register; four clock cycles.", "quantifier": "all states: memory, PC, A, carry", "why_tests_cant": "65536 words of memory and registers, any address as source and destination, pointers that point at registers.", "anchors": ["src/sims/oisc.src/oisc.cc:exec_inst", "src/sims/oisc.src/misc16.cc:read, write, add, sub, shift"]}
{"id": "C157", "title": "Every access ends", "statement": "In any history of instructions, register displays and disassemblies of the four one instruction processors every access ends, also if pointers lead to pointer cells; registers and memory keep words, and only instructions take time.", "quantifier": "all four processors, all histories, all states", "why_tests_cant": "Chains of pointers of any shape and histories of any length.", "anchors": ["src/sims/oisc.src/misc16.cc:read, write", "src/sims/oisc.src/em.cc:read, write", "src/sims/oisc.src/oisc.cc:exec_inst"]}
{"id": "C158", "title": "Extended MISC16", "statement": "Each instruction of the extended MISC16 has exactly the result its table determines, with P, [P++], [--P], [A++] followed through any chain of pointers.", "quantifier": "all states", "why_tests_cant": "65536 words of memory and registers, any address as source and destination, pointers that point at registers.", "anchors": ["src/sims/oisc.src/em.cc:read, write"]}
{"id": "C159", "title": "Stack of the extended MISC16", "statement": "Values pushed by [--P] are popped by [P++] in reverse order, P is back, nothing but the stack area and the cell of the register itself changes.", "quantifier": "all lists of values, all states", "why_tests_cant": "Lists of any length.", "anchors": ["src/sims/oisc.src/em.cc:read, write"]}
{"id": "C160", "title": "Ultimate RISC never jumps", "statement": "In any history PC is advanced by two for each instruction: no program jumps, the documented PC address does nothing; before the first register display accumulator and flags never change.", "quantifier": "all programs, all histories", "why_tests_cant": "A statement about all programs.", "anchors": ["src/sims/oisc.src/urisc.cc:init_alu, print_regs"]}
{"id": "C161", "title": "Ultimate RISC accumulator", "statement": "After n displays of the registers a write to an accumulator address does its operation n times (closed form); memory, PC and, for moves, logic and shift, flags are as expected.", "quantifier": "all n, all states, operands", "why_tests_cant": "65536 words of memory and registers, any address as source and destination, pointers that point at registers.", "anchors": ["src/sims/oisc.src/urisc.cc:print_regs, write"]}
{"id": "C162", "title": "Ultimate RISC flags", "statement": "After an addition or subtraction carry, zero and sign flags are those of the result; overflow is the complement of the carry after subtractions and carry xor (some operand bit below the sign set or the second operand not zero) after additions; the condition addresses give two or zero by the documented formulas.", "quantifier": "all operands, all states", "why_tests_cant": "65536 words of memory and registers, any address as source and destination, pointers that point at registers.", "anchors": ["src/sims/oisc.src/urisc.cc:add, read"]}
{"id": "C163", "title": "Plain one instruction processor", "statement": "An instruction of the plain processor copies one word from the address at PC to the address at PC+1, advances PC by two, and changes nothing else.", "quantifier": "all states", "why_tests_cant": "65536 words of memory and registers, any address as source and destination, pointers that point at registers.", "anchors": ["src/sims/oisc.src/oisc.cc:exec_inst"]}
{"id": "C164", "title": "Looking at the machine", "statement": "Register display and disassembly change no register or memory in the plain processor, Ultimate RISC and MISC16; in the extended MISC16 they move P or A by one exactly if the instruction at PC has the source [P++] or [A++].", "quantifier": "all states, addresses", "why_tests_cant": "65536 words of memory and registers, any address as source and destination, pointers that point at registers.", "anchors": ["src/sims/oisc.src/oisc.cc:disassc, print_acc", "src/sims/oisc.src/misc16.cc:dis_comment", "src/sims/oisc.src/em.cc:dis_comment, print_regs"]}
{"id": "C165", "title": "Disassembler names of MISC16", "statement": "The names the disassembler gives to sources and destinations tell what is read and done, except PC+8 which is PC+6.", "quantifier": "all states, values, named addresses", "why_tests_cant": "65536 words of memory and registers, any address as source and destination, pointers that point at registers.", "anchors": ["src/sims/oisc.src/misc16.cc:dis_src, dis_dst"]}
{"id": "C166", "title": "PCA counter", "statement": "In any history which does not write CL, CH, the counter of the 89C51R's PCA is modulo 65536 what it was plus the pulses of its clock source while it runs (cycles, three times the cycles, overflows of timer 0 or falling edges of ECI), and CF is set exactly if it wrapped.", "quantifier": "all histories of ticks, register writes, edges, timer overflows; all initial states", "why_tests_cant": "65536 counter values, five modules with free modes, and histories of any length: a test samples a few.", "anchors": ["src/sims/s51.src/pca.cc:tick, do_pca_counter, happen, write"]}
{"id": "C167", "title": "PCA compare", "statement": "A module in compare mode sets its flag and toggles its pin exactly when the counter wraps to zero, and only if its compare value is zero: with any other value never.", "quantifier": "all modules, histories, states", "why_tests_cant": "65536 counter values, five modules with free modes, and histories of any length: a test samples a few.", "anchors": ["src/sims/s51.src/pca.cc:do_pca_counter, do_pca_module"]}
{"id": "C168", "title": "PCA watchdog", "statement": "With the watchdog enabled a match of module 4 changes neither flag nor pin nor register, in any history.", "quantifier": "all histories, states", "why_tests_cant": "65536 counter values, five modules with free modes, and histories of any length: a test samples a few.", "anchors": ["src/sims/s51.src/pca.cc:do_pca_module, reset"]}
{"id": "C169", "title": "PCA capture", "statement": "A module can only capture the value zero, only when the counter wraps; a falling edge once seen captures at every later wrap.", "quantifier": "all modules, histories, states", "why_tests_cant": "The edge may be arbitrarily long ago.", "anchors": ["src/sims/s51.src/pca.cc:do_pca_module, happen"]}
{"id": "C170", "title": "PCA pulse width", "statement": "CCAPnL is reloaded from CCAPnH when CL wraps; the output of a module in PWM mode is set at the first wrap of the counter and never cleared, whatever the compare register holds.", "quantifier": "all modules, histories, states", "why_tests_cant": "65536 counter values, five modules with free modes, and histories of any length: a test samples a few.", "anchors": ["src/sims/s51.src/pca.cc:do_pca_counter, do_pca_module"]}
{"id": "C171", "title": "PCA run bit", "statement": "Setting CR as a bit does not start the counter; bit 2 of CCON does; a running counter runs on after a reset of the controller.", "quantifier": "all histories, states", "why_tests_cant": "65536 counter values, five modules with free modes, and histories of any length: a test samples a few.", "anchors": ["src/sims/s51.src/pca.cc:init, write", "src/sims/s51.src/uc51.cc:clear_sfr"]}
{"id": "C172", "title": "PCA modes", "statement": "The mode a module works in is the last one written to CCAPMn, also after a reset when 40h is read there; writing the compare registers never changes it.", "quantifier": "all histories, states", "why_tests_cant": "65536 counter values, five modules with free modes, and histories of any length: a test samples a few.", "anchors": ["src/sims/s51.src/pca.cc:write, init"]}
