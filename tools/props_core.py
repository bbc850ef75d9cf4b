# Source of properties.jsonl (one dict per property); run tools/mkprops.py to regenerate.
P=[]
def p(id,title,statement,quantifier,why,anchors): P.append(dict(id=id,title=title,statement=statement,quantifier=quantifier,why_tests_cant=why,anchors=anchors))
MEM="src/core/sim.src/mem.cc"; UC="src/core/sim.src/uc.cc"; POBJ="src/core/utils.src/pobj.cc"; BRK="src/core/sim.src/brk.cc"; VAR="src/core/sim.src/var.cc"; SIM="src/core/sim.src/sim.cc"; IT="src/core/sim.src/itsrc.cc"
p("C01","Memory cells behave like masked storage","After a program or user writes v to a decoded, writable, callback-free address of an address space, reading that address returns v truncated to the width of the space, every address that is mapped on the same chip location shows the same new value, and every address mapped elsewhere still returns what it returned before.","all address spaces, chips, decode maps, addresses, values and access histories","The aliasing structure is an arbitrary map of addresses to chip locations; tests only sample a few maps and addresses.",[MEM+": cl_address_space::read/write/set, cl_memory_cell::write, cl_cell8/16/32::d"])
p("C02","Accesses outside an address space have no effect on it","Reading, writing, setting or downloading to an address below the start or past the end of an address space never changes the value readable at any valid address nor any chip content, and it is reported as an invalid-address error.","all spaces, all 32 bit addresses outside of the range, all values","Every out-of-range 32 bit address for every start/size must be safe, including the wrap-around of address minus start.",[MEM+": cl_address_space::read/write/set/download/get_cell, cl_memory::valid_address"])
p("C03","Read-only cells are immutable for the program but can be loaded","A cell flagged read-only keeps its value through any sequence of program writes and user sets to it; loading a file (download) still changes it.","all histories of write/set/download on a cell","Needs induction over arbitrary access histories.",[MEM+": cl_memory_cell::write, set, download, CELL_READ_ONLY"])
p("C04","Activated address decoder maps exactly its window","If a decoder is activated successfully, then each address of its window is backed by chip location chip_begin + (address - window begin), and no address outside of its window changes its backing.","all spaces, chips, windows, chip offsets and earlier decode states","Ranges over all windows, sizes and previous maps; boundary sizes are easily missed by tests.",[MEM+": cl_address_decoder::activate, cl_address_space::decode_cell"])
p("C05","Decoder list and real mapping never diverge","After any sequence of decoder creations on an address space the windows of listed decoders are pairwise disjoint and an address is backed by a chip if and only if some listed decoder covers it, namely by the location which that decoder shows.","all sequences of decoder creations (histories) over any windows","Overlap handling (remove, split, shrink) depends on the whole history of windows.",[MEM+": cl_address_space::undecode_area, cl_address_decoder::shrink_out_of, split, fully_covered_by, covers, is_in"])
p("C06","Bank switching selects the bank named by the selector","After any write to the selector register of a bank switcher whose selected bank is defined, every address of the banked window is backed by the location of the selected bank: chip start of that bank plus offset; a selection of an undefined bank leaves the mapping unchanged.","all selector masks, bank tables, written values and write histories","Selector values and masks are unbounded combinations; history of undefined selections matters.",[MEM+": cl_banker::init, actual_bank, activate, add_bank, cl_bank_switcher_operator::write"])
p("C07","Bit-band cells address exactly one bit","In a bit-banded window cell number n stands for bit n mod bpc of chip location chip_begin + (n div bpc)*distance: writing the bit cell changes that bit and no other bit of the chip, and reading it returns that bit.","all windows, bits-per-chip values, distances, chip contents and bit addresses","All combinations of bit position, window and content must hold.",[MEM+": cl_bander::activate, cl_bit_cell8::d"])
p("C08","Address arithmetic stays inside the memory","inc_address and validate_address return a valid address of the memory for every input address.","all start addresses, sizes, input addresses and increments","Boundary cases of modular 32 bit arithmetic over all sizes.",[MEM+": cl_memory::inc_address, validate_address"])
p("C09","Intel hex dump can be loaded back","Dumping any range of an 8 bit memory in Intel hex format and loading the produced text restores the same bytes at the same addresses, and changes nothing else.","all memory contents, ranges and bytes-per-line values","Round trip over all contents and ranges, including lines that cross 64k.",[MEM+": cl_memory::dump_i",UC+": cl_uc::read_hex_file, ReadInt, set_rom"])
p("C10","Hex records with wrong checksum are ignored","A record whose checksum does not match has no effect on memory, and the records around it are still loaded.","all files (byte sequences) and all memories","Arbitrary corrupted input files.",[UC+": cl_uc::read_hex_file"])
p("C11","Loading a hex file into memory wider than 8 bits writes only what the file says","After loading a well-formed hex file into a 16 or 32 bit wide memory only words that are covered by data records are changed, each to the little endian value of its bytes.","all well-formed files, all memories","Whole-memory frame condition over all files.",[UC+": cl_uc::read_hex_file (tail of the function)"])
p("C12","S-records load exactly their payload","Every S1/S2/S3 record with a correct checksum stores its data bytes to consecutive addresses from its address field, everything else is ignored.","all S-record lines and all memories","Arbitrary lines and contents.",[UC+": cl_uc::read_s19_file, s19, h1, h2, a16, a24, a32"])
p("C13","OMF content records load at their own address","The data of an OMF content record is stored to consecutive addresses starting from the address given in the record.","all OMF records","Holds for every record address/length.",[UC+": cl_uc::read_omf_file, cl_omf_rec::pick_word"])
p("C14","Memory search finds the first match","search_next returns the lowest address not below the start address where the searched sequence is found, and reports failure only when there is no such place.","all memory contents, patterns, start addresses","Universally quantified over content and patterns, plus completeness (no match missed).",[MEM+": cl_memory::search_next"])
p("C15","Sorted collections stay sorted and searchable","After any sequence of insertions a sorted collection is ordered by its key; searching returns true exactly when an element with the key is present, with the index of the first such element (or the insertion point); collections without duplicates never contain two equal keys.","all histories of insertions and removals, all key orders","Binary search correctness for all lengths and contents.",[POBJ+": cl_sorted_list::search, add, index_of"])
p("C16","Lists behave like abstract sequences","add, push, add_at, put_at, disconn_at, disconn, pop, top, at, next and index_of of a list have the effect of the same operation on a mathematical sequence, for any growth of the storage.","all operation sequences and storage limits","Capacity growth happens at arbitrary points of histories.",[POBJ+": cl_list::add_at, disconn_at, set_limit, ..."])
p("C17","Execution history is the run-length encoded tail of the executed addresses","At any time the history shows the most recent addresses in order of execution with repeat counts, it never shows more than its capacity, and clearing or trimming it keeps the newest entries.","all execution traces and all trim requests","Ring buffer wrap-around happens only after thousands of entries in arbitrary traces.",[UC+": cl_exec_hist::put, keep, get_used, get_insts, list"])
p("C18","Breakpoint numbers identify breakpoints","At any time all existing breakpoints have different numbers, and deleting a number removes the breakpoint with that number and no other one.","all histories of break/tbreak/delete/clear/hit events","Arbitrary histories with counter restarts.",[UC+": make_new_brknr, rm_brk",BRK+": brk_coll::add_bp, del_bp, get_bp"])
p("C19","Fetch breakpoint flag and list agree","A ROM cell is marked as fetch breakpoint if and only if there is a fetch breakpoint in the list at that address, at most one fetch breakpoint exists at a valid address, in every reachable state.","all histories of breakpoint commands and hits","Invariant over histories.",[BRK+": brk_coll::bp_at, get_bp, activate, inactivate",MEM+": cl_memory_cell::set_brk, del_brk"])
p("C20","Hit counts","A breakpoint with hit count n and no condition (or a true one) breaks exactly at every n-th hit (and at every hit if n < 1), with a condition it breaks only at those when the condition is true.","all hit counts and hit histories","Unbounded counting.",[BRK+": cl_brk::do_hit"])
p("C21","Setting an event breakpoint does not change what the program reads and writes","With any read or write breakpoints added to a cell, program reads return and writes store the same values as without them.","all cells, callbacks, breakpoints, access histories","Behavioural equivalence over all histories.",[MEM+": cl_memory_cell::read, write, cl_read_operator::read, cl_write_operator::write, cl_hw_operator::read"])
p("C22","Interrupt acceptance obeys enable, pending and priority","An interrupt is accepted only if its source is active, enabled and pending, is not a slave, interrupts are enabled globally or it is an NMI, and its priority is strictly higher than the priority of the interrupted level; among the candidates the first one in polling order is selected; a source that qualifies is never passed over in favour of none.","all sets of interrupt sources, register contents, nested levels","All combinations of sources and states.",[UC+": cl_uc::do_interrupt, accept_it",IT+": cl_it_src::enabled, pending, clear, cl_irqs"])
p("C23","Interrupt nesting is bounded and strictly increasing","In every reachable state the stack of active interrupt levels is strictly increasing in priority above the main level, so its depth is bounded by the number of priorities, and it always keeps its bottom (main) entry.","all histories of acceptances, returns and resets","Induction over histories.",[UC+": do_interrupt, reset, it_levels"])
p("C24","Time counters are consistent","The simulated clock counter equals the sum of clocks of executed cycles since reset, ISR/idle/halt counters equal the clocks spent in those states, none of them exceeds the total, stopped counters do not change and counters running backward decrease.","all histories of ticks, state changes, counter start/stop","Sums over arbitrary histories.",[UC+": cl_uc::tick, cl_ticker::tick, reset"])
p("C25","Step and run limits","`step n` executes exactly n instructions unless something stops the simulation earlier; running with no limit stops only when an instruction or event requests it.","all programs (as sequences of instruction results) and all n","Arbitrary long runs.",[SIM+": cl_sim::step, start, stop, set_limit"])
p("C26","Invalid instructions leave PC on the instruction","When the execution of an instruction reports an invalid or not yet finished instruction the program counter is the address of the instruction; fetching wraps PC by its mask so PC never leaves the mask.","all processor states","All states.",[UC+": do_inst, exec_inst_uctab, fetch"])
p("C27","Symbol table is a map from names","After any sequence of variable additions and removals each name denotes at most one variable, a lookup returns the last added and not removed variable of that name, and the address view contains the same memory variables.","all histories of var/rmvar","Histories with replacement and automatic removal.",[VAR+": cl_var_list::add, del, cl_var_by_name_list, cl_var_by_addr_list"])
p("C28","Maximal symbol name length is exact","The reported length of the longest symbol name equals the real maximum after any sequence of additions and removals.","all histories of var/rmvar and queries","Cached value with invalidation over histories.",[VAR+": cl_var_list::get_max_name_len, add, del"])
p("C29","Interrupt sources round trip","Requesting then testing a source shows it pending, clearing an auto-clear source shows it not pending, and neither changes other bits of the request register.","all masks, values, register contents","All masks and contents.",[IT+": cl_it_src::request, pending, clear"])
