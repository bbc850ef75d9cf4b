# Exact restatements: the first, intuitive wording of these properties is false of the code in some
# corner; the statement here says what holds and what happens in that corner.  (statement, note)
R={
"C01":("In a configuration where every cell is as wide as the elements of the chip it is mapped on: after a program or user writes v to a decoded, writable, callback-free address of an address space, reading that address returns v truncated to the width of the space (a one bit cell takes any non-zero value as 1), every address that is mapped on the same chip location shows the same new value, and every address mapped elsewhere still returns what it returned before, through any further accesses that do not store to the same place. Without that condition, which the simulator does not check, a write may change a neighbouring address.",
 "The condition is needed: C01_mixed_width_deviation (a 16 bit space decoded on an 8 bit chip)."),
"C02":("Reading, writing, setting or downloading to an address below the start or past the end of an address space changes no chip content and not the value readable at any decoded address of any space, and it is reported as an invalid-address error (if the space belongs to a controller). Addresses that are in range but not decoded are not protected: they all share one variable with the accesses out of range.",
 "C02_undecoded_deviation shows the unprotected case."),
"C04":("If the request for a decoder is accepted, then each address of its window is backed by chip location chip_begin + (address - window begin) if the chip has that location, otherwise it is without backing (only the last address of a window one longer than the chip, which is accepted), and no address outside of its window changes its backing.",
 "C04_activated_window_exact is the statement; C04_activated_window the case of windows that fit; the accepted too long window is an off by one bug (C04_activated_window_deviation)."),
"C05":("For a space that ends below 2^32: after any sequence of decoder creations the windows of listed decoders are pairwise disjoint, an address covered by a listed decoder is backed by the location which that decoder shows (by nothing if the chip has no such location), and an address covered by none is not backed. In a space that ends exactly at 2^32 a listed decoder may have no effect.",
 "C05_top_of_memory_deviation shows the excluded case."),
"C06":("For a selector whose mask is a group of adjacent bits and banks that are each defined once: after any write to the selector register that names a defined bank, every address of the banked window is backed by the location of that bank, chip start plus offset (nothing past the end of the chip); a selection of an undefined bank leaves the mapping unchanged; addresses outside of the window are never touched. Redefining a bank can leave the window without backing, and masks with gaps or no bits are accepted and crash.",
 "The excluded cases: C06_redefined_bank_deviation, C06_split_mask_deviation, C06_zero_mask_deviation."),
"C07":("In a bit-banded window cell number n stands for bit n mod bpc of chip location chip_begin + (n div bpc)*distance: writing the bit cell changes that bit and no other bit of the chip, and reading it returns that bit, if it is one of the lowest eight bits; cells that stand for bit 8 or above of a wider element read as 0 and ignore writes.",
 "For 1 to 30 bits per element. Bits above 7 are lost because the mask of a bit cell is eight bits wide."),
"C08":("inc_address returns an address of the memory for every input (unless the int sum overflows); stepping forward goes exactly that many addresses further around the end; in general the distance is taken modulo 2^32 first, so stepping backward is right exactly when this does not matter, e.g. when the size divides 2^32. validate_address ends and returns a congruent address of the memory for every input except start+size, which it returns unchanged.",
 "The deviations are C08_inc_address_backward_deviation and C08_validate_address_deviation (off by one)."),
"C09":("Dumping any range of an 8 bit memory of at most 64k in Intel hex format and loading the produced text restores the same bytes at the same addresses, and changes nothing else. Above address 0xffff the dump is not valid hex and is not loaded back.",
 "C09_above_64k_deviation: %04X prints five digits there."),
"C10":("Loading into a byte memory: a record whose checksum does not match has no effect on memory, and the records around it are still loaded, if it is not of type 1; a record of type 1 ends the loading, also when its checksum is wrong. In general what is stored is the meaning of the correct records before the first record of type 1.",
 "C10_bad_records_ignored is the general statement (byte memories); C10_corrupted_end_record the corner."),
"C11":("After loading a well-formed hex file with aligned records into a memory of 9-16 or 25-32 bit words, each word covered by data records has the little endian value of its bytes, word 0 is 0 whatever the file says, and all other words are unchanged.",
 "Word 0 is cleared at the end of loading, a bug (C11_word_zero_deviation); 17-24 bit memories are excluded, there addresses and words do not match (C11_24bit_deviation)."),
"C12":("In a byte memory every S1/S2/S3 line with a correct checksum stores its data bytes to consecutive addresses from its address field; in any memory a line of another type, shorter than its count or with a wrong checksum stores nothing. Characters that are not hex digits count as zero digits, and in 16 bit memories the address is divided by 24.",
 "C12_nonhex_deviation, C12_16bit_address_deviation show the last two facts."),
"C13":("The data of every OMF content record is stored to consecutive addresses starting three above the address given in the record.",
 "One would expect the address of the record itself: C13_omf_address_deviation proves that this fails for every record with data."),
"C14":("In a memory starting at address 0 (of byte width, if the search ignores case) search_next returns the lowest address not below the start address where the searched sequence is found, and reports failure only when there is no such place (the end of the pattern must not pass 2^32); the where commands print all occurrences, each once, in increasing order. In a memory starting elsewhere nothing may be found although it is there.",
 "The conditions are needed: C14_start_address_deviation, C14_wide_memory_deviation, C14_wrap_deviation."),
"C16":("As long as the list has at most 8192 elements, add, push, add_at, put_at, disconn_at, disconn, pop, top, at, next and index_of of a list have the effect of the same operation on a mathematical sequence, for any initial size and growth of the storage. For every initial size and growth there is a history of additions, with the 8193rd element, that writes outside of the storage.",
 "C16_list_refines_sequence and C16_capacity_deviation."),
"C17":("After fewer than 2^31 instructions and history commands the history shows the most recent addresses in order of execution with repeat counts, it never shows more than its capacity, and clearing or trimming it keeps the newest entries; listing one or more entries shows exactly the newest ones. Listing zero entries reads outside of the recorded ones, and a repeat counter overflows after 2^31-1 repeats.",
 "Excluded cases: C17_list_zero_deviation, C17_counter_overflow_deviation."),
"C18":("At any time all existing breakpoints have different numbers; deleting a number removes the breakpoint with that number and no other one if it is not a fetch breakpoint outside of the code memory; such a breakpoint can be created, but deleting its number changes nothing and deleting all breakpoints does not end while it exists.",
 "C18_delete_outside and C18_delete_all_outside prove the last part for every such state."),
"C21":("With any read or write breakpoints added to a cell, program writes store the same values as without them, and program reads return the same values if the hardware hooked on the cell returns the content of the cell. Otherwise a read returns the value of the last hooked operator, so that a breakpoint set after the hardware hides its value.",
 "C21_read_after_breakpoint_exact and C21_hw_read_deviation show the second case; C21_remove_from_empty_deviation: unhooking from a cell without operators is a crash."),
"C22":("For sources whose NMI property was set: an interrupt is accepted only if its source is active, enabled and pending, is not a slave, interrupts are enabled globally or it is an NMI, and its priority is strictly higher than the priority of the interrupted level; among the candidates the first one in polling order is selected; a source that qualifies is never passed over in favour of none. On the MCS51 this holds for all sources.",
 "A source whose set_nmi was never called makes the decision read an uninitialised field (C22_new_source_deviation)."),
"C25":("With no time limit pending, `step n` executes exactly n instructions unless something stops the simulation earlier, running with no limit stops only when an instruction or event requests it, and with an execution limit at most that many are executed. A time limit left over from an interrupted `step n clk` stops later runs.",
 "C25_stale_time_limit_deviation shows the last fact."),
"C27":("For at most 8192 additions and addresses below 2^31: after any sequence of variable additions and removals each name denotes at most one variable, a lookup returns the last added and not removed variable of that name, and the address view contains the same memory variables. With addresses 2^31 or more apart a variable may be missing in the address view.",
 "C27_far_addresses_deviation shows the excluded case (the comparison wraps)."),
"C28":("The reported length of the longest symbol name is never less than the real maximum, and it equals the real maximum after any sequence of additions and removals in which no existing name is added again between a removal and the next query.",
 "C28_stale_deviation: otherwise it may be too large (max_name_len_known is set by the replacing branch of add)."),
"C30":("`load file@name` leaves the memory called name unchanged and stores the bytes of the file to the code memory, for every file.",
 "One would expect the opposite; the theorem shows for every file that the named memory is never written."),
"C32":("A temporary fetch breakpoint (tbreak, run start stop, next) stops the simulation at most once: it is deleted when it is accepted, and not before; other breakpoints are not affected. A hit of an event breakpoint, temporary or not, deletes nothing.",
 "The last part contradicts the help of tbreak: C32_temporary_event_deviation shows one that stops twice."),
"C33":("On the 6502 and 6809 simulators a requested, enabled and active NMI at the head of the polling order is accepted at the next instruction boundary if and only if no interrupt is being served.",
 "One would expect it inside IRQ, FIRQ and BRK handlers too; C33_nmi_blocked_by_irq_deviation shows that it waits there (priorities are the interrupt numbers, NMI 1 < IRQ 3)."),
"C34":("On the 6809 simulator IRQ requests are enabled exactly when the I flag is clear, and FIRQ requests exactly when the F flag is set.",
 "FIRQ should be enabled with F clear: C34_firq_deviation (src_firq never gets set_ie_value(0))."),
"C35":("A name denotes at most one timer; `timer add` (with a number below 8192) creates a zeroed running timer in a free slot and leaves the others alone; delete, start, stop and set (to values below 2^31) affect exactly the designated timer. Larger numbers overrun the list, larger values are stored negative, and the time in seconds of a new timer is not initialised.",
 "The last sentence: C35_large_number_deviation, C35_set_large_deviation, C35_new_timer_time_deviation."),
"C36":("After a `stop` command has been processed exactly one more instruction is executed, and none after that until the simulation is started again.",
 "One would expect none: C36_stop_not_immediate_deviation."),
"C37":("`step n clk` stops at the first instruction boundary at which at least n clocks have passed since the command, if the target time is not 0 and nothing else stops it. With a target time of 0 it never stops.",
 "C37_step_zero_deviation is the last fact."),
}

T={"C13":"OMF content records land three bytes too high","C30":"Loading into a named memory goes to the code memory",
"C33":"A non maskable interrupt waits for the end of any interrupt service","C28":"Maximal symbol name length is an upper bound, exact with one exception",
"C34":"6809 interrupt mask flags","C36":"Stop command lets one more instruction run","C32":"Temporary fetch breakpoints are deleted when accepted"}
