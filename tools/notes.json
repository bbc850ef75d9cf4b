{
 "C15": {
  "note": "All histories with at most 8192 insertions (hard capacity of the list class, see C16)."
 },
 "C16": {
  "note": "C16_list_refines_sequence and C16_capacity_deviation."
 },
 "C01": {
  "note": "The condition is needed: C01_mixed_width_deviation (a 16 bit space decoded on an 8 bit chip)."
 },
 "C02": {
  "note": "C02_undecoded_deviation shows the unprotected case."
 },
 "C04": {
  "note": "C04_activated_window_exact is the statement; C04_activated_window the case of windows that fit; the accepted too long window is an off by one bug (C04_activated_window_deviation)."
 },
 "C05": {
  "note": "C05_top_of_memory_deviation shows the excluded case."
 },
 "C08": {
  "note": "The deviations are C08_inc_address_backward_deviation and C08_validate_address_deviation (off by one)."
 },
 "C09": {
  "note": "C09_above_64k_deviation: %04X prints five digits there."
 },
 "C10": {
  "note": "C10_bad_records_ignored is the general statement (byte memories); C10_corrupted_end_record the corner."
 },
 "C11": {
  "note": "Word 0 is cleared at the end of loading, a bug (C11_word_zero_deviation); 17-24 bit memories are excluded, there addresses and words do not match (C11_24bit_deviation)."
 },
 "C12": {
  "note": "C12_nonhex_deviation, C12_16bit_address_deviation show the last two facts."
 },
 "C13": {
  "note": "One would expect the address of the record itself: C13_omf_address_deviation proves that this fails for every record with data."
 },
 "C30": {
  "note": "One would expect the opposite; the theorem shows for every file that the named memory is never written."
 },
 "C14": {
  "note": "The conditions are needed: C14_start_address_deviation, C14_wide_memory_deviation, C14_wrap_deviation."
 },
 "C17": {
  "note": "Excluded cases: C17_list_zero_deviation, C17_counter_overflow_deviation."
 },
 "C18": {
  "note": "C18_delete_outside and C18_delete_all_outside prove the last part for every such state."
 },
 "C19": {
  "note": "Proved for every history, invalid addresses included."
 },
 "C20": {
  "note": "Proved for one object and, end to end, for every history following the creation of a permanent fetch or any event breakpoint."
 },
 "C32": {
  "note": "The last part contradicts the help of tbreak: C32_temporary_event_deviation shows one that stops twice."
 },
 "C21": {
  "note": "C21_read_after_breakpoint_exact and C21_hw_read_deviation show the second case; C21_remove_from_empty_deviation: unhooking from a cell without operators is a crash."
 },
 "C22": {
  "note": "A source whose set_nmi was never called makes the decision read an uninitialised field (C22_new_source_deviation)."
 },
 "C33": {
  "note": "One would expect it inside IRQ, FIRQ and BRK handlers too; C33_nmi_blocked_by_irq_deviation shows that it waits there (priorities are the interrupt numbers, NMI 1 < IRQ 3)."
 },
 "C34": {
  "note": "FIRQ should be enabled with F clear: C34_firq_deviation (src_firq never gets set_ie_value(0))."
 },
 "C24": {
  "note": "Every schedule of instructions, resets and timer commands; 64 bit counters assumed not to wrap; conversion to seconds (double) not modelled."
 },
 "C25": {
  "note": "C25_stale_time_limit_deviation shows the last fact."
 },
 "C26": {
  "note": "Proved for cores whose do_interrupt answers resGO or resINTERRUPT (all of them by reading)."
 },
 "C35": {
  "note": "The last sentence: C35_large_number_deviation, C35_set_large_deviation, C35_new_timer_time_deviation."
 },
 "C36": {
  "note": "One would expect none: C36_stop_not_immediate_deviation."
 },
 "C37": {
  "note": "C37_step_zero_deviation is the last fact."
 },
 "C27": {
  "note": "C27_far_addresses_deviation shows the excluded case (the comparison wraps)."
 },
 "C28": {
  "note": "C28_stale_deviation: otherwise it may be too large (max_name_len_known is set by the replacing branch of add)."
 },
 "C38": {
  "note": "Proved for all opcodes and states (memory writes to non-existing RAM and the A5 opcode are outside the manual's domain: step = None); left to right evaluation of fetch()*256+fetch() assumed; SFR peripherals not modelled."
 },
 "C39": {
  "note": "Proved for arbitrary bytes and any number of steps, including writes to non-existing memory with arbitrary random values."
 },
 "C40": {
  "note": "Proved; the exception is shown exact for MOV PSW,#v."
 },
 "C41": {
  "note": "Proved for immediate operands."
 },
 "C42": {
  "note": "Proved; stack inside existing RAM."
 },
 "C43": {
  "note": "Proved."
 },
 "C44": {
  "note": "Proved."
 },
 "C45": {
  "note": "Proved."
 },
 "C46": {
  "note": "Proved with the exception in the statement (the disass_51 entry of opcode 11 lacks the call mark)."
 },
 "C47": {
  "note": "Proved: the simulator restarts after reset address instead of after the reserved opcode."
 },
 "C48": {
  "note": "Proved (exact behaviour)."
 },
 "C49": {
  "note": "Proved over the instruction model of C38; hardware may set request bits arbitrarily between steps; stack in existing RAM; selfjump stop off."
 },
 "C50": {
  "note": "Proved."
 },
 "C51": {
  "note": "Proved, including the extra instruction executed before the handler (a deviation from the hardware)."
 },
 "C52": {
  "note": "Proved: exact behaviour, a deviation from the hardware."
 },
 "C53": {
  "note": "Proved; the deviations are separate exact properties (C54, C57, C60)."
 },
 "C54": {
  "note": "Proved (exact behaviour, deviations from the hardware)."
 },
 "C55": {
  "note": "Proved."
 },
 "C56": {
  "note": "Proved."
 },
 "C57": {
  "note": "Proved, with the deviations from the manual made explicit."
 },
 "C58": {
  "note": "Proved; code in between is arbitrary as long as it restores the stack."
 },
 "C59": {
  "note": "Proved for packed decimal operands; other operands are not specified by the manual."
 },
 "C60": {
  "note": "Proved; that a NMI is not accepted inside IRQ and BRK handlers is a deviation from the hardware."
 },
 "C61": {
  "note": "Proved."
 },
 "C62": {
  "note": "Proved."
 },
 "C63": {
  "note": "Proved."
 },
 "C64": {
  "status": "proved",
  "note": "Proved; the limits stated in the property are shown by the _limit theorem where there is one."
 },
 "C65": {
  "status": "proved",
  "note": "Proved; the limits stated in the property are shown by the _limit theorem where there is one."
 },
 "C66": {
  "status": "proved",
  "note": "Proved; the limits stated in the property are shown by the _limit theorem where there is one."
 },
 "C67": {
  "status": "proved",
  "note": "Proved; the limits stated in the property are shown by the _limit theorem where there is one."
 },
 "C68": {
  "status": "proved",
  "note": "Proved; the limits stated in the property are shown by the _limit theorem where there is one."
 },
 "C69": {
  "status": "proved",
  "note": "Proved; the limits stated in the property are shown by the _limit theorem where there is one."
 },
 "C70": {
  "status": "proved",
  "note": "Proved; the limits stated in the property are shown by the _limit theorem where there is one."
 },
 "C71": {
  "status": "proved",
  "note": "Proved; the limits stated in the property are shown by the _limit theorem where there is one."
 },
 "C72": {
  "status": "proved",
  "note": "Proved in ChrProps.v; deviations are part of the statement."
 },
 "C73": {
  "status": "proved",
  "note": "Proved in ChrProps.v; deviations are part of the statement."
 },
 "C74": {
  "status": "proved",
  "note": "Proved in ChrProps.v; deviations are part of the statement."
 },
 "C75": {
  "status": "proved",
  "note": "Proved in ChrProps.v; deviations are part of the statement."
 },
 "C76": {
  "status": "proved",
  "note": "Proved in ChrProps.v; deviations are part of the statement."
 },
 "C77": {
  "status": "proved",
  "note": "Proved in ChrProps.v; deviations are part of the statement."
 },
 "C06": {
  "note": "The excluded cases: C06_redefined_bank_deviation, C06_split_mask_deviation, C06_zero_mask_deviation."
 },
 "C07": {
  "note": "For 1 to 30 bits per element. Bits above 7 are lost because the mask of a bit cell is eight bits wide."
 },
 "C78": {
  "status": "proved",
  "note": "Proved in ExprProps.v over the LALR tables regenerated from cmdpars.y; deviations are part of the statement."
 },
 "C79": {
  "status": "proved",
  "note": "Proved in ExprProps.v over the LALR tables regenerated from cmdpars.y; deviations are part of the statement."
 },
 "C80": {
  "status": "proved",
  "note": "Proved in ExprProps.v over the LALR tables regenerated from cmdpars.y; deviations are part of the statement."
 },
 "C81": {
  "status": "proved",
  "note": "Proved in ExprProps.v over the LALR tables regenerated from cmdpars.y; deviations are part of the statement."
 },
 "C82": {
  "status": "proved",
  "note": "Proved in ExprProps.v over the LALR tables regenerated from cmdpars.y; deviations are part of the statement."
 },
 "C83": {
  "status": "proved",
  "note": "Proved in ExprProps.v over the LALR tables regenerated from cmdpars.y; deviations are part of the statement."
 },
 "C84": {
  "status": "proved",
  "note": "Proved in ExprProps.v over the LALR tables regenerated from cmdpars.y; deviations are part of the statement."
 },
 "C85": {
  "status": "proved",
  "note": "Proved in ExprProps.v over the LALR tables regenerated from cmdpars.y; deviations are part of the statement."
 },
 "C86": {
  "status": "proved",
  "note": "Proved in ExprProps.v over the LALR tables regenerated from cmdpars.y; deviations are part of the statement."
 },
 "C87": {
  "status": "proved",
  "note": "Proved in ExprProps.v over the LALR tables regenerated from cmdpars.y; deviations are part of the statement."
 },
 "C88": {
  "status": "proved",
  "note": "Proved in ExprProps.v over the LALR tables regenerated from cmdpars.y; deviations are part of the statement."
 },
 "C89": {
  "status": "proved",
  "note": "Proved in TmrProps.v; deviations from the manual are part of the statement."
 },
 "C90": {
  "status": "proved",
  "note": "Proved in TmrProps.v; deviations from the manual are part of the statement."
 },
 "C91": {
  "status": "proved",
  "note": "Proved in TmrProps.v; deviations from the manual are part of the statement."
 },
 "C92": {
  "status": "proved",
  "note": "Proved in TmrProps.v; deviations from the manual are part of the statement."
 },
 "C93": {
  "status": "proved",
  "note": "Proved in Tm2Props.v; deviations from the manual are part of the statement."
 },
 "C94": {
  "status": "proved",
  "note": "Proved in Tm2Props.v; deviations from the manual are part of the statement."
 },
 "C95": {
  "status": "proved",
  "note": "Proved in Tm2Props.v; deviations from the manual are part of the statement."
 },
 "C96": {
  "status": "proved",
  "note": "Proved in Tm2Props.v; deviations from the manual are part of the statement."
 },
 "C97": {
  "status": "proved",
  "note": "Proved in Tm2Props.v; deviations from the manual are part of the statement."
 },
 "C98": {
  "note": "Quiet: no write to SBUF, SCON (as a byte, or SM0/SM1), PCON, T2CON and no reset in between. The int counters are integers in the model."
 },
 "C100": {
  "note": "nl of at most three bytes (four bytes: the program shifts an int by 32). The input is not a terminal."
 },
 "C101": {
  "note": "That a character is waiting and no reception is going on is said with members of the port; the character received is the next one of C100."
 },
 "C102": {
  "note": "C102_lost_without shows the loss without flow control on one history."
 },
 "C104": {
  "note": "C104_stale_rate and C104_starved are the deviations named in the statement."
 },
 "C105": {
  "note": "Only the watchdog and its cell are modelled; ticks are not negative."
 },
 "C107": {
  "note": "C107_string_after_super_deviation is the loss named in the statement, on one line."
 },
 "C108": {
  "note": "The general form of word parameters: C108_one_or_error; means is the parse of the line 'x word'."
 },
 "C109": {
  "note": "C109_symbol_deviation: the uninitialised value is modelled as undefined behaviour."
 },
 "C113": {
  "note": "What a processor accepts as address, memory, bit, hardware, cell is an arbitrary predicate; symbols and strings for the letters d and D are excluded (uninitialised value, C109)."
 },
 "C115": {
  "note": "Partial lines with backslash or dollar are not covered by C115_safe; the two deviations show why."
 }
}