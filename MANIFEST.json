{
 "claims": [
  {
   "property": "C01",
   "status": "proved",
   "theorems": [
    "C01_written_value_is_read",
    "C01_other_addresses_keep_value",
    "C01_mask_is_low_bits",
    "C01_mixed_width_deviation"
   ],
   "note": "The condition is needed: C01_mixed_width_deviation (a 16 bit space decoded on an 8 bit chip)."
  },
  {
   "property": "C02",
   "status": "proved",
   "theorems": [
    "C02_outside_access",
    "C02_undecoded_deviation"
   ],
   "note": "C02_undecoded_deviation shows the unprotected case."
  },
  {
   "property": "C03",
   "status": "proved",
   "theorems": [
    "C03_read_only_is_immutable",
    "C03_download_changes_read_only"
   ],
   "note": ""
  },
  {
   "property": "C04",
   "status": "proved",
   "theorems": [
    "C04_activated_window",
    "C04_activated_window_exact",
    "C04_activated_window_deviation"
   ],
   "note": "C04_activated_window_exact is the statement; C04_activated_window the case of windows that fit; the accepted too long window is an off by one bug (C04_activated_window_deviation)."
  },
  {
   "property": "C05",
   "status": "proved",
   "theorems": [
    "C05_decoders_match_mapping",
    "C05_decoders_match_mapping_exact",
    "C05_top_of_memory_deviation"
   ],
   "note": "C05_top_of_memory_deviation shows the excluded case."
  },
  {
   "property": "C06",
   "status": "proved",
   "theorems": [
    "C06_selected_bank_is_mapped",
    "C06_redefined_bank_deviation",
    "C06_split_mask_deviation",
    "C06_zero_mask_deviation"
   ],
   "note": "The excluded cases: C06_redefined_bank_deviation, C06_split_mask_deviation, C06_zero_mask_deviation."
  },
  {
   "property": "C07",
   "status": "proved",
   "theorems": [
    "C07_bit_cell_is_one_bit",
    "C07_wide_chip_deviation"
   ],
   "note": "For 1 to 30 bits per element. Bits above 7 are lost because the mask of a bit cell is eight bits wide."
  },
  {
   "property": "C08",
   "status": "proved",
   "theorems": [
    "C08_inc_address_in_range",
    "C08_inc_address_forward",
    "C08_inc_address_exact",
    "C08_inc_address_backward_right",
    "C08_inc_address_backward_deviation",
    "C08_validate_address",
    "C08_validate_address_deviation"
   ],
   "note": "The deviations are C08_inc_address_backward_deviation and C08_validate_address_deviation (off by one)."
  },
  {
   "property": "C09",
   "status": "proved",
   "theorems": [
    "C09_dump_load_roundtrip",
    "C09_above_64k_deviation"
   ],
   "note": "C09_above_64k_deviation: %04X prints five digits there."
  },
  {
   "property": "C10",
   "status": "proved",
   "theorems": [
    "C10_bad_records_ignored",
    "C10_same_as_without_it",
    "C10_corrupted_end_record"
   ],
   "note": "C10_bad_records_ignored is the general statement (byte memories); C10_corrupted_end_record the corner."
  },
  {
   "property": "C11",
   "status": "proved",
   "theorems": [
    "C11_wide_memory",
    "C11_word_zero_deviation",
    "C11_24bit_deviation"
   ],
   "note": "Word 0 is cleared at the end of loading, a bug (C11_word_zero_deviation); 17-24 bit memories are excluded, there addresses and words do not match (C11_24bit_deviation)."
  },
  {
   "property": "C12",
   "status": "proved",
   "theorems": [
    "C12_srecord_payload",
    "C12_other_lines_ignored",
    "C12_nonhex_deviation",
    "C12_16bit_address_deviation"
   ],
   "note": "C12_nonhex_deviation, C12_16bit_address_deviation show the last two facts."
  },
  {
   "property": "C13",
   "status": "proved",
   "theorems": [
    "C13_omf_offset_exact",
    "C13_omf_address_deviation"
   ],
   "note": "One would expect the address of the record itself: C13_omf_address_deviation proves that this fails for every record with data."
  },
  {
   "property": "C14",
   "status": "proved",
   "theorems": [
    "C14_first_match",
    "C14_where_prints_all",
    "C14_start_address_deviation",
    "C14_wide_memory_deviation",
    "C14_wrap_deviation"
   ],
   "note": "The conditions are needed: C14_start_address_deviation, C14_wide_memory_deviation, C14_wrap_deviation."
  },
  {
   "property": "C15",
   "status": "proved",
   "theorems": [
    "C15_sorted_history",
    "C15_index_of",
    "C15_strcmp_is_order"
   ],
   "note": "All histories with at most 8192 insertions (hard capacity of the list class, see C16)."
  },
  {
   "property": "C16",
   "status": "proved",
   "theorems": [
    "C16_list_refines_sequence",
    "C16_capacity_deviation"
   ],
   "note": "C16_list_refines_sequence and C16_capacity_deviation."
  },
  {
   "property": "C17",
   "status": "proved",
   "theorems": [
    "C17_history_is_ideal",
    "C17_history_is_tail_of_trace",
    "C17_list_zero_deviation",
    "C17_counter_overflow_deviation"
   ],
   "note": "Excluded cases: C17_list_zero_deviation, C17_counter_overflow_deviation."
  },
  {
   "property": "C18",
   "status": "proved",
   "theorems": [
    "C18_numbers_distinct",
    "C18_delete_exact",
    "C18_delete_outside",
    "C18_delete_all_outside",
    "C18_valid_histories_succeed"
   ],
   "note": "C18_delete_outside and C18_delete_all_outside prove the last part for every such state."
  },
  {
   "property": "C19",
   "status": "proved",
   "theorems": [
    "C19_flags_agree"
   ],
   "note": "Proved for every history, invalid addresses included."
  },
  {
   "property": "C20",
   "status": "proved",
   "theorems": [
    "C20_hit_results",
    "C20_fetch_hits",
    "C20_no_breakpoint_no_stop",
    "C20_event_hits"
   ],
   "note": "Proved for one object and, end to end, for every history following the creation of a permanent fetch or any event breakpoint."
  },
  {
   "property": "C21",
   "status": "proved",
   "theorems": [
    "C21_breakpoints_transparent",
    "C21_writes_transparent",
    "C21_write_chain",
    "C21_read_after_breakpoint_exact",
    "C21_hw_read_deviation",
    "C21_remove_from_empty_deviation"
   ],
   "note": "C21_read_after_breakpoint_exact and C21_hw_read_deviation show the second case; C21_remove_from_empty_deviation: unhooking from a cell without operators is a crash."
  },
  {
   "property": "C22",
   "status": "proved",
   "theorems": [
    "C22_first_qualifying_accepted",
    "C22_slave_requests_parent",
    "C22_new_source_deviation",
    "C22_mcs51_acceptance",
    "C22_mcs51_blocked"
   ],
   "note": "A source whose set_nmi was never called makes the decision read an uninitialised field (C22_new_source_deviation)."
  },
  {
   "property": "C23",
   "status": "proved",
   "theorems": [
    "C23_nesting_bounded",
    "C23_return_and_reset",
    "C23_mcs51_two_levels"
   ],
   "note": ""
  },
  {
   "property": "C24",
   "status": "proved",
   "theorems": [
    "C24_counter_exact",
    "C24_builtin_since_reset",
    "C24_parts_below_total"
   ],
   "note": "Every schedule of instructions, resets and timer commands; 64 bit counters assumed not to wrap; conversion to seconds (double) not modelled."
  },
  {
   "property": "C25",
   "status": "proved",
   "theorems": [
    "C25_step_exact",
    "C25_run_unlimited",
    "C25_limit",
    "C25_stale_time_limit_deviation"
   ],
   "note": "C25_stale_time_limit_deviation shows the last fact."
  },
  {
   "property": "C26",
   "status": "proved",
   "theorems": [
    "C26_invalid_instruction",
    "C26_not_done",
    "C26_breakpoint_before_execution",
    "C26_pc_in_mask"
   ],
   "note": "Proved for cores whose do_interrupt answers resGO or resINTERRUPT (all of them by reading)."
  },
  {
   "property": "C27",
   "status": "proved",
   "theorems": [
    "C27_names",
    "C27_places",
    "C27_addresses",
    "C27_far_addresses_deviation"
   ],
   "note": "C27_far_addresses_deviation shows the excluded case (the comparison wraps)."
  },
  {
   "property": "C28",
   "status": "proved",
   "theorems": [
    "C28_upper_bound",
    "C28_exact",
    "C28_stale_deviation"
   ],
   "note": "C28_stale_deviation: otherwise it may be too large (max_name_len_known is set by the replacing branch of add)."
  },
  {
   "property": "C29",
   "status": "proved",
   "theorems": [
    "C29_request_pending_clear",
    "C29_other_bits_unchanged"
   ],
   "note": ""
  },
  {
   "property": "C30",
   "status": "proved",
   "theorems": [
    "C30_named_space_exact"
   ],
   "note": "One would expect the opposite; the theorem shows for every file that the named memory is never written."
  },
  {
   "property": "C31",
   "status": "proved",
   "theorems": [
    "C31_range_and_offset"
   ],
   "note": ""
  },
  {
   "property": "C32",
   "status": "proved",
   "theorems": [
    "C32_temporary_fetch",
    "C32_event_hits_delete_nothing",
    "C32_temporary_event_deviation"
   ],
   "note": "The last part contradicts the help of tbreak: C32_temporary_event_deviation shows one that stops twice."
  },
  {
   "property": "C33",
   "status": "proved",
   "theorems": [
    "C33_nmi_exact",
    "C33_nmi_blocked_by_irq_deviation"
   ],
   "note": "One would expect it inside IRQ, FIRQ and BRK handlers too; C33_nmi_blocked_by_irq_deviation shows that it waits there (priorities are the interrupt numbers, NMI 1 < IRQ 3)."
  },
  {
   "property": "C34",
   "status": "proved",
   "theorems": [
    "C34_m6809_masks_exact",
    "C34_firq_deviation"
   ],
   "note": "FIRQ should be enabled with F clear: C34_firq_deviation (src_firq never gets set_ie_value(0))."
  },
  {
   "property": "C35",
   "status": "proved",
   "theorems": [
    "C35_names_unique",
    "C35_add",
    "C35_commands_exact",
    "C35_set_large_deviation",
    "C35_new_timer_time_deviation",
    "C35_large_number_deviation"
   ],
   "note": "The last sentence: C35_large_number_deviation, C35_set_large_deviation, C35_new_timer_time_deviation."
  },
  {
   "property": "C36",
   "status": "proved",
   "theorems": [
    "C36_stop_command",
    "C36_stop_not_immediate_deviation"
   ],
   "note": "One would expect none: C36_stop_not_immediate_deviation."
  },
  {
   "property": "C37",
   "status": "proved",
   "theorems": [
    "C37_step_time",
    "C37_step_zero_deviation"
   ],
   "note": "C37_step_zero_deviation is the last fact."
  },
  {
   "property": "C38",
   "status": "proved",
   "theorems": [
    "C38_instruction_follows_manual",
    "C38_program_follows_manual"
   ],
   "note": "Proved for all opcodes and states (memory writes to non-existing RAM and the A5 opcode are outside the manual's domain: step = None); left to right evaluation of fetch()*256+fetch() assumed; SFR peripherals not modelled."
  },
  {
   "property": "C39",
   "status": "proved",
   "theorems": [
    "C39_pc_in_range",
    "C39_jump_to_end_exact",
    "C39_opcode_at_end_exact"
   ],
   "note": "Proved for arbitrary bytes and any number of steps, including writes to non-existing memory with arbitrary random values."
  },
  {
   "property": "C40",
   "status": "proved",
   "theorems": [
    "C40_parity_kept",
    "C40_mov_psw_exact"
   ],
   "note": "Proved; the exception is shown exact for MOV PSW,#v."
  },
  {
   "property": "C41",
   "status": "proved",
   "theorems": [
    "C41_decimal_add"
   ],
   "note": "Proved for immediate operands."
  },
  {
   "property": "C42",
   "status": "proved",
   "theorems": [
    "C42_call",
    "C42_call_return",
    "C42_push_pop"
   ],
   "note": "Proved; stack inside existing RAM."
  },
  {
   "property": "C43",
   "status": "proved",
   "theorems": [
    "C43_bit_ops_exact"
   ],
   "note": "Proved."
  },
  {
   "property": "C44",
   "status": "proved",
   "theorems": [
    "C44_cycles"
   ],
   "note": "Proved."
  },
  {
   "property": "C45",
   "status": "proved",
   "theorems": [
    "C45_length_is_manual",
    "C45_length_is_pc_step",
    "C45_longest"
   ],
   "note": "Proved."
  },
  {
   "property": "C46",
   "status": "proved",
   "theorems": [
    "C46_next_exact",
    "C46_next_address_exact"
   ],
   "note": "Proved with the exception in the statement (the disass_51 entry of opcode 11 lacks the call mark)."
  },
  {
   "property": "C47",
   "status": "proved",
   "theorems": [
    "C47_reserved_exact",
    "C47_instpc_never_changes"
   ],
   "note": "Proved: the simulator restarts after reset address instead of after the reserved opcode."
  },
  {
   "property": "C48",
   "status": "proved",
   "theorems": [
    "C48_push_sp_exact",
    "C48_movc_exact",
    "C48_mov_a_acc_exact",
    "C48_ljmp_exact"
   ],
   "note": "Proved (exact behaviour)."
  },
  {
   "property": "C49",
   "status": "proved",
   "theorems": [
    "C49_interrupt_entry",
    "C49_no_interrupt"
   ],
   "note": "Proved over the instruction model of C38; hardware may set request bits arbitrarily between steps; stack in existing RAM; selfjump stop off."
  },
  {
   "property": "C50",
   "status": "proved",
   "theorems": [
    "C50_reti_resumes"
   ],
   "note": "Proved."
  },
  {
   "property": "C51",
   "status": "proved",
   "theorems": [
    "C51_idle_waits",
    "C51_idle_wakes_exact",
    "C51_idle_entered"
   ],
   "note": "Proved, including the extra instruction executed before the handler (a deviation from the hardware)."
  },
  {
   "property": "C52",
   "status": "proved",
   "theorems": [
    "C52_power_down_interrupted_exact",
    "C52_power_down_entered"
   ],
   "note": "Proved: exact behaviour, a deviation from the hardware."
  },
  {
   "property": "C53",
   "status": "proved",
   "theorems": [
    "C53_instruction_follows_manual",
    "C53_program_follows_manual"
   ],
   "note": "Proved; the deviations are separate exact properties (C54, C57, C60)."
  },
  {
   "property": "C54",
   "status": "proved",
   "theorems": [
    "C54_page_zero_pointer",
    "C54_rts_at_end",
    "C54_jmp_ffff"
   ],
   "note": "Proved (exact behaviour, deviations from the hardware)."
  },
  {
   "property": "C55",
   "status": "proved",
   "theorems": [
    "C55_invalid_opcode",
    "C55_opcodes"
   ],
   "note": "Proved."
  },
  {
   "property": "C56",
   "status": "proved",
   "theorems": [
    "C56_state_in_range",
    "C56_pc_end"
   ],
   "note": "Proved."
  },
  {
   "property": "C57",
   "status": "proved",
   "theorems": [
    "C57_cycles",
    "C57_cycles_as_manual",
    "C57_brk_cycles"
   ],
   "note": "Proved, with the deviations from the manual made explicit."
  },
  {
   "property": "C58",
   "status": "proved",
   "theorems": [
    "C58_jsr_rts",
    "C58_push_pull"
   ],
   "note": "Proved; code in between is arbitrary as long as it restores the stack."
  },
  {
   "property": "C59",
   "status": "proved",
   "theorems": [
    "C59_decimal"
   ],
   "note": "Proved for packed decimal operands; other operands are not specified by the manual."
  },
  {
   "property": "C60",
   "status": "proved",
   "theorems": [
    "C60_interrupts",
    "C60_ignored",
    "C60_uninitialised_member",
    "C60_nested_brk",
    "C60_delayed_brk"
   ],
   "note": "Proved; that a NMI is not accepted inside IRQ and BRK handlers is a deviation from the hardware."
  },
  {
   "property": "C61",
   "status": "proved",
   "theorems": [
    "C61_rti_returns",
    "C61_brk_rti"
   ],
   "note": "Proved."
  },
  {
   "property": "C62",
   "status": "proved",
   "theorems": [
    "C62_length",
    "C62_pc_advance"
   ],
   "note": "Proved."
  },
  {
   "property": "C63",
   "status": "proved",
   "theorems": [
    "C63_reset",
    "C63_levels"
   ],
   "note": "Proved."
  },
  {
   "property": "C64",
   "status": "proved",
   "theorems": [
    "C64_buffer_is_a_queue",
    "C64_first_in_first_out"
   ],
   "note": "Proved; the limits stated in the property are shown by the _limit theorem where there is one."
  },
  {
   "property": "C65",
   "status": "proved",
   "theorems": [
    "C65_unget_exact",
    "C65_unget_first",
    "C65_unget_limit"
   ],
   "note": "Proved; the limits stated in the property are shown by the _limit theorem where there is one."
  },
  {
   "property": "C66",
   "status": "proved",
   "theorems": [
    "C66_editing"
   ],
   "note": "Proved; the limits stated in the property are shown by the _limit theorem where there is one."
  },
  {
   "property": "C67",
   "status": "proved",
   "theorems": [
    "C67_lines_exact",
    "C67_lines_limit"
   ],
   "note": "Proved; the limits stated in the property are shown by the _limit theorem where there is one."
  },
  {
   "property": "C68",
   "status": "proved",
   "theorems": [
    "C68_bytes_exact",
    "C68_bytes_limit"
   ],
   "note": "Proved; the limits stated in the property are shown by the _limit theorem where there is one."
  },
  {
   "property": "C69",
   "status": "proved",
   "theorems": [
    "C69_history",
    "C69_history_limit"
   ],
   "note": "Proved; the limits stated in the property are shown by the _limit theorem where there is one."
  },
  {
   "property": "C70",
   "status": "proved",
   "theorems": [
    "C70_screen"
   ],
   "note": "Proved; the limits stated in the property are shown by the _limit theorem where there is one."
  },
  {
   "property": "C71",
   "status": "proved",
   "theorems": [
    "C71_raw_exact",
    "C71_raw_limit"
   ],
   "note": "Proved; the limits stated in the property are shown by the _limit theorem where there is one."
  },
  {
   "property": "C72",
   "status": "proved",
   "theorems": [
    "C72_value",
    "C72_limits"
   ],
   "note": "Proved in ChrProps.v; deviations are part of the statement."
  },
  {
   "property": "C73",
   "status": "proved",
   "theorems": [
    "C73_rtrim_exact",
    "C73_rtrim_limit"
   ],
   "note": "Proved in ChrProps.v; deviations are part of the statement."
  },
  {
   "property": "C74",
   "status": "proved",
   "theorems": [
    "C74_search_exact",
    "C74_compare",
    "C74_limits"
   ],
   "note": "Proved in ChrProps.v; deviations are part of the statement."
  },
  {
   "property": "C75",
   "status": "proved",
   "theorems": [
    "C75_tokens",
    "C75_words"
   ],
   "note": "Proved in ChrProps.v; deviations are part of the statement."
  },
  {
   "property": "C76",
   "status": "proved",
   "theorems": [
    "C76_toi",
    "C76_hex"
   ],
   "note": "Proved in ChrProps.v; deviations are part of the statement."
  },
  {
   "property": "C77",
   "status": "proved",
   "theorems": [
    "C77_replace_exact"
   ],
   "note": "Proved in ChrProps.v; deviations are part of the statement."
  },
  {
   "property": "C78",
   "status": "proved",
   "theorems": [
    "C78_expression_value"
   ],
   "note": "Proved in ExprProps.v over the LALR tables regenerated from cmdpars.y; deviations are part of the statement."
  },
  {
   "property": "C79",
   "status": "proved",
   "theorems": [
    "C79_pure",
    "C79_plain",
    "C79_all_operands_limit",
    "C79_both_branches_limit"
   ],
   "note": "Proved in ExprProps.v over the LALR tables regenerated from cmdpars.y; deviations are part of the statement."
  },
  {
   "property": "C80",
   "status": "proved",
   "theorems": [
    "C80_field_read",
    "C80_bit_read",
    "C80_field_assign_exact",
    "C80_bit_set_limit"
   ],
   "note": "Proved in ExprProps.v over the LALR tables regenerated from cmdpars.y; deviations are part of the statement."
  },
  {
   "property": "C81",
   "status": "proved",
   "theorems": [
    "C81_dot_takes_the_rest",
    "C81_dot_operator"
   ],
   "note": "Proved in ExprProps.v over the LALR tables regenerated from cmdpars.y; deviations are part of the statement."
  },
  {
   "property": "C82",
   "status": "proved",
   "theorems": [
    "C82_literals"
   ],
   "note": "Proved in ExprProps.v over the LALR tables regenerated from cmdpars.y; deviations are part of the statement."
  },
  {
   "property": "C83",
   "status": "proved",
   "theorems": [
    "C83_terminates"
   ],
   "note": "Proved in ExprProps.v over the LALR tables regenerated from cmdpars.y; deviations are part of the statement."
  },
  {
   "property": "C84",
   "status": "proved",
   "theorems": [
    "C84_unknown_name"
   ],
   "note": "Proved in ExprProps.v over the LALR tables regenerated from cmdpars.y; deviations are part of the statement."
  },
  {
   "property": "C85",
   "status": "proved",
   "theorems": [
    "C85_error_keeps_value"
   ],
   "note": "Proved in ExprProps.v over the LALR tables regenerated from cmdpars.y; deviations are part of the statement."
  },
  {
   "property": "C86",
   "status": "proved",
   "theorems": [
    "C86_variable",
    "C86_register",
    "C86_addresses"
   ],
   "note": "Proved in ExprProps.v over the LALR tables regenerated from cmdpars.y; deviations are part of the statement."
  },
  {
   "property": "C87",
   "status": "proved",
   "theorems": [
    "C87_compound"
   ],
   "note": "Proved in ExprProps.v over the LALR tables regenerated from cmdpars.y; deviations are part of the statement."
  },
  {
   "property": "C88",
   "status": "proved",
   "theorems": [
    "C88_cast"
   ],
   "note": "Proved in ExprProps.v over the LALR tables regenerated from cmdpars.y; deviations are part of the statement."
  },
  {
   "property": "C89",
   "status": "proved",
   "theorems": [
    "C89_timer_counts",
    "C89_free_running",
    "C89_stopped"
   ],
   "note": "Proved in TmrProps.v; deviations from the manual are part of the statement."
  },
  {
   "property": "C90",
   "status": "proved",
   "theorems": [
    "C90_flags",
    "C90_sixteen_bit_period"
   ],
   "note": "Proved in TmrProps.v; deviations from the manual are part of the statement."
  },
  {
   "property": "C91",
   "status": "proved",
   "theorems": [
    "C91_counter_counts",
    "C91_no_edge_lost",
    "C91_waiting_edges"
   ],
   "note": "Proved in TmrProps.v; deviations from the manual are part of the statement."
  },
  {
   "property": "C92",
   "status": "proved",
   "theorems": [
    "C92_reset",
    "C92_control_writes"
   ],
   "note": "Proved in TmrProps.v; deviations from the manual are part of the statement."
  },
  {
   "property": "C93",
   "status": "proved",
   "theorems": [
    "C93_reload",
    "C93_capture",
    "C93_period"
   ],
   "note": "Proved in Tm2Props.v; deviations from the manual are part of the statement."
  },
  {
   "property": "C94",
   "status": "proved",
   "theorems": [
    "C94_reload_edge",
    "C94_capture_edge",
    "C94_baud_edge",
    "C94_edges_wait"
   ],
   "note": "Proved in Tm2Props.v; deviations from the manual are part of the statement."
  },
  {
   "property": "C95",
   "status": "proved",
   "theorems": [
    "C95_baud"
   ],
   "note": "Proved in Tm2Props.v; deviations from the manual are part of the statement."
  },
  {
   "property": "C96",
   "status": "proved",
   "theorems": [
    "C96_down",
    "C96_inverts_P1_6"
   ],
   "note": "Proved in Tm2Props.v; deviations from the manual are part of the statement."
  },
  {
   "property": "C97",
   "status": "proved",
   "theorems": [
    "C97_t2con",
    "C97_t2mod",
    "C97_reset"
   ],
   "note": "Proved in Tm2Props.v; deviations from the manual are part of the statement."
  },
  {
   "property": "C98",
   "status": "proved",
   "theorems": [
    "C98_frame_sent"
   ],
   "note": "Quiet: no write to SBUF, SCON (as a byte, or SM0/SM1), PCON, T2CON and no reset in between. The int counters are integers in the model."
  },
  {
   "property": "C99",
   "status": "proved",
   "theorems": [
    "C99_order",
    "C99_once"
   ],
   "note": ""
  },
  {
   "property": "C100",
   "status": "proved",
   "theorems": [
    "C100_stream"
   ],
   "note": "nl of at most three bytes (four bytes: the program shifts an int by 32). The input is not a terminal."
  },
  {
   "property": "C101",
   "status": "proved",
   "theorems": [
    "C101_frame_received"
   ],
   "note": "That a character is waiting and no reception is going on is said with members of the port; the character received is the next one of C100."
  },
  {
   "property": "C102",
   "status": "proved",
   "theorems": [
    "C102_flow",
    "C102_lost_without"
   ],
   "note": "C102_lost_without shows the loss without flow control on one history."
  },
  {
   "property": "C103",
   "status": "proved",
   "theorems": [
    "C103_lines",
    "C103_mixed"
   ],
   "note": ""
  },
  {
   "property": "C104",
   "status": "proved",
   "theorems": [
    "C104_flags_only",
    "C104_rate",
    "C104_reset",
    "C104_stale_rate",
    "C104_starved"
   ],
   "note": "C104_stale_rate and C104_starved are the deviations named in the statement."
  },
  {
   "property": "C105",
   "status": "proved",
   "theorems": [
    "C105_fed",
    "C105_off",
    "C105_first_write"
   ],
   "note": "Only the watchdog and its cell are modelled; ticks are not negative."
  },
  {
   "property": "C106",
   "status": "proved",
   "theorems": [
    "C106_words",
    "C106_unterminated"
   ],
   "note": ""
  },
  {
   "property": "C107",
   "status": "proved",
   "theorems": [
    "C107_in_order",
    "C107_comment",
    "C107_blank",
    "C107_console_same",
    "C107_string_after_super_deviation"
   ],
   "note": "C107_string_after_super_deviation is the loss named in the statement, on one line."
  },
  {
   "property": "C108",
   "status": "proved",
   "theorems": [
    "C108_one_or_error",
    "C108_number",
    "C108_binary",
    "C108_symbol",
    "C108_bits",
    "C108_arrays"
   ],
   "note": "The general form of word parameters: C108_one_or_error; means is the parse of the line 'x word'."
  },
  {
   "property": "C109",
   "status": "proved",
   "theorems": [
    "C109_data_list",
    "C109_string_typed",
    "C109_plain_string",
    "C109_escapes",
    "C109_symbol_deviation"
   ],
   "note": "C109_symbol_deviation: the uninitialised value is modelled as undefined behaviour."
  },
  {
   "property": "C110",
   "status": "proved",
   "theorems": [
    "C110_found",
    "C110_expression"
   ],
   "note": ""
  },
  {
   "property": "C111",
   "status": "proved",
   "theorems": [
    "C111_subcommand",
    "C111_unknown_subcommand",
    "C111_no_subcommand"
   ],
   "note": ""
  },
  {
   "property": "C112",
   "status": "proved",
   "theorems": [
    "C112_repeat",
    "C112_no_repeat"
   ],
   "note": ""
  },
  {
   "property": "C113",
   "status": "proved",
   "theorems": [
    "C113_syntax"
   ],
   "note": "What a processor accepts as address, memory, bit, hardware, cell is an arbitrary predicate; symbols and strings for the letters d and D are excluded (uninitialised value, C109)."
  },
  {
   "property": "C114",
   "status": "proved",
   "theorems": [
    "C114_bit_numbers",
    "C114_symbol_deviation"
   ],
   "note": ""
  },
  {
   "property": "C115",
   "status": "proved",
   "theorems": [
    "C115_safe",
    "C115_over_read_deviation",
    "C115_redirect_over_read_deviation"
   ],
   "note": "Partial lines with backslash or dollar are not covered by C115_safe; the two deviations show why."
  },
  {
   "property": "C116",
   "status": "proved",
   "theorems": [
    "C116_redirect",
    "C116_blank_deviation"
   ],
   "note": ""
  },
  {
   "property": "C117",
   "status": "proved",
   "theorems": [
    "C117_manual"
   ],
   "note": ""
  },
  {
   "property": "C118",
   "status": "proved",
   "theorems": [
    "C118_adc",
    "C118_sbb",
    "C118_ana"
   ],
   "note": ""
  },
  {
   "property": "C119",
   "status": "proved",
   "theorems": [
    "C119_daa",
    "C119_decimal"
   ],
   "note": ""
  },
  {
   "property": "C120",
   "status": "proved",
   "theorems": [
    "C120_rst"
   ],
   "note": ""
  },
  {
   "property": "C121",
   "status": "proved",
   "theorems": [
    "C121_cycles",
    "C121_deviation",
    "C121_breakpoint",
    "C121_overwritten_deviation"
   ],
   "note": ""
  },
  {
   "property": "C122",
   "status": "proved",
   "theorems": [
    "C122_length",
    "C122_next",
    "C122_return"
   ],
   "note": ""
  },
  {
   "property": "C123",
   "status": "proved",
   "theorems": [
    "C123_push_pop",
    "C123_call_ret",
    "C123_overflow",
    "C123_end_deviation"
   ],
   "note": ""
  },
  {
   "property": "C124",
   "status": "proved",
   "theorems": [
    "C124_right",
    "C124_dsub",
    "C124_wrong_deviation"
   ],
   "note": ""
  },
  {
   "property": "C125",
   "status": "proved",
   "theorems": [
    "C125_form",
    "C125_psw"
   ],
   "note": ""
  },
  {
   "property": "C126",
   "status": "proved",
   "theorems": [
    "C126_histories"
   ],
   "note": ""
  },
  {
   "property": "C127",
   "status": "proved",
   "theorems": [
    "C127_manual"
   ],
   "note": ""
  },
  {
   "property": "C128",
   "status": "proved",
   "theorems": [
    "C128_break",
    "C128_inside"
   ],
   "note": ""
  },
  {
   "property": "C129",
   "status": "proved",
   "theorems": [
    "C129_ranges",
    "C129_pc"
   ],
   "note": ""
  },
  {
   "property": "C130",
   "status": "proved",
   "theorems": [
    "C130_cycles"
   ],
   "note": ""
  },
  {
   "property": "C131",
   "status": "proved",
   "theorems": [
    "C131_copy"
   ],
   "note": ""
  },
  {
   "property": "C132",
   "status": "proved",
   "theorems": [
    "C132_decimal"
   ],
   "note": ""
  },
  {
   "property": "C133",
   "status": "proved",
   "theorems": [
    "C133_push_pop"
   ],
   "note": ""
  },
  {
   "property": "C134",
   "status": "proved",
   "theorems": [
    "C134_call",
    "C134_return"
   ],
   "note": ""
  },
  {
   "property": "C135",
   "status": "proved",
   "theorems": [
    "C135_exact",
    "C135_cycles"
   ],
   "note": ""
  },
  {
   "property": "C136",
   "status": "proved",
   "theorems": [
    "C136_stack_errors"
   ],
   "note": ""
  },
  {
   "property": "C137",
   "status": "proved",
   "theorems": [
    "C137_interface_follows_the_protocol"
   ],
   "note": ""
  },
  {
   "property": "C138",
   "status": "proved",
   "theorems": [
    "C138_answer_is_told_whole"
   ],
   "note": ""
  },
  {
   "property": "C139",
   "status": "proved",
   "theorems": [
    "C139_resynchronisation"
   ],
   "note": ""
  },
  {
   "property": "C140",
   "status": "proved",
   "theorems": [
    "C140_output_is_exact",
    "C140_hex_text_is_the_number"
   ],
   "note": ""
  },
  {
   "property": "C141",
   "status": "proved",
   "theorems": [
    "C141_input_in_order"
   ],
   "note": ""
  },
  {
   "property": "C142",
   "status": "proved",
   "theorems": [
    "C142_limit_round_trip"
   ],
   "note": ""
  },
  {
   "property": "C143",
   "status": "proved",
   "theorems": [
    "C143_on_has_no_effect"
   ],
   "note": ""
  },
  {
   "property": "C144",
   "status": "proved",
   "theorems": [
    "C144_reports_are_read_only",
    "C144_reason_is_kept"
   ],
   "note": ""
  },
  {
   "property": "C145",
   "status": "proved",
   "theorems": [
    "C145_m48_instruction"
   ],
   "note": ""
  },
  {
   "property": "C146",
   "status": "proved",
   "theorems": [
    "C146_m48_djnz",
    "C146_m48_addc_indirect",
    "C146_m48_movd_out",
    "C146_m48_movd_in",
    "C146_m48_orld_anld",
    "C146_m48_page_end",
    "C146_m48_long_in_service"
   ],
   "note": ""
  },
  {
   "property": "C147",
   "status": "proved",
   "theorems": [
    "C147_m48_undefined"
   ],
   "note": ""
  },
  {
   "property": "C148",
   "status": "proved",
   "theorems": [
    "C148_m48_cycles"
   ],
   "note": ""
  },
  {
   "property": "C149",
   "status": "proved",
   "theorems": [
    "C149_m48_invariant",
    "C149_m48_bank"
   ],
   "note": ""
  },
  {
   "property": "C150",
   "status": "proved",
   "theorems": [
    "C150_m48_stack",
    "C150_m48_stack_overflow"
   ],
   "note": ""
  },
  {
   "property": "C151",
   "status": "proved",
   "theorems": [
    "C151_m48_accept",
    "C151_m48_no_nesting",
    "C151_m48_return"
   ],
   "note": ""
  },
  {
   "property": "C152",
   "status": "proved",
   "theorems": [
    "C152_m48_timer",
    "C152_m48_no_timer_interrupt"
   ],
   "note": ""
  },
  {
   "property": "C153",
   "status": "proved",
   "theorems": [
    "C153_m48_counter"
   ],
   "note": ""
  },
  {
   "property": "C154",
   "status": "proved",
   "theorems": [
    "C154_m48_banks"
   ],
   "note": ""
  },
  {
   "property": "C155",
   "status": "proved",
   "theorems": [
    "C155_m48_bytes",
    "C155_m48_length"
   ],
   "note": ""
  },
  {
   "property": "C156",
   "status": "proved",
   "theorems": [
    "C156_misc16_instruction"
   ],
   "note": ""
  },
  {
   "property": "C157",
   "status": "proved",
   "theorems": [
    "C157_oisc_every_access_ends"
   ],
   "note": ""
  },
  {
   "property": "C158",
   "status": "proved",
   "theorems": [
    "C158_em_instruction"
   ],
   "note": ""
  },
  {
   "property": "C159",
   "status": "proved",
   "theorems": [
    "C159_em_stack"
   ],
   "note": ""
  },
  {
   "property": "C160",
   "status": "proved",
   "theorems": [
    "C160_urisc_never_jumps",
    "C160_urisc_dead_before_display"
   ],
   "note": ""
  },
  {
   "property": "C161",
   "status": "proved",
   "theorems": [
    "C161_urisc_accumulator"
   ],
   "note": ""
  },
  {
   "property": "C162",
   "status": "proved",
   "theorems": [
    "C162_urisc_flags",
    "C162_urisc_conditions"
   ],
   "note": ""
  },
  {
   "property": "C163",
   "status": "proved",
   "theorems": [
    "C163_oisc_move"
   ],
   "note": ""
  },
  {
   "property": "C164",
   "status": "proved",
   "theorems": [
    "C164_looking_changes_nothing",
    "C164_em_looking"
   ],
   "note": ""
  },
  {
   "property": "C165",
   "status": "proved",
   "theorems": [
    "C165_misc16_source_names",
    "C165_misc16_destination_names"
   ],
   "note": ""
  },
  {
   "property": "C166",
   "status": "proved",
   "theorems": [
    "C166_pca_count",
    "C166_pca_overflow_flag"
   ],
   "note": ""
  },
  {
   "property": "C167",
   "status": "proved",
   "theorems": [
    "C167_pca_compare"
   ],
   "note": ""
  },
  {
   "property": "C168",
   "status": "proved",
   "theorems": [
    "C168_pca_watchdog"
   ],
   "note": ""
  },
  {
   "property": "C169",
   "status": "proved",
   "theorems": [
    "C169_pca_captures_zero",
    "C169_pca_falling_edge_for_ever"
   ],
   "note": ""
  },
  {
   "property": "C170",
   "status": "proved",
   "theorems": [
    "C170_pca_pwm_reload",
    "C170_pca_pwm_output"
   ],
   "note": ""
  },
  {
   "property": "C171",
   "status": "proved",
   "theorems": [
    "C171_pca_setb_cr_does_not_run",
    "C171_pca_reset_does_not_stop"
   ],
   "note": ""
  },
  {
   "property": "C172",
   "status": "proved",
   "theorems": [
    "C172_pca_modes"
   ],
   "note": ""
  }
 ]
}