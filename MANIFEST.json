{
 "claims": [
  {
   "property": "C01",
   "status": "proved",
   "theorems": [
    "C01_counters_equal_history"
   ],
   "note": "all five standards; counters modulo 2^64"
  },
  {
   "property": "C02",
   "status": "proved",
   "theorems": [
    "C02_legal_histories_accepted",
    "C02_rank_counts_are_cycle_counts",
    "C02_bank_counts_are_cycle_counts"
   ],
   "note": "all five standards; legality as defined in DeviceSpec.v"
  },
  {
   "property": "C03",
   "status": "proved",
   "theorems": [
    "C03_rank_cycles_add_up",
    "C03_bank_cycles_add_up",
    "C03_pending_auto_precharge_refuted"
   ],
   "note": "for legal histories; precharge power-down with an auto-precharge still pending makes pre wrap (refuted witness)"
  },
  {
   "property": "C04",
   "status": "proved",
   "theorems": [
    "C04_queries_are_pure",
    "C04_queries_never_break_a_history",
    "C04_query_repeatable",
    "C04_last_command_time_refuted"
   ],
   "note": "getLastCommandTime is moved by a query"
  },
  {
   "property": "C05",
   "status": "proved",
   "theorems": [
    "C05_exactly_once_and_fifo",
    "C05_run_due_is_exact",
    "C05_time_order",
    "C05_cores_never_schedule_in_the_past",
    "C05_execution_follows_log"
   ],
   "note": ""
  },
  {
   "property": "C06",
   "status": "proved",
   "theorems": [
    "C06_ranks_independent"
   ],
   "note": ""
  },
  {
   "property": "C07",
   "status": "proved",
   "theorems": [
    "C07_other_ranks_untouched",
    "C07_other_banks_untouched",
    "C07_nothing_scheduled_elsewhere"
   ],
   "note": ""
  },
  {
   "property": "C08",
   "status": "partial",
   "theorems": [
    "C08_auto_precharge_is_precharge",
    "C08_auto_precharge_general",
    "C08_after_power_down_refuted"
   ],
   "note": "holds with the time since which the row counts as open; after an active power-down that is the exit time, not the ACT time, so the literal statement fails (refuted witness)"
  },
  {
   "property": "C09",
   "status": "proved",
   "theorems": [
    "C09_rank_active_when_some_bank_is",
    "C09_rank_activity_bounds",
    "C09_second_activate_refuted",
    "C09_exit_without_entry_refuted"
   ],
   "note": ""
  },
  {
   "property": "C10",
   "status": "partial",
   "theorems": [
    "C10_rank_counts_bounded",
    "C10_bank_counts_bounded",
    "C10_rank_counts_monotone",
    "C10_bank_counts_monotone",
    "C10_monotone_refuted",
    "C10_rank_counts_stand_or_run",
    "C10_bank_counts_stand_or_run"
   ],
   "note": "upper bounds hold for every history; growth by 0 or 1 holds for legal histories and fails for protocol-breaking ones (refuted witness); for every history, legal or not, each count stands still or grows by the time passed as long as no implicit command falls due (C10_*_stand_or_run)"
  },
  {
   "property": "C11",
   "status": "proved",
   "theorems": [
    "C11_last_time_is_latest_executed",
    "C11_last_time_after_commands",
    "C11_last_time_never_decreases",
    "C11_out_of_order_refuted",
    "C11_interface_last_time",
    "C11_interface_latest_refuted"
   ],
   "note": ""
  },
  {
   "property": "C12",
   "status": "proved",
   "theorems": [
    "C12_self_refresh_accounting",
    "C12_whole_stay",
    "C12_deep_sleep_phase",
    "C12_entries"
   ],
   "note": ""
  },
  {
   "property": "C13",
   "status": "partial",
   "theorems": [
    "C13_power_down_pauses_and_resumes",
    "C13_closed_bank_resumes_refuted",
    "C13_refreshed_bank_resumes_refuted"
   ],
   "note": "proved for legal histories; outside them closed banks can resume in all standards but DDR4 (refuted witnesses)"
  },
  {
   "property": "C14",
   "status": "proved",
   "theorems": [
    "C14_bus_is_waveform",
    "C14_overlap_rejected",
    "C14_disabled_bus_stands_still",
    "C14_reenabled_bus_refuted",
    "C14_late_enable_refuted",
    "C14_short_load_refuted",
    "C14_reenabled_exactly"
   ],
   "note": "Proved for every width, rate, idle level and non-overlapping sequence of loads of at least one full word, and for the bus after disable. Enabling a disabled bus counts idle beats from 0 again and a load shorter than one word breaks later queries: refuted with witnesses. The bus plays the words of a payload from the last to the first."
  },
  {
   "property": "C15",
   "status": "proved",
   "theorems": [
    "C15_bus_additive",
    "C15_wave_balance"
   ],
   "note": "bus_get_stats returns no state, so purity is by construction; additivity, monotonicity and balance are the theorems."
  },
  {
   "property": "C16",
   "status": "proved",
   "theorems": [
    "C16_toggling_is_estimate",
    "C16_estimate_conserves",
    "C16_unchecked_duty_refuted",
    "C16_new_definition_is_retroactive_refuted",
    "C16_redefined",
    "C16_last_burst"
   ],
   "note": "Double arithmetic is modelled by exact rationals. The setter accepts values outside [0,1] (undefined conversion) and re-rates earlier bursts: refuted with witnesses."
  },
  {
   "property": "C17",
   "status": "proved",
   "theorems": [
    "C17_clock_accepts",
    "C17_clock_counts",
    "C17_odd_rate_refuted"
   ],
   "note": "For even data rates (all standards use 2). Odd rates lose half periods: refuted."
  },
  {
   "property": "C18",
   "status": "proved",
   "theorems": [
    "C18_decodable",
    "C18_accepts",
    "C18_disabled",
    "C18_growing_burst_refuted"
   ],
   "note": "Both algorithms, every chunk size, width and data. A burst longer than the first writes behind the vector of inversions: refuted witness."
  },
  {
   "property": "C19",
   "status": "partial",
   "theorems": [
    "C19_static_bound",
    "C19_subchunks_refuted",
    "C19_subchunks_worse_refuted",
    "C19_static_exactly"
   ],
   "note": "Proved for one entry per chunk (DDR4, LPDDR4, LPDDR5). False for two entries per chunk (LPDDR6), where the decision is taken too early: refuted witnesses. C19_static_exactly says, for any number of entries per chunk and any idle level, exactly which chunks are inverted and what is then on the wires."
  },
  {
   "property": "C20",
   "status": "partial",
   "theorems": [
    "C20_dynamic_bound",
    "C20_single_beat_refuted",
    "C20_other_direction_refuted",
    "C20_dynamic_exactly"
   ],
   "note": "Proved for bursts of at least two beats in one direction. False for bursts of one beat and for overlapping directions: refuted witnesses. C20_dynamic_exactly says exactly which chunks are inverted in any series of equal bursts of both directions, including the cases the refutations show."
  },
  {
   "property": "C21",
   "status": "proved",
   "theorems": [
    "C21_encoding_places_every_bit",
    "C21_encoding_accepts",
    "C21_pattern_on_the_bus",
    "C21_lpddr6_encoding_places_every_bit",
    "C21_lpddr6_parity_refuted",
    "C21_hold_repeats_last_word",
    "C21_lpddr6_parity"
   ],
   "note": "DDR4, DDR5, LPDDR4 and LPDDR5 use the common encoder; LPDDR6 has its own. Refuted part: the LPDDR6 parity bit is never set."
  },
  {
   "property": "C22",
   "status": "partial",
   "theorems": [
    "C22_ddr4_addresses",
    "C22_ddr5_addresses",
    "C22_lpddr4_addresses",
    "C22_lpddr5_addresses",
    "C22_lpddr6_addresses",
    "C22_ddr4_types",
    "C22_ddr5_types",
    "C22_lpddr4_types",
    "C22_lpddr5_types",
    "C22_lpddr6_types",
    "C22_ddr4_types_refuted",
    "C22_ddr5_types_refuted",
    "C22_lpddr5_types_refuted",
    "C22_lpddr6_types_refuted",
    "C22_lpddr5_refresh_bank_refuted",
    "C22_lpddr5_refresh_group_refuted",
    "C22_lpddr4_row_refuted"
   ],
   "note": "Addresses: proved for every carried bit not hidden by a burst setting. Types: proved up to explicit classes of types that the tables encode alike; the classes and the lost address bits are refuted theorems."
  },
  {
   "property": "C23",
   "status": "proved",
   "theorems": [
    "C23_formatted_burst_is_the_frame",
    "C23_every_bit_has_one_position",
    "C23_every_position_shows_a_bit",
    "C23_formatting_loses_nothing",
    "C23_second_half_defined_refuted"
   ],
   "note": "The 512-bit case is proved for every value the undefined shift may give; that the shift is undefined is a refuted theorem."
  },
  {
   "property": "C24",
   "status": "proved",
   "theorems": [
    "C24_storage_keeps_bits"
   ],
   "note": ""
  },
  {
   "property": "C25",
   "status": "proved",
   "theorems": [
    "C25_energy_additive",
    "C25_total_additive",
    "C25_zero"
   ],
   "note": "Core energy over exact rationals, number by number; doubles are modelled as rationals."
  },
  {
   "property": "C26",
   "status": "proved",
   "theorems": [
    "C26_nonnegative",
    "C26_monotone"
   ],
   "note": "Under the data sheet ordering of currents (sane)."
  },
  {
   "property": "C27",
   "status": "proved",
   "theorems": [
    "C27_slot_count",
    "C27_slot_in_range",
    "C27_slot_injective",
    "C27_slot_surjective",
    "C27_slot_local"
   ],
   "note": ""
  },
  {
   "property": "C28",
   "status": "proved",
   "theorems": [
    "C28_total",
    "C28_counted_once",
    "C28_aggregated",
    "C28_total_from_aggregate"
   ],
   "note": "E_pre_RDA and E_pre_WRA are excluded by the code (their precharges are already in E_pre)."
  },
  {
   "property": "C29",
   "status": "proved",
   "theorems": [
    "C29_checkpoint_invisible",
    "C29_query_drains",
    "C29_pending_refuted",
    "C29_busy_reader_refuted"
   ],
   "note": "Proved for every configuration, every reachable serializable writer and reader and every continuation. The stream is a list of typed items, one per write call; C70 takes it to bytes. Both serializability conditions are shown necessary."
  },
  {
   "property": "C30",
   "status": "partial",
   "theorems": [
    "C30_checkpoint_invisible_partial",
    "C30_exactly",
    "C30_checkpoint_plain",
    "C30_ddr4_undefined",
    "C30_ddr4_beat_refuted",
    "C30_lpddr4_dbi_refuted",
    "C30_lpddr5_dbi_refuted",
    "C30_lpddr6_dbi_refuted",
    "C30_lpddr6_meta_refuted",
    "C30_lpddr6_disabled_refuted",
    "C30_meta_repaired",
    "C30_off_stuck"
   ],
   "note": "Proved for every standard and every history of calls whose effect the stream keeps, with any traversal order of the settings map, against all later calls and queries. False in general: the data bus inversion state of LPDDR4, LPDDR5 and LPDDR6, the LPDDR6 metadata and enable state are not written, and DDR4 last beats above one are read back into a bool. C30_exactly says for every history what is read back instead. C30_meta_repaired: repeating the last metadata setting restores what was lost; C30_off_stuck: an interface written while switched off cannot be switched on again."
  },
  {
   "property": "C31",
   "status": "partial",
   "theorems": [
    "C31_names_round_trip",
    "C31_names_cover",
    "C31_names_unique",
    "C31_names_round_trip_refuted"
   ],
   "note": "Holds for every type except END_OF_SIMULATION (prints END_OF_SIMULATION, parses END) and COUNT; the failure is a refuted theorem."
  },
  {
   "property": "C32",
   "status": "partial",
   "theorems": [
    "C32_dynamic_observed",
    "C32_dynamic_accepts",
    "C32_dynamic_out_of_range",
    "C32_dynamic_range_refuted",
    "C32_dynamic_equality",
    "C32_dynamic_equality_refuted",
    "C32_sub_observed",
    "C32_sub_accepts",
    "C32_sub_equality",
    "C32_dynamic_exactly",
    "C32_dynamic_equality_exactly"
   ],
   "note": "Proved for every history of constructors and mutators, all block sizes: size, count and [] equal the list; == is sound, and complete without set()/flip()/~. Refuted: after ~ two sets with the same bits compare unequal; indices beyond the size but inside the last block are accepted. sub_bitset is exact. What every operation does for any history, in range or not, spare bits included, is proved exactly (C32_dynamic_exactly, C32_dynamic_equality_exactly)."
  },
  {
   "property": "C33",
   "status": "proved",
   "theorems": [
    "C33_addition_is_counterwise",
    "C33_addition_sizes",
    "C33_addition_in_range",
    "C33_addition_commutes",
    "C33_addition_associates",
    "C33_zero_is_neutral",
    "C33_comparison_is_equality",
    "C33_counters_determine"
   ],
   "note": ""
  },
  {
   "property": "C34",
   "status": "partial",
   "theorems": [
    "C34_core_commands",
    "C34_core_refuses",
    "C34_interface_commands",
    "C34_only_the_core",
    "C34_only_the_interface",
    "C34_types_agree_partial",
    "C34_half_way_refuted",
    "C34_bare_read_refuted",
    "C34_bank_refuted"
   ],
   "note": "False as stated: DDR5 has no pattern for the self-refresh exit, so doCommand throws with the core already updated. The tables of core and interface are given exactly; on the other standards every type the core takes is carried. Commands can still stop half way for their contents: a read without data while the wires are watched (all standards), a bank that is no multiple of four (LPDDR6)."
  },
  {
   "property": "C35",
   "status": "partial",
   "theorems": [
    "C35_seamless_counts_partial",
    "C35_no_bursts_in_ranks",
    "C35_first_burst_refuted",
    "C35_merged_refuted",
    "C35_ambles_charged_refuted",
    "C35_never_negative_refuted"
   ],
   "note": "Proved for every execution: bursts of a rank and direction never overlap, and the seamless counters equal the number of gap-free successors (plus a first burst in cycle 0). Refuted of the code: merging is never counted, the energy calculation reads burst counts from rank counters that are always zero, so gapped bursts get no amble energy and seamless ones a huge wrapped one."
  },
  {
   "property": "C36",
   "status": "partial",
   "theorems": [
    "C36_closed_form_partial",
    "C36_additive_partial",
    "C36_unterminated_partial",
    "C36_monotone_partial",
    "C36_ddr5_toggling_refuted",
    "C36_exact",
    "C36_finite",
    "C36_surplus",
    "C36_no_stray"
   ],
   "note": "Closed form, additivity, no static energy without termination, monotone: all standards except DDR5 in toggling mode with unterminated data lines, where it is refuted (the code passes R_eq as the flag). DDR4 pre/postambles need seamless <= bursts (amble_ok). What is charged without these conditions is proved exactly (C36_exact), and when there is a result at all (C36_finite)."
  },
  {
   "property": "C37",
   "status": "partial",
   "theorems": [
    "C37_reading_ends",
    "C37_lines",
    "C37_open_line",
    "C37_number",
    "C37_number_accepted",
    "C37_payload",
    "C37_payload_accepted",
    "C37_payload_refused",
    "C37_row",
    "C37_row_accepted_partial",
    "C37_row_refused",
    "C37_trace",
    "C37_open_trace",
    "C37_name_refuted",
    "C37_payload_refuted",
    "C37_timestamp_refuted",
    "C37_quotes_refuted",
    "C37_number_exactly",
    "C37_payload_exactly",
    "C37_row_exactly",
    "C37_row_refused_exactly",
    "C37_row_dies",
    "C37_row_deadly",
    "C37_text_exactly",
    "C37_text_ends",
    "C37_mark"
   ],
   "note": "Proved: text written from commands is read back as exactly these commands, whatever blanks and line ends, and with fields in double quotes (commas, line ends and doubled quotes inside); numbers and payloads read exactly; what is accepted is described exactly up to the refuted cases. False of the code: unknown names become NOP, stray characters in a payload are accepted, timestamps from 2^63 end the program, blanks next to double quotes change the field. What is read from every row, and how the program ends on a row that is not read, is proved exactly (C37_row_exactly, C37_row_refused_exactly, C37_row_dies)."
  },
  {
   "property": "C38",
   "status": "partial",
   "theorems": [
    "C38_pin_counts",
    "C38_interface_pins",
    "C38_gap_after_inversion_refuted",
    "C38_gap_after_inversion_counts_refuted",
    "C38_set_rate_refuted",
    "C38_query_rate_refuted"
   ],
   "note": "Pin: proved for every sequence of bursts. Interface: proved when each burst followed by a gap ends in a beat without inversion; false otherwise (refuted witnesses), because the call that returns the pin to idle carries the time of the next burst."
  },
  {
   "property": "C39",
   "status": "partial",
   "theorems": [
    "C39_lookup",
    "C39_has",
    "C39_serialize",
    "C39_serialize_twice",
    "C39_round_trip_partial",
    "C39_by_type_refuted",
    "C39_extensions_agree"
   ],
   "note": "Lookups are exact for every sequence. Writing and reading matches extensions by order of registration, not by type: refuted with a witness; proved for the same order. A type registered twice makes serialize throw."
  },
  {
   "property": "C40",
   "status": "proved",
   "theorems": [
    "C40_directions_independent",
    "C40_bus_mode",
    "C40_toggling_mode",
    "C40_switch",
    "C40_switch_conserves",
    "C40_switch_back_refuted",
    "C40_preset_capacity",
    "C40_estimators"
   ],
   "note": "Switching from toggling rate to bus double counts because of the bus enable defect: refuted with a witness."
  },
  {
   "property": "C41",
   "status": "proved",
   "theorems": [
    "C41_background_unique",
    "C41_background_exists"
   ],
   "note": ""
  },
  {
   "property": "C42",
   "status": "proved",
   "theorems": [
    "C42_measurement_energy",
    "C42_write_loop_refuted"
   ],
   "note": "Every loop, when bursts last a whole number of clock cycles (DDR reads: always); C42_write_loop_refuted shows the restriction is needed: DDR4/DDR5 E_WR divides integers where E_RD does not."
  },
  {
   "property": "C43",
   "status": "proved",
   "theorems": [
    "C43_command_bus_counts"
   ],
   "note": "For LPDDR6 with four bank groups, the only number its encoder assumes; commands with END_OF_SIMULATION and the LPDDR4 power-down commands drive nothing."
  },
  {
   "property": "C44",
   "status": "partial",
   "theorems": [
    "C44_strobes_count",
    "C44_wck_counts",
    "C44_clock_counts",
    "C44_strobe_in_flight_refuted",
    "C44_wck_stands_still_refuted",
    "C44_strobes_exact",
    "C44_wck_exact"
   ],
   "note": "For windows no burst reaches beyond and even data rates the strobes and clocks run exactly during the bursts. Refuted for a window that ends inside a burst and for a WCK ratio above the data rate (the integer quotient is 0 and WCK never moves). What is counted for any window and any overlap is proved as well: every burst commanded so far, in full."
  },
  {
   "property": "C45",
   "status": "proved",
   "theorems": [
    "C45_data_bus_counts",
    "C45_data_bus_estimates"
   ],
   "note": "Flags of LPDDR6 are decided as the code does, from the first byte of a pair and the byte before it as sent."
  },
  {
   "property": "C46",
   "status": "proved",
   "theorems": [
    "C46_commands_split",
    "C46_statistics_split",
    "C46_query_twice",
    "C46_total_energy",
    "C46_get_stats"
   ],
   "note": ""
  },
  {
   "property": "C47",
   "status": "proved",
   "theorems": [
    "C47_dispatch",
    "C47_static",
    "C47_wide_undefined",
    "C47_combined_refuted",
    "C47_replaced_refuted",
    "C47_applied"
   ],
   "note": "The wide, combined and replaced theorems show what happens outside the statement: hooks above 32 bits, several hooks in one call, a replaced extension."
  },
  {
   "property": "C48",
   "status": "partial",
   "theorems": [
    "C48_checkpoint_partial",
    "C48_exactly",
    "C48_dbi_refuted",
    "C48_meta_refuted"
   ],
   "note": "Proved for the uses whose effect the stream keeps. Inversion of the LPDDR standards and metadata are lost while the extension says otherwise: refuted with witnesses. C48_exactly says for every history what is read back instead."
  },
  {
   "property": "C49",
   "status": "proved",
   "theorems": [
    "C49_time",
    "C49_one_query",
    "C49_program",
    "C49_labels",
    "C49_printed_lines",
    "C49_short_line"
   ],
   "note": "Exact rationals for doubles; JSON of memspec and config not modelled."
  },
  {
   "property": "C50",
   "status": "proved",
   "theorems": [
    "C50_interface_takes",
    "C50_interface_answers",
    "C50_object_runs"
   ],
   "note": "Data bus inversion off; commands and queries only."
  },
  {
   "property": "C51",
   "status": "proved",
   "theorems": [
    "C51_core_energy",
    "C51_backgrounds",
    "C51_left_alone",
    "C51_cycle",
    "C51_precharges",
    "C51_object",
    "C51_whole_run"
   ],
   "note": "Energies are exact rationals. The charge is defined in ChargeSpec.v on the reference machine of DeviceSpec.v. C51_whole_run composes with C50 so that nothing is assumed of the run itself."
  },
  {
   "property": "C52",
   "status": "proved",
   "theorems": [
    "C52_construction",
    "C52_core",
    "C52_interface",
    "C52_parts_agree",
    "C52_offsets",
    "C52_interface_possible",
    "C52_sound",
    "C52_ignored",
    "C52_layouts",
    "C52_other_layouts",
    "C52_group_size_refuted",
    "C52_groupless_refuted",
    "C52_refreshed_banks",
    "C52_refreshed_half_refuted"
   ],
   "note": "Reading the description from JSON (DRAMUtils) is not modelled. Refuted: the group size of an unknown LPDDR5 layout is stale; 16 banks in no group divide by zero; partial self refresh modes are fractions for eight banks only."
  },
  {
   "property": "C53",
   "status": "proved",
   "theorems": [
    "C53_program",
    "C53_object"
   ],
   "note": "Composition of C37, C49, C50, C51, C52 and the counting theorems C43-C45: for every sound description and every rule-keeping trace the program prints voltage times charge and the line energies of the waveforms. Conditions that exclude refuted behaviour (DDR4 seamless bursts, DDR5 unterminated lines with toggling rates, odd clock rates, strobes in flight) are hypotheses in the record calm."
  },
  {
   "property": "C54",
   "status": "partial",
   "theorems": [
    "C54_one_clock",
    "C54_two_clocks",
    "C54_two_clocks_differ",
    "C54_one_length_refuted"
   ],
   "note": "Holds for DDR4, DDR5 and LPDDR4; for LPDDR5 and LPDDR6 the two times differ by the ratio of the clocks for every data rate, so the claim as stated is refuted there."
  },
  {
   "property": "C55",
   "status": "proved",
   "theorems": [
    "C55_core",
    "C55_interface",
    "C55_total",
    "C55_doubles",
    "C55_53_bits",
    "C55_nearest",
    "C55_core_in_doubles",
    "C55_total_in_doubles",
    "C55_exactly",
    "C55_interface_exactly"
   ],
   "note": "The standard model of floating-point arithmetic without overflow and underflow; the input numbers of the descriptions are taken as they are. The bound is relative to the energy with subtracted currents added, not to the energy itself."
  },
  {
   "property": "C56",
   "status": "proved",
   "theorems": [
    "C56_accepted",
    "C56_rank_times",
    "C56_bank_times",
    "C56_counters",
    "C56_energy",
    "C56_rest_again",
    "C56_any_two_refuted",
    "C56_delayed",
    "C56_delayed_energy",
    "C56_repeated"
   ],
   "note": "C56_any_two_refuted shows that being at rest in between is needed: an open row carries over. At rest asks for refreshes to take at least as long as tRCD when a bank has been activated, because the library notes the time of a refresh as an activation time of banks that were activated before."
  },
  {
   "property": "C57",
   "status": "proved",
   "theorems": [
    "C57_core_sees",
    "C57_without_accepted",
    "C57_rank_times",
    "C57_bank_times",
    "C57_counters",
    "C57_energy",
    "C57_access_admitted",
    "C57_ranks_accepted",
    "C57_ranks_views",
    "C57_ranks_energy"
   ],
   "note": "Energies are those of the reference currents of C51."
  },
  {
   "property": "C58",
   "status": "proved",
   "theorems": [
    "C58_accepted",
    "C58_rank_times",
    "C58_bank_times",
    "C58_counters",
    "C58_energy",
    "C58_named_banks",
    "C58_bank_groups",
    "C58_any_renumbering_refuted"
   ],
   "note": "C58_any_renumbering_refuted: same-bank refreshes of DDR5 are not kept by renumberings that mix indices inside bank groups."
  },
  {
   "property": "C59",
   "status": "proved",
   "theorems": [
    "C59_document",
    "C59_document_adds_up",
    "C59_lines",
    "C59_lines_add_up",
    "C59_lines_add_up_refuted",
    "C59_wrong_size"
   ],
   "note": "All of the statement; the text report of LPDDR6 and the cumulated line do not add up (refuted with a witness). Text formatting of numbers and file writing are not modelled."
  },
  {
   "property": "C60",
   "status": "proved",
   "theorems": [
    "C60_legal",
    "C60_rank_times",
    "C60_bank_times",
    "C60_counters",
    "C60_energy",
    "C60_saves",
    "C60_saving_precharge",
    "C60_auto_precharge_refuted"
   ],
   "note": "The condition on auto-precharge is necessary: C60_auto_precharge_refuted."
  },
  {
   "property": "C61",
   "status": "proved",
   "theorems": [
    "C61_accepted",
    "C61_quiet_again",
    "C61_wires",
    "C61_wires_repeated",
    "C61_statistics",
    "C61_program",
    "C61_program_repeated",
    "C61_estimates",
    "C61_estimates_refuted",
    "C61_no_pause_refuted"
   ],
   "note": "The two refuted theorems show that the beat at rest is needed and that estimated counts are not exactly additive."
  },
  {
   "property": "C62",
   "status": "proved",
   "theorems": [
    "C62_window",
    "C62_whole",
    "C62_grows",
    "C62_object"
   ],
   "note": ""
  },
  {
   "property": "C63",
   "status": "proved",
   "theorems": [
    "C63_accepted",
    "C63_statistics",
    "C63_energy",
    "C63_any_order_refuted"
   ],
   "note": "Exchanges of neighbours of the same cycle, as an inductive relation between traces; the last theorem shows that the condition on the banks is needed."
  },
  {
   "property": "C64",
   "status": "proved",
   "theorems": [
    "C64_accepted",
    "C64_statistics",
    "C64_energy",
    "C64_standards"
   ],
   "note": "agree_on lists, command by command, the parameters it depends on; C64_standards instantiates it for the same description under two standards."
  },
  {
   "property": "C65",
   "status": "partial",
   "theorems": [
    "C65_check_keeps",
    "C65_check_file",
    "C65_given_partial",
    "C65_given_refuted",
    "C65_check_creates",
    "C65_check_returns",
    "C65_circles_refuted",
    "C65_exit_success",
    "C65_exit_failure",
    "C65_help_refuted"
   ],
   "note": "False of the code for relative links in another directory (the file is created relative to the current directory), for links in circles (an exception leaves the check) and for --help (exit code 1); all else proved."
  },
  {
   "property": "C66",
   "status": "proved",
   "theorems": [
    "C66_core_units",
    "C66_domains_add",
    "C66_domains_order",
    "C66_currents_add",
    "C66_interface_units"
   ],
   "note": "Every number of an energy record is compared, not only the total; the interface part needs no assumption on the statistics."
  },
  {
   "property": "C67",
   "status": "proved",
   "theorems": [
    "C67_core_outcome",
    "C67_core_numbers",
    "C67_data",
    "C67_estimates",
    "C67_strobes",
    "C67_clock",
    "C67_command_bus",
    "C67_payload",
    "C67_place"
   ],
   "note": "Relational (two runs from any common state)."
  },
  {
   "property": "C68",
   "status": "proved",
   "theorems": [
    "C68_any_history",
    "C68_bad_address",
    "C68_accepted",
    "C68_after_legal",
    "C68_noticed",
    "C68_every_breach_refuted"
   ],
   "note": "Exact; the last theorem is the witness that other breaches go unnoticed, as the statement says."
  },
  {
   "property": "C69",
   "status": "proved",
   "theorems": [
    "C69_interface",
    "C69_object",
    "C69_no_data_refuted",
    "C69_parity"
   ],
   "note": "If and only if, for commands whose contents make sense. Bursts that announce data and bring none escape the check of the data bus: shown by a witness."
  },
  {
   "property": "C70",
   "status": "proved",
   "theorems": [
    "C70_core",
    "C70_core_written",
    "C70_interface",
    "C70_object"
   ],
   "note": "The layout is a parameter; deserialize itself never looks at the state of the stream, so a short stream is seen by the caller only."
  },
  {
   "property": "C71",
   "status": "proved",
   "theorems": [
    "C71_pin_takes",
    "C71_pin_counts",
    "C71_lines",
    "C71_lines_taken"
   ],
   "note": "The exact version of C38: no gap, order or size condition on the bursts; the times have to stay within 64 bits. The statistics are queried with the constant 2 as in the code, whatever the data rate."
  },
  {
   "property": "C72",
   "status": "proved",
   "theorems": [
    "C72_calls",
    "C72_short_bursts",
    "C72_full_burst",
    "C72_any_burst_refuted",
    "C72_lpddr6",
    "C72_two_sizes_refuted"
   ],
   "note": "Equal burst sizes while the wires are watched, because the inverter keeps too short a list of flags when a later burst is larger but the capacity suffices (out of bounds). The claim that switching the inversion on loses no trace is refuted on DDR4."
  },
  {
   "property": "C73",
   "status": "proved",
   "theorems": [
    "C73_interface",
    "C73_runs",
    "C73_first",
    "C73_stops",
    "C73_prints",
    "C73_program",
    "C73_ways"
   ],
   "note": "Exact outcome of any trace whose commands make sense by themselves; a command that wants a mode (self-refresh exit, deep sleep, DDR4 active power-down exit) is only predicted after a legal prefix."
  },
  {
   "property": "C74",
   "status": "proved",
   "theorems": [
    "C74_horizon",
    "C74_settles",
    "C74_rank_times",
    "C74_bank_times",
    "C74_pending_exactly",
    "C74_pending_bound",
    "C74_any_history_bounded_refuted",
    "C74_constant_power"
   ],
   "note": "The bound on the number of queued implicit commands needs a legal history: C74_any_history_bounded_refuted shows that illegal ones, which the core executes too, fill the queue without limit."
  },
  {
   "property": "C75",
   "status": "proved",
   "theorems": [
    "C75_quiet_soon",
    "C75_counts",
    "C75_statistics",
    "C75_only_clocks",
    "C75_program",
    "C75_ends_later"
   ],
   "note": "Counts of every group of wires, the statistics the interface reports at T and T + n, and what the program prints when the END of a trace is put off."
  },
  {
   "property": "C76",
   "status": "proved",
   "theorems": [
    "C76_dispatch",
    "C76_no_command"
   ],
   "note": "Router.h is not used by the standards; it is modelled for completeness."
  },
  {
   "property": "C77",
   "status": "proved",
   "theorems": [
    "C77_chunks",
    "C77_lines",
    "C77_commands",
    "C77_split_end_refuted",
    "C77_long_first_refuted",
    "C77_long_later_refuted",
    "C77_doubled_refuted",
    "C77_mark_refuted",
    "C77_empty_refuted"
   ],
   "note": "Proved under the conditions in the statement; each is shown to be needed by a refuted theorem, those about ends of lines and long rows for every chunk size. Each reading thread is done before the next chunk is asked for."
  },
  {
   "property": "C78",
   "status": "proved",
   "theorems": [
    "C78_schedules",
    "C78_one_chunk",
    "C78_commands",
    "C78_ends",
    "C78_one_after_the_other",
    "C78_lost_refuted",
    "C78_twice_refuted",
    "C78_thrown_refuted"
   ],
   "note": "Interleaving semantics; the unlocked reads of empty(), is_waitable() and eof() are data races in C++, which the model does not cover."
  },
  {
   "property": "C79",
   "status": "proved",
   "theorems": [
    "C79_stream",
    "C79_cut",
    "C79_whole",
    "C79_empty",
    "C79_active_unopened_refuted",
    "C79_empty_keeps_refuted"
   ],
   "note": "the break falls between two values; a break inside a value depends on the layout of the type"
  },
  {
   "property": "C80",
   "status": "proved",
   "theorems": [
    "C80_ddr4",
    "C80_ddr5",
    "C80_lpddr4",
    "C80_lpddr5",
    "C80_lpddr6",
    "C80_on_the_bus"
   ],
   "note": "The truth tables are written from the device side, by pin. Column bits inside a burst are left out, as the settings replace them. LPDDR6 with four bank groups; its parity bit is not read."
  },
  {
   "property": "C81",
   "status": "proved",
   "theorems": [
    "C81_data_arrive",
    "C81_frame_arrives",
    "C81_same_beat_refuted"
   ],
   "note": "Bits that do not fill a beat are not sent (C45); the lines rest at their idle level between bursts. Taking the flag from the same beat as the data is refuted."
  },
  {
   "property": "C82",
   "status": "proved",
   "theorems": [
    "C82_whole",
    "C82_cut",
    "C82_empty",
    "C82_ddr4_cut",
    "C82_ddr4_empty",
    "C82_nothing_refuted"
   ],
   "note": "The break is between two values of the stream, not inside one. C82_nothing_refuted records that an empty stream makes the next read command undefined."
  },
  {
   "property": "C83",
   "status": "proved",
   "theorems": [
    "C83_whole",
    "C83_stream",
    "C83_ddr4",
    "C83_extensions",
    "C83_core",
    "C83_interface",
    "C83_usable_refuted"
   ],
   "note": "The break is between two values of the stream, not inside one. C83_usable_refuted records that the next command after such a read can be undefined."
  },
  {
   "property": "C84",
   "status": "proved",
   "theorems": [
    "C84_same_size",
    "C84_fewer_ranks",
    "C84_fewer_ranks_bytes",
    "C84_fewer_banks",
    "C84_more_ranks",
    "C84_kind_noticed_refuted",
    "C84_all_kept_refuted",
    "C84_device",
    "C84_device_noticed_refuted"
   ],
   "note": "With several ranks of another number of banks each, values are read with other types than they were written with, which the model of values does not follow. The three refuted statements are not part of the property but record what a user might expect."
  },
  {
   "property": "C85",
   "status": "proved",
   "theorems": [
    "C85_precharges",
    "C85_activations",
    "C85_every_bank_refuted"
   ],
   "note": "for every accepted history; that precharges never exceed activations in a bank that is refreshed is refuted with a witness"
  }
 ]
}
