{
 "claims": [
  {
   "property": "C01",
   "status": "proved",
   "theorems": [
    "C01_pass_through"
   ],
   "note": ""
  },
  {
   "property": "C02",
   "status": "proved",
   "theorems": [
    "C02_opt_explained"
   ],
   "note": ""
  },
  {
   "property": "C03",
   "status": "proved",
   "theorems": [
    "C03_opt_not_worse"
   ],
   "note": ""
  },
  {
   "property": "C04",
   "status": "proved",
   "theorems": [
    "C04_cv_real",
    "C04_cv_near_setpoint",
    "C04_cv_exact"
   ],
   "note": ""
  },
  {
   "property": "C05",
   "status": "partial",
   "theorems": [
    "C05_nonneg_refuted",
    "C05_nonneg_partial",
    "C05_cv_nonneg_partial"
   ],
   "note": "REFUTED by the code: with linear extrapolation mppt_po (and mppt_voc) return negative currents on ordinary curves; proved for pass-through, mppt_opt, all algorithms without extrapolation, and plain cv with extrapolation"
  },
  {
   "property": "C06",
   "status": "proved",
   "theorems": [
    "C06_po_range",
    "C06_po_still_between_updates",
    "C06_po_step_power_of_two"
   ],
   "note": "bounds, constancy between updates and step size; interval must be positive and below 2^30+1 or longer than two windows, which C09 guarantees for converted configurations"
  },
  {
   "property": "C07",
   "status": "proved",
   "theorems": [
    "C07_voc_explained",
    "C07_voc_bounds",
    "C07_voc_setpoint",
    "C07_voc_setpoint_below_estimate"
   ],
   "note": ""
  },
  {
   "property": "C08",
   "status": "proved",
   "theorems": [
    "C08_dispatch",
    "C08_register",
    "C08_passthrough",
    "C08_rejected"
   ],
   "note": "complete for emulation and recording; [dispatch] compares with the algorithms by name, including direction and extrapolation flags"
  },
  {
   "property": "C09",
   "status": "proved",
   "theorems": [
    "C09_registers",
    "C09_converts",
    "C09_values",
    "C09_timing"
   ],
   "note": "conversion succeeds for every sensible request (input type, window and step given for curves); a window or step handed over by the caller must itself fit 32 bits"
  },
  {
   "property": "C10",
   "status": "proved",
   "theorems": [
    "C10_bounds",
    "C10_after_update",
    "C10_never_fails",
    "C10_start",
    "C10_initial"
   ],
   "note": "binary64, arbitrary (also infinite or undefined) inputs, any calibration; a calibration below 2^100 never stops the simulation. Before the first step the configured start value is not limited (C10_initial)"
  },
  {
   "property": "C11",
   "status": "proved",
   "theorems": [
    "C11_switching",
    "C11_enable_drop"
   ],
   "note": "both directions as equivalences, plus the voltage taken from the storage at switching on"
  },
  {
   "property": "C12",
   "status": "proved",
   "theorems": [
    "C12_periodic",
    "C12_first"
   ],
   "note": "closed form of the check steps, including the preset of the counter"
  },
  {
   "property": "C13",
   "status": "proved",
   "theorems": [
    "C13_bounds",
    "C13_voltage",
    "C13_initial"
   ],
   "note": "bounds and the exact output voltage; code of the DAC in range for every calibration"
  },
  {
   "property": "C14",
   "status": "proved",
   "theorems": [
    "C14_power_good",
    "C14_initial"
   ],
   "note": "both edges as equivalences; the flag starts as true (C14_initial)"
  },
  {
   "property": "C15",
   "status": "partial",
   "theorems": [
    "C15_energy",
    "C15_boost",
    "C15_diode",
    "C15_direct",
    "C15_energy_refuted"
   ],
   "note": "REFUTED by the code: storage without boost converter and with input resistor credits a source below the storage voltage with the storage voltage; never negative always, covered otherwise; exact power for all three circuits"
  },
  {
   "property": "C16",
   "status": "proved",
   "theorems": [
    "C16_drawn",
    "C16_counter"
   ],
   "note": "exact drawn power after the start-up phase"
  },
  {
   "property": "C17",
   "status": "proved",
   "theorems": [
    "C17_stream",
    "C17_simulation",
    "C17_balance",
    "C17_no_offset"
   ],
   "note": "every valid calibration, streams of any length, plus the balance of the compensation"
  },
  {
   "property": "C18",
   "status": "proved",
   "theorems": [
    "C18_input",
    "C18_output"
   ],
   "note": "the entry that is used is characterised by the scale, for all finite values"
  },
  {
   "property": "C19",
   "status": "partial",
   "theorems": [
    "C19_converts",
    "C19_only_failure",
    "C19_tiny_efficiency_refuted",
    "C19_simulates",
    "C19_pow_exists"
   ],
   "note": "REFUTED by the code: an output efficiency in (0, 2^-1020] passes validation and makes the conversion raise OverflowError; proved that this is the only failure and that all registers are the rounded values; pow(x, .5) is assumed not to be negative"
  },
  {
   "property": "C20",
   "status": "proved",
   "theorems": [
    "C20_bits",
    "C20_injective"
   ],
   "note": "all five flags, for every converted configuration; equal mode numbers mean equal features"
  },
  {
   "property": "C21",
   "status": "proved",
   "theorems": [
    "C21_raw_roundtrip",
    "C21_ratio_needed",
    "C21_cut"
   ],
   "note": "binary64 arithmetic with every rounding (Flocq); the needed ratio of offset to gain is 2^51, a witness shows it breaks at 2^54"
  },
  {
   "property": "C22",
   "status": "proved",
   "theorems": [
    "C22_nonnegative",
    "C22_monotone",
    "C22_accurate"
   ],
   "note": "non-negative and monotone for all pairs; accuracy bound for values and offsets up to 2^1000"
  },
  {
   "property": "C23",
   "status": "proved",
   "theorems": [
    "C23_length",
    "C23_roundtrip",
    "C23_other_length",
    "C23_parse_serialise",
    "C23_only_valid"
   ],
   "note": "struct.pack modelled on the IEEE bit patterns; units are not stored and come back as default units"
  },
  {
   "property": "C24",
   "status": "partial",
   "theorems": [
    "C24_harvester",
    "C24_emulator",
    "C24_total",
    "C24_total_emulator",
    "C24_errors_partial",
    "C24_errors_emulator_partial",
    "C24_overflow_refuted"
   ],
   "note": "REFUTED by the code: extreme gains raise OverflowError instead of ValueError; ranges, rounding and completeness proved, every failure is one of these two exceptions"
  },
  {
   "property": "C25",
   "status": "proved",
   "theorems": [
    "C25_range",
    "C25_total",
    "C25_monotone",
    "C25_monotone_codes",
    "C25_roundtrip"
   ],
   "note": "all codes; the neighbour below does occur (code 29 of the voltage converter)"
  },
  {
   "property": "C26",
   "status": "proved",
   "theorems": [
    "C26_recording_complete",
    "C26_unusable_rejected"
   ],
   "note": ""
  },
  {
   "property": "C27",
   "status": "proved",
   "theorems": [
    "C27_close_aligns",
    "C27_close_twice",
    "C27_close_succeeds"
   ],
   "note": ""
  },
  {
   "property": "C28",
   "status": "proved",
   "theorems": [
    "C28_read_buffers",
    "C28_default_size"
   ],
   "note": ""
  },
  {
   "property": "C29",
   "status": "proved",
   "theorems": [
    "C29_no_overwrite",
    "C29_candidate_names",
    "C29_search_ends",
    "C29_counters_distinct"
   ],
   "note": ""
  },
  {
   "property": "C30",
   "status": "partial",
   "theorems": [
    "C30_overwrite_refuted",
    "C30_modify_refuted",
    "C30_rejected_partial",
    "C30_modify_missing_partial",
    "C30_leftover"
   ],
   "note": "REFUTED by the code: a rejected call with force_overwrite has already emptied the file, one with modify_existing may have changed attributes; proved for calls that request neither, and for modifying something that is no recording"
  },
  {
   "property": "C31",
   "status": "proved",
   "theorems": [
    "C31_new_recording_valid",
    "C31_arguments_stored",
    "C31_defaults",
    "C31_window",
    "C31_stats"
   ],
   "note": ""
  },
  {
   "property": "C32",
   "status": "partial",
   "theorems": [
    "C32_config_refuted",
    "C32_config_partial",
    "C32_hostname",
    "C32_hostname_default"
   ],
   "note": "REFUTED by the code: store_config writes a root attribute, get_config reads the data group; the stored text is only available as reader['config']"
  },
  {
   "property": "C33",
   "status": "partial",
   "theorems": [
    "C33_interval_refuted",
    "C33_append_refuted",
    "C33_rate_partial",
    "C33_default_rate_partial"
   ],
   "note": "REFUTED by the code: the interval is divided by n instead of n-1 for every recording; the sample rate is proved right and the error of the interval is given exactly"
  },
  {
   "property": "C34",
   "status": "proved",
   "theorems": [
    "C34_energy"
   ],
   "note": ""
  },
  {
   "property": "C35",
   "status": "partial",
   "theorems": [
    "C35_min_max",
    "C35_mean_partial",
    "C35_short_mean_partial",
    "C35_mean_refuted"
   ],
   "note": "REFUTED by the code: the mean of block means is not the mean for uneven blocks; minimum and maximum proved for all datasets, mean for lengths up to one block or multiples of it"
  },
  {
   "property": "C36",
   "status": "partial",
   "theorems": [
    "C36_check_partial",
    "C36_crash_refuted",
    "C36_jump_refuted"
   ],
   "note": "REFUTED by the code: crashes for recordings of up to one buffer, jumps at multiples of 400 buffers are missed; the result is characterised exactly for all recordings"
  },
  {
   "property": "C37",
   "status": "partial",
   "theorems": [
    "C37_raw_step_partial",
    "C37_unit_refuted",
    "C37_falling_refuted",
    "C37_configured_partial",
    "C37_configured"
   ],
   "note": "REFUTED by the code: the step is returned in raw units scaled by 1/1000, and falling ramps wrap around; rising stair cases: the raw step is proved to be found"
  },
  {
   "property": "C38",
   "status": "proved",
   "theorems": [
    "C38_waveform_lossless"
   ],
   "note": ""
  },
  {
   "property": "C39",
   "status": "proved",
   "theorems": [
    "C39_uart_decodes",
    "C39_recording_decodes",
    "C39_uart_all_bytes",
    "C39_eight_bit_refuted"
   ],
   "note": "full characterisation for all 256 byte values; C39_eight_bit_refuted shows that bytes above 127 are indeed altered"
  },
  {
   "property": "C40",
   "status": "partial",
   "theorems": [
    "C40_lone_cr_refuted",
    "C40_unterminated_refuted",
    "C40_proper_lines_partial",
    "C40_proper_text_partial",
    "C40_nothing_invented_partial"
   ],
   "note": "REFUTED by the code: a character after a lone CR and an unterminated last line are lost; proved for LF / CR LF terminated lines, and that nothing is ever invented or reordered"
  },
  {
   "property": "C41",
   "status": "partial",
   "theorems": [
    "C41_every_nth_partial",
    "C41_file_partial",
    "C41_irregular_refuted",
    "C41_crash_refuted"
   ],
   "note": "REFUTED by the code for several blocks and a factor that does not divide 4000000 (irregular spacing, exception); proved for one block or a dividing factor, also for the written file"
  },
  {
   "property": "C42",
   "status": "partial",
   "theorems": [
    "C42_values_partial",
    "C42_raw",
    "C42_total",
    "C42_offset_refuted"
   ],
   "note": "REFUTED by the code: a missing offset counts as 1; proved for columns with attributes and for raw export"
  },
  {
   "property": "C43",
   "status": "partial",
   "theorems": [
    "C43_nearest_wins",
    "C43_by_name",
    "C43_reference_cases",
    "C43_terminates",
    "C43_numeric_parent_refuted"
   ],
   "note": "REFUTED by the code for parents given as integers (AttributeError); proved for all databases built by inserts and references by name, including termination"
  },
  {
   "property": "C44",
   "status": "proved",
   "theorems": [
    "C44_no_result",
    "C44_self_reference",
    "C44_circle_undetected_refuted"
   ],
   "note": "every circle ends in an exception at any recursion limit; only a direct self-reference is noticed (ValueError), every other circle runs into the recursion limit (C44_circle_undetected_refuted)"
  },
  {
   "property": "C45",
   "status": "proved",
   "theorems": [
    "C45_component",
    "C45_by_name",
    "C45_by_id",
    "C45_index",
    "C45_insert"
   ],
   "note": ""
  },
  {
   "property": "C46",
   "status": "proved",
   "theorems": [
    "C46_accepted_iff",
    "C46_assignment",
    "C46_unknown_target"
   ],
   "note": ""
  },
  {
   "property": "C47",
   "status": "partial",
   "theorems": [
    "C47_modulo_refuted",
    "C47_own_ids_partial",
    "C47_small_ids_partial"
   ],
   "note": "REFUTED by the code: validation compares full ids, the firmware gets the id modulo 2^16 (1 and 65537 collide); proved when every target carries its own id (ids below 2^16)"
  },
  {
   "property": "C48",
   "status": "partial",
   "theorems": [
    "C48_translates_partial",
    "C48_one_set_per_target_partial",
    "C48_programmed_fits",
    "C48_voltage_refuted",
    "C48_actuation_refuted",
    "C48_port_refuted",
    "C48_times"
   ],
   "note": "REFUTED by the code: accepted experiments with a 5 V controller, a controller name outside ASCII, GPIO actuation or a start in the past cannot be translated, and an inactive twin on port A attracts the tasks of port B; for all other experiments task sets, order, files and ports are proved"
  },
  {
   "property": "C49",
   "status": "partial",
   "theorems": [
    "C49_distinct_files_partial",
    "C49_same_name_refuted"
   ],
   "note": "REFUTED by the code: observer names may repeat in a testbed, then files and output entries collide; proved for distinct names, for all files written"
  },
  {
   "property": "C50",
   "status": "partial",
   "theorems": [
    "C50_found_iff_partial",
    "C50_missing_iff_partial",
    "C50_port_of_active_partial",
    "C50_all_capes_partial",
    "C50_capeless_refuted",
    "C50_target_or_key"
   ],
   "note": "REFUTED by the code: an active observer without cape listed earlier causes an AttributeError; all outcomes are characterised exactly"
  },
  {
   "property": "C51",
   "status": "proved",
   "theorems": [
    "C51_patch_reads_back",
    "C51_change_is_local",
    "C51_new_name",
    "C51_too_large_rejected",
    "C51_failure_leaves_files",
    "C51_uninitialised_symbol",
    "C51_read_value",
    "C51_read_uninitialised",
    "C51_read_uncovered",
    "C51_read_unknown",
    "C51_uid_in_place"
   ],
   "note": ""
  },
  {
   "property": "C52",
   "status": "partial",
   "theorems": [
    "C52_accepted_iff_partial",
    "C52_start_address_refuted",
    "C52_half_vector_refuted"
   ],
   "note": "REFUTED by the code: the comparison with the start address can never be true (and half a vector raises); the accepted images are characterised exactly"
  },
  {
   "property": "C53",
   "status": "partial",
   "theorems": [
    "C53_exact",
    "C53_close",
    "C53_exact_refuted"
   ],
   "note": "REFUTED by the code: delay 0.1 s, period 0.1 s, count 3 gives four events (rounded range end), a delay of 2^60 s none; restricted versions proved: exact for binary fractions, otherwise at most one event too many and all times within a few roundings"
  },
  {
   "property": "C54",
   "status": "partial",
   "theorems": [
    "C54_resistor",
    "C54_current",
    "C54_power",
    "C54_diode_sign",
    "C54_diode_exception",
    "C54_diode",
    "C54_diode_accepted",
    "C54_accurate_functions_exist",
    "C54_refuted",
    "C54_nan_refuted"
   ],
   "note": "REFUTED by the code: a constant-power target divides by zero at 0 V, constructors accept NaN; restricted version proved: all other cases return a finite, non-negative current of the right size"
  },
  {
   "property": "C55",
   "status": "partial",
   "theorems": [
    "C55_exit_zero_partial",
    "C55_exit_code",
    "C55_single_file",
    "C55_directory",
    "C55_unreadable_refuted",
    "C55_suffix_refuted"
   ],
   "note": "REFUTED by the code: unreadable files and files with another suffix are skipped; the exit code is characterised exactly"
  },
  {
   "property": "C56",
   "status": "partial",
   "theorems": [
    "C56_same_rate_partial",
    "C56_single_partial",
    "C56_explicit_factor",
    "C56_mixed_refuted",
    "C56_fraction_refuted",
    "C56_higher_refuted"
   ],
   "note": "REFUTED by the code: factor of the first file is reused, fractions are cut, a target above the rate selects a default list; proved for equal rates, a single file and an explicit factor"
  },
  {
   "property": "C57",
   "status": "proved",
   "theorems": [
    "C57_po_direction",
    "C57_turns_at_limits"
   ],
   "note": ""
  },
  {
   "property": "C58",
   "status": "partial",
   "theorems": [
    "C58_structure_iff_partial",
    "C58_lengths_refuted",
    "C58_getters",
    "C58_missing"
   ],
   "note": "REFUTED by the code: datasets of different lengths only produce a warning; the files reported as valid are characterised exactly"
  },
  {
   "property": "C59",
   "status": "partial",
   "theorems": [
    "C59_accepted_iff_partial",
    "C59_cape_for_targets_partial",
    "C59_target_twice_refuted",
    "C59_refused"
   ],
   "note": "REFUTED by the code: targets are compared as whole objects, so one target id may occur twice; acceptance is characterised exactly"
  },
  {
   "property": "C60",
   "status": "partial",
   "theorems": [
    "C60_programmed_fits_partial",
    "C60_no_controller_refuted"
   ],
   "note": "REFUTED by the code: firmware 2 is accepted and programmed for targets without second controller; proved for all controllers that exist"
  },
  {
   "property": "C61",
   "status": "proved",
   "theorems": [
    "C61_si_stored"
   ],
   "note": ""
  },
  {
   "property": "C62",
   "status": "partial",
   "theorems": [
    "C62_answer_partial",
    "C62_empty_refuted",
    "C62_missing"
   ],
   "note": "REFUTED by the code: any readable hex file that is no MSP430 image is called nRF52, even without data; the answers are related to the checks"
  },
  {
   "property": "C63",
   "status": "partial",
   "theorems": [
    "C63_embedded_roundtrip",
    "C63_embedded_by_default",
    "C63_refused",
    "C63_hash_kept",
    "C63_path_copied",
    "C63_stale_path_refuted"
   ],
   "note": "REFUTED by the code for firmware given by path (a changed file is only logged); embedded firmware proved"
  },
  {
   "property": "C64",
   "status": "partial",
   "theorems": [
    "C64_plain_names_partial",
    "C64_dotted_names_refuted"
   ],
   "note": "REFUTED by the code: names that differ only behind the last dot share a file; proved for names without dots"
  },
  {
   "property": "C65",
   "status": "partial",
   "theorems": [
    "C65_source_kept_partial",
    "C65_result",
    "C65_elf_named_hex_refuted"
   ],
   "note": "REFUTED by the code: an ELF file named *.hex is overwritten; proved for all other names"
  },
  {
   "property": "C66",
   "status": "proved",
   "theorems": [
    "C66_type_and_controller",
    "C66_given"
   ],
   "note": ""
  },
  {
   "property": "C67",
   "status": "partial",
   "theorems": [
    "C67_exact_partial",
    "C67_bound_partial",
    "C67_end_limit",
    "C67_start_limit",
    "C67_tail_refuted",
    "C67_empty_refuted"
   ],
   "note": "REFUTED by the code: the runtime is rounded to 0.1 s; proved for such durations, deviation bounded otherwise"
  },
  {
   "property": "C68",
   "status": "partial",
   "theorems": [
    "C68_never_overwrites",
    "C68_names_partial",
    "C68_stale_refuted",
    "C68_failed_refuted"
   ],
   "note": "REFUTED by the code: names hold the rounded factor, leftovers of failed calls are returned; proved: no existing file is changed, whole factors have different names"
  },
  {
   "property": "C69",
   "status": "proved",
   "theorems": [
    "C69_defaults",
    "C69_series"
   ],
   "note": "default calibrations of all eight channels against the converter formulas, all values in the range of the converter"
  },
  {
   "property": "C70",
   "status": "proved",
   "theorems": [
    "C70_charge",
    "C70_direction"
   ],
   "note": "exact formula with all roundings and its direction"
  },
  {
   "property": "C71",
   "status": "proved",
   "theorems": [
    "C71_counters",
    "C71_step",
    "C71_refines"
   ],
   "note": "counters as extended reals (they may overflow to infinity), refinement of the converter simulation"
  },
  {
   "property": "C72",
   "status": "partial",
   "theorems": [
    "C72_mid_current",
    "C72_mid_current_refuted"
   ],
   "note": "REFUTED by the code: ZeroDivisionError when the storage is exactly emptied by connecting the output; proved in all other cases"
  },
  {
   "property": "C73",
   "status": "partial",
   "theorems": [
    "C73_accepts",
    "C73_documented_ranges_refuted"
   ],
   "note": "REFUTED by the code: without an explicit voltage step, a range below 7 steps of 1 mV (for example a fixed operating point) is rejected because the derived step is below its own lower limit; proved that this is the only reason"
  },
  {
   "property": "C74",
   "status": "partial",
   "theorems": [
    "C74_errors",
    "C74_only_ValueError_refuted"
   ],
   "note": "REFUTED by the code: samples_n = 1 without a step raises ZeroDivisionError, sample counts beyond 2^1023 raise OverflowError; proved that nothing else escapes"
  },
  {
   "property": "C75",
   "status": "proved",
   "theorems": [
    "C75_energy",
    "C75_thresholds"
   ],
   "note": "assumes pow accurate to 2^-51 (relative), capacity of at least 1 nF and an energy that leaves 1 mV^2; the limits of drop and thresholds need neither"
  },
  {
   "property": "C76",
   "status": "partial",
   "theorems": [
    "C76_order",
    "C76_unordered_refuted"
   ],
   "note": "REFUTED by the code: exchanged thresholds are accepted and converted; proved that ordered ones stay ordered through all derived cases"
  },
  {
   "property": "C77",
   "status": "partial",
   "theorems": [
    "C77_solves",
    "C77_circuit_exists",
    "C77_solves_refuted"
   ],
   "note": "REFUTED by the code: the iteration stops before it converges at low voltage (2 uA instead of 0.1 nA for the example LED at 0.5 V); restricted version proved: correct as soon as 65 mV fall across the resistor"
  },
  {
   "property": "C78",
   "status": "proved",
   "theorems": [
    "C78_series",
    "C78_total",
    "C78_held",
    "C78_feedback",
    "C78_extrapolate"
   ],
   "note": "with and without feedback, with and without extrapolation"
  },
  {
   "property": "C79",
   "status": "partial",
   "theorems": [
    "C79_completes",
    "C79_power_off",
    "C79_power_refuted"
   ],
   "note": "REFUTED by the code: a constant-power target divides by zero in the first step without output; restricted version proved: resistor, current and diode targets run through every recording"
  },
  {
   "property": "C80",
   "status": "partial",
   "theorems": [
    "C80_same",
    "C80_near",
    "C80_algorithm",
    "C80_file_partial",
    "C80_falling_refuted"
   ],
   "note": "REFUTED by the code: a recording without configuration whose voltage only falls crashes both simulations (unsigned differences wrap, the step does not fit its register); restricted version proved: exact reproduction in all other cases, error bound for other calibrations"
  },
  {
   "property": "C81",
   "status": "partial",
   "theorems": [
    "C81_step_partial",
    "C81_energy_refuted"
   ],
   "note": "REFUTED by the code: explicit Euler step, an empty storage gains more than 1000 times the energy of the input; restricted version proved: per-step balance with the surplus (change of voltage)^2 and a rounding bound"
  },
  {
   "property": "C82",
   "status": "proved",
   "theorems": [
    "C82_curve",
    "C82_scalar",
    "C82_grid",
    "C82_best"
   ],
   "note": "exp is a parameter (defined, monotone, 1 at 0); witness: the correctly rounded exponential"
  },
  {
   "property": "C83",
   "status": "partial",
   "theorems": [
    "C83_point",
    "C83_fails",
    "C83_dark_refuted",
    "C83_no_column_refuted",
    "C83_find_oc",
    "C83_find_oc_refuted"
   ],
   "note": "REFUTED by the code: a row without light raises ValueError, a missing voc column raises KeyError (ivcurve), find_oc returns 0 V for curves that stay above 5 %; restricted version proved: exact result for positive shares, exception in all other cases"
  },
  {
   "property": "C84",
   "status": "partial",
   "theorems": [
    "C84_curves",
    "C84_samples",
    "C84_isc_voc",
    "C84_short_refuted",
    "C84_gap_refuted",
    "C84_fast_refuted"
   ],
   "note": "REFUTED by the code: lengths with one or two intervals in the last pass raise ValueError, curves that do not divide the row interval leave gaps, rates above 100 kHz raise ZeroDivisionError; restricted version proved for all three converters"
  },
  {
   "property": "C85",
   "status": "proved",
   "theorems": [
    "C85_step",
    "C85_alternates",
    "C85_near"
   ],
   "note": "step relation for all harvesters with a setpoint; exact results and distance for the constant-voltage harvester"
  },
  {
   "property": "C86",
   "status": "partial",
   "theorems": [
    "C86_accepted",
    "C86_complete",
    "C86_rejects",
    "C86_unique",
    "C86_repeated_refuted"
   ],
   "note": "REFUTED by the code: pairs that all have the same raw value are accepted with an arbitrary line through the point; restricted version (two different raw values) proved"
  },
  {
   "property": "C87",
   "status": "proved",
   "theorems": [
    "C87_linear",
    "C87_noise",
    "C87_order"
   ],
   "note": "exact rational arithmetic; the least-squares solution of numpy is the exact one"
  },
  {
   "property": "C88",
   "status": "partial",
   "theorems": [
    "C88_channels",
    "C88_linear",
    "C88_linear_emu",
    "C88_bad_hrv",
    "C88_bad_emu",
    "C88_unit_refuted"
   ],
   "note": "REFUTED by the code: the unit of a channel is lost by calibrating; the channels themselves proved"
  },
  {
   "property": "C89",
   "status": "partial",
   "theorems": [
    "C89_minimal",
    "C89_full",
    "C89_built",
    "C89_harvest",
    "C89_seconds",
    "C89_document",
    "C89_instant",
    "C89_sensible",
    "C89_fraction_refuted",
    "C89_identifier_refuted",
    "C89_expired_refuted"
   ],
   "note": "REFUTED by the code: fractions of seconds are lost, identifiers and dates made by factories are renewed when a minimal file is read, tasks are unreadable after their start; restricted version proved, and what exactly is lost of durations"
  },
  {
   "property": "C90",
   "status": "partial",
   "theorems": [
    "C90_class",
    "C90_reads_own",
    "C90_header",
    "C90_version_refuted",
    "C90_experiment_refuted",
    "C90_comment"
   ],
   "note": "REFUTED by the code: the version is missing in minimal files, so the version of the reader is reported; class, comment and date proved"
  },
  {
   "property": "C91",
   "status": "partial",
   "theorems": [
    "C91_path",
    "C91_others",
    "C91_both",
    "C91_collide_refuted",
    "C91_requested"
   ],
   "note": "REFUTED by the code: names with a dot lose their last part and collide; restricted version proved"
  },
  {
   "property": "C92",
   "status": "proved",
   "theorems": [
    "C92_single",
    "C92_file",
    "C92_observer",
    "C92_unknown",
    "C92_set",
    "C92_other"
   ],
   "note": "for any classes with the names of the tasks; single tasks also through files"
  },
  {
   "property": "C93",
   "status": "partial",
   "theorems": [
    "C93_found",
    "C93_attributes",
    "C93_values",
    "C93_names",
    "C93_shown",
    "C93_same_name_refuted",
    "C93_text_refuted",
    "C93_attribute_refuted"
   ],
   "note": "REFUTED by the code: names used twice, text read as YAML, attributes that raise; proved for trees with distinct names, totality for attributes that can be shown"
  },
  {
   "property": "C94",
   "status": "partial",
   "theorems": [
    "C94_all",
    "C94_named",
    "C94_contains",
    "C94_none",
    "C94_uart",
    "C94_substring_refuted",
    "C94_unknown_refuted",
    "C94_all_refuted"
   ],
   "note": "REFUTED by the code: names compared by containment, unknown names, quoted numbers, empty traces; proved for usable descriptions and names no earlier name contains"
  },
  {
   "property": "C95",
   "status": "partial",
   "theorems": [
    "C95_saved",
    "C95_kept",
    "C95_only",
    "C95_empty",
    "C95_name",
    "C95_subgroup_refuted",
    "C95_nested_refuted"
   ],
   "note": "REFUTED by the code: subgroups and nested groups; proved for groups of datasets"
  },
  {
   "property": "C96",
   "status": "partial",
   "theorems": [
    "C96_count",
    "C96_quiet",
    "C96_errors",
    "C96_limit_refuted",
    "C96_short"
   ],
   "note": "REFUTED by the code for a limit of 0; proved for limits from 1"
  },
  {
   "property": "C97",
   "status": "partial",
   "theorems": [
    "C97_gpio",
    "C97_uart",
    "C97_line",
    "C97_abort_refuted",
    "C97_header_refuted",
    "C97_lines_refuted",
    "C97_apart_refuted"
   ],
   "note": "REFUTED by the code: recordings that raise other exceptions than TypeError, header, lines without time, shared stems; proved for extractable recordings with different stems"
  },
  {
   "property": "C98",
   "status": "partial",
   "theorems": [
    "C98_detected",
    "C98_given",
    "C98_decodes_partial",
    "C98_lines_partial",
    "C98_total_partial",
    "C98_no_singles_refuted",
    "C98_slow_refuted"
   ],
   "note": "REFUTED by the code: no single bits, slow pins; proved for frequent single bits (jitter up to 12 %, rare glitches), totality for levels shorter than 2 s"
  },
  {
   "property": "C99",
   "status": "partial",
   "theorems": [
    "C99_again",
    "C99_times",
    "C99_digital_partial",
    "C99_analog_refuted"
   ],
   "note": "REFUTED by the code: analog signals are overwritten; repeated decoding proved, unchanged array for digital signals"
  },
  {
   "property": "C100",
   "status": "partial",
   "theorems": [
    "C100_instant",
    "C100_wall_partial",
    "C100_age",
    "C100_distance",
    "C100_winter_refuted"
   ],
   "note": "REFUTED by the code: zones with daylight saving time in winter; exact condition, ages and distances proved"
  },
  {
   "property": "C101",
   "status": "partial",
   "theorems": [
    "C101_files_partial",
    "C101_always",
    "C101_cache_same",
    "C101_untouched",
    "C101_written",
    "C101_path_refuted",
    "C101_empty_refuted"
   ],
   "note": "REFUTED by the code: cache hides the path, empty files; proved without usable cache and for caches with the contents of the files"
  },
  {
   "property": "C102",
   "status": "partial",
   "theorems": [
    "C102_warn_partial",
    "C102_collected_refuted",
    "C102_psutil_refuted",
    "C102_csv",
    "C102_columns_partial",
    "C102_time_refuted",
    "C102_missing_refuted",
    "C102_names_refuted",
    "C102_path_refuted",
    "C102_stored"
   ],
   "note": "REFUTED by the code: warn() on collected inventories, wrong clocks, missing versions, equal names; commas in values; restricted versions proved"
  },
  {
   "property": "C103",
   "status": "partial",
   "theorems": [
    "C103_connected",
    "C103_asked",
    "C103_fill",
    "C103_fill_offline",
    "C103_token_refuted",
    "C103_used_refuted",
    "C103_path_refuted",
    "C103_nobody_refuted"
   ],
   "note": "REFUTED by the code: token as text, capital letters, empty address, data models; connection and owner/group proved"
  },
  {
   "property": "C104",
   "status": "proved",
   "theorems": [
    "C104_complete",
    "C104_refines",
    "C104_programs",
    "C104_insert",
    "C104_query_refuted",
    "C104_inserted_refuted"
   ],
   "note": "proved for completions and everything done with their results; _refuted theorems record that queries and insertions share dictionaries, which the statement does not exclude"
  },
  {
   "property": "C105",
   "status": "partial",
   "theorems": [
    "C105_name",
    "C105_strip",
    "C105_again",
    "C105_safe",
    "C105_described",
    "C105_directory",
    "C105_file_names_partial",
    "C105_distinct",
    "C105_files_distinct",
    "C105_compatible_refuted",
    "C105_experiments"
   ],
   "note": "REFUTED by the code: '..', control characters, letters outside of ASCII; paths proved for all names without zero byte"
  },
  {
   "property": "C106",
   "status": "partial",
   "theorems": [
    "C106_complete",
    "C106_thinned_partial",
    "C106_size",
    "C106_crash_refuted",
    "C106_short_refuted"
   ],
   "note": "REFUTED by the code: 120.3 s at 100 kHz raises ValueError, a window behind the data TypeError, less than 50 ms gives nothing; restricted versions proved (windows up to max_elements samples; longer ones if the factor divides max_elements)"
  },
  {
   "property": "C107",
   "status": "partial",
   "theorems": [
    "C107_pictured",
    "C107_kept",
    "C107_directory_partial",
    "C107_file_partial",
    "C107_together_partial",
    "C107_crash_refuted",
    "C107_empty_refuted",
    "C107_power_refuted",
    "C107_window_refuted",
    "C107_directories_refuted",
    "C107_nothing",
    "C107_nodata_refuted",
    "C107_refused"
   ],
   "note": "REFUTED by the code: crash in one file stops the others, IndexError without data, pictures of other options, windows or directories share a name; restricted versions proved; nothing is overwritten in any case"
  },
  {
   "property": "C108",
   "status": "partial",
   "theorems": [
    "C108_complete_partial",
    "C108_separator",
    "C108_kept",
    "C108_tab_refuted",
    "C108_description_refuted",
    "C108_faulty_refuted",
    "C108_metadata_refuted",
    "C108_torso_refuted",
    "C108_offset_refuted",
    "C108_ragged_refuted",
    "C108_levels_refuted",
    "C108_levels_again_refuted",
    "C108_text_level_refuted"
   ],
   "note": "REFUTED by the code: a missing description or an unreadable warning ends the command, a missing offset counts as one, torsos are kept; proved for recordings with complete attributes"
  },
  {
   "property": "C109",
   "status": "partial",
   "theorems": [
    "C109_table_partial",
    "C109_existing_partial",
    "C109_kept",
    "C109_short_refuted",
    "C109_nodata_refuted"
   ],
   "note": "REFUTED by the code: short recordings give neither table nor error, a file without samples ends the command; proved for files that can be cut and names that are not in use"
  },
  {
   "property": "C110",
   "status": "partial",
   "theorems": [
    "C110_repaired_partial",
    "C110_valid_partial",
    "C110_mode_partial",
    "C110_datatype_partial",
    "C110_untouched",
    "C110_directory_partial",
    "C110_sizes_refuted",
    "C110_invented_refuted",
    "C110_both_refuted",
    "C110_types_refuted",
    "C110_window_refuted",
    "C110_calibration_refuted",
    "C110_foreign_refuted",
    "C110_other_refuted",
    "C110_half_refuted"
   ],
   "note": "REFUTED by the code: lengths still differ or zeros are invented if times or currents are shortest, combinations of defects raise, a foreign file ends the script; proved for recordings with one kind of curable defect, and that sound recordings and other files stay untouched"
  },
  {
   "property": "C111",
   "status": "proved",
   "theorems": [
    "C111_read",
    "C111_reported",
    "C111_none",
    "C111_unindented"
   ],
   "note": "AssertionError is represented by RuntimeError, float() is arbitrary; columns aligned to the left, which are silently cut, are an example outside of the quantifier"
  },
  {
   "property": "C112",
   "status": "partial",
   "theorems": [
    "C112_drawn_partial",
    "C112_nodes",
    "C112_places",
    "C112_weak_refuted",
    "C112_unknown_refuted",
    "C112_tag_refuted",
    "C112_missing"
   ],
   "note": "REFUTED by the code: links below -104 dBm get a negative width, an unknown node prevents all links, tags over several lines are torn apart; proved for all other matrices and floor plans with one-line tags"
  },
  {
   "property": "C113",
   "status": "partial",
   "theorems": [
    "C113_listed",
    "C113_first",
    "C113_unique",
    "C113_without_id",
    "C113_nested",
    "C113_nested_refuted",
    "C113_endless_refuted",
    "C113_in_refuted",
    "C113_found"
   ],
   "note": "REFUTED by the code: nested loops over one fixture end the outer loop after its first round, a loop that inserts copies never ends, 'name in fixture' is always False; the listing is proved for all earlier uses"
  },
  {
   "property": "C114",
   "status": "partial",
   "theorems": [
    "C114_ids",
    "C114_names",
    "C114_unknown",
    "C114_refs",
    "C114_testbed",
    "C114_counts_refuted",
    "C114_empty_refuted",
    "C114_none"
   ],
   "note": "REFUTED by the code: when objects share a name, the numbers of ids and names differ and the earlier object is known by its id only; a testbed without name leads to IndexError; the rest is proved"
  },
  {
   "property": "C115",
   "status": "partial",
   "theorems": [
    "C115_pin",
    "C115_event",
    "C115_actuation",
    "C115_by_name",
    "C115_by_id",
    "C115_cape",
    "C115_complete",
    "C115_gpios",
    "C115_gpios_refuted",
    "C115_input_refuted",
    "C115_renamed_refuted",
    "C115_contacts_once"
   ],
   "note": "REFUTED by the code: a second field in the description makes inputs drivable (GPIO(name='GPIO4', direction='OUT')), a new name makes BAT_OK drivable (GPIO(id=1009, name='gpio_x')), the same pin with another comment counts twice; for pins given by name or id alone the property is proved"
  },
  {
   "property": "C116",
   "status": "partial",
   "theorems": [
    "C116_gpio",
    "C116_some_pin",
    "C116_mask_refuted",
    "C116_uart_refuted",
    "C116_power",
    "C116_refused",
    "C116_power_refuted"
   ],
   "note": "REFUTED by the code: listed pins and mask are unrelated, the decoded UART pin need not be in the mask, calculate_power always fails with NotImplementedError; the conditions of acceptance are proved"
  },
  {
   "property": "C117",
   "status": "partial",
   "theorems": [
    "C117_level",
    "C117_never_lower",
    "C117_core",
    "C117_setter",
    "C117_negative_refuted",
    "C117_cli",
    "C117_cli_refuted",
    "C117_reader",
    "C117_shared_refuted",
    "C117_source_refuted",
    "C117_details_refuted",
    "C117_ivonne",
    "C117_names"
   ],
   "note": "REFUTED by the code: --verbose of the cli does not reach the readers, opening a reader changes the level of all readers, a negative verbosity changes nothing, the source of messages is lost since the import; the global level, the package's logger and the setter are proved"
  },
  {
   "property": "C118",
   "status": "partial",
   "theorems": [
    "C118_requests",
    "C118_token_refuted",
    "C118_success",
    "C118_empty_refuted",
    "C118_nobody",
    "C118_fill",
    "C118_module",
    "C118_failed_refuted",
    "C118_models_refuted",
    "C118_completing",
    "C118_queries",
    "C118_password",
    "C118_same_as_C103",
    "C118_session"
   ],
   "note": "REFUTED by the code: a token given as text is never sent, an empty address gives a connected client without a user, a failed connection leaves a half-made client in place, the data models keep using the fixtures; requests and success for the other tokens, filling in and the user's fields are proved"
  },
  {
   "property": "C119",
   "status": "partial",
   "theorems": [
    "C119_entries",
    "C119_failed",
    "C119_skip",
    "C119_stops_refuted",
    "C119_moved",
    "C119_again",
    "C119_nested_refuted",
    "C119_lost_refuted",
    "C119_type_refuted",
    "C119_needs_text"
   ],
   "note": "REFUTED by the code: texts without /content/ (embedded firmwares too) keep only their last character, a directory content above becomes part of the path, hex is called elf, one broken file stops everything; entries, order, skipped files, failures and plain paths are proved"
  },
  {
   "property": "C120",
   "status": "partial",
   "theorems": [
    "C120_full",
    "C120_again",
    "C120_truth",
    "C120_duration_refuted",
    "C120_stuck_refuted",
    "C120_names_refuted",
    "C120_steps"
   ],
   "note": "REFUTED by the code: short recordings of interrupted runs are kept and called complete, empty ones make all further runs fail, pairs that round to the same name share a file; uninterrupted runs, further runs and the energies after any history are proved"
  },
  {
   "property": "C121",
   "status": "partial",
   "theorems": [
    "C121_keys",
    "C121_contains",
    "C121_getitem",
    "C121_items",
    "C121_missing",
    "C121_missing_refuted",
    "C121_iterate_refuted"
   ],
   "note": "REFUTED by the code: a missing key raises AttributeError instead of KeyError, names of methods are answered, iterating gives pairs; keys, access to fields, items and membership are proved"
  },
  {
   "property": "C122",
   "status": "partial",
   "theorems": [
    "C122_hash",
    "C122_same",
    "C122_readable",
    "C122_plain",
    "C122_value",
    "C122_equal_refuted",
    "C122_order_refuted",
    "C122_class_refuted",
    "C122_printable"
   ],
   "note": "REFUTED by the code: equal models may have different hashes (-0.0, order of a dictionary), the class is not part of the hash; that the hash tells the values and their names (or a collision is at hand) is proved with unique readability of the printed dictionary"
  },
  {
   "property": "C123",
   "status": "partial",
   "theorems": [
    "C123_repr",
    "C123_factory_refuted"
   ],
   "note": "REFUTED by the code: values from factories (id, created) are not printed; proved if all that was not given has a constant default"
  },
  {
   "property": "C124",
   "status": "partial",
   "theorems": [
    "C124_rows",
    "C124_titles",
    "C124_once",
    "C124_read",
    "C124_same_observer",
    "C124_columns_refuted",
    "C124_lines_refuted",
    "C124_stops_refuted"
   ],
   "note": "REFUTED by the code: a separator in a description or a newline in a name breaks the table, an active observer without cape stops the script; rows, reading back and agreement with get_observer are proved for plain texts and equipped observers"
  },
  {
   "property": "C125",
   "status": "partial",
   "theorems": [
    "C125_by_name",
    "C125_overrides",
    "C125_unchanged",
    "C125_other_name_refuted",
    "C125_by_id_refuted"
   ],
   "note": "REFUTED by the code: a derived element with the name of another element (given so, or asked for by id when its name was used again) gets entries of that other element when completed again; proved for all items asked for by name, for overrides of known elements, and whenever the element the result stands for took part in making it"
  },
  {
   "property": "C126",
   "status": "partial",
   "theorems": [
    "C126_from_database",
    "C126_accepted",
    "C126_number",
    "C126_controllers",
    "C126_distinct",
    "C126_unknown_controller",
    "C126_no_id_refuted",
    "C126_text_id_refuted",
    "C126_collision_refuted",
    "C126_refused"
   ],
   "note": "REFUTED by the code: targets whose ids agree in the lower 16 bits share their number, a new target without id or with the id as text raises TypeError instead of ValidationError; limits, controllers, numbers and distinctness for small ids are proved"
  },
  {
   "property": "C127",
   "status": "partial",
   "theorems": [
    "C127_requested",
    "C127_accepted",
    "C127_emulation",
    "C127_errors",
    "C127_together",
    "C127_at_once",
    "C127_date_refuted",
    "C127_at_once_refuted",
    "C127_directory_refuted",
    "C127_prep_refuted"
   ],
   "note": "REFUTED by the code: a date raises AttributeError and a number out of range OverflowError instead of ValidationError, observers without start time use different directories, runs at different instants may share a directory, the time of preparation has no zone when the experiment has none; start instants, acceptance, errors and common start are proved for shown times that exist"
  },
  {
   "property": "C128",
   "status": "partial",
   "theorems": [
    "C128_programming",
    "C128_accepts",
    "C128_observer",
    "C128_testbed",
    "C128_testbed_accepts",
    "C128_observer_accepts",
    "C128_needed",
    "C128_experiment",
    "C128_experiment_accepts",
    "C128_controller_refuted",
    "C128_twice_refuted"
   ],
   "note": "REFUTED by the code: any printable name of a controller is accepted, an observer may occur twice in a set and its second tasks are never found; all other limits and the acceptance within them are proved"
  },
  {
   "property": "C129",
   "status": "partial",
   "theorems": [
    "C129_asked",
    "C129_code",
    "C129_set",
    "C129_set_charge",
    "C129_power_good",
    "C129_log_node",
    "C129_gpio",
    "C129_gpio_refuted"
   ],
   "note": "REFUTED by the code: get_state_log_gpio is true when the gpio log is to be left out (output voltage below the threshold), the opposite of its name; in the step that connects the output the told storage voltage is lower than the returned one; everything else proved"
  },
  {
   "property": "C130",
   "status": "partial",
   "theorems": [
    "C130_collected",
    "C130_collects",
    "C130_interfaces",
    "C130_lossless",
    "C130_printable",
    "C130_psutil_refuted",
    "C130_interface_refuted",
    "C130_notation_refuted",
    "C130_backslash_refuted",
    "C130_long_refuted",
    "C130_module_refuted",
    "C130_version_refuted"
   ],
   "note": "REFUTED by the code: without psutil (only a warning) or with an uptime up to 0.5 s, with a module without __version__ or with one that is not a text, or with an answer of a program above 512 characters nothing is collected; lines keep the notation of bytes (b' at the first, ' as last one) and a literal backslash-n splits a line; interfaces are told as (second, first address), which is (mac, ip) or (ipv6, ipv4) on Linux, and those with one address are left out; everything else proved"
  },
  {
   "property": "C131",
   "status": "partial",
   "theorems": [
    "C131_database",
    "C131_harvesters",
    "C131_numbers",
    "C131_sources",
    "C131_synonyms",
    "C131_by_id",
    "C131_by_id_refuted",
    "C131_own",
    "C131_runs",
    "C131_plain",
    "C131_limits",
    "C131_own_harvester",
    "C131_tables",
    "C131_neutral"
   ],
   "note": "REFUTED by the code: the number 2102 is given to cv33 and to cv10, asking for it gives 1 V; everything else proved (the harvester neutral is refused on purpose)"
  },
  {
   "property": "C132",
   "status": "partial",
   "theorems": [
    "C132_database",
    "C132_components",
    "C132_testbed",
    "C132_reach",
    "C132_experiments",
    "C132_tasks",
    "C132_in_stock",
    "C132_paper_refuted",
    "C132_sound",
    "C132_own_mcu",
    "C132_mcu_refused",
    "C132_own_target",
    "C132_target_refused",
    "C132_controller",
    "C132_firmwares",
    "C132_addresses"
   ],
   "note": "REFUTED by the code: target 1001, whose comment says that it is virtual and not real, is plugged into sheep05 and taken for experiments; everything else proved, with 1001 counted as a target"
  },
  {
   "property": "C133",
   "status": "partial",
   "theorems": [
    "C133_source",
    "C133_no_file",
    "C133_file",
    "C133_harvester",
    "C133_harvester_completes",
    "C133_harvested",
    "C133_short",
    "C133_tail_refuted"
   ],
   "note": "REFUTED by the code: samples after the last complete buffer are neither simulated nor counted, so that recordings below 10000 samples give 0 Ws and an empty file; proved for the complete buffers"
  },
  {
   "property": "C134",
   "status": "partial",
   "theorems": [
    "C134_range",
    "C134_same",
    "C134_refused",
    "C134_unique_refuted"
   ],
   "note": "REFUTED by the code: ids are called unique, but two calls in the same microsecond get the same one; range and comparison proved"
  },
  {
   "property": "C135",
   "status": "partial",
   "theorems": [
    "C135_default",
    "C135_set",
    "C135_root",
    "C135_relative_refuted"
   ],
   "note": "REFUTED by the code: a relative setting, invalid according to the XDG specification, is followed and makes the cache depend on the directory of the start; everything else proved"
  },
  {
   "property": "C136",
   "status": "partial",
   "theorems": [
    "C136_found",
    "C136_others",
    "C136_accepted",
    "C136_listed",
    "C136_unlisted",
    "C136_nameless_refuted",
    "C136_replaced_refuted",
    "C136_posted",
    "C136_anonymous_refuted",
    "C136_no_token",
    "C136_experiments",
    "C136_default_refuted"
   ],
   "note": "REFUTED by the code: nameless models give True without being stored, a model replaced by name stays in place under its number, neither token nor session key is sent with a model, and the default server named by the class is never used; everything else proved"
  }
 ]
}