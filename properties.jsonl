{"id": "C01", "title": "Pre-harvested input passes the harvester unchanged", "statement": "When the harvester model is configured with a window of at most one sample (which is what an ivsample input always yields), ivcurve_sample returns exactly the (voltage, current) it was given for every sample of the stream, whatever algorithm is configured.", "quantifier": "all harvester configurations with window_size <= 1, all streams of samples, every position in the stream", "why_tests_cant": "the claim is about every algorithm number and every history of earlier samples; a test feeds one file through a handful of named harvesters", "anchors": ["shepherd_core/shepherd_core/vsource/virtual_harvester_model.py:VirtualHarvesterModel.ivcurve_sample", "shepherd_core/shepherd_core/data_models/content/virtual_harvester.py:calc_window_size"]}
{"id": "C02", "title": "Optimal harvester only returns real, recent, in-range operating points", "statement": "With the optimal algorithm every returned pair is either (0,0) or exactly one of the pairs fed in, that pair lies inside the configured voltage window, and it was fed at most age_max+1 (= 2*window+1) samples ago: the model never invents, mixes or indefinitely keeps an operating point.", "quantifier": "all configurations, all sample streams of any length, every position", "why_tests_cant": "staleness depends on arbitrarily long histories and on two interleaved ages; tests look at short recorded curves", "anchors": ["shepherd_core/shepherd_core/vsource/virtual_harvester_model.py:ivcurve_2_mppt_opt"]}
{"id": "C03", "title": "Optimal harvester is never worse than the present sample", "statement": "With the optimal algorithm, whenever the sample just fed lies in the configured voltage window and has non-negative power, the power of the returned pair is at least the power of that sample.", "quantifier": "all configurations, all streams, every position", "why_tests_cant": "needs the relation between two internal candidate slots over every history", "anchors": ["shepherd_core/shepherd_core/vsource/virtual_harvester_model.py:ivcurve_2_mppt_opt"]}
{"id": "C04", "title": "Constant-voltage harvester without extrapolation returns real samples near the setpoint", "statement": "With linear extrapolation off, the constant-voltage stage returns (0,0) or a pair that was really fed, and every pair it picks up has a voltage closer than four voltage steps to the setpoint in force when it was picked up.", "quantifier": "all configurations with extrapolation off, all streams, every position", "why_tests_cant": "the property is an invariant over unbounded streams with direction changes, jumps and duplicates", "anchors": ["shepherd_core/shepherd_core/vsource/virtual_harvester_model.py:ivcurve_2_cv"]}
{"id": "C05", "title": "Harvested voltage and current are never negative", "statement": "For non-negative input streams the harvester model never returns a negative voltage or current.", "quantifier": "all configurations, all non-negative streams, every position", "why_tests_cant": "a counterexample needs a particular crossing followed by repeated extrapolation; random files do not hit it. (Holds for the optimal algorithm, for pass-through and without extrapolation; is violated with linear extrapolation.)", "anchors": ["shepherd_core/shepherd_core/vsource/virtual_harvester_model.py:ivcurve_2_cv", "shepherd_core/shepherd_core/vsource/virtual_harvester_model.py:ivcurve_2_mppt_opt"]}
{"id": "C06", "title": "Perturb-and-observe setpoint stays inside the configured window", "statement": "After every perturbation update the setpoint of mppt_po lies between the configured minimum and maximum voltage and is at least one voltage step (as long as the step does not exceed the maximum), and the step size is a power-of-two multiple of the configured step; between updates the setpoint does not move.", "quantifier": "all configurations with voltage_step <= voltage_max, all streams, every position after the first update", "why_tests_cant": "step doubling is unbounded in the history length, so an excursion could appear after any number of samples", "anchors": ["shepherd_core/shepherd_core/vsource/virtual_harvester_model.py:ivcurve_2_mppt_po"]}
{"id": "C07", "title": "Open-circuit harvester tracks a bounded, recent open-circuit voltage", "statement": "With mppt_voc the open-circuit estimate is always the configured maximum or the voltage of a recently fed sample whose current was below the limit and whose voltage lies in [max(1000uV,min), max]; it never exceeds the voltage of an open-circuit sample just fed; the setpoint derived from it never exceeds it.", "quantifier": "all configurations with 1000uV <= max and min <= max, all streams, every position", "why_tests_cant": "two ages and two candidates interact over unbounded histories", "anchors": ["shepherd_core/shepherd_core/vsource/virtual_harvester_model.py:ivcurve_2_mppt_voc"]}
{"id": "C08", "title": "The configured harvesting algorithm is the one that runs", "statement": "Converting a harvester configuration for emulation yields an algorithm number, mode bits and window from which the model dispatches exactly to the algorithm named in the configuration; algorithms that cannot be emulated (isc_voc, ivcurve) are rejected, and every accepted one other than neutral is an mppt/cv algorithm.", "quantifier": "all algorithm names, all mode flags, both for harvesting and emulation", "why_tests_cant": "encoder and decoder live in different classes and files; unit tests never compare them for all flag combinations", "anchors": ["shepherd_core/shepherd_core/data_models/content/virtual_harvester.py:calc_algorithm_num", "shepherd_core/shepherd_core/data_models/content/virtual_harvester.py:calc_hrv_mode", "shepherd_core/shepherd_core/vsource/virtual_harvester_model.py:VirtualHarvesterModel.__init__", "shepherd_core/shepherd_core/vsource/virtual_harvester_model.py:ivcurve_sample"]}
{"id": "C09", "title": "Every valid harvester configuration fits the PRU register format", "statement": "For every harvester configuration accepted by validation, conversion to the PRU format yields only values in the unsigned 32 bit range, with voltage_min <= voltage <= voltage_max, 1 <= duration_n <= interval_n <= 10^8 and setpoint_n8 <= 255, so the conversion can not fail for range reasons.", "quantifier": "all field values (binary64 floats) allowed by the field constraints", "why_tests_cant": "a continuum of floating point inputs with rounding, products and clamps; tests use the nine named fixtures", "anchors": ["shepherd_core/shepherd_core/data_models/content/virtual_harvester.py:HarvesterPRUConfig.from_vhrv", "shepherd_core/shepherd_core/data_models/content/virtual_harvester.py:calc_timings_ms", "shepherd_core/shepherd_core/data_models/content/virtual_harvester.py:post_validation"]}
{"id": "C10", "title": "Storage voltage stays inside physical bounds", "statement": "Starting from any validated configuration and after one or more simulation steps with any inputs, the intermediate (storage) voltage is a finite number that is never negative and never above max(1 uV, V_intermediate_max); right after the storage update it is at least 1 uV.", "quantifier": "all converter configurations, all input/output current histories, every step (IEEE binary64 arithmetic)", "why_tests_cant": "bounds must survive rounding and unbounded step counts", "anchors": ["shepherd_core/shepherd_core/vsource/virtual_converter_model.py:update_cap_storage", "shepherd_core/shepherd_core/vsource/virtual_converter_model.py:update_states_and_output", "shepherd_core/shepherd_core/vsource/virtual_converter_model.py:calc_inp_power"]}
{"id": "C11", "title": "Output switching obeys the hysteresis", "statement": "The output turns on only in a step in which the storage voltage is at or above max(dV_enable, enable threshold), turns off only in a step in which it is below the disable threshold, and does not change in any step that is not a threshold check.", "quantifier": "all configurations, all histories, every step", "why_tests_cant": "requires reasoning about every interleaving of threshold checks and voltage movements", "anchors": ["shepherd_core/shepherd_core/vsource/virtual_converter_model.py:update_states_and_output"]}
{"id": "C12", "title": "Threshold checks are periodic", "statement": "After the first check, the converter evaluates its thresholds exactly every interval_check_thresholds_n-th step (every step if that value is 0 or 1), regardless of the inputs.", "quantifier": "all configurations, all step counts", "why_tests_cant": "periodicity over unbounded runs, including the counter start value 0xFFFFFFF0", "anchors": ["shepherd_core/shepherd_core/vsource/virtual_converter_model.py:update_states_and_output"]}
{"id": "C13", "title": "Output voltage and DAC code are bounded and zero when off", "statement": "After every step the emitted DAC code is an integer in [0, 65535]; if the output is off and start-up is over, voltage and code are 0; with the buck stage enabled the output voltage never exceeds the configured output voltage; without it, it never exceeds the storage voltage.", "quantifier": "all configurations and calibrations, all histories, every step", "why_tests_cant": "the code is obtained through floating point conversion with arbitrary calibration", "anchors": ["shepherd_core/shepherd_core/vsource/virtual_converter_model.py:update_states_and_output", "shepherd_core/shepherd_core/vsource/virtual_converter_model.py:PruCalibration.conv_uV_to_dac_raw"]}
{"id": "C14", "title": "Power-good behaves as a Schmitt trigger tied to the output", "statement": "The power-good flag falls only when the storage voltage is at or below the power-good disable threshold and rises only when the voltage is at or above the power-good enable threshold while the output is on; without the immediate option it only changes in threshold-check steps.", "quantifier": "all configurations, all histories, every step", "why_tests_cant": "state-machine invariant over all histories", "anchors": ["shepherd_core/shepherd_core/vsource/virtual_converter_model.py:update_states_and_output"]}
{"id": "C15", "title": "The converter does not create energy at its input", "statement": "The power credited to the storage in a step is never negative and never larger than the (non-negative part of) input voltage times input current of that step.", "quantifier": "all configurations, all storage voltages, all inputs", "why_tests_cant": "a violation needs the special combination of a non-boost converter, an input resistor and a source voltage below the storage voltage; no test enumerates it. (Holds with the boost stage, for direct connection and without input resistor; is violated for diode+resistor+capacitor inputs.)", "anchors": ["shepherd_core/shepherd_core/vsource/virtual_converter_model.py:calc_inp_power", "shepherd_core/shepherd_core/vsource/virtual_converter_model.py:get_input_efficiency"]}
{"id": "C16", "title": "Start-up drain suppression lasts exactly the configured number of steps", "statement": "The drawn power is exactly zero in the first interval_startup_delay_drain_n steps and afterwards is never suppressed again; power drawn is never negative.", "quantifier": "all configurations, all output currents, every step", "why_tests_cant": "counter over unbounded histories; tests run with a single delay", "anchors": ["shepherd_core/shepherd_core/vsource/virtual_converter_model.py:calc_out_power"]}
{"id": "C17", "title": "Residue compensation keeps the measured current non-negative", "statement": "The current computed from any ADC reading is never negative, whatever the calibration offset, and the accumulated negative residue stays within [0, 60000 nA].", "quantifier": "all calibrations with bounded gain/offset, all streams of ADC codes", "why_tests_cant": "residue is carried over arbitrarily many readings", "anchors": ["shepherd_core/shepherd_core/vsource/virtual_converter_model.py:PruCalibration.conv_adc_raw_to_nA"]}
{"id": "C18", "title": "Efficiency lookup never leaves its table", "statement": "For every voltage and current (any non-negative finite value) the efficiency look-ups stay inside the 12x12 and 12-entry tables, and input efficiency is below one.", "quantifier": "all non-negative finite voltages and currents, all LUT scale settings", "why_tests_cant": "index computation mixes float division, truncation and logarithms over an unbounded domain", "anchors": ["shepherd_core/shepherd_core/vsource/virtual_converter_model.py:get_input_efficiency", "shepherd_core/shepherd_core/vsource/virtual_converter_model.py:get_output_inv_efficiency"]}
{"id": "C19", "title": "Every valid source configuration fits the PRU register format", "statement": "For every virtual-source configuration accepted by validation, deriving the internal hysteresis values and converting to the PRU format succeeds with every value inside its register width (u32, u8 tables).", "quantifier": "all field values (binary64 floats) allowed by the field constraints, boost/buck on or off, any input type", "why_tests_cant": "a continuum of configurations including tiny capacitances, zero voltages and square roots of negative numbers", "anchors": ["shepherd_core/shepherd_core/data_models/content/virtual_source.py:VirtualSourceConfig", "shepherd_core/shepherd_core/data_models/content/virtual_source.py:calc_internal_states", "shepherd_core/shepherd_core/data_models/content/virtual_source.py:ConverterPRUConfig.from_vsrc"]}
{"id": "C20", "title": "Converter mode bits mean the same on both sides", "statement": "The storage, boost, buck, log-intermediate and feedback flags decoded by the converter model are exactly those implied by the source configuration: boost implies storage, feedback only for storage without boost on ivcurve input, and no two configurations with different flags share a mode number.", "quantifier": "all flag combinations and input types", "why_tests_cant": "encoder and decoder are in different modules; tests compare single numbers", "anchors": ["shepherd_core/shepherd_core/data_models/content/virtual_source.py:calc_converter_mode", "shepherd_core/shepherd_core/vsource/virtual_converter_model.py:VirtualConverterModel.__init__"]}
{"id": "C21", "title": "Raw values survive the conversion to SI units and back", "statement": "For every calibration pair whose offset is not astronomically larger than its gain, converting an unsigned 32 bit raw value to SI and back (IEEE binary64 arithmetic, including rounding of every operation) returns the same raw value.", "quantifier": "all gains and offsets (bounded ratio), all raw values below 2^32", "why_tests_cant": "2^32 values times a continuum of gains; float error accumulates in three operations", "anchors": ["shepherd_core/shepherd_core/data_models/base/calibration.py:CalibrationPair.raw_to_si", "shepherd_core/shepherd_core/data_models/base/calibration.py:CalibrationPair.si_to_raw"]}
{"id": "C22", "title": "SI to raw conversion is monotone, non-negative and accurate to half a step", "statement": "si_to_raw never returns a negative number, is monotone in its argument, and converting its result back differs from the original non-negative-range value by at most half a gain plus floating point rounding.", "quantifier": "all calibration pairs, all finite SI values", "why_tests_cant": "continuum of values; monotonicity relates every pair of inputs", "anchors": ["shepherd_core/shepherd_core/data_models/base/calibration.py:CalibrationPair.si_to_raw"]}
{"id": "C23", "title": "EEPROM calibration data survives serialisation", "statement": "Serialising a cape calibration to bytes yields exactly 128 bytes, and parsing these bytes restores all 16 gains and offsets bit-exactly; byte strings of any other length are rejected; parsing then serialising any 128 bytes that describe a valid calibration returns the same bytes.", "quantifier": "all calibrations (finite binary64 values, positive gains), all byte strings", "why_tests_cant": "the data path is 2^1024 possible byte strings; field order must agree between both directions", "anchors": ["shepherd_core/shepherd_core/data_models/base/calibration.py:CalibrationCape.to_bytestr", "shepherd_core/shepherd_core/data_models/base/calibration.py:CalibrationCape.from_bytestr", "shepherd_core/shepherd_core/data_models/base/calibration.py:dict_generator"]}
{"id": "C24", "title": "Calibration export stays inside its integer containers", "statement": "export_for_sysfs either raises ValueError or returns six integers in which gains are in [0, 2^32) and offsets in [-2^31, 2^31); each equals the scaled calibration value rounded to nearest.", "quantifier": "all calibrations with finite values", "why_tests_cant": "range of a rounded product over a continuum", "anchors": ["shepherd_core/shepherd_core/data_models/base/calibration.py:CalibrationHarvester.export_for_sysfs", "shepherd_core/shepherd_core/data_models/base/calibration.py:CalibrationEmulator.export_for_sysfs"]}
{"id": "C25", "title": "Hardware conversion functions are limited, monotone and consistent", "statement": "The default conversion functions between physical values and converter codes return codes inside the converter's range when limited, are monotone, and converting a code to its value and back returns the code or its direct neighbour below.", "quantifier": "all codes, all finite physical values", "why_tests_cant": "float truncation at every code boundary", "anchors": ["shepherd_core/shepherd_core/calibration_hw_def.py:adc_current_to_raw", "shepherd_core/shepherd_core/calibration_hw_def.py:adc_raw_to_current", "shepherd_core/shepherd_core/calibration_hw_def.py:adc_voltage_to_raw", "shepherd_core/shepherd_core/calibration_hw_def.py:adc_raw_to_voltage", "shepherd_core/shepherd_core/calibration_hw_def.py:dac_voltage_to_raw", "shepherd_core/shepherd_core/calibration_hw_def.py:dac_raw_to_voltage"]}
{"id": "C26", "title": "Recorded buffers are stored completely, in order and in lockstep", "statement": "After any sequence of raw appends to a fresh file, time, voltage and current datasets have equal length and each equals the concatenation of the appended buffers (each cut to the shortest of its members), scalar timestamps being expanded to equidistant ones.", "quantifier": "all append sequences, all buffer lengths (including unequal and empty), all timestamp forms", "why_tests_cant": "histories of any length with resizing in between", "anchors": ["shepherd_core/shepherd_core/writer.py:append_iv_data_raw"]}
{"id": "C27", "title": "Closing a recording truncates only the incomplete last buffer", "statement": "Closing a recording at the default sample rate leaves all three datasets at the same length, a multiple of 10000, as a prefix of what was written, with fewer than 10000 samples dropped; data already aligned is untouched, and closing twice changes nothing.", "quantifier": "all dataset contents and lengths", "why_tests_cant": "every residue class of the length and every content", "anchors": ["shepherd_core/shepherd_core/writer.py:_align", "shepherd_core/shepherd_core/writer.py:__exit__"]}
{"id": "C28", "title": "Reading in buffers reproduces the recording exactly once", "statement": "read_buffers yields consecutive, non-overlapping buffers of exactly the requested size whose concatenation is the leading whole-buffer part of the requested range; raw mode returns the stored integers, otherwise each value is the calibrated one; nothing outside the range is returned.", "quantifier": "all file lengths, start/end positions and buffer sizes", "why_tests_cant": "all combinations of offsets and sizes, off-by-one at the end", "anchors": ["shepherd_core/shepherd_core/reader.py:read_buffers"]}
{"id": "C29", "title": "Creating a recording never overwrites an existing file unless asked to", "statement": "Without modify_existing and force_overwrite a new Writer opens a path that did not exist before, and every pre-existing file keeps its content; the chosen name is the first free counter.", "quantifier": "all sets of existing files, all requested paths", "why_tests_cant": "every file-system state", "anchors": ["shepherd_core/shepherd_core/writer.py:unique_path", "shepherd_core/shepherd_core/writer.py:Writer.__init__"]}
{"id": "C30", "title": "A rejected Writer call leaves existing recordings untouched", "statement": "If constructing a Writer raises an error because of an invalid argument, the content of every file is the same as before.", "quantifier": "all argument combinations, all prior file contents", "why_tests_cant": "error paths are tested only for raising, not for side effects. (Violated: the file is opened, truncated or its mode attribute changed before validation.)", "anchors": ["shepherd_core/shepherd_core/writer.py:Writer.__init__"]}
{"id": "C31", "title": "A freshly created recording is valid", "statement": "Every file created by a successful Writer construction (not modifying an existing one) and closed after any sequence of appends is accepted by the reader's validity check.", "quantifier": "all accepted argument combinations, all append sequences", "why_tests_cant": "agreement of two independent pieces of code over all argument combinations", "anchors": ["shepherd_core/shepherd_core/writer.py:Writer.__init__", "shepherd_core/shepherd_core/writer.py:_create_skeleton", "shepherd_core/shepherd_core/reader.py:is_valid"]}
{"id": "C32", "title": "A stored configuration can be read back", "statement": "After Writer.store_config(cfg) the reader's get_config returns cfg.", "quantifier": "all configurations, all files", "why_tests_cant": "no test reads back what was stored. (Violated: written to the root group, read from the data group.)", "anchors": ["shepherd_core/shepherd_core/writer.py:store_config", "shepherd_core/shepherd_core/reader.py:get_config"]}
{"id": "C33", "title": "Re-opening a recording keeps its sample interval", "statement": "For a recording with equidistant timestamps the reader derives the true sample rate and the true sample interval for every number of samples.", "quantifier": "all recordings of n >= 2 equidistant samples", "why_tests_cant": "depends on the sample count; shipped tests use one count. (The sample rate is exact; the interval is violated: it is duration/count instead of duration/(count-1).)", "anchors": ["shepherd_core/shepherd_core/reader.py:_refresh_file_stats"]}
{"id": "C34", "title": "Energy of a recording is independent of how it is blocked", "statement": "The computed energy equals sample interval times the sum of calibrated voltage-current products over all samples, whatever the block size used to read the file.", "quantifier": "all recordings, all block sizes (exact arithmetic)", "why_tests_cant": "every partition of every length", "anchors": ["shepherd_core/shepherd_core/reader.py:energy"]}
{"id": "C35", "title": "Dataset statistics describe the whole dataset", "statement": "Minimum and maximum reported for a dataset are those over all samples; the reported mean is the mean over all samples.", "quantifier": "all datasets, all block sizes", "why_tests_cant": "depends on the ratio of dataset length and block size. (min/max hold; the mean is violated for unequal last blocks.)", "anchors": ["shepherd_core/shepherd_core/reader.py:_dset_statistics"]}
{"id": "C36", "title": "The time-continuity check detects every jump and never crashes", "statement": "check_timediffs returns true exactly if all consecutive buffers of the recording are equally spaced by the expected buffer time.", "quantifier": "all recordings of any length", "why_tests_cant": "needs recordings longer than 4 million samples or shorter than two buffers. (Violated at block boundaries and for short files.)", "anchors": ["shepherd_core/shepherd_core/reader.py:_data_timediffs", "shepherd_core/shepherd_core/reader.py:check_timediffs"]}
{"id": "C37", "title": "Automatic voltage-step detection finds the step of the curve", "statement": "For a recording with a stair-case voltage ramp get_voltage_step returns the step of the ramp in volt.", "quantifier": "all ramps, rising and falling, all calibrations", "why_tests_cant": "all ramps and calibrations. (Violated for falling ramps through unsigned wrap-around and in general because raw units are not calibrated.)", "anchors": ["shepherd_core/shepherd_core/reader.py:get_voltage_step"]}
{"id": "C38", "title": "GPIO waveform filtering is lossless", "statement": "Removing redundant states keeps the first event, yields strictly alternating states, preserves order and timestamps, and replaying the kept events reproduces the state at every original event.", "quantifier": "all event sequences (non-empty)", "why_tests_cant": "every bit sequence of every length", "anchors": ["shepherd_core/shepherd_core/reader.py:get_filter_for_redundant_states", "shepherd_core/shepherd_core/reader.py:gpio_to_waveforms", "shepherd_core/shepherd_core/decoder_waveform/uart.py:_filter_redundant_states"]}
{"id": "C39", "title": "UART decoding inverts UART encoding for 7 bit text", "statement": "For every text of characters 1..127 sent as 8N1 frames with arbitrary idle gaps and bounded timing jitter, the decoder returns exactly these characters in order; characters 0 and 128..255 are characterised as lost or altered.", "quantifier": "all texts of any length, all idle gaps, all jitters within tolerance", "why_tests_cant": "infinitely many texts and gaps; the frame state machine carries state between characters", "anchors": ["shepherd_core/shepherd_core/decoder_waveform/uart.py:get_symbols", "shepherd_core/shepherd_core/decoder_waveform/uart.py:_add_duration", "shepherd_core/shepherd_core/decoder_waveform/uart.py:_filter_redundant_states"]}
{"id": "C40", "title": "Line splitting of UART text loses nothing", "statement": "Splitting decoded symbols into lines and joining them again yields the original text.", "quantifier": "all texts", "why_tests_cant": "every placement of CR and LF. (Holds if every CR is followed by LF and the text ends with LF; violated otherwise: the symbol after a lone CR and an unterminated last line are dropped.)", "anchors": ["shepherd_core/shepherd_core/decoder_waveform/uart.py:get_lines", "shepherd_core/shepherd_core/decoder_waveform/uart.py:get_text"]}
{"id": "C41", "title": "Downsampling keeps every n-th sample", "statement": "Downsampling by an integer factor returns exactly every factor-th sample of the selected range, floor(length/factor) of them, for time, voltage and current alike.", "quantifier": "all datasets, ranges, factors and lengths", "why_tests_cant": "needs datasets of several 4-million-sample blocks with awkward factors. (Holds for a single block or if the factor divides the block; violated - irregular spacing or a crash - otherwise.)", "anchors": ["shepherd_data/shepherd_data/reader.py:downsample", "shepherd_data/shepherd_data/reader.py:cut_and_downsample_to_file"]}
{"id": "C42", "title": "CSV export shows calibrated values", "statement": "Each exported CSV value equals raw*gain+offset, and data without calibration attributes is exported unchanged.", "quantifier": "all datasets with or without attributes", "why_tests_cant": "attribute-free groups are not in the tests. (Violated: a missing offset counts as 1.0.)", "anchors": ["shepherd_data/shepherd_data/reader.py:save_csv"]}
{"id": "C43", "title": "Inheritance resolution: nearest definition wins and always terminates on acyclic databases", "statement": "Resolving an item of an acyclic fixture database terminates, and each attribute of the result comes from the nearest definition along the inheritance chain (own value first), with the returned chain listing the ancestors.", "quantifier": "all acyclic fixture databases, all items, all override dictionaries", "why_tests_cant": "all database shapes and chain lengths", "anchors": ["shepherd_core/shepherd_core/testbed_client/fixtures.py:Fixture.inheritance"]}
{"id": "C44", "title": "Circular inheritance is rejected", "statement": "Resolving an item whose inheritance chain is circular raises an error instead of running forever.", "quantifier": "all fixture databases with cycles of any length", "why_tests_cant": "only self-inheritance is tested. (Violated for cycles of length two and more.)", "anchors": ["shepherd_core/shepherd_core/testbed_client/fixtures.py:Fixture.inheritance"]}
{"id": "C45", "title": "Fixture lookup is case-insensitive and the latest insert wins", "statement": "After any sequence of inserts, looking up a name in any letter case returns the item inserted last under that name, and looking up an id returns the item inserted last under that id; unknown keys raise.", "quantifier": "all insert sequences, all queries", "why_tests_cant": "all histories of inserts", "anchors": ["shepherd_core/shepherd_core/testbed_client/fixtures.py:Fixture.insert", "shepherd_core/shepherd_core/testbed_client/fixtures.py:Fixture.__getitem__"]}
{"id": "C46", "title": "Experiment validation assigns each target to exactly one observer", "statement": "If an experiment is accepted against a testbed, all its targets exist, are pairwise distinct and are reachable through pairwise distinct active observers, and each target has exactly one configuration.", "quantifier": "all experiments, all testbeds", "why_tests_cant": "all combinations of target lists and testbed layouts", "anchors": ["shepherd_core/shepherd_core/data_models/experiment/experiment.py:_validate_targets", "shepherd_core/shepherd_core/data_models/experiment/experiment.py:_validate_observers", "shepherd_core/shepherd_core/data_models/experiment/experiment.py:get_target_config"]}
{"id": "C47", "title": "Targets of an accepted experiment get distinct firmware ids", "statement": "In an accepted experiment any two targets are programmed with different ids.", "quantifier": "all accepted experiments and testbeds", "why_tests_cant": "ids are reduced modulo 2^16 in another class than the one validating them. (Holds if ids are below 2^16; violated otherwise.)", "anchors": ["shepherd_core/shepherd_core/data_models/experiment/experiment.py", "shepherd_core/shepherd_core/data_models/testbed/target.py", "shepherd_core/shepherd_core/data_models/task/firmware_mod.py:FirmwareModTask.from_xp"]}
{"id": "C48", "title": "Experiment tasks cover every target once and in the right order", "statement": "Translating an accepted experiment produces one task set per target, addressed to the observer carrying that target, in which firmware modification precedes programming and programming precedes emulation for each port.", "quantifier": "all accepted experiments", "why_tests_cant": "all combinations of firmware/no firmware and port assignments", "anchors": ["shepherd_core/shepherd_core/data_models/task/observer_tasks.py", "shepherd_core/shepherd_core/data_models/task/testbed_tasks.py"]}
{"id": "C49", "title": "Observer outputs do not overwrite each other", "statement": "The output files of different observers in one experiment have different paths.", "quantifier": "all accepted experiments and testbeds", "why_tests_cant": "uniqueness is by observer name while validation checks ids. (Holds for distinct observer names; violated otherwise.)", "anchors": ["shepherd_core/shepherd_core/data_models/task/emulation.py:EmulationTask.from_xp", "shepherd_core/shepherd_core/data_models/testbed/testbed.py:post_validation"]}
{"id": "C50", "title": "Looking up the observer of a target never crashes", "statement": "Testbed.get_observer returns the first active observer with active cape that carries the active target and otherwise raises the ValueError announcing that the target was not found.", "quantifier": "all accepted testbeds, all target ids", "why_tests_cant": "needs an active observer without cape listed before the wanted one. (Violated then: AttributeError.)", "anchors": ["shepherd_core/shepherd_core/data_models/testbed/testbed.py:get_observer", "shepherd_core/shepherd_core/data_models/testbed/observer.py"]}
{"id": "C51", "title": "Patching a firmware symbol changes exactly that symbol", "statement": "After modify_symbol_value the symbol reads back as the written value, every other byte of the image is unchanged, and values that do not fit are rejected.", "quantifier": "all images, symbol addresses, values, byte orders", "why_tests_cant": "all byte positions and values", "anchors": ["shepherd_core/shepherd_core/fw_tools/patcher.py:modify_symbol_value", "shepherd_core/shepherd_core/fw_tools/patcher.py:read_symbol"]}
{"id": "C52", "title": "MSP430 hex check validates the start address", "statement": "is_hex_msp430 accepts a file only if its reset vector lies in the FRAM range.", "quantifier": "all hex images", "why_tests_cant": "the check is a chained comparison that looks right. (Violated: the comparison can never be true.)", "anchors": ["shepherd_core/shepherd_core/fw_tools/validation.py:is_hex_msp430"]}
{"id": "C53", "title": "GPIO actuation events occur exactly count times", "statement": "GpioEvent.get_events returns exactly count time stamps, the k-th being delay + k*period.", "quantifier": "all delays, periods and counts (binary64)", "why_tests_cant": "depends on floating point rounding of the range end. (Violated for particular values.)", "anchors": ["shepherd_core/shepherd_core/data_models/experiment/observer_features.py:GpioEvent.get_events"]}
{"id": "C54", "title": "Target models draw non-negative current and never crash", "statement": "Each target model returns a non-negative, finite current for every non-negative supply voltage, including zero.", "quantifier": "all target parameters, all voltages >= 0", "why_tests_cant": "the zero-voltage case only appears when the output is switched off. (Violated by the constant-power target at 0 V.)", "anchors": ["shepherd_core/shepherd_core/vsource/target_model.py"]}
{"id": "C55", "title": "Validation exit code reflects all files", "statement": "The validate command exits with zero only if every given file was opened and found valid.", "quantifier": "all lists of files", "why_tests_cant": "mixed lists with unreadable files. (Violated: unreadable files are skipped.)", "anchors": ["shepherd_data/shepherd_data/cli.py:validate"]}
{"id": "C56", "title": "Downsampling several files by sample rate treats each file by its own rate", "statement": "When a target sample rate is given, every file is reduced by its own sample rate divided by the target rate.", "quantifier": "all lists of files with arbitrary sample rates", "why_tests_cant": "needs files of different rates in one call. (Violated: the factor of the first file is reused.)", "anchors": ["shepherd_data/shepherd_data/cli.py:downsample"]}
{"id": "C57", "title": "Perturb & observe keeps its direction while the power grows", "statement": "At each perturbation mppt_po moves the voltage by the step into the same direction as before if the harvested power did not fall, and into the opposite direction otherwise; away from the limits the step width doubles or is reset accordingly.", "quantifier": "all configurations, all sequences of curve samples", "why_tests_cant": "depends on the whole history of the algorithm", "anchors": ["shepherd_core/shepherd_core/vsource/virtual_harvester_model.py:ivcurve_2_mppt_po"]}
{"id": "C58", "title": "A file called valid has the promised structure", "statement": "If Reader.is_valid returns True, the file has the required groups, datasets and attributes with equal dataset lengths and known mode and datatype.", "quantifier": "all files", "why_tests_cant": "all combinations of missing parts of a file", "anchors": ["shepherd_core/shepherd_core/reader.py:is_valid"]}
{"id": "C59", "title": "An accepted testbed uses every component once", "statement": "In an accepted testbed no two observers share an id, an IP, a MAC or an ethernet port, no cape and no target is used twice, and targets only sit on observers with a cape.", "quantifier": "all testbeds", "why_tests_cant": "all combinations of observers; targets are compared as whole objects. (Violated: the same target id is accepted twice if e.g. the creation time differs.)", "anchors": ["shepherd_core/shepherd_core/data_models/testbed/testbed.py:post_validation", "shepherd_core/shepherd_core/data_models/testbed/observer.py:post_validation"]}
{"id": "C60", "title": "Programmed firmware fits the controller of the target", "statement": "In an accepted experiment each programming task writes a firmware that was built for the controller of that target.", "quantifier": "all accepted experiments, all testbeds and databases", "why_tests_cant": "all combinations of targets with one or two controllers and given or missing firmware. (Violated: firmware 2 is accepted for a target without second controller.)", "anchors": ["shepherd_core/shepherd_core/data_models/experiment/target_config.py:post_validation", "shepherd_core/shepherd_core/data_models/task/programming.py:from_xp"]}
{"id": "C61", "title": "Values appended in SI units are stored as the nearest raw values", "statement": "After any sequence of append_iv_data_si on a fresh file, every stored time, voltage and current differs from the given SI value by at most half a raw step of the calibration (values below the calibration offset are stored as the offset), rows in order and in lockstep.", "quantifier": "all calibrations with positive gain, all sequences of buffers, all values", "why_tests_cant": "all real values and calibrations; rounding on both sides of zero", "anchors": ["shepherd_core/shepherd_core/writer.py:append_iv_data_si", "shepherd_core/shepherd_core/data_models/base/calibration.py:si_to_raw"]}
{"id": "C62", "title": "The reported architecture fits the file", "statement": "determine_arch names an architecture only if the file passes the checks of that architecture, and refuses files without a program.", "quantifier": "all files", "why_tests_cant": "all images, including empty ones. (Violated: the size that is compared with 0 is that of the Python object, so every readable hex file that is not an MSP430 image is called nRF52.)", "anchors": ["shepherd_core/shepherd_core/fw_tools/validation.py:determine_arch", "shepherd_core/shepherd_core/fw_tools/validation.py:is_hex_nrf52"]}
{"id": "C63", "title": "An embedded firmware is extracted unchanged", "statement": "Firmware.from_firmware followed by extract_firmware restores the file byte by byte, on any machine and at any path; what is extracted has the recorded hash.", "quantifier": "all file contents, names, destinations, compression codecs that can be undone", "why_tests_cant": "all contents and later file changes. (Violated for firmware given by path: a replaced file only produces a warning.)", "anchors": ["shepherd_core/shepherd_core/data_models/content/firmware.py:from_firmware", "shepherd_core/shepherd_core/data_models/content/firmware.py:extract_firmware", "shepherd_core/shepherd_core/fw_tools/converter.py"]}
{"id": "C64", "title": "Firmwares extracted into one directory do not overwrite each other", "statement": "Extracting two firmwares with different names into the same directory yields two files with their own contents.", "quantifier": "all names, types and contents", "why_tests_cant": "all pairs of names. (Violated: the part behind the last dot of a name is cut off, so blink-1.0 and blink-1.1 share a file.)", "anchors": ["shepherd_core/shepherd_core/data_models/content/firmware.py:extract_firmware", "shepherd_core/shepherd_core/fw_tools/converter.py:extract_firmware"]}
{"id": "C65", "title": "Converting a firmware to hex leaves the original alone", "statement": "firmware_to_hex returns a hex file with the program and changes no other file, in particular not the source.", "quantifier": "all files, names and contents", "why_tests_cant": "file content and suffix vary independently. (Violated: an ELF file named *.hex is overwritten.)", "anchors": ["shepherd_core/shepherd_core/fw_tools/converter.py:firmware_to_hex", "shepherd_core/shepherd_core/fw_tools/converter_elf.py:elf_to_hex"]}
{"id": "C66", "title": "Type and controller of a firmware are those of the file", "statement": "Firmware.from_firmware without explicit type and controller takes the type from the suffix of the file and the controller from the architecture found in it, after that image passed the check of this architecture; otherwise it raises.", "quantifier": "all files, embedded or not", "why_tests_cant": "all combinations of suffix, content and architecture", "anchors": ["shepherd_core/shepherd_core/data_models/content/firmware.py:from_firmware"]}
{"id": "C67", "title": "Cutting without limits covers the whole recording", "statement": "Without start and end, cut_and_downsample_to_file selects every sample of the recording, and a selection that passes its size check is not empty.", "quantifier": "all recordings, sample rates and limits", "why_tests_cant": "test recordings last multiples of 0.1 s. (Violated: the runtime is rounded to 0.1 s, so up to 0.05 s are left out or selected behind the end.)", "anchors": ["shepherd_data/shepherd_data/reader.py:cut_and_downsample_to_file", "shepherd_core/shepherd_core/reader.py:_refresh_file_stats"]}
{"id": "C68", "title": "The file returned by cutting and downsampling is the requested one", "statement": "cut_and_downsample_to_file changes no existing file, and the file it returns holds the requested range reduced by the requested factor.", "quantifier": "all sequences of calls with arbitrary limits and factors", "why_tests_cant": "needs earlier outputs with colliding names or failed attempts. (Violated: the name holds the rounded factor, and leftovers of a failed call are returned.)", "anchors": ["shepherd_data/shepherd_data/reader.py:cut_and_downsample_to_file"]}
{"id": "C69", "title": "The default calibration agrees with the hardware formulas", "statement": "For every physical value inside the range of a converter, the raw value computed with the default calibration of each of the eight channels differs by at most one code from the code computed by the hardware conversion function, although gain and offset of the default are probed with integer-truncated codes.", "quantifier": "all binary64 values in the range of each converter, all channels, limited or not", "why_tests_cant": "continuum of values; truncation against rounding at each of up to 2^18 code boundaries", "anchors": ["shepherd_core/shepherd_core/data_models/base/calibration.py:CalibrationPair.from_fn", "shepherd_core/shepherd_core/data_models/base/calibration.py:CalibrationHarvester", "shepherd_core/shepherd_core/data_models/base/calibration.py:CalibrationEmulator", "shepherd_core/shepherd_core/calibration_hw_def.py:dac_voltage_to_raw"]}
{"id": "C70", "title": "The storage voltage follows the power balance", "statement": "In every step with a storage capacitor the new voltage is the old one plus (power in - power out) / voltage * step / capacity, limited to [1 uV, maximum]; it does not fall when at least as much power comes in as goes out (unless limited) and does not rise when at most as much comes in.", "quantifier": "all configurations and calibrations of moderate size, all histories, every step, with all roundings", "why_tests_cant": "continuum of states; rounding could turn a small positive balance into a drop", "anchors": ["shepherd_core/shepherd_core/vsource/virtual_converter_model.py:VirtualConverterModel.update_cap_storage"]}
{"id": "C71", "title": "The energy counters of the source only grow", "statement": "The input and output energy counted by the virtual source are never negative or undefined and never decrease; a step of the source is exactly a step of the converter with the reading the calibration assigns to the output current, and returns the storage voltage or the calibrated output voltage as configured.", "quantifier": "all configurations, calibrations and input histories of any length", "why_tests_cant": "unbounded histories, overflow and rounding of the sums", "anchors": ["shepherd_core/shepherd_core/vsource/virtual_source_model.py:VirtualSourceModel.iterate_sampling"]}
{"id": "C72", "title": "The drawn current can always be asked for", "statement": "After every simulation step the getter for the current drawn from the storage returns a number.", "quantifier": "all configurations, all histories, every step", "why_tests_cant": "fails only when the storage voltage hits one exact value", "anchors": ["shepherd_core/shepherd_core/vsource/virtual_converter_model.py:VirtualConverterModel.get_I_mid_out_nA", "shepherd_core/shepherd_core/vsource/virtual_converter_model.py:VirtualConverterModel.update_states_and_output"]}
{"id": "C73", "title": "Harvester configurations inside the documented ranges are accepted", "statement": "A harvester configuration whose given fields all lie inside their documented ranges, with voltage_min <= voltage <= voltage_max, is accepted by validation, with defaults for the missing fields.", "quantifier": "all combinations of given and missing fields, all values (binary64)", "why_tests_cant": "defaults are derived from other fields; only some combinations of valid values make a derived default invalid. (Violated: without an explicit step a narrow voltage range is rejected.)", "anchors": ["shepherd_core/shepherd_core/data_models/content/virtual_harvester.py:VirtualHarvesterConfig.query_database", "shepherd_core/shepherd_core/data_models/content/virtual_harvester.py:post_validation"]}
{"id": "C74", "title": "Invalid harvester configurations are rejected with ValueError", "statement": "Validation of a harvester configuration either succeeds or raises ValueError (which pydantic reports as ValidationError); no other exception escapes.", "quantifier": "all values of all fields", "why_tests_cant": "needs one exact invalid value in a field that is used before it is checked. (Violated by one sample per curve, and by enormous sample counts.)", "anchors": ["shepherd_core/shepherd_core/data_models/content/virtual_harvester.py:VirtualHarvesterConfig.query_database"]}
{"id": "C75", "title": "Connecting the output capacitor conserves energy", "statement": "The derived voltage drop at switch-on takes exactly the energy of the output capacitor from the storage (C_mid V^2 - C_out Vo^2 remains, to within 1.02 uV); it is never negative nor larger than the switch-on threshold, and with a buck converter both thresholds are at least the voltage the converter needs.", "quantifier": "all source configurations accepted by validation", "why_tests_cant": "square roots, complex and infinite intermediate values, rounding of binary64 and to uV over a continuum of inputs", "anchors": ["shepherd_core/shepherd_core/data_models/content/virtual_source.py:calc_internal_states", "shepherd_core/shepherd_core/data_models/content/virtual_source.py:ConverterPRUConfig.from_vsrc"]}
{"id": "C76", "title": "The output hysteresis is the right way round", "statement": "In every converted source configuration the threshold for switching the output off is not above the one for switching it on.", "quantifier": "all source configurations accepted by validation", "why_tests_cant": "validation has no check; whether derived values restore the order depends on all of six fields. (Violated when the configured thresholds are exchanged.)", "anchors": ["shepherd_core/shepherd_core/data_models/content/virtual_source.py:VirtualSourceConfig", "shepherd_core/shepherd_core/data_models/content/virtual_source.py:calc_internal_states"]}
{"id": "C77", "title": "Diode target draws the current of the circuit", "statement": "The current returned by DiodeTarget.step solves, to within 0.2 percent of what the resistor alone would draw, the equation of a Shockley diode in series with the resistor.", "quantifier": "all diodes and resistors of usual size, all supply voltages up to 40 V, all accurate implementations of log and expm1", "why_tests_cant": "the solution is the limit of an iteration of at most ten passes; whether it converges depends on all parameters at once. (Violated at voltages below the forward voltage.)", "anchors": ["shepherd_core/shepherd_core/vsource/target_model.py:DiodeTarget.step", "shepherd_core/shepherd_core/vsource/target_model.py:DiodeTarget.__init__"]}
{"id": "C78", "title": "Virtual source is harvester and converter in series", "statement": "A simulated virtual source gives, sample by sample, what its converter gives for the results of its harvester; with feedback the harvester works at the voltage that the converter asked for in the step before; no step raises.", "quantifier": "all configurations with valid registers, all calibrations of moderate size, all sequences of samples and target currents", "why_tests_cant": "the order of the calls, the delay of the feedback and the state on both sides only show in whole runs; the paths of the harvester depend on the algorithm and the mode of the converter", "anchors": ["shepherd_core/shepherd_core/vsource/virtual_source_model.py:VirtualSourceModel.iterate_sampling", "shepherd_core/shepherd_core/vsource/virtual_harvester_model.py:VirtualHarvesterModel.ivcurve_sample", "shepherd_core/shepherd_core/vsource/virtual_harvester_model.py:VirtualHarvesterModel.ivcurve_2_cv"]}
{"id": "C79", "title": "Closed-loop simulation completes", "statement": "simulate_source runs through every recording and yields one output voltage between 0 and 5 V and one finite, non-negative current per sample, which can be stored.", "quantifier": "all accepted sources, all targets, all recordings with calibrations of moderate size", "why_tests_cant": "each output current is the input of the next step; whether a state with division by zero or overflow is reached depends on the whole run. (Violated by constant-power targets whenever the output is off.)", "anchors": ["shepherd_core/shepherd_core/vsource/virtual_source_simulation.py:simulate_source", "shepherd_core/shepherd_core/vsource/target_model.py:ConstantPowerTarget.step"]}
{"id": "C80", "title": "Harvesting from operating points reproduces the recording", "statement": "simulate_harvester on a recording of operating points stores the same values again: exactly with the default calibration, otherwise up to the resolution of the calibrations.", "quantifier": "all recordings of operating points, all calibrations of usual size, all harvesters that can be emulated", "why_tests_cant": "each value goes through two calibrations and integers of uV and nA, some raw value could round differently; a crash depends on the order of the voltages in the file. (Violated by recordings whose voltage only falls.)", "anchors": ["shepherd_core/shepherd_core/vsource/virtual_harvester_simulation.py:simulate_harvester", "shepherd_core/shepherd_core/reader.py:Reader.get_voltage_step", "shepherd_core/shepherd_core/data_models/base/calibration.py:CalibrationPair"]}
{"id": "C81", "title": "The storage conserves energy", "statement": "In each step the energy in the storage capacitor changes by the energy that flows in minus the energy that flows out.", "quantifier": "all valid configurations and all reachable states away from the limits of the storage", "why_tests_cant": "the deviation depends on voltage and power and is invisible near full storage. (Violated: an explicit Euler step adds the square of the change of voltage, for an empty storage more than a thousand times the input.)", "anchors": ["shepherd_core/shepherd_core/vsource/virtual_converter_model.py:VirtualConverterModel.update_cap_storage"]}
{"id": "C82", "title": "Optimal tracker finds the best point of the curve", "statement": "For each row of an IVonne recording the modelled curve falls from the short-circuit current to zero, and OptimalTracker returns its point of highest power among the voltages of the prototype curve.", "quantifier": "all coefficients of solar cells (a >= 0, b > 0, c >= 0), all limits and resolutions of the curve, any monotone exp", "why_tests_cant": "exp overflows to infinity for large exponents; that the product with b, the subtraction and the clamping never make a NaN that argmax would prefer needs an argument over all floats.", "anchors": ["shepherd_data/shepherd_data/mppt.py:iv_model", "shepherd_data/shepherd_data/mppt.py:OptimalTracker.process"]}
{"id": "C83", "title": "Open-circuit tracker works at its share of the open-circuit voltage", "statement": "For each row of an IVonne recording OpenCircuitTracker returns the point of the curve at the highest prototype voltage below the given share of the open-circuit voltage.", "quantifier": "all coefficients of solar cells, all shares, all limits and resolutions of the curve", "why_tests_cant": "one special row in a long recording decides whether the whole conversion fails. (Violated by rows without light, by frames without the column voc, and by curves that never fall below 5 %.)", "anchors": ["shepherd_data/shepherd_data/mppt.py:OpenCircuitTracker.process", "shepherd_data/shepherd_data/mppt.py:find_oc", "shepherd_data/shepherd_data/ivonne.py:get_voc"]}
{"id": "C84", "title": "IVonne converters are steady in time", "statement": "Up-sampled recordings have no gaps or repeated samples at the borders of the processed slices, each row appears at its time with its converted value, and the requested duration is covered.", "quantifier": "all recordings, sample rates, durations and, for curves, numbers of points", "why_tests_cant": "slices have 40 s, the failing lengths are one or two rows above a multiple of that. (Violated: such recordings crash, curves that do not divide the row interval leave gaps, rates above 100 kHz divide by zero.)", "anchors": ["shepherd_data/shepherd_data/ivonne.py:Reader.convert_2_ivcurves", "shepherd_data/shepherd_data/ivonne.py:Reader.convert_2_ivsamples", "shepherd_data/shepherd_data/ivonne.py:Reader.upsample_2_isc_voc"]}
{"id": "C85", "title": "Linear extrapolation stays on the line of the last crossing", "statement": "Between two crossings of the setpoint the constant-voltage stage moves its operating point one step towards the setpoint, along the way between the samples of the last crossing; with a fixed setpoint it alternates between these two samples and never leaves the setpoint by four steps.", "quantifier": "all configurations with a setpoint, all sample streams", "why_tests_cant": "the direction is kept over arbitrarily many samples and setpoint changes; a sign error shows only in some orders of voltages.", "anchors": ["shepherd_core/shepherd_core/vsource/virtual_harvester_model.py:VirtualHarvesterModel.ivcurve_2_cv"]}
{"id": "C86", "title": "An accepted calibration explains the measurement", "statement": "A calibration made from measured pairs rises, no line is nearer to the pairs, and at most a thousandth of the spread of the references is left unexplained; everything else is rejected with ValueError, and nothing that a rising line explains is rejected.", "quantifier": "all lists of measured pairs", "why_tests_cant": "the threshold is a relation over the whole list; tests use a handful of pairs near a line. (Violated when every pair has the same raw value: accepted with an arbitrary line.)", "anchors": ["shepherd_core/shepherd_core/data_models/base/cal_measurement.py:CalMeasurementPair", "shepherd_core/shepherd_core/data_models/base/cal_measurement.py:meas_to_cal"]}
{"id": "C87", "title": "Calibration by measurement recovers the device", "statement": "A device that is exactly linear is recovered exactly whatever points are measured and in whatever order, and an error of the references moves the result by no more than the error of the best line.", "quantifier": "all lines with positive gain, all measured points, all errors of the references", "why_tests_cant": "tests fit one list of points.", "anchors": ["shepherd_core/shepherd_core/data_models/base/cal_measurement.py:meas_to_cal"]}
{"id": "C88", "title": "Every channel of a cape is calibrated from its own measurement", "statement": "The calibration of a cape takes each channel from the measurement of that channel, and fails if one of them is no line.", "quantifier": "all measurements of capes", "why_tests_cant": "a swapped channel shows only with different devices per channel. (Violated for the unit of a channel: it is lost by calibrating.)", "anchors": ["shepherd_core/shepherd_core/data_models/base/cal_measurement.py:CalMeasurementHarvester.to_cal", "shepherd_core/shepherd_core/data_models/base/cal_measurement.py:CalMeasurementEmulator.to_cal", "shepherd_core/shepherd_core/data_models/base/cal_measurement.py:CalMeasurementCape.to_cal"]}
{"id": "C89", "title": "A stored model is read back unchanged", "statement": "from_file gives back the instance that to_file stored, in minimal files also which fields were given explicitly.", "quantifier": "all classes of fields, nested models, defaults and validators, all instances, both forms of files", "why_tests_cant": "depends on combinations of types, defaults and nesting; tests store fixtures. (Violated: durations lose the fraction of a second, identifiers made by a factory are renewed with every reading of a minimal file, tasks are unreadable after their start.)", "anchors": ["shepherd_core/shepherd_core/data_models/base/shepherd.py:ShpModel.to_file", "shepherd_core/shepherd_core/data_models/base/shepherd.py:ShpModel.from_file", "shepherd_core/shepherd_core/data_models/base/shepherd.py:time2int"]}
{"id": "C90", "title": "A file is read as what it was stored as", "statement": "A file is only read as the class it was stored as; comment, time of creation and version of the library are kept; comments that are not printable are refused.", "quantifier": "all classes, instances, comments and versions", "why_tests_cant": "version changes do not happen within a test run. (Violated for the version: minimal files do not contain it.)", "anchors": ["shepherd_core/shepherd_core/data_models/base/shepherd.py:ShpModel.from_file", "shepherd_core/shepherd_core/data_models/base/wrapper.py:Wrapper"]}
{"id": "C91", "title": "Files of models do not collide", "statement": "to_file writes one file, whose path it returns, replaces only the suffix, and different names give different files.", "quantifier": "all names, directories and contents of the disk", "why_tests_cant": "names are chosen by users. (Violated by names with a dot: the last part is taken for a suffix.)", "anchors": ["shepherd_core/shepherd_core/data_models/base/shepherd.py:ShpModel.to_file"]}
{"id": "C92", "title": "An observer gets its tasks", "statement": "prepare_task and extract_tasks give back a single task unchanged, out of a task set exactly the tasks of the named observer in the order firmware modification, programming, emulation, and ValueError if there is none.", "quantifier": "all tasks, task sets, observers, given as instance or as file", "why_tests_cant": "tests use the one testbed of the fixtures.", "anchors": ["shepherd_core/shepherd_core/data_models/task/__init__.py:prepare_task", "shepherd_core/shepherd_core/data_models/task/__init__.py:extract_tasks", "shepherd_core/shepherd_core/data_models/task/testbed_tasks.py:TestbedTasks.get_observer_tasks", "shepherd_core/shepherd_core/data_models/task/observer_tasks.py:ObserverTasks.get_tasks"]}
{"id": "C93", "title": "Metadata show everything in the file", "statement": "get_metadata shows every group, dataset and attribute of the file at its own place with its own value, nothing else besides the descriptions, and never fails.", "quantifier": "all file trees, attributes and depths; full and minimal", "why_tests_cant": "files of tests have a fixed structure and harmless attributes. (Violated: an attribute named like a child is lost; text is read as YAML, so 'no' becomes false; one attribute like '2022-99-99' or an array ends it with an exception.)", "anchors": ["shepherd_core/shepherd_core/reader.py:Reader.get_metadata"]}
{"id": "C94", "title": "Waveforms belong to the pins they are named after", "statement": "gpio_to_waveforms gives each pin of the description the waveform of its own bit, for all pins and by name; gpio_to_uart decodes the pin named uart or gives None.", "quantifier": "all traces, descriptions and names", "why_tests_cant": "recordings of tests have the pins of one cape. (Violated: names are compared by containment, so gpio1 finds gpio10; unknown names are a TypeError, also recordings without a uart pin; quoted numbers and empty traces raise.)", "anchors": ["shepherd_core/shepherd_core/reader.py:Reader.gpio_to_waveforms", "shepherd_core/shepherd_core/reader.py:Reader.get_gpio_pin_num", "shepherd_core/shepherd_core/reader.py:Reader.gpio_to_uart"]}
{"id": "C95", "title": "An extracted log has one line for each entry", "statement": "save_log writes, for every entry, its time and all elements of the same index in one line, returns the number of entries, keeps an existing file and touches no other one.", "quantifier": "all groups of logs, unreadable elements, contents of the disk", "why_tests_cant": "unreadable elements and interrupted extractions do not occur in tests. (Violated: a subgroup ends it with a TypeError and the incomplete file blocks later extractions; nested groups raise ValueError.)", "anchors": ["shepherd_data/shepherd_data/reader.py:Reader.save_log"]}
{"id": "C96", "title": "Warnings are counted completely and shown in order", "statement": "warn_logs returns the number of all entries of at least the given level and shows the first of them, in order, up to the limit, each with its severity.", "quantifier": "all logs, levels and limits", "why_tests_cant": "tests have no logs with warnings. (Violated for a limit of 0: one message is shown.)", "anchors": ["shepherd_data/shepherd_data/reader.py:Reader.warn_logs", "shepherd_core/shepherd_core/reader.py:Reader.count_errors_in_log"]}
{"id": "C97", "title": "Extracting from several recordings", "statement": "extract_gpio and extract_uart give every recording its own files with its own content, whatever the other recordings are, keep files that exist, and touch no other files.", "quantifier": "all lists of recordings, pins, separators and contents of the disk", "why_tests_cant": "commands are tested on one directory of good recordings. (Violated: an empty trace or a pin with a slash ends the command; the header ignores the separator; lines without a time are left out; recordings that differ only in the suffix share files.)", "anchors": ["shepherd_data/shepherd_data/cli.py:extract_gpio", "shepherd_data/shepherd_data/cli.py:extract_uart", "shepherd_core/shepherd_core/reader.py:Reader.waveform_to_csv"]}
{"id": "C98", "title": "UART text is decoded without being told the baud-rate", "statement": "The detected baud-rate is that of the line, so a text is decoded as with the given rate; whatever a pin does, extracting it ends with a text or a skipped file.", "quantifier": "all texts, rates, idle gaps, jitters, voltage levels, polarities and traces", "why_tests_cant": "detection depends on the distribution of all level durations. (Violated: text without single bits, like '888', is taken for half its rate; a pin that changes slower than every two seconds raises ZeroDivisionError, which nobody catches.)", "anchors": ["shepherd_core/shepherd_core/decoder_waveform/uart.py:Uart.detect_baud_rate", "shepherd_core/shepherd_core/decoder_waveform/uart.py:Uart.__init__", "shepherd_core/shepherd_core/reader.py:Reader.gpio_to_uart"]}
{"id": "C99", "title": "Decoding leaves the recording alone", "statement": "Constructing a decoder does not change the array it is given, and decoding the same array again gives the same result.", "quantifier": "all arrays and parameters", "why_tests_cant": "tests never look at the array again. (Violated: an analog signal is overwritten by its levels; decoding again still gives the same.)", "anchors": ["shepherd_core/shepherd_core/decoder_waveform/uart.py:Uart.__init__", "shepherd_core/shepherd_core/decoder_waveform/uart.py:Uart._convert_analog2digital"]}
{"id": "C100", "title": "Local time is the time of the user", "statement": "local_now shows the clock on the user's wall, and comparisons of times (age of a file) do not depend on the zone.", "quantifier": "all zones, instants, ages", "why_tests_cant": "a test runs in one zone at one time of the year. (Violated: where a daylight saving time is defined its offset is used all year; in winter the time is an hour ahead, in the last hour of a day the date is wrong.)", "anchors": ["shepherd_core/shepherd_core/data_models/base/timezone.py:local_tz", "shepherd_core/shepherd_core/data_models/base/timezone.py:local_now", "shepherd_core/shepherd_core/data_models/base/timezone.py:local_iso_date", "shepherd_core/shepherd_core/testbed_client/fixtures.py:file_older_than"]}
{"id": "C101", "title": "Fixtures come from the files", "statement": "A Fixtures object has the entries of the files below the given path, inserted in order, no matter what other constructions happened before; the cache changes nothing but time.", "quantifier": "all machines, paths, file contents, sequences of constructions", "why_tests_cant": "a test sees one machine and one state of its cache. (Violated: a fresh cache hides the path that is asked for, even a missing one; an empty file raises TypeError.)", "anchors": ["shepherd_core/shepherd_core/testbed_client/fixtures.py:Fixtures.__init__", "shepherd_core/shepherd_core/testbed_client/fixtures.py:Fixtures.insert_file"]}
{"id": "C102", "title": "Inventories tell what differs", "statement": "warn() names exactly the packages whose versions differ between devices, with the devices for each version; to_csv() has one row per device with the columns of the header.", "quantifier": "all lists of inventories", "why_tests_cant": "a test has one device. (Violated: warn() raises for every list of collected inventories, for devices that run long or have a wrong clock, and for versions nobody has; devices with one name are one; without psutil nothing is collected; values with commas shift the columns; a table in a directory is called inventory.yaml.)", "anchors": ["shepherd_core/shepherd_core/inventory/__init__.py:Inventory.collect", "shepherd_core/shepherd_core/inventory/__init__.py:InventoryList.to_csv", "shepherd_core/shepherd_core/inventory/__init__.py:InventoryList.warn", "shepherd_core/shepherd_core/inventory/system.py:SystemInventory.collect"]}
{"id": "C103", "title": "The web client uses what it is given", "statement": "A client that was created is connected to the given server, has key and user from there, used the given token, and is used by the data models; missing owners and groups are filled in, nothing else is changed.", "quantifier": "all servers, tokens, dictionaries", "why_tests_cant": "there is no server in tests. (Violated: a token given as text is ignored, addresses are lower-cased, an empty address is 'connected' without user, data models go on using fixtures.)", "anchors": ["shepherd_core/shepherd_core/testbed_client/client_web.py:WebClient._connect", "shepherd_core/shepherd_core/testbed_client/client_web.py:WebClient.fill_in_user_data", "shepherd_core/shepherd_core/testbed_client/client_abc_fix.py:FixturesClient.fill_in_user_data"]}
{"id": "C104", "title": "Using fixtures does not change them", "statement": "Completing a model never changes a dictionary that existed before (the stored ones and the argument), and its result is a new dictionary; whatever data models do with their results, the fixtures stay as they are.", "quantifier": "all fixtures, arguments, sequences of completions and changes", "why_tests_cant": "an aliasing error shows only in a later, unrelated query. (A query by id or name hands out the stored dictionary itself.)", "anchors": ["shepherd_core/shepherd_core/testbed_client/fixtures.py:Fixture.inheritance", "shepherd_core/shepherd_core/testbed_client/fixtures.py:Fixture.insert", "shepherd_core/shepherd_core/testbed_client/client_abc_fix.py:AbcClient.try_completing_model", "shepherd_core/shepherd_core/testbed_client/client_abc_fix.py:FixturesClient.fill_in_user_data"]}
{"id": "C105", "title": "Names are fit for files", "statement": "Accepted names are trimmed, short and free of special characters, and are accepted again unchanged; the directory of an experiment is a direct child of 'experiments' with a name the file system takes; different experiments and observers get different directories and files; visible content has a description.", "quantifier": "all texts and times", "why_tests_cant": "unbounded set of texts. (Violated: '..', control characters including the zero byte, and letters outside of ASCII are accepted as 'FileSystem-Compatible ASCII'.)", "anchors": ["shepherd_core/shepherd_core/data_models/base/content.py:NameStr", "shepherd_core/shepherd_core/data_models/base/content.py:ContentModel.content_validation", "shepherd_core/shepherd_core/data_models/task/observer_tasks.py:ObserverTasks.from_xp"]}
{"id": "C106", "title": "Plot data show the requested samples", "statement": "The data for a plot cover the requested part of the recording: nothing for less than five samples, every sample of a window of up to max_elements samples, every n-th (filtered) sample of a longer one, in physical units, with equally many times, voltages and currents and a bounded number of points.", "quantifier": "all recordings, limits, filters", "why_tests_cant": "the window is cut into blocks, whose interplay with the factor and the rate shows only for particular lengths. (Violated: some lengths, e.g. 120.3 s, raise ValueError; a window behind the end raises TypeError; recordings below 50 ms are never plotted.)", "anchors": ["shepherd_data/shepherd_data/reader.py:Reader.generate_plot_data", "shepherd_data/shepherd_data/reader.py:Reader.downsample"]}
{"id": "C107", "title": "Plots get their own files", "statement": "Every recording with data gets its picture, named by the recording and its window; pictures show voltage in V, current in mA, power in mW over time, one curve per recording; existing files are never overwritten; other recordings are not affected by one that cannot be plotted.", "quantifier": "all directories, existing pictures, windows, options", "why_tests_cant": "depends on all combinations of files, windows and options. (Violated: a crash in one file stops the rest; nothing to plot together raises IndexError; a plot of the power alone, another window within a millisecond, or another directory 'run.2' are taken for plotted already.)", "anchors": ["shepherd_data/shepherd_data/reader.py:Reader.assemble_plot", "shepherd_data/shepherd_data/reader.py:Reader.plot_to_file", "shepherd_data/shepherd_data/reader.py:Reader.multiplot_to_file", "shepherd_data/shepherd_data/cli.py:plot"]}
{"id": "C108", "title": "Metadata and logs are extracted completely", "statement": "extract-meta writes for every recording its metadata, a table of each recorded utilisation group (line of descriptions, then one line per entry in physical units) and a log of each message group; existing files stay as they are and nothing else is written; a faulty recording does not affect the others.", "quantifier": "all sets of recordings, groups, elements (including unreadable ones) and existing files", "why_tests_cant": "all combinations of missing attributes, faulty elements and earlier files. (Violated: a missing description or an unreadable warning ends the command, missing offsets count as one, texts are cut off and kept.)", "anchors": ["shepherd_data/shepherd_data/cli.py:extract_meta", "shepherd_data/shepherd_data/reader.py:Reader.save_csv", "shepherd_data/shepherd_data/reader.py:Reader.save_log", "shepherd_data/shepherd_data/reader.py:Reader.warn_logs", "shepherd_core/shepherd_core/reader.py:Reader.save_metadata"]}
{"id": "C109", "title": "Samples are extracted to tables", "statement": "extract writes for every recording a table with time, current and voltage in physical units of the samples that were selected and thinned out, and changes no existing file.", "quantifier": "all recordings, windows, factors, separators, filters and file systems", "why_tests_cant": "needs the contents of new files for all inputs, end to end. (Violated: recordings shorter than 1000 samples after thinning out give no table and no error; a file without samples ends the command.)", "anchors": ["shepherd_data/shepherd_data/cli.py:extract", "shepherd_data/shepherd_data/reader.py:Reader.cut_and_downsample_to_file", "shepherd_data/shepherd_data/reader.py:Reader.save_csv"]}
{"id": "C110", "title": "Repairing recordings of a directory", "statement": "The repair script leaves every recording with columns of equal length in whole buffers, a known mode and datatype, a window and a name; it only removes samples at the end, keeps all others and the calibration, does not touch sound recordings and repairs every file of the directory.", "quantifier": "all recordings and directories", "why_tests_cant": "combinations of defects are unbounded. (Violated: if times or currents are the shortest column the lengths still differ or zeros are invented, an unknown mode together with an incomplete buffer or an unknown datatype raises, curves get a window of zero, a foreign file ends the script.)", "anchors": ["shepherd_data/examples/repair_recordings.py"]}
{"id": "C111", "title": "The link matrix is read completely", "statement": "From a log with a link matrix, the script that visualises links reads every entry with the numbers of its row and column and nothing else, whatever the widths of the columns and the text around; matrices that are not square, texts that are no numbers and missing matrices are reported.", "quantifier": "all logs with a matrix whose columns are aligned to the right", "why_tests_cant": "unbounded numbers of nodes, widths, missing entries and surrounding lines; the parser works by character positions", "anchors": ["extra/link-visualizer/create_link_svg.py:extract_rssi_data"]}
{"id": "C112", "title": "Each link is drawn once into the floor plan", "statement": "Links and nodes are inserted behind the image of the floor plan, everything else stays; each pair of nodes with a measured link gets one line between their positions, with a width from 1 to 10 that follows the mean strength of both directions.", "quantifier": "all floor plans and link matrices", "why_tests_cant": "all combinations of directions, orders, strengths and surrounding lines. (Violated: links below -104 dBm get a negative width, an unknown node prevents all links, tags over several lines are torn apart.)", "anchors": ["extra/link-visualizer/create_link_svg.py"]}
{"id": "C113", "title": "Going through a fixture shows every entry once", "statement": "A loop over a fixture shows the last inserted object of each name exactly once, in the order in which the names were first inserted, whatever was done with the fixture before; loops can be nested, end, and asking whether a name is in the fixture tells whether it is known.", "quantifier": "all sequences of inserts, loops, aborted loops and searches on a fixture", "why_tests_cant": "the state of the iterator is part of the fixture, so every earlier use may influence a later loop. (Violated: nested loops over one fixture end the outer loop after its first round, a loop that inserts copies never ends, 'name in fixture' is always False.)", "anchors": ["shepherd_core/shepherd_core/testbed_client/fixtures.py:Fixture.__iter__", "shepherd_core/shepherd_core/testbed_client/fixtures.py:Fixture.__next__", "shepherd_core/shepherd_core/testbed_client/fixtures.py:Fixture.insert"]}
{"id": "C114", "title": "The client lists what is in the fixtures", "statement": "query_ids and query_names list every id and every name of a type once in the order of the first inserts, refs() connects each id with the name of its last object, an unknown type is reported as ValueError, an empty Testbed() is the one whose id came first; ids and names describe the same objects.", "quantifier": "all sequences of inserts, all types", "why_tests_cant": "unbounded inserts with repeated names and ids in any spelling. (Violated: when objects share a name, the numbers of ids and names differ and the earlier object is known by its id only; a testbed without name leads to IndexError.)", "anchors": ["shepherd_core/shepherd_core/testbed_client/client_abc_fix.py:FixturesClient.query_ids", "shepherd_core/shepherd_core/testbed_client/client_abc_fix.py:FixturesClient.query_names", "shepherd_core/shepherd_core/testbed_client/fixtures.py:Fixture.refs", "shepherd_core/shepherd_core/data_models/testbed/testbed.py:Testbed.query_database"]}
{"id": "C115", "title": "Actuation drives only pins of the target that are made for it", "statement": "A pin is accepted just if its fields are in order and it is connected to the PRU or the system. On cape v2.4 an actuation event is accepted just if its times are in range and its pin is GPIO0 to GPIO3 or GPIO8, however the pin is described; the set of pins of an actuation has each physical pin once.", "quantifier": "all descriptions of pins, all names and ids, all events and lists of events", "why_tests_cant": "texts, ids and combinations of overridden fields are unbounded. (Violated: GPIO(name='GPIO4', direction='OUT') makes an input drivable, GPIO(id=1009, name='gpio_x') drives BAT_OK, the same pin with another comment counts twice.)", "anchors": ["shepherd_core/shepherd_core/data_models/testbed/gpio.py:GPIO.post_validation", "shepherd_core/shepherd_core/data_models/testbed/gpio.py:GPIO.user_controllable", "shepherd_core/shepherd_core/data_models/testbed/gpio.py:GPIO.query_database", "shepherd_core/shepherd_core/data_models/experiment/observer_features.py:GpioEvent.post_validation", "shepherd_core/shepherd_core/data_models/experiment/observer_features.py:GpioActuation.get_gpios"]}
{"id": "C116", "title": "Accepted tracing configurations are usable", "statement": "GpioTracing is accepted just if the mask selects some of the ten pins and times, baud rate and number of pins are in range, PowerTracing just if rate and times are in range and something is kept; everything else is a ValueError; the mask agrees with the listed pins and includes the pin that is decoded.", "quantifier": "all configurations", "why_tests_cant": "the fields combine freely. (Violated: listed pins and mask are unrelated, the decoded UART pin need not be traced, calculate_power always fails with NotImplementedError.)", "anchors": ["shepherd_core/shepherd_core/data_models/experiment/observer_features.py:GpioTracing.post_validation", "shepherd_core/shepherd_core/data_models/experiment/observer_features.py:PowerTracing.post_validation"]}
{"id": "C117", "title": "Verbosity reaches the loggers it is meant for", "statement": "The verbosity of the package never decreases and is 3 if some call asked for it, or else 2; its logger follows; set_log_verbose_level sets the documented level of that logger alone; --verbose of the cli makes its readers show debug messages; a reader keeps the verbosity it was opened with; debug level shows where messages come from.", "quantifier": "all sequences of calls of increase_verbose_level, set_log_verbose_level, opened readers and writers, cli commands", "why_tests_cant": "the state is global and depends on all earlier calls. (Violated: --verbose does not reach the readers, opening a reader changes the level of all readers, a negative verbosity changes nothing, the source of messages is lost since the import.)", "anchors": ["shepherd_core/shepherd_core/logger.py:increase_verbose_level", "shepherd_core/shepherd_core/logger.py:set_log_verbose_level", "shepherd_core/shepherd_core/logger.py:get_verbose_level", "shepherd_data/shepherd_data/cli.py:cli", "shepherd_core/shepherd_core/reader.py:Reader.__init__", "shepherd_data/shepherd_data/ivonne.py:Reader.__init__"]}
{"id": "C118", "title": "Connecting to a server asks for key and user, and a failure has no effect", "statement": "A new WebClient asks the given (or default) server for a session key and then for the data of the user whose token was given, stops at the first failure and sends nothing else; it exists exactly if both answers are good, where a good answer for the user has a valid name, group and e-mail, and a token is made up if there is none; if there is a failure the earlier client stays in place; fill_in_user_data and try_completing_model work on the resulting client; passwords of 20 to 100 characters are hashed. (C103 is about what a successful client has.)", "quantifier": "all servers and their answers, tokens (none, text, file), answers for the user, sequences of created clients, dictionaries to fill", "why_tests_cant": "all answers of a server; tests have none. (Violated: a token given as text is never sent, an empty address gives a connected client without a user, a failed connection leaves a half-made client in place, the data models keep using the fixtures.)", "anchors": ["shepherd_core/shepherd_core/testbed_client/client_web.py:WebClient.__init__", "shepherd_core/shepherd_core/testbed_client/client_web.py:WebClient._connect", "shepherd_core/shepherd_core/testbed_client/client_web.py:WebClient._query_session_key", "shepherd_core/shepherd_core/testbed_client/client_web.py:WebClient._query_user_data", "shepherd_core/shepherd_core/testbed_client/client_web.py:WebClient.fill_in_user_data", "shepherd_core/shepherd_core/testbed_client/client_abc_fix.py:AbcClient.__init__", "shepherd_core/shepherd_core/testbed_client/user_model.py:User", "shepherd_core/shepherd_core/testbed_client/user_model.py:hash_password"]}
{"id": "C119", "title": "Collected models point to the server", "statement": "prime_database makes, in the order of the files, one entry for each firmware and each energy environment in the content directory, the same model with its path moved to the same place below the content directory of the server; other files have no effect; after a failure the old entries are still there; doing it again changes no path.", "quantifier": "all lists of files (any parsed content), all paths and texts, any validation by the models", "why_tests_cant": "all paths and texts; the script has no tests. (Violated: a path without a directory content and every embedded firmware is replaced by /var/shepherd and its last character; a directory content above becomes part of the path; hex-firmwares are called elf; one file with a list or broken yaml stops everything.)", "anchors": ["extra/prime_database.py:load_model", "extra/prime_database.py:__main__", "shepherd_core/shepherd_core/data_models/base/shepherd.py:ShpModel.from_file"]}
{"id": "C120", "title": "Generated energy environments are what their metadata say", "statement": "gen_energy_envs makes one recording for each pair of voltage and current, with metadata that tell duration and energy of that recording; running it again, also after an interruption, completes what is missing and changes nothing else.", "quantifier": "all pairs of voltages and currents, durations, repetitions, all sequences of runs interrupted at any step", "why_tests_cant": "all histories of interrupted runs; the script has no tests. (Violated: after an interruption the short recording is kept and called as long as a full one; after an interruption before the first samples all further runs fail; pairs that round to the same mV and mA share a file.)", "anchors": ["extra/gen_energy_envs.py:__main__", "shepherd_core/examples/eenv_generator.py:__main__", "shepherd_core/shepherd_core/data_models/content/energy_environment.py:EnergyEnvironment"]}
{"id": "C121", "title": "A model can be read as a dictionary", "statement": "A model has as keys exactly the names of its fields; model[key] is the value of the field, items() shows each field once, 'in' asks for the keys, and everything else behaves like a dictionary: a missing key raises KeyError, iterating goes through the keys.", "quantifier": "all models, all field values, all names asked for", "why_tests_cant": "all names and classes; tests read single attributes. (Violated: names that are no keys raise AttributeError or answer with methods and class variables; iterating gives pairs.)", "anchors": ["shepherd_core/shepherd_core/data_models/base/shepherd.py:ShpModel.__getitem__", "shepherd_core/shepherd_core/data_models/base/shepherd.py:ShpModel.__contains__", "shepherd_core/shepherd_core/data_models/base/shepherd.py:ShpModel.keys", "shepherd_core/shepherd_core/data_models/base/shepherd.py:ShpModel.items"]}
{"id": "C122", "title": "The hash of a model tells its content", "statement": "Two models of a class have the same hash exactly if they are equal, unless SHA3 has a collision.", "quantifier": "all pairs of models with nested models, lists and dictionaries, all texts and numbers in them", "why_tests_cant": "needs that the printed dictionary can be read in one way only, for all texts with quotes, brackets and escapes; tests compare a few hashes. (Violated: -0.0 equals 0.0 but has another hash, as have dictionaries filled in another order; the class has no influence.)", "anchors": ["shepherd_core/shepherd_core/data_models/base/shepherd.py:ShpModel.get_hash"]}
{"id": "C123", "title": "The printed form of a model tells its content", "statement": "Two models of a class that are printed the same are equal.", "quantifier": "all pairs of models of a class, nested, with any given and left out fields", "why_tests_cant": "all combinations of given, left out and default values; tests do not read printed models. (Violated: fields filled by a factory - id, created - are not printed.)", "anchors": ["shepherd_core/shepherd_core/data_models/base/shepherd.py:ShpModel.__repr__", "shepherd_core/shepherd_core/data_models/base/content.py:ContentModel"]}
{"id": "C124", "title": "The layout table lists the testbed", "statement": "The table of the testbed layout has one row for each target connected to an active observer with active cape, with the values of that place in the column of each title, and can be read back as that table.", "quantifier": "all testbeds, all lists of targets, all names and descriptions", "why_tests_cant": "all testbeds and all texts in them; the script has no tests. (Violated: a description may hold the separator, a name a newline; an active observer without cape stops the script.)", "anchors": ["extra/gen_testbed_layout.py", "shepherd_core/shepherd_core/data_models/testbed/testbed.py:Testbed.get_observer"]}
{"id": "C125", "title": "Completing what is complete changes nothing", "statement": "Completing the result of a completion by the fixture database again returns the same values, so a model read back from its own dump is the model.", "quantifier": "all fixture databases, all items and partial values, all inheritance chains", "why_tests_cant": "all database shapes and chain lengths. (Violated: a derived element which has the name of another element takes entries of that one at the second completion.)", "anchors": ["shepherd_core/shepherd_core/testbed_client/fixtures.py:Fixture.inheritance", "shepherd_core/shepherd_core/testbed_client/client_abc_fix.py:FixturesClient.try_completing_model"]}
{"id": "C126", "title": "A target knows its number and its controllers", "statement": "A target created from a name, an id or given values has the controllers these stand for, completed from the database, and a number within 16 bits that tells it from other targets; everything else is refused with a ValidationError.", "quantifier": "all fixture databases, all given values, all ids, names and inheritance chains", "why_tests_cant": "all databases and ids; tests use the few targets of the fixtures. (Violated: ids with the same lower 16 bits share a number, a missing id or an id given as text ends in TypeError.)", "anchors": ["shepherd_core/shepherd_core/data_models/testbed/target.py:Target.query_database", "shepherd_core/shepherd_core/data_models/testbed/mcu.py:MCU.query_database"]}
{"id": "C127", "title": "Tasks start when it was asked for", "statement": "A recording or emulation task starts at the instant that the given number, text or datetime means at this place, which is not over yet, and all observers of an experiment start at this instant and write to one directory of this run; every other value is refused with a ValidationError.", "quantifier": "all given values, zones, readings of the clock, durations, auxiliary voltages, experiment names and numbers of observers", "why_tests_cant": "the outcome depends on zone, offset and moment of construction; a test runs in one zone at one moment", "anchors": ["shepherd_core/shepherd_core/data_models/task/emulation.py:98-131", "shepherd_core/shepherd_core/data_models/task/harvest.py:57-83", "shepherd_core/shepherd_core/data_models/task/observer_tasks.py:48-79"]}
{"id": "C128", "title": "Task sets stay within the limits of programmer and testbed", "statement": "An accepted task for programming names a hex file, a known port, controller and protocol, a voltage of 1 V to below 5 V, a rate of 1 to 1000000 and a verbosity of 0 to 4; an accepted set names 1 to 128 different observers with legal names whose programming tasks are all within these limits; every set within the limits is accepted unchanged. The properties of an accepted experiment (name, texts, owner, duration) are within the same limits, and every experiment within them is accepted unchanged.", "quantifier": "all documents given for ProgrammingTask, ObserverTasks and TestbedTasks", "why_tests_cant": "each limit is one of many fields of a nested document; tests build one task of each kind", "anchors": ["shepherd_core/shepherd_core/data_models/task/programming.py:25-47", "shepherd_core/shepherd_core/data_models/task/observer_tasks.py:22-46", "shepherd_core/shepherd_core/data_models/task/testbed_tasks.py:19-45", "shepherd_core/shepherd_core/data_models/base/content.py:15-32", "shepherd_core/shepherd_core/data_models/experiment/experiment.py:28-60"]}
{"id": "C129", "title": "The converter tells the state it is in", "statement": "After each step the getters of the converter return the input power, output power and storage voltage of this step, the code of the storage voltage is ordered like the codes of the output, values that were set are told and used for charging the storage, and the flag for logging gpio is set exactly if the output voltage suffices.", "quantifier": "all valid configurations and calibrations, all inputs, simulations of any length, all set values", "why_tests_cant": "agreement has to hold after every step of every simulation; tests look at few values of one run", "anchors": ["shepherd_core/shepherd_core/vsource/virtual_converter_model.py:51-57", "shepherd_core/shepherd_core/vsource/virtual_converter_model.py:234-237", "shepherd_core/shepherd_core/vsource/virtual_converter_model.py:257-288"]}
{"id": "C130", "title": "A collected inventory shows the machine", "statement": "A collected inventory contains the present, the rounded seconds since the start of the machine, its platform, the lines that df and beagle-version write, the answer of ptp4l, the addresses of all interfaces as (ip, mac) and the versions of the installed modules; and an inventory can be collected on every machine.", "quantifier": "all machines: all outputs of the programs as bytes, all interfaces, all sets of installed modules, all platform texts", "why_tests_cant": "the only test collects on the machine it runs on; other outputs, interfaces and modules never appear", "anchors": ["shepherd_core/shepherd_core/inventory/system.py:50-113", "shepherd_core/shepherd_core/inventory/python.py:30-49", "shepherd_core/shepherd_core/inventory/__init__.py:40-53", "shepherd_core/shepherd_core/data_models/base/shepherd.py:66-73"]}
{"id": "C131", "title": "The shipped harvesters and sources, and own ones on top of them, are usable", "statement": "Every harvester and source of the shipped files is accepted under its name in every spelling and under its number, is what its name tells (algorithm, voltage, curves per second, converters) and the same as its synonyms; a source that inherits from a shipped one with other values inside the limits is accepted, has exactly these values and otherwise those of the shipped one; and each of these sources runs with every usual target to the end of every recording.", "quantifier": "all shipped harvesters and sources, all spellings, all dictionaries of an own source, all targets, calibrations and recordings, all depths of the recursion above 10", "why_tests_cant": "the tests make a few of the models by name; they neither look at the values, nor at the numbers, nor combine own values with every base, nor run the simulation with all of them", "anchors": ["shepherd_core/shepherd_core/data_models/content/virtual_harvester_fixture.yaml:8-168", "shepherd_core/shepherd_core/data_models/content/virtual_source_fixture.yaml:6-246", "shepherd_core/shepherd_core/data_models/content/virtual_harvester.py:74-111", "shepherd_core/shepherd_core/data_models/content/virtual_source.py:114-126", "shepherd_core/shepherd_core/data_models/base/content.py:66-73"]}
{"id": "C132", "title": "The shipped testbed takes exactly the experiments on its real targets", "statement": "The shipped descriptions of controllers, targets, capes, observers and of the testbed are accepted, each component by name and by id with the same result; Testbed() is the testbed of the group with eleven observers; every target is found on exactly the observer it is plugged into; an experiment is accepted exactly when it uses real targets of the testbed, none twice, with firmware for the right controllers, enough distinct ids and no negative duration; and the tasks of each accepted experiment go to the observers that carry its targets, with distinct ids in the firmwares. Components of any origin keep the limits of their types; an own controller, or an own target with controllers of the database, is made exactly from values within the limits and refused with ValueError otherwise; each shipped firmware is found under its name in any spelling with its own controller, and no other name is found; an address is four decimal numbers below 256.", "quantifier": "all shipped components, all target ids, all experiments, clocks and formats of time, all depths of the recursion above 10; all dictionaries of values and all databases for the limits, all texts for names and addresses", "why_tests_cant": "the tests make experiments with a handful of targets; an id in the wrong entry, two observers with the same socket or a cape used twice is only seen when the whole testbed is combined with every experiment", "anchors": ["shepherd_core/shepherd_core/data_models/testbed/mcu_fixture.yaml", "shepherd_core/shepherd_core/data_models/testbed/target_fixture.yaml", "shepherd_core/shepherd_core/data_models/testbed/cape_fixture.yaml", "shepherd_core/shepherd_core/data_models/testbed/observer_fixture.yaml", "shepherd_core/shepherd_core/data_models/testbed/testbed_fixture.yaml", "shepherd_core/shepherd_core/data_models/testbed/mcu.py:24-50", "shepherd_core/shepherd_core/data_models/testbed/target.py:23-61", "shepherd_core/shepherd_core/data_models/testbed/cape.py:26-48", "shepherd_core/shepherd_core/data_models/testbed/observer.py:21-70", "shepherd_core/shepherd_core/data_models/testbed/testbed.py:23-92"]}
{"id": "C133", "title": "The simulations report the energy of what they produce", "statement": "simulate_source and simulate_harvester return, up to the rounding of the additions (in whatever order numpy sums an array), the energy of the points they produced for the complete buffers of the recording: a finite number that is not negative for points without negative power; writing a file has no influence on it, the file of the source holds the same points and its energy differs by at most 2.5 uW times the duration; a harvester that passes operating points on reports their energy, the optimal one at least that of the samples of the curves.", "quantifier": "all recordings of up to 2^40 samples, buffer sizes, sample intervals up to 1 s, orders of summation, sources, harvesters and targets", "why_tests_cant": "the rounding depends on the values, the number of samples and on the order in which numpy adds", "anchors": ["shepherd_core/shepherd_core/vsource/virtual_source_simulation.py:26-112", "shepherd_core/shepherd_core/vsource/virtual_harvester_simulation.py:24-72", "shepherd_core/shepherd_core/reader.py:193-238"]}
{"id": "C134", "title": "Generated ids are valid and differ", "statement": "id_default gives an id between 0 and 2^128 - 1, as the models demand; two of them are equal exactly if the last 32 digits of the hashes of their times are.", "quantifier": "all clocks, all texts of times, all hashes with 56 hexadecimal digits", "why_tests_cant": "an id depends on the time of the call, and equal ones appear only for calls at almost the same moment", "anchors": ["shepherd_core/shepherd_core/data_models/base/content.py:30-37", "shepherd_core/shepherd_core/data_models/base/timezone.py:16-18"]}
{"id": "C135", "title": "The cache lies where the user expects it", "statement": "Without XDG_CACHE_HOME, or if it is empty, the cache is .cache/shepherd_datalib in the home of the user; otherwise it is shepherd_datalib in the given directory, of which empty parts and single dots are dropped, and it leads to the root exactly if the setting begins with a slash.", "quantifier": "all settings of the variable and all homes", "why_tests_cant": "the path is made once when the module is imported, in the environment of the test", "anchors": ["shepherd_core/shepherd_core/testbed_client/cache_path.py:7-17"]}
{"id": "C136", "title": "A stored model is found again, online it is sent in the name of its owner", "statement": "FixturesClient.insert says True exactly if the model is stored: it is then found by its number and by its name and replaces an earlier one of that name, and every other query has its old answer. WebClient.insert sends one request with the wrapped model and the identity of the user to the server, says True exactly if the server accepts it, and passes its failure on otherwise. Without a server given, the default one of the class is asked.", "quantifier": "all databases made by inserts, all models, servers and their answers, tokens", "why_tests_cant": "all models and databases; no test has a server. (Violated: nameless models give True and are not stored; the earlier model of the same name stays in place under its number; neither token nor session key is sent; the default server of the class is never used.)", "anchors": ["shepherd_core/shepherd_core/testbed_client/client_abc_fix.py:88-109", "shepherd_core/shepherd_core/testbed_client/client_web.py:28-58", "shepherd_core/shepherd_core/testbed_client/client_web.py:124-157"]}
