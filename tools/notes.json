{
 "C05": {
  "note": "REFUTED by the code: with linear extrapolation mppt_po (and mppt_voc) return negative currents on ordinary curves; proved for pass-through, mppt_opt, all algorithms without extrapolation, and plain cv with extrapolation"
 },
 "C06": {
  "note": "bounds, constancy between updates and step size; interval must be positive and below 2^30+1 or longer than two windows, which C09 guarantees for converted configurations"
 },
 "C39": {
  "status": "proved",
  "note": "full characterisation for all 256 byte values; C39_eight_bit_refuted shows that bytes above 127 are indeed altered"
 },
 "C40": {
  "note": "REFUTED by the code: a character after a lone CR and an unterminated last line are lost; proved for LF / CR LF terminated lines, and that nothing is ever invented or reordered"
 },
 "C30": {
  "note": "REFUTED by the code: a rejected call with force_overwrite has already emptied the file, one with modify_existing may have changed attributes; proved for calls that request neither, and for modifying something that is no recording"
 },
 "C32": {
  "note": "REFUTED by the code: store_config writes a root attribute, get_config reads the data group; the stored text is only available as reader['config']"
 },
 "C33": {
  "note": "REFUTED by the code: the interval is divided by n instead of n-1 for every recording; the sample rate is proved right and the error of the interval is given exactly"
 },
 "C35": {
  "note": "REFUTED by the code: the mean of block means is not the mean for uneven blocks; minimum and maximum proved for all datasets, mean for lengths up to one block or multiples of it"
 },
 "C36": {
  "note": "REFUTED by the code: crashes for recordings of up to one buffer, jumps at multiples of 400 buffers are missed; the result is characterised exactly for all recordings"
 },
 "C37": {
  "note": "REFUTED by the code: the step is returned in raw units scaled by 1/1000, and falling ramps wrap around; rising stair cases: the raw step is proved to be found"
 },
 "C43": {
  "note": "REFUTED by the code for parents given as integers (AttributeError); proved for all databases built by inserts and references by name, including termination"
 },
 "C44": {
  "status": "proved",
  "note": "every circle ends in an exception at any recursion limit; only a direct self-reference is noticed (ValueError), every other circle runs into the recursion limit (C44_circle_undetected_refuted)"
 },
 "C47": {
  "note": "REFUTED by the code: validation compares full ids, the firmware gets the id modulo 2^16 (1 and 65537 collide); proved when every target carries its own id (ids below 2^16)"
 },
 "C48": {
  "note": "REFUTED by the code: accepted experiments with a 5 V controller, a controller name outside ASCII, GPIO actuation or a start in the past cannot be translated, and an inactive twin on port A attracts the tasks of port B; for all other experiments task sets, order, files and ports are proved"
 },
 "C49": {
  "note": "REFUTED by the code: observer names may repeat in a testbed, then files and output entries collide; proved for distinct names, for all files written"
 },
 "C50": {
  "note": "REFUTED by the code: an active observer without cape listed earlier causes an AttributeError; all outcomes are characterised exactly"
 },
 "C59": {
  "note": "REFUTED by the code: targets are compared as whole objects, so one target id may occur twice; acceptance is characterised exactly"
 },
 "C60": {
  "note": "REFUTED by the code: firmware 2 is accepted and programmed for targets without second controller; proved for all controllers that exist"
 },
 "C58": {
  "note": "REFUTED by the code: datasets of different lengths only produce a warning; the files reported as valid are characterised exactly"
 },
 "C52": {
  "note": "REFUTED by the code: the comparison with the start address can never be true (and half a vector raises); the accepted images are characterised exactly"
 },
 "C62": {
  "note": "REFUTED by the code: any readable hex file that is no MSP430 image is called nRF52, even without data; the answers are related to the checks"
 },
 "C63": {
  "note": "REFUTED by the code for firmware given by path (a changed file is only logged); embedded firmware proved"
 },
 "C64": {
  "note": "REFUTED by the code: names that differ only behind the last dot share a file; proved for names without dots"
 },
 "C65": {
  "note": "REFUTED by the code: an ELF file named *.hex is overwritten; proved for all other names"
 },
 "C41": {
  "note": "REFUTED by the code for several blocks and a factor that does not divide 4000000 (irregular spacing, exception); proved for one block or a dividing factor, also for the written file"
 },
 "C42": {
  "note": "REFUTED by the code: a missing offset counts as 1; proved for columns with attributes and for raw export"
 },
 "C55": {
  "note": "REFUTED by the code: unreadable files and files with another suffix are skipped; the exit code is characterised exactly"
 },
 "C56": {
  "note": "REFUTED by the code: factor of the first file is reused, fractions are cut, a target above the rate selects a default list; proved for equal rates, a single file and an explicit factor"
 },
 "C67": {
  "note": "REFUTED by the code: the runtime is rounded to 0.1 s; proved for such durations, deviation bounded otherwise"
 },
 "C68": {
  "note": "REFUTED by the code: names hold the rounded factor, leftovers of failed calls are returned; proved: no existing file is changed, whole factors have different names"
 },
 "C21": {
  "note": "binary64 arithmetic with every rounding (Flocq); the needed ratio of offset to gain is 2^51, a witness shows it breaks at 2^54"
 },
 "C22": {
  "note": "non-negative and monotone for all pairs; accuracy bound for values and offsets up to 2^1000"
 },
 "C23": {
  "note": "struct.pack modelled on the IEEE bit patterns; units are not stored and come back as default units"
 },
 "C24": {
  "note": "REFUTED by the code: extreme gains raise OverflowError instead of ValueError; ranges, rounding and completeness proved, every failure is one of these two exceptions"
 },
 "C25": {
  "note": "all codes; the neighbour below does occur (code 29 of the voltage converter)"
 },
 "C69": {
  "note": "default calibrations of all eight channels against the converter formulas, all values in the range of the converter"
 },
 "C10": {
  "note": "binary64, arbitrary (also infinite or undefined) inputs, any calibration; a calibration below 2^100 never stops the simulation. Before the first step the configured start value is not limited (C10_initial)"
 },
 "C11": {
  "note": "both directions as equivalences, plus the voltage taken from the storage at switching on"
 },
 "C12": {
  "note": "closed form of the check steps, including the preset of the counter"
 },
 "C13": {
  "note": "bounds and the exact output voltage; code of the DAC in range for every calibration"
 },
 "C14": {
  "note": "both edges as equivalences; the flag starts as true (C14_initial)"
 },
 "C15": {
  "note": "REFUTED by the code: storage without boost converter and with input resistor credits a source below the storage voltage with the storage voltage; never negative always, covered otherwise; exact power for all three circuits",
  "status": "partial"
 },
 "C16": {
  "note": "exact drawn power after the start-up phase"
 },
 "C17": {
  "note": "every valid calibration, streams of any length, plus the balance of the compensation"
 },
 "C18": {
  "note": "the entry that is used is characterised by the scale, for all finite values"
 },
 "C70": {
  "note": "exact formula with all roundings and its direction"
 },
 "C71": {
  "note": "counters as extended reals (they may overflow to infinity), refinement of the converter simulation"
 },
 "C72": {
  "note": "REFUTED by the code: ZeroDivisionError when the storage is exactly emptied by connecting the output; proved in all other cases",
  "status": "partial"
 },
 "C08": {
  "note": "complete for emulation and recording; [dispatch] compares with the algorithms by name, including direction and extrapolation flags"
 },
 "C09": {
  "note": "conversion succeeds for every sensible request (input type, window and step given for curves); a window or step handed over by the caller must itself fit 32 bits"
 },
 "C19": {
  "note": "REFUTED by the code: an output efficiency in (0, 2^-1020] passes validation and makes the conversion raise OverflowError; proved that this is the only failure and that all registers are the rounded values; pow(x, .5) is assumed not to be negative"
 },
 "C20": {
  "note": "all five flags, for every converted configuration; equal mode numbers mean equal features"
 },
 "C73": {
  "note": "REFUTED by the code: without an explicit voltage step, a range below 7 steps of 1 mV (for example a fixed operating point) is rejected because the derived step is below its own lower limit; proved that this is the only reason"
 },
 "C74": {
  "note": "REFUTED by the code: samples_n = 1 without a step raises ZeroDivisionError, sample counts beyond 2^1023 raise OverflowError; proved that nothing else escapes"
 },
 "C75": {
  "note": "assumes pow accurate to 2^-51 (relative), capacity of at least 1 nF and an energy that leaves 1 mV^2; the limits of drop and thresholds need neither"
 },
 "C76": {
  "note": "REFUTED by the code: exchanged thresholds are accepted and converted; proved that ordered ones stay ordered through all derived cases"
 },
 "C53": {
  "note": "REFUTED by the code: delay 0.1 s, period 0.1 s, count 3 gives four events (rounded range end), a delay of 2^60 s none; restricted versions proved: exact for binary fractions, otherwise at most one event too many and all times within a few roundings"
 },
 "C54": {
  "note": "REFUTED by the code: a constant-power target divides by zero at 0 V, constructors accept NaN; restricted version proved: all other cases return a finite, non-negative current of the right size"
 },
 "C77": {
  "note": "REFUTED by the code: the iteration stops before it converges at low voltage (2 uA instead of 0.1 nA for the example LED at 0.5 V); restricted version proved: correct as soon as 65 mV fall across the resistor"
 },
 "C78": {
  "note": "with and without feedback, with and without extrapolation"
 },
 "C79": {
  "note": "REFUTED by the code: a constant-power target divides by zero in the first step without output; restricted version proved: resistor, current and diode targets run through every recording"
 },
 "C80": {
  "note": "REFUTED by the code: a recording without configuration whose voltage only falls crashes both simulations (unsigned differences wrap, the step does not fit its register); restricted version proved: exact reproduction in all other cases, error bound for other calibrations"
 },
 "C81": {
  "note": "REFUTED by the code: explicit Euler step, an empty storage gains more than 1000 times the energy of the input; restricted version proved: per-step balance with the surplus (change of voltage)^2 and a rounding bound"
 },
 "C82": {
  "note": "exp is a parameter (defined, monotone, 1 at 0); witness: the correctly rounded exponential"
 },
 "C83": {
  "note": "REFUTED by the code: a row without light raises ValueError, a missing voc column raises KeyError (ivcurve), find_oc returns 0 V for curves that stay above 5 %; restricted version proved: exact result for positive shares, exception in all other cases"
 },
 "C84": {
  "note": "REFUTED by the code: lengths with one or two intervals in the last pass raise ValueError, curves that do not divide the row interval leave gaps, rates above 100 kHz raise ZeroDivisionError; restricted version proved for all three converters"
 },
 "C85": {
  "note": "step relation for all harvesters with a setpoint; exact results and distance for the constant-voltage harvester"
 },
 "C86": {
  "note": "REFUTED by the code: pairs that all have the same raw value are accepted with an arbitrary line through the point; restricted version (two different raw values) proved"
 },
 "C87": {
  "note": "exact rational arithmetic; the least-squares solution of numpy is the exact one"
 },
 "C88": {
  "note": "REFUTED by the code: the unit of a channel is lost by calibrating; the channels themselves proved"
 },
 "C89": {
  "note": "REFUTED by the code: fractions of seconds are lost, identifiers and dates made by factories are renewed when a minimal file is read, tasks are unreadable after their start; restricted version proved, and what exactly is lost of durations"
 },
 "C90": {
  "note": "REFUTED by the code: the version is missing in minimal files, so the version of the reader is reported; class, comment and date proved"
 },
 "C91": {
  "note": "REFUTED by the code: names with a dot lose their last part and collide; restricted version proved"
 },
 "C92": {
  "note": "for any classes with the names of the tasks; single tasks also through files"
 },
 "C93": {
  "note": "REFUTED by the code: names used twice, text read as YAML, attributes that raise; proved for trees with distinct names, totality for attributes that can be shown"
 },
 "C94": {
  "note": "REFUTED by the code: names compared by containment, unknown names, quoted numbers, empty traces; proved for usable descriptions and names no earlier name contains"
 },
 "C95": {
  "note": "REFUTED by the code: subgroups and nested groups; proved for groups of datasets"
 },
 "C96": {
  "note": "REFUTED by the code for a limit of 0; proved for limits from 1"
 },
 "C97": {
  "note": "REFUTED by the code: recordings that raise other exceptions than TypeError, header, lines without time, shared stems; proved for extractable recordings with different stems"
 },
 "C98": {
  "note": "REFUTED by the code: no single bits, slow pins; proved for frequent single bits (jitter up to 12 %, rare glitches), totality for levels shorter than 2 s"
 },
 "C99": {
  "note": "REFUTED by the code: analog signals are overwritten; repeated decoding proved, unchanged array for digital signals"
 },
 "C100": {
  "note": "REFUTED by the code: zones with daylight saving time in winter; exact condition, ages and distances proved"
 },
 "C101": {
  "note": "REFUTED by the code: cache hides the path, empty files; proved without usable cache and for caches with the contents of the files"
 },
 "C102": {
  "note": "REFUTED by the code: warn() on collected inventories, wrong clocks, missing versions, equal names; commas in values; restricted versions proved"
 },
 "C103": {
  "note": "REFUTED by the code: token as text, capital letters, empty address, data models; connection and owner/group proved"
 },
 "C104": {
  "note": "proved for completions and everything done with their results; _refuted theorems record that queries and insertions share dictionaries, which the statement does not exclude",
  "status": "proved"
 },
 "C105": {
  "note": "REFUTED by the code: '..', control characters, letters outside of ASCII; paths proved for all names without zero byte"
 },
 "C106": {
  "note": "REFUTED by the code: 120.3 s at 100 kHz raises ValueError, a window behind the data TypeError, less than 50 ms gives nothing; restricted versions proved (windows up to max_elements samples; longer ones if the factor divides max_elements)"
 },
 "C107": {
  "note": "REFUTED by the code: crash in one file stops the others, IndexError without data, pictures of other options, windows or directories share a name; restricted versions proved; nothing is overwritten in any case"
 },
 "C108": {
  "note": "REFUTED by the code: a missing description or an unreadable warning ends the command, a missing offset counts as one, torsos are kept; proved for recordings with complete attributes"
 },
 "C109": {
  "note": "REFUTED by the code: short recordings give neither table nor error, a file without samples ends the command; proved for files that can be cut and names that are not in use"
 },
 "C110": {
  "note": "REFUTED by the code: lengths still differ or zeros are invented if times or currents are shortest, combinations of defects raise, a foreign file ends the script; proved for recordings with one kind of curable defect, and that sound recordings and other files stay untouched"
 },
 "C111": {
  "note": "AssertionError is represented by RuntimeError, float() is arbitrary; columns aligned to the left, which are silently cut, are an example outside of the quantifier"
 },
 "C112": {
  "note": "REFUTED by the code: links below -104 dBm get a negative width, an unknown node prevents all links, tags over several lines are torn apart; proved for all other matrices and floor plans with one-line tags"
 },
 "C113": {
  "note": "REFUTED by the code: nested loops over one fixture end the outer loop after its first round, a loop that inserts copies never ends, 'name in fixture' is always False; the listing is proved for all earlier uses"
 },
 "C114": {
  "note": "REFUTED by the code: when objects share a name, the numbers of ids and names differ and the earlier object is known by its id only; a testbed without name leads to IndexError; the rest is proved"
 },
 "C115": {
  "note": "REFUTED by the code: a second field in the description makes inputs drivable (GPIO(name='GPIO4', direction='OUT')), a new name makes BAT_OK drivable (GPIO(id=1009, name='gpio_x')), the same pin with another comment counts twice; for pins given by name or id alone the property is proved"
 },
 "C116": {
  "note": "REFUTED by the code: listed pins and mask are unrelated, the decoded UART pin need not be in the mask, calculate_power always fails with NotImplementedError; the conditions of acceptance are proved"
 },
 "C117": {
  "note": "REFUTED by the code: --verbose of the cli does not reach the readers, opening a reader changes the level of all readers, a negative verbosity changes nothing, the source of messages is lost since the import; the global level, the package's logger and the setter are proved"
 },
 "C118": {
  "note": "REFUTED by the code: a token given as text is never sent, an empty address gives a connected client without a user, a failed connection leaves a half-made client in place, the data models keep using the fixtures; requests and success for the other tokens, filling in and the user's fields are proved"
 },
 "C119": {
  "note": "REFUTED by the code: texts without /content/ (embedded firmwares too) keep only their last character, a directory content above becomes part of the path, hex is called elf, one broken file stops everything; entries, order, skipped files, failures and plain paths are proved"
 },
 "C120": {
  "note": "REFUTED by the code: short recordings of interrupted runs are kept and called complete, empty ones make all further runs fail, pairs that round to the same name share a file; uninterrupted runs, further runs and the energies after any history are proved"
 },
 "C121": {
  "note": "REFUTED by the code: a missing key raises AttributeError instead of KeyError, names of methods are answered, iterating gives pairs; keys, access to fields, items and membership are proved"
 },
 "C122": {
  "note": "REFUTED by the code: equal models may have different hashes (-0.0, order of a dictionary), the class is not part of the hash; that the hash tells the values and their names (or a collision is at hand) is proved with unique readability of the printed dictionary"
 },
 "C123": {
  "note": "REFUTED by the code: values from factories (id, created) are not printed; proved if all that was not given has a constant default"
 },
 "C124": {
  "note": "REFUTED by the code: a separator in a description or a newline in a name breaks the table, an active observer without cape stops the script; rows, reading back and agreement with get_observer are proved for plain texts and equipped observers"
 },
 "C125": {
  "note": "REFUTED by the code: a derived element with the name of another element (given so, or asked for by id when its name was used again) gets entries of that other element when completed again; proved for all items asked for by name, for overrides of known elements, and whenever the element the result stands for took part in making it"
 },
 "C126": {
  "note": "REFUTED by the code: targets whose ids agree in the lower 16 bits share their number, a new target without id or with the id as text raises TypeError instead of ValidationError; limits, controllers, numbers and distinctness for small ids are proved"
 },
 "C127": {
  "note": "REFUTED by the code: a date raises AttributeError and a number out of range OverflowError instead of ValidationError, observers without start time use different directories, runs at different instants may share a directory, the time of preparation has no zone when the experiment has none; start instants, acceptance, errors and common start are proved for shown times that exist"
 },
 "C128": {
  "note": "REFUTED by the code: any printable name of a controller is accepted, an observer may occur twice in a set and its second tasks are never found; all other limits and the acceptance within them are proved"
 },
 "C129": {
  "note": "REFUTED by the code: get_state_log_gpio is true when the gpio log is to be left out (output voltage below the threshold), the opposite of its name; in the step that connects the output the told storage voltage is lower than the returned one; everything else proved"
 },
 "C130": {
  "note": "REFUTED by the code: without psutil (only a warning) or with an uptime up to 0.5 s, with a module without __version__ or with one that is not a text, or with an answer of a program above 512 characters nothing is collected; lines keep the notation of bytes (b' at the first, ' as last one) and a literal backslash-n splits a line; interfaces are told as (second, first address), which is (mac, ip) or (ipv6, ipv4) on Linux, and those with one address are left out; everything else proved"
 },
 "C131": {
  "note": "REFUTED by the code: the number 2102 is given to cv33 and to cv10, asking for it gives 1 V; everything else proved (the harvester neutral is refused on purpose)"
 },
 "C132": {
  "note": "REFUTED by the code: target 1001, whose comment says that it is virtual and not real, is plugged into sheep05 and taken for experiments; everything else proved, with 1001 counted as a target"
 },
 "C133": {
  "note": "REFUTED by the code: samples after the last complete buffer are neither simulated nor counted, so that recordings below 10000 samples give 0 Ws and an empty file; proved for the complete buffers"
 },
 "C134": {
  "note": "REFUTED by the code: ids are called unique, but two calls in the same microsecond get the same one; range and comparison proved"
 },
 "C135": {
  "note": "REFUTED by the code: a relative setting, invalid according to the XDG specification, is followed and makes the cache depend on the directory of the start; everything else proved"
 },
 "C136": {
  "note": "REFUTED by the code: nameless models give True without being stored, a model replaced by name stays in place under its number, neither token nor session key is sent with a model, and the default server named by the class is never used; everything else proved"
 }
}