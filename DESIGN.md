# Formal model of shepherd-datalib: design

Source under study: `/repo` (orgua/shepherd-datalib, pinned commit), read as text only.
Prover: Rocq/Coq 8.16.1.  All Coq sources are in `rocq/theories`, logical name `Verif`.

## Layout

| layer | files | content |
|-------|-------|---------|
| base  | `PyBase.v`, `F64.v`, `F64x.v` | results with exceptions as values; IEEE binary64 with its real-number lemmas |
| model | `*Model.v` | one Gallina function per Python function, each citing file and lines |
| spec  | `*Spec.v` | small vocabulary, independent of the model's helpers, in which the properties are stated |
| proof | `*Proofs.v` | lemmas |
| properties | `Props*.v` | only `Theorem ... exact lemma`, `Print Assumptions`, and `Example`s on concrete non-trivial data |

`_refuted` theorems give a concrete witness on which the model (and, traced by hand, the code)
violates the English property.  `_partial` theorems prove part of a property; the comment at the theorem and
the note in `MANIFEST.json` say what is missing.  In `MANIFEST.json` a property that the code violates has
status `partial` and a note that begins with "REFUTED by the code".

`tools/mkmanifest.py` builds `MANIFEST.json` from the theorem names and `tools/notes.json`;
`tools/mutate.py` runs one edit of a definition against the whole development (results in `seeded/LOG.jsonl`).

## Modelling decisions

* Python `int` is `Z`; `bool` is `bool`; `str` is `string` (or a list of byte values);
  `list` / `ndarray` / HDF5 dataset is `list`.
* Python `float` in calibration, virtual source and targets is IEEE-754 binary64: Flocq's
  `BinarySingleNaN.binary_float 53 1024`, every operation rounded to nearest-even (`F64.v`), with Python's
  exceptions for division by zero and for converting infinities.  In recording files, UART decoding and
  data tools floats are exact rationals (sums over arbitrarily many samples, durations); the
  header of each model says so.
* An exception is a value: `res A := Ok a | Err e`.  Assignments to attributes become record updates.
  Loops are structural recursion on the data; a loop without such a measure gets fuel and a separate
  out-of-fuel value, with a theorem that it does not run out.
* External libraries are records of functions (`tools` in `FwModel`, `fx` arguments elsewhere) without assumptions,
  or with the assumption stated as a hypothesis of the theorem.
* pydantic: field order, validators and range checks are modelled where a property depends on them;
  ValidationError is the ValueError it derives from.

## What is modelled, what is not

Paths below `shepherd_core/shepherd_core` unless marked.

| model | code | left out |
|-------|------|----------|
| `HarvModel` | `vsource/virtual_harvester_model.py`: all methods | logging |
| `UartModel` | `decoder_waveform/uart.py`: constructor on arrays, filter, durations, symbol and line decoding; `reader.py`: `gpio_to_waveforms` | CSV input, the detector for the baud rate (see `BaudModel`), the one for half stop bits, float rounding of the durations (covered by the jitter hypothesis) |
| `FileModel` | `writer.py`: constructor, enter/exit, append, store_config/hostname, naming; `reader.py`: constructor, `read_buffers`, `energy`, `check_timediffs`, `is_valid`, `get_*`, statistics, voltage step | compression, chunking, flushing, file size, standard deviation, `save_log`, logging, float rounding |
| `FixModel` | `testbed_client/fixtures.py`: `Fixture`, `Fixtures`; `client_abc_fix.py` | YAML, cache files |
| `TbModel` | `data_models/testbed/{testbed,observer,target,mcu}.py`, `experiment/{target_config,experiment}.py`, `task/{firmware_mod,programming,emulation,observer_tasks,testbed_tasks}.py` | descriptive fields |
| `FwModel` | `fw_tools/{patcher,validation,converter,converter_elf}.py`, `data_models/content/firmware.py` | the libraries (pwntools, IntelHex, objcopy, zstd, sha3), as functions |
| `DsModel` | `shepherd_data/shepherd_data/reader.py`: `save_csv`, `downsample`, `cut_and_downsample_to_file`; `shepherd_data/shepherd_data/cli.py`: `validate`, `downsample` | resampling, plotting (see `PlotModel`), other commands, the filter coefficients (the filter is an arbitrary state machine) |
| `CalModel` | `calibration_hw_def.py` (all), `data_models/base/calibration.py`: pairs, harvester, emulator, cape, series | numpy array variants, `CalMeasurement*` (see `MeaModel`), hashing |
| `ConvModel` | `vsource/virtual_converter_model.py` (all), `vsource/virtual_source_model.py`: `iterate_sampling` behind the harvester | integer/float distinction of the state (all integers are below 2^53), state after an exception; the feedback into the harvester is in `SimModel` |
| `CfgModel` | `data_models/content/virtual_harvester.py`, `data_models/content/virtual_source.py`: fields, validators, derived values, conversion to registers | fixtures and inheritance (see `FixModel`), metadata; `pow` is a parameter (`pypow`) |
| `TgtModel` | `vsource/target_model.py` (all), `experiment/observer_features.py`: `GpioEvent` | `log`, `expm1` are parameters (`pymath`); the pin of an event; supply voltages are integers |
| `SimModel` | `vsource/virtual_source_model.py` (all, with feedback), `vsource/virtual_source_simulation.py`, `vsource/virtual_harvester_simulation.py`: the loops; `reader.py`: `get_voltage_step` over binary64 | plots and statistics, sums of energy (see `SumModel`), progress bar, splitting into buffers (samples are processed one by one), the file handling (see `FileModel`) |
| `IvoModel` | `shepherd_data/shepherd_data/mppt.py` (all), `shepherd_data/shepherd_data/ivonne.py`: `get_voc`, the three converters | pickle file, progress bar, writing of the file (see `FileModel`); `exp`, `log` and the spline are parameters; row times are exact integers |
| `MeaModel` | `data_models/base/cal_measurement.py` (all) | rounding (exact rationals); numpy's fit is the exact least-squares line, its choice for equal raw values is the one of smallest norm |
| `StoModel` | `data_models/base/shepherd.py`: `to_file`, `from_file`, representers; `base/wrapper.py`; `task/__init__.py`; the classes `SystemLogging`, `PowerTracing`, `HarvestTask` (without its harvester), `Experiment` (without its targets), `ProgrammingTask`, `ObserverTasks`, `TestbedTasks` | text of YAML (the tree of scalars is kept), pydantic's lenient conversions, unions; dictionary access to models and hashes |
| `RepModel` | `reader.py`: `get_metadata`, `count_errors_in_log`, `get_gpio_pin_num`, `gpio_to_waveforms`, `waveform_to_csv`, `gpio_to_uart`; shepherd_data `reader.py`: `save_log`, `warn_logs`; `cli.py`: `extract_uart`, `extract_gpio` | h5py (a file is a tree with attributes), PyYAML, the decoder of UART (C39, C40), text of times and numbers, and what `_dataset_info` and `_group_info` say are parameters; byte order mark |
| `BaudModel` | `decoder_waveform/uart.py`: `detect_baud_rate`, the whole constructor, what it does to its array; `reader.py`: the decoder of `gpio_to_uart` | rounding (exact rationals), `detect_half_stop` (result unused) |
| `EnvModel` | `data_models/base/timezone.py`, `testbed_client/fixtures.py`: `Fixtures.__init__`, `insert_file`, `file_older_than`; `inventory/`: `collect`, `to_csv`, `warn`; `testbed_client/client_web.py`: constructor, `_connect`, `fill_in_user_data` | clock, zone, file system, PyYAML, psutil, commands and server are data; values of an inventory by their text; `submit_experiment`, `insert` of the web client |
| `HeapModel` | `testbed_client/fixtures.py`: `insert`, `__getitem__`, `inheritance`, `query_*`; `client_abc_fix.py`: `query_item`, `try_completing_model`, `fill_in_user_data`, with dictionaries as objects at addresses | objects inside of dictionaries are opaque |
| `NameModel` | `data_models/base/content.py`: `NameStr`, `SafeStr`, `content_validation`; paths of `task/observer_tasks.py` and `task/emulation.py` | pydantic's handling of texts (strip, length, pattern) as documented; years before 1000 |
| `PlotModel` | shepherd_data `reader.py`: `generate_plot_data`, `assemble_plot`, `plot_to_file`, `multiplot_to_file`; `cli.py`: `plot` | matplotlib (a figure is a list of axes with curves), size of pictures, logging, float rounding; the filter is an arbitrary state machine |
| `ExtModel` | `shepherd_data/reader.py`: `save_csv` (text), `warn_logs` (failures); `shepherd_core/reader.py`: `save_metadata`; `shepherd_data/cli.py`: `extract`, `extract_meta` | `str`, `strftime` and `yaml.dump` as parameters; byte order mark left out; white space in ASCII |
| `MendModel` | `shepherd_data/examples/repair_recordings.py` | the list of files as given; reports left out; files opened for modification through the writer of `FileModel` |
| `LinkModel` | `extra/link-visualizer/create_link_svg.py` | ASCII; regular expressions as scanners; `float()` as parameter; strengths exact and finite |
| `IterModel` | `testbed_client/fixtures.py` (iterator, `refs`), `client_abc_fix.py` (`query_ids`, `query_names`), `testbed/testbed.py` (`query_database`) | loops as functions with a number of rounds; warning about several testbeds left out |
| `PinModel` | `testbed/gpio.py`, `gpio_fixture.yaml`, `experiment/observer_features.py` (`PowerTracing`, `GpioTracing`, `GpioEvent`, `GpioActuation`) | texts ASCII; numbers given as text refused; times in microseconds; delay and period of events exact |
| `VerbModel` | `logger.py`, constructors of `reader.py`, `writer.py`, `ivonne.py` and `cli.py` (levels) | formats and handlers (chromalog) left out; level of the root logger a parameter; a command is the number of readers it opens |
| `WebModel` | `client_web.py`, `user_model.py`, client singletons of `client_abc_fix.py` | HTTP answers, validity of e-mail addresses, random token and pbkdf2 are parameters; insert (a POST of the data) left out |
| `PrimeModel` | `extra/prime_database.py`, `ShpModel.from_file` | validation by Firmware and EnergyEnvironment is a parameter; time of creation left out |
| `EenvModel` | `extra/gen_energy_envs.py` | a recording is voltage, current and number of repetitions; its energy is a parameter; a name is the triple of its numbers; interruptions between steps only |
| `DumpModel` | `base/shepherd.py` (`ShpModel`: `__repr__`, `__getitem__`, `__contains__`, `keys`, `items`, `get_hash`) | `repr` of Python for None, bool, int, float, str, Path, UUID, datetime, timedelta, list, dict is modelled; a float is its shortest decimal form; texts ASCII; times without zone or UTC; SHA3 is a parameter |
| `LayModel` | `extra/gen_testbed_layout.py` | the file is its text; coordinates are given as printed; the data base of targets is a list |
| `TargetModel` | `shepherd_core/shepherd_core/data_models/testbed/target.py`, `mcu.py` | dictionaries of FixModel; pydantic's integers and the checks of the other fields as parameters; no values of type bytes |
| `StartModel` | `shepherd_core/shepherd_core/data_models/task/emulation.py`, `harvest.py`, `observer_tasks.py` | zone, clock, fromisoformat, strftime and the range of fromtimestamp as parameters; only the fields about time, auxiliary voltage and actuation |
| `GetModel` | `vsource/virtual_converter_model.py` 257-264, 278-288 | values set are floats |
| `InvModel` | `inventory/system.py`, `inventory/python.py`, `inventory/__init__.py` 40-53 | machine (psutil, platform, programs, imports) is a parameter; only blanks are stripped; the second validation is not repeated |
| `ShipData` | `virtual_harvester_fixture.yaml`, `virtual_source_fixture.yaml` | transcribed; values that are not text as their str() |
| `ShipModel` | `VirtualHarvesterConfig`, `VirtualSourceConfig` as made from a dictionary; `ContentModel` 66-73 | values are read back from str(); unknown fields are refused; formats of names and dates are not checked; only these two files are in the database |
| `BedData` | `testbed/*_fixture.yaml`, firmwares of `content/_external_fixtures.yaml` | transcribed without gpio; values that are not text as their str(); of the firmwares only name and controller |
| `BedModel` | `MCU`, `Target`, `Cape`, `Observer`, `Testbed` as made from a dictionary | values are read back from str(); unknown fields are refused, texts are stripped and limited to 512 characters; texts that pydantic would turn into numbers are refused; dates, url and coordinates are not modelled; a MAC address is a number; fields without meaning for experiments are checked and dropped |
| `SumModel` | `simulate_source`, `simulate_harvester` (loops over buffers, returned energy, stored points) | numpy's sum is a parameter, any order of additions; no progress bars, plots or monitoring of internals |
| `AuxModel` | `id_default`, `_get_xdg_path`, `cache_user_path` | the hash and str() of a time are parameters; ASCII; paths of POSIX systems |
| `AddModel` | `insert`, `query_ids`, `query_names` of both clients, the four methods for experiments | the JSON text of a wrapper and the server's answers are parameters |

Not modelled at all: plots of the simulations, GUI, documentation
code.

## Properties

| id | files | how |
|----|-------|-----|
| C01-C07, C57 | `HarvSpec`, `Harv{Opt,Voc,Cv}Proofs`, `PropsHarv` | state record and step; invariants by induction on the sample list, with the history of samples as ghost state |
| C21, C22 | `CalProofs`, `PropsCal` | forward error analysis of every rounding; monotonicity through infinities by extended values |
| C23 | `CalByteProofs` | byte/word inverses by induction, Flocq's `Bits` bijection for binary64, symbolic evaluation of the walk over the nested dictionaries |
| C24 | `CalExpProofs` | case analysis on overflow, error bounds of one or two roundings |
| C25, C69 | `CalHwProofs`, `CalDefProofs` | error analysis for all codes and values at once (no enumeration) |
| C10-C18, C70-C72 | `ConvSpec`, `Conv{,Step,Run,Src}Proofs`, `PropsConv` | each call as an explicit function of the state over the reals with rounding; invariant over all simulations by induction from the end; infinite and undefined inputs through extended values |
| C26-C37, C58, C61 | `FileSpec`, `File{Sys,Data,Read,Si}Proofs`, `PropsFile`, `FileMoreProofs`, `PropsFileMore` | file system as association list; histories of writer calls by induction |
| C38-C40 | `UartSpec`, `Uart{,Init}Proofs`, `PropsUart` | an encoder as separate specification, arbitrary jitter below half a symbol |
| C41, C42, C55, C56, C67, C68 | `DsSpec`, `Ds{,File,Cli}Proofs`, `PropsDs` | block loop by induction with the filter state as invariant |
| C43-C45 | `FixSpec`, `FixProofs`, `PropsFix` | resolution relation as specification; recursion limit as fuel |
| C46-C50, C59, C60 | `TbSpec`, `TbProofs`, `PropsTb` | exact characterisation of acceptance; task sets by induction on targets and observers |
| C51, C52, C62-C66 | `FwSpec`, `FwProofs`, `PropsFw`, `FwMore{Spec,Proofs}`, `PropsFwMore` | byte-wise specification of a patch; library functions arbitrary |
| C08, C09, C73, C74 | `CfgSpec`, `CfgHrvProofs`, `PropsCfg` | error analysis of each register; acceptance characterised exactly, including the derived defaults |
| C19, C20, C75, C76 | `Cfg{Src,Drop}Proofs`, `PropsCfg` | every register as rounded real function of its field; infinite, undefined and complex intermediate values by cases; energy balance by error propagation through the square root |
| C53 | `TgtSpec`, `TgtEventProofs`, `PropsTgt` | numpy's range function from its source; error of the rounded quotient below one half |
| C54, C77 | `Tgt{,Diode,Math,Solve,Conv}Proofs`, `PropsTgt` | each pass of the diode loop as a rounded real map; contraction towards the solution of the circuit, or halving away from it; `log` and `expm1` assumed accurate to 30 bits (witness: correctly rounded functions) |
| C78 | `Sim{,Loop,Feed}Proofs`, `PropsSim` | the run of the source is projected to both parts by induction over the samples; magnitudes bounded by powers of two for totality; invariant for setpoint and point in use with feedback |
| C79 | `SimTgtProofs`, `PropsSim` | invariant of the converter, range of the output with the default calibration, bounds on the target currents; end to end from the validated configuration |
| C80 | `SimHrvProofs`, `PropsSim` | rounding errors of both conversions stay below half a step; case distinction over rising and falling neighbours for the step |
| C81 | `ConvEnergyProofs`, `PropsSim` | rounding analysis of one Euler step |
| C82, C83 | `IvoSpec`, `Ivo{,Grid}Proofs`, `PropsIvo` | rounding is monotone, so the curve is, infinities included; loop invariant of numpy's `argmax`; `linspace` from its source with error bound |
| C84 | `Ivo{Up,File}Proofs`, `PropsIvo` | induction over the slices, arithmetic of the grid of times; the spline is arbitrary |
| C85 | `HarvExtProofs`, `PropsExt` | one call as a relation between visible points, with the direction as ghost state; induction over the samples without a crossing |
| C86-C88 | `MeaSpec`, `MeaProofs`, `PropsMea` | normal equations; the residual as quadratic form, minimal at the solution; Cauchy-Schwarz for the coefficient |
| C89-C91 | `StoSpec`, `StoProofs`, `PropsSto` | induction over descriptions of classes (fields, defaults, validators), for every class at once |
| C92 | `StoProofs`, `PropsSto` | composition of C89 with the selection of the observer; class descriptions are parameters |
| C93 | `RepSpec`, `RepProofs`, `PropsRep` | induction over trees and paths; dictionaries with distinct keys |
| C94-C96 | `RepProofs`, `PropsRep` | induction over pins, columns, entries; C38 says what the waveform of a bit contains |
| C97 | `RepProofs`, `PropsRep` | recordings own disjoint sets of paths (injectivity of names), induction over the list |
| C98, C99 | `BaudSpec`, `BaudProofs`, `PropsBaud` | position in a sorted list by counting; durations scaled to bits; decoding itself by C39 |
| C100–C103 | `EnvSpec`, `EnvProofs`, `PropsEnv` | case analysis; loops of `warn` by what they list for each key and value; commas counted over concatenations |
| C104 | `HeapSpec`, `HeapProofs`, `PropsHeap` | old part of the heap unchanged and result new, by induction on the depth; simulation of `FixModel` |
| C105 | `NameSpec`, `NameProofs`, `PropsName` | splitting at slashes, digits of dates, sizes in UTF-8 |
| C106, C107 | `PlotSpec`, `PlotProofs`, `PlotFileProofs`, `PropsPlot` | arithmetic of blocks and factors; induction on the list of files with the pictures as state |
| C108 | `ExtSpec`, `ExtProofs`, `PropsExtract` | induction on entries, groups and recordings; names of files told apart by their last dots |
| C109 | `ExtSpec`, `ExtFileProofs`, `PropsExtract` | calibration of the new file through writer and reader; independence of cutting from other files; C41 for the samples |
| C110 | `MendSpec`, `MendProofs`, `PropsMend` | each step of the script as a cut of the columns; the writer and reader of a modified file through C01-C05 |
| C111 | `LinkSpec`, `LinkProofs`, `PropsLink` | layout of a printed matrix as specification; scanner states by induction on fields; cells as slices |
| C112 | `LinkSpec`, `LinkDrawProofs`, `PropsLink` | collected pairs as function of the dictionary by induction from the end; texts split and joined; the second insertion finds the place of the first |
| C113 | `IterSpec`, `IterProofs`, `PropsIter` | invariant of the dictionaries under every operation by induction; loop by induction on the rest of the list; endless loop by induction on the rounds |
| C114 | `IterSpec`, `IterProofs`, `PropsIter` | the same invariant for all components; order of insertion as inductive relation with one answer |
| C115 | `PinSpec`, `PinProofs`, `PropsPin` | exact conditions of acceptance for any dictionary; lookup in the cape's fixtures for any text; sets of pins by induction |
| C116 | `PinSpec`, `PinProofs`, `PropsPin` | exact conditions of acceptance; counterexamples |
| C117 | `VerbSpec`, `VerbProofs`, `PropsVerb` | invariant over all sequences of calls, by induction |
| C118 | `WebSpec`, `WebProofs`, `PropsWeb` | case analysis over all answers; induction over the created clients |
| C119 | `PrimeSpec`, `PrimeProofs`, `PropsPrime` | induction over the files and over the text that is searched |
| C120 | `EenvSpec`, `EenvProofs`, `PropsEenv` | invariant over all histories of interrupted runs; induction over the pairs |
| C121-C123 | `DumpSpec`, `DumpProofs`, `PropsDump` | unique readability of nested `repr` texts by induction over the value; mutual structure of models |
| C124 | `LaySpec`, `LayProofs`, `PropsLay` | rows of a search characterised by membership; splitting of joined texts |
| C125 | `AgainProofs`, `PropsAgain` | two runs of the resolution compared by the list of dictionaries each key is searched in; tails of ancestries |
| C126 | `TargetSpec`, `TargetProofs`, `PropsTarget` | completion of C43 for target and controller |
| C127 | `StartSpec`, `StartProofs`, `PropsStart` | shown times exist in the zone where a theorem says so |
| C128 | `ProgSpec`, `ProgProofs`, `PropsProg` | model `StoModel`; paths in the normal form of pathlib |
| C129 | `ConvSpec`, `GetProofs`, `PropsGet` |  |
| C130 | `InvSpec`, `InvProofs`, `PropsInv` |  |
| C131 | `ShipSpec`, `ShipProofs`, `ShipOwn`, `ShipPlain`, `ShipRun`, `PropsShip` |  |
| C132 | `BedSpec`, `BedProofs`, `BedLimits`, `BedTarget`, `PropsBed` |  |
| C133 | `SumSpec`, `SumProofs`, `SumSimProofs`, `PropsSum` |  |
| C134 | `AuxSpec`, `AuxProofs`, `PropsAux` |  |
| C135 | `AuxSpec`, `AuxProofs`, `PropsAux` |  |
| C136 | `AddProofs`, `PropsAdd` | databases as lists of inserts, as for C45 |

## Trusted base

* Coq 8.16.1 kernel (including its `vm_compute` for witnesses and examples).
* The axioms printed by `Print Assumptions` below each theorem.  The developments over integers, lists and rationals
  (`PropsHarv`, `PropsExt`, `PropsUart`, `PropsFile`, `PropsFileMore`, `PropsFix`, `PropsTb`, `PropsFw`, `PropsFwMore`, `PropsDs`, `PropsMea`, `PropsSto`, `PropsRep`, `PropsBaud`, `PropsEnv`, `PropsHeap`, `PropsName`, `PropsPlot`, `PropsExtract`, `PropsMend`, `PropsLink`, `PropsIter`, `PropsPin`, `PropsVerb`, `PropsWeb`, `PropsPrime`, `PropsEenv`, `PropsDump`, `PropsLay`, `PropsAgain`, `PropsTarget`, `PropsStart`, `PropsProg`, `PropsGet`, `PropsInv`, `PropsShip`, `PropsBed`) are closed
  under the global context.  Theorems over binary64 (`PropsCal`, `PropsConv`, `PropsCfg`, `PropsTgt`, `PropsSim`, `PropsIvo`) rely on the axioms of Coq's standard real numbers:
  `ClassicalDedekindReals.sig_forall_dec`, `ClassicalDedekindReals.sig_not_dec`,
  `FunctionalExtensionality.functional_extensionality_dep`, and `Classical_Prop.classic` (used by Flocq).
* Flocq 4 (`Core`, `IEEE754`), RecordUpdate: definitions and lemmas, no axioms of their own.
* The reading of the Python code into the model, which is tied to the code only by the comments.
