# Formal model of GNSS_RTCM_DECODER in Rocq (Coq 8.16.1)

## 1. Approach

The Python sources in /repo are modelled function by function as total Gallina
functions (`rocq/theories/*Model.v`).  Every definition cites the file and lines
it models and says what it simplifies.

* Python `int` is `Z`; `bytes` is `list Z` (each element 0..255, predicate
  `bytes_ok`).
* Exceptions are values: `res A := Ok a | Err e` with one constructor of `exn`
  per Python exception class that matters.  A decorator that swallows exceptions
  is a function from `res A` to `option A`.
* Loops are structural recursion, folds, or fuel with an explicit
  out-of-fuel result excluded by theorem.
* Objects are records (framer, printers) or class name + attribute list (decoded
  data), so that "which attribute is a dataclass field" is expressible.
* binary64 arithmetic is `Coq.Floats.SpecFloat` at precision 53, emax 1024
  (computable, axiom free).  Error bounds use Flocq and the Reals axioms.
* Wall-clock behaviour and the texts of help and usage messages are not modelled.

Specifications are in `*Spec.v` files and do not use model helpers: bit lists for
fields, GF(2) polynomials for the CRC, stream decompositions for framing, RTCM
layout tables plus encoders for messages, a JSON grammar with a parser for files.

`Properties*.v` contain only final theorem statements, their proofs by `exact`,
the non-vacuity `Example`s, and `Print Assumptions`.

## 2. Plan per property (see properties.jsonl)

| id | model | proof |
|----|-------|-------|
| C01-C03 | `BitsModel`: getbitu/getbits/revbitu/revbits, getbitS | MSB-first bit list spec; induction on the byte fold; Z.testbit extensionality |
| C04 | `CrcModel`: table, calc | table = polynomial reduction (256 checked by computation), induction on data, GF(2) carry-less product with an explicit quotient; uniqueness by degree |
| C05 | same + framer mcrc | linearity; x+1 divides the generator (odd); order of x (two bits); degree (bursts) |
| C06-C11 | `FramerModel`: rebase loop, catch_message loop, counters | reference segmentation relation; fuel sufficiency; invariant over call histories; chunk-merge lemma |
| C12 | `DecoderModel` | invariant over histories |
| C13-C15 | `MsmModel` bare decoder | abstract message + encoder; round trip by field-walk lemma; exact length theorem; header-only refuted by length arithmetic |
| C16-C20 | `MsmModel`, `TablesModel` | rank of cell bit; per-cell spec; SpecFloat/Flocq error bound; finite sweeps of tables |
| C21-C24 | `EphModel` step tables | generic step-table/layout round trip theorem with a boolean matcher; float exactness via Flocq |
| C25-C29 | `BaseModel` | layouts with variable-length parts; UTF-8 encoder/decoder |
| C30-C32, C46 | `MargoModel`, `PyFormat` (Python's `{:w}`/`{:w.nf}` formatting) | modular arithmetic; exact decimal rounding of a binary64; file-map invariant over print histories |
| C44 | all decoders (`PropertiesPayload`) | two frames with one payload: every field of a standard decoder is read before the checksum; lifted to histories |
| C45 | `MargoModel` | finite sweep of wave lengths + Flocq rounding error |
| C33-C35 | `JsonModel` | serializer/parser round trip; file-state invariant at each operation |
| C36-C37 | `PrinterModel` | table computation, permutation of printer list |
| C38-C39, C42 | `MainModel` | composition with chunk invariance; explicit event traces; folder map |
| C40 | `JsonModel` + dataclass tables | attribute sets |
| C41, C48, C49 | `ControlsModel` | state-machine invariant over histories of INI files; exact binary64 arithmetic of the carriers (`PropertiesCarriers`); texts of numbers as a grammar; permutation of the walked set; refutation by witness |
| C43, C50, C57 | `CompareModel` | Flocq error bounds for the two roundings; induction on values; decoded objects have no None, no infinities and no repeated keys (`JsonDecoded`); refutation by witness |
| C47 | `MainModel`, printers | composition of C38 with the folder map |
| C51, C52 | `SessionModel`: logger, `main` loop | state of the logger between sources; induction over the list of sources; refutation by witness |
| C53, C54 | `SourcesModel`: `abspath`, `fnmatch`, `glob`, index parsing | walks through directories as a relation; words of an answer as a relation; pattern matching by induction; the exact meaning of directory names with wildcards as an inductive relation (`PatternsSpec`); refutation by witness |
| C55 | `SessionModel`, `ControlsModel` | merging of INI contents (what the first file has stays, perhaps with another value); the exact condition under which the file of -i counts; refutation by witness |
| C58 | `IniModel` (`configparser`), `IniData` | invariant over the lines read, against an inductive grammar of files; the shipped files by computation and `C48`/`C55` |
| C59 | `ArgsModel` (`create_argument_parser` on a model of `argparse`) | grammar of command lines (`ArgsSpec.says`), soundness and completeness by induction over the arguments |
| C60 | `ProgramModel` (`main` from the arguments on) | composition of C53, C54, C56, C58 and C59 |
| C61, C62 | `LogModel` (the functions of a conversion with their log lines) | erasing the lines gives the models of C38; induction over messages and reads against a relation (`LogSpec.told`); cutting an undisturbed run |
| C63 | `FullModel` (`main` and the program with the messages of `LogModel` in place of given ones) | the run equals one of `SessionModel` with suitable given messages; induction over the sources; C61 for each |
| C64 | `ConsoleModel`: lines printed by `main`, `make_list_of_source_files`, `create_work_folder`, `init_logger`, and records passed to the console handler (level above its threshold, handler present) | `block` describes what is shown about one source; cases of `convert_one`, induction over the sources; with C63 for whole commands.  Witness for the silent case |
| C65 | `ConsoleModel.read_ini_shown` over `ControlsModel.read_ini` | what `init_from_file` leaves; sections survive merging; witness for the file of -i |
| C66 | `MainModel.make_opath`, `work_folder`, `log_file_name`, `root_of`; `JsonModel.JSON_SPEC` | `NamesSpec`: stem of a name and place of a message number as inductive relations; induction on names, the finite table by computation.  The product theorems (C47, C56, C60) are stated with these places |
| C67 | everything from `catch_message` to the observation files (`FramerModel`, `DecoderModel`, `MsmModel`, `MargoModel`, `MainModel`, `ProgramModel`) | `TransmissionSpec`: what a message says about a satellite and signal, as real numbers computed from the transmitted integers by the formulas of the standard, and when a line shows it; composition of C01/C12/C13/C16/C17/C30/C31/C32/C45/C47/C60 with error bounds for every parameter (binary64 rounding via Flocq, finite checks for carriers and lock times) |
| C68 | everything from `catch_message` to the JSON files (`FramerModel`, `DecoderModel`, `MsmModel`, `EphModel`, `BaseModel`, `JsonModel`, `MainModel`, `ProgramModel`) | `DocumentsSpec`: which frame brings which message, and what an element of a document must show for it, in terms of the transmitted integers and (for scaled observations) of real numbers; composition of C01/C12/C13/C16/C19/C20/C25/C26/C34/C40/C45/C47/C60. The headers and auxiliary members are covered according to the controls; not shown are the flags of 1041 (lost, C40) |
| C69 | `GrabberModel`: `TestDataGrabber`, the call in `DecoderTop.decode`, `save_some_fancy_test_data` (its first four files) | `GrabberSpec`: plan of a mode and the messages kept; induction over the messages with the state of every entry and file as a function of the messages seen; reading back by C08 |
| C70 | `CrashModel`: `decode_rtcm_file` stopped before any operation, `rmtree`, the log and the loop of `main` stopped anywhere, buffers lost to any extent | the files of both printers only grow (invariant: a file exists only while it is open); the stopped conversion is compared with the undisturbed one step by step; induction over the sources |
| C71 | nothing new: `decode_rtcm_file` on two contents | both runs are functions of the list of frames (reference scan); noise and damaged frames are shown to scan as junk; CRC theorem C05 |
| C72 | nothing new: `decode_rtcm_file` on a content and its two parts | scans and object lists concatenate; the rows an observation adds to a file do not depend on the history (exists-forall lemma), so contents concatenate; JSON through C38 |
| C73 | nothing new: `main` (SessionModel) and `crashed_main` (CrashModel), in any sequence | earlier runs and kills change work folders only (`worked_outside`); two disks that differ in work folders only are equal after the loop (simulation: the set of folders in which they differ shrinks by one per source) |
| C74 | nothing new: `main` (SessionModel) with arbitrary behaviour of the operating system at each source | a conversion acts on each path separately, given the source and what is in the place of the work folder (`one_pointwise`); induction over the sources |
| C75 | nothing new: whole conversions in two formats side by side | files are functions of the decoded objects (C38, C72); the objects of two formats are compared frame by frame (`same_observations`, `same_numbered`, `bare_answer`) |
| C76 | nothing new: whole conversions of two recordings side by side | C68 says what an element of a file shows of a message; hex listings, masks and columns determine the fields and bits (`hex_inj`, `mask_inj`, `msm_inj`, `shown_same`), so equal elements show the same message |
| C77 | nothing new: observation files of two recordings side by side | C67 bounds the difference of the shown numeral and the transmitted value; lines and fields can be split in one way only (`csv_split`), numerals have one value, and measurements are multiples of a step greater than twice the bound (`measured_step`, `step_exact`) |
| C78 | nothing new: whole conversions of two recordings side by side | every file as a function of the frames with one number (`files_by_kind`): decoding is frame by frame, a row or document of another number leaves the file as it is |
| C79 | `getSubset`, `legacy_subset`, `eph_subset` in `TablesModel` | computation for the numbers 1001..1137, lemma for all others |
| C80 | nothing new: conversions of a recording and of its beginning | frames of the beginning are the first frames of the whole (`scans_app`), then `files_by_kind`; for whole runs (`C72_runs`, `C78_runs`, `C80_runs`) the files on the disk after `main` are those of the conversion (`run_file`) |
| C42 (batches) | nothing new | `C42_last_wins`, `C42_exact`: induction over the list of sources; a conversion changes its own work folder only and its result depends on the source only |
| C09 (ends of streams) | nothing new | `C09_every_frame`: the three ways in which `scans` can treat a valid frame (`scans_finds`) |
| C56 | `SessionModel` and everything below | composition of C38, C47 and C51 over the list of sources |

Properties the code violates are settled by theorems named `..._refuted`
(a concrete reachable counterexample) together with the strongest true part.

## 3. Trusted base

* Coq 8.16.1 kernel (including its `vm_compute` machine).
* The correspondence between the Gallina model and the Python text, documented by
  the citation on each definition.
* Axioms: whatever `Print Assumptions` lists in `Properties*.v`; expected: none
  for everything integer/combinatorial; the standard library's real-number axioms
  (`ClassicalDedekindReals.sig_forall_dec`, `sig_not_dec`,
  `FunctionalExtensionality.functional_extensionality_dep`, `Classical_Prop.classic`) for
  theorems about floating-point error.

### 3.1 What is and is not modelled

* Bit access: all of `utilities/bits.py` that the decoders use (`getbitu`, `getbits`,
  `getbitS`, catching decorators), on lists of bytes.
* CRC and framer: table and calculation of `utilities/CRC24Q.py`; `catch_message` and its helpers
  in `decoder_top.py` with their counters; a message of the framer is a list of bytes.
* Message dispatch: `DecoderTop.register_decoder`, `decode`, statistics, for arbitrary sub-decoders.
* MSM decoders: bare decoding and scaling of MSM1..7 with all tables (signal names, frequencies,
  lock-time tables), generated from the text of /repo and compared by eye with it.
* Ephemeris and base-station decoders: all messages, bare decoding and scaling; classes are
  tables of annotated fields.
* Controls: all of `controls.py`; reading an INI file (the standard library's `configparser` with
  its default arguments) is modelled from the text on (`IniModel`, white space and letters are
  the ASCII ones); `%` interpolation is not modelled; `int()` of a text is modelled for ASCII.
* Comparison: `compare`, `__compare` of `gnss_types/data_class_methods.py` for the data classes of the
  library (no nested data classes exist); dictionary keys are ints and strings.
* MARGO printer: all of `printers/margo_printer.py`.  The file system is a map from paths
  below the working directory to contents; output buffering is not modelled (what is written is
  in the file), nor are failures of `write` on an open file.  Whether the operating system lets
  a file be created is an arbitrary predicate given with every message.
* JSON printer: all of `printers/json_printer.py` (its log lines are in `LogModel`).  `json.dumps` is modelled (`PyJson`) for the values that occur: None, bool, int,
  float (`repr` of a binary64 by search for the shortest decimal), str (ASCII escapes), list,
  tuple and dict with str or int keys; its output is checked by an independent JSON reader
  (`JsonSpec.read_json`).  `dataclasses.asdict` is modelled from the tables of annotated fields.
  Text mode is taken as on Linux (no newline translation).  File system as for MARGO.
* Printer top and converter: all of `printer_top.py` and `converter_top.py`.  Sub-printers are
  records of functions over an abstract state, so that the statistics theorems (C37) hold for
  arbitrary ones; the set of sub-printers is a list walked in an arbitrary order (a permutation).
* `run_conversion.py`: `decode_rtcm_file` with an exception possible at each of its operations,
  before it starts or while it runs (then leaving converter and files in any state); the loop of
  `main` without interruptions and without log files; `create_work_folder` on a map from paths to
  contents (no links, no permissions).  An interruption between entering the function and its
  `try` is not modelled.
* `SessionModel` has all of `main` after the argument parser: controls, work folders whose deletion
  or creation may fail, logs whose creation may fail, exceptions during decoding, and the logger
  object (`logger.py`) that is shared by all sources.  Messages logged below `main` are arbitrary
  lists.  Interruptions of `main` outside `decode_rtcm_file` are not modelled.
* `ArgsModel` has `create_argument_parser` and the parts of `argparse` (Python 3.11) that this parser
  uses: classification of arguments, abbreviations, `=` and glued values, series of short options,
  `--`, choices, required and unrecognised arguments.  Texts of help, version and errors are not
  modelled.  The model was compared with `argparse` on 3600 random command lines.
* `GrabberModel` has the capturing of messages (`tests/test_utilities.py`) that `decoder_top.py` calls when
  `TEST_DATA_GRABBER` is not None.  All other models have it off, as in the repository.  Whether a file can
  be created does not change during a run; writing to an open file succeeds.
* `CrashModel` has the program killed at some moment: a relation between the files before and all sets of
  files that can be on the disk then.  Reordering of writes to different files is allowed; a file system
  that damages what was written earlier is not modelled.
* `ProgramModel` puts the parts together: `main` from the command line to the file system.
* `LogModel` has the functions between `decode_rtcm_file` and the sub-decoders and printers again,
  with the lines they log.  The texts of exceptions, of paths and of failed assertions are arbitrary
  functions; an operation that is interrupted has logged an arbitrary list of lines.  Log lines of the
  controls and of `main` are in `SessionModel`.
* `FullModel` is `ProgramModel` with the messages of `LogModel` instead of arbitrary ones: the whole
  program with the texts of its log files.
* `ConsoleModel` has what the program prints or shows through its logger, in order (`shown_line`),
  for commands that are accepted; stdout and stderr are not told apart.  Texts of exceptions,
  of paths and of `repr` are arbitrary functions.
* `Conformance` runs `FullModel` on the sample streams of the repository.  The results are identical,
  character by character, to the reference outputs kept in RTCM3_TEST_DATA (MSM7 in the formats MARGO
  and JSON with all files and logs, base station messages in JSON); the ephemeris objects pass the
  comparison with the objects of tests/ephemeris_test_samples.py.  The same was done outside the
  build, because it takes minutes, for the MSM5 references (eight runs, identical).
* `SourcesModel` has `make_list_of_source_files` with the parts of the standard library it uses:
  `os.path.abspath`, `glob.glob`, `fnmatch`, `str.split`, `int`.  Names are strings of ASCII
  characters; no links; a path that begins with exactly two slashes is not treated specially.
  The model of `fnmatch` was compared with Python's on some thousand random patterns.

## Appendix: what Print Assumptions lists for each theorem

<!-- assumptions:begin -->
**No axioms ("Closed under the global context")** (208 theorems)

- PropertiesStream: `C01_getbitu_exact`, `C02_getbits_exact`, `C02_getbitS_exact`, `C02_raise_together`, `C03_revbitu_exact`, `C03_revbitu_rejects`, `C03_revbits_exact`, `C04_crc_is_remainder`, `C05_errors_detected`, `C05_valid_accepted`, `C06_framing_sound`, `C06_framing_reference`, `C07_chunk_invariance`, `C08_padded_streams`, `C09_resync`, `C09_end_of_file_refuted`, `C10_total_and_bounded`, `C11_parse_errors_exact`
- PropertiesDecoder: `C12_statistics`, `C12_statistics_bounds`, `C12_result`, `C12_no_loss`, `C12_never_raises`, `C12_registration`, `C12_standard`, `C12_standard_served`, `C44_number_of_tiny_frame_refuted`
- PropertiesMsm: `C13_bare_decode_inverts_partial`, `C13_bare_decode_exact`, `C13_msm23_refuted`, `C14_accepts_only_messages`, `C14_exact_length`, `C14_never_raises`, `C15_header_only_never_decoded`, `C15_header_only_refuted`
- PropertiesMsmScaled: `C16_own_cell`, `C16_scaled_object`, `C16_keys`, `C18_phase_reported_partial`, `C18_phase_dropped_refuted`, `C18_phase_exact`, `C19_tlock10_increasing`, `C19_tlock4_increasing`, `C19_tables`, `C20_codes_injective`, `C20_codes_have_carriers`, `C20_scaled_iff_known`
- PropertiesEph: `C21_bare_fields`, `C21_round_trip`, `C22_qzss_decoded_refuted`, `C22_1044_never_decoded`, `C23_exact_units`, `C24_short_rejected`, `C24_decoded_iff_long_enough`, `C24_never_raises`, `C24_payload_only`
- PropertiesBase: `C25_bare_fields`, `C25_round_trip`, `C25_never_raises`, `C26_bare_text`, `C26_listing_lossless`, `C26_only_text`, `C27_scaled_text_partial`, `C27_text_unique`, `C27_dropped`, `C27_empty_string_refuted`, `C28_bare_schedule_partial`, `C28_only_announced_count`, `C28_count_from_length_refuted`, `C29_bare_biases`, `C29_only_wellformed`, `C29_wrong_length`
- PropertiesMargo: `C30_gps_time`, `C30_unknown_day`, `C31_placement`, `C31_values`, `C31_decoded_printable`, `C31_beyond_slots_refuted`, `C32_all_created`, `C32_distinct`
- PropertiesJson: `C33_refused_only`, `C33_other_files`, `C33_view_irrelevant`, `C34_created_file_refuted`, `C35_distinct`, `C35_file_names`, `C35_own_file_only`
- PropertiesRelease: `C34_release_complete`
- PropertiesPrinter: `C36_factory`, `C36_one_printer`, `C36_delivery`, `C36_order_irrelevant`, `C36_jargo_files_distinct`, `C37_statistics`, `C37_bounds`, `C37_registration`
- PropertiesMain: `C38_released_once`, `C38_files_closed`, `C38_interrupted_release_refuted`, `C39_parsing_errors_refuted`
- PropertiesJsonFields: `C40_navic_flags_refuted`, `C40_text_bare`, `C40_text_scaled`, `C40_observations`, `C40_observations_header`, `C40_bare_observations`
- PropertiesControls: `C41_update`, `C41_replaced`, `C41_channels`, `C41_boxed`, `C48_loading`, `C48_determined_partial`, `C48_aliases_refuted`, `C48_default_section_refuted`, `C49_usable_partial`, `C49_zero_carrier_refuted`
- PropertiesFiles: `C42_independent_partial`, `C42_same_directory_partial`, `C42_same_stem_refuted`, `C42_nested_source_refuted`
- PropertiesCompare: `C43_structure`, `C43_objects`, `C50_copy`, `C50_special_values`
- PropertiesPayload: `C44_object`, `C44_number_partial`, `C44_tiny`
- PropertiesOrder: `C48_exact`, `C48_runs`
- PropertiesClassify: `C79_classes`, `C79_decoders`, `C37_ready`
- PropertiesLast: `C42_last_wins`, `C42_exact`
- PropertiesTail: `C09_every_frame`, `C09_complete`
- PropertiesFolded: `C58_continued`
- PropertiesSession: `C51_logs`, `C51_every_source`, `C52_aborted_partial`, `C52_products_lost_refuted`, `C55_user_file_partial`, `C55_user_wins`, `C55_user_file_ignored_refuted`
- PropertiesSources: `C53_names`, `C53_listed`, `C53_chosen`, `C54_offered_partial`, `C54_pattern_in_path_refuted`, `C54_folder_offered_refuted`
- PropertiesPatterns: `C54_any_directory`, `C54_shown_entries`, `C54_own_files`, `C54_once`
- PropertiesUserIni: `C55_rule`, `C55_accepts`, `C55_defaults_needed`
- PropertiesCopies: `C57_other_class`
- PropertiesIni: `C58_layout`, `C58_twice`, `C58_not_an_option`, `C58_no_section`, `C58_no_duplicates`, `C58_controls`, `C58_names`, `C58_shipped`
- PropertiesArgs: `C59_exact`, `C59_complete`, `C59_ends`, `C59_format`, `C59_either_side`, `C59_between`
- PropertiesProgram: `C60_shipped`, `C60_nothing`, `C60_text`, `C60_spaces_refuted`
- PropertiesLog: `C61_same_run`, `C61_not_opened`, `C62_remarks`, `C62_announced`
- PropertiesConsole: `C64_console`, `C64_reported`, `C64_numbers`, `C64_silent_refuted`, `C65_defaults`, `C65_no_controls`, `C65_missing`, `C65_user_refuted`
- PropertiesNames: `C66_stem`, `C66_folder`, `C66_table`, `C66_opath`, `C66_distinct`
- PropertiesTransmission: `C67_stream`
- PropertiesGrabber: `C69_capture`, `C69_read_back`, `C69_test_streams`, `C69_unwritable_refuted`
- PropertiesCrash: `C70_conversion`, `C70_end`, `C70_json_row`, `C70_obs_row`, `C70_json_refuted`
- PropertiesAgain: `C73_recovery`, `C73_again`
- PropertiesAlone: `C74_alone`, `C74_order`
- PropertiesLossless: `C76_headers_off_refuted`

**Axioms: `ClassicalDedekindReals.sig_forall_dec`, `FunctionalExtensionality.functional_extensionality_dep`** (2 theorems)

- PropertiesMargo: `C32_same_columns`
- PropertiesResolution: `C77_fine_ranges_refuted`

**Axioms: `ClassicalDedekindReals.sig_forall_dec`, `ClassicalDedekindReals.sig_not_dec`, `Classical_Prop.classic`, `FunctionalExtensionality.functional_extensionality_dep`** (82 theorems)

- PropertiesMsmScaled: `C17_range_accuracy`
- PropertiesEph: `C23_scaled_units`, `C23_recoverable`
- PropertiesBase: `C25_scaled_fields`, `C25_wrong_length`, `C28_scaled_schedule_partial`, `C29_scaled_biases`
- PropertiesMargo: `C30_row_time`, `C31_columns`, `C32_files`, `C45_phase_cycles`, `C45_doppler_hz`, `C46_silent_row_loss_refuted`
- PropertiesJson: `C33_files`, `C33_run`, `C33_decoded_ok`, `C34_interrupted_partial`, `C34_started_partial`
- PropertiesRelease: `C34_release_partial`, `C34_release_refuted`
- PropertiesMain: `C38_products`, `C38_json_files`, `C38_obs_files`, `C38_statistics`, `C38_read_size`, `C39_partial`
- PropertiesJsonFields: `C40_ephemeris_partial`, `C40_navic_no_flags`, `C40_position`, `C40_schedule`, `C40_biases`
- PropertiesCompare: `C43_accepted_partial`, `C43_accepts_partial`, `C43_sign_refuted`
- PropertiesFiles: `C47_json_product`, `C47_obs_product`, `C47_nothing_else`
- PropertiesCarriers: `C49_exact`
- PropertiesCopies: `C50_decoded`, `C57_answer`
- PropertiesSession: `C56_run`, `C56_nothing_else`
- PropertiesProgram: `C60_command`, `C60_directory`
- PropertiesLog: `C61_log`, `C61_interrupted`, `C61_counts`, `C61_complete`
- PropertiesFull: `C63_logs`, `C63_command`
- PropertiesConsole: `C64_command`
- PropertiesTransmission: `C67_every_frame`, `C67_products`, `C67_conversion`, `C67_command`
- PropertiesDocuments: `C68_every_frame`, `C68_products`, `C68_conversion`, `C68_command`
- PropertiesCrash: `C70_run`
- PropertiesPieces: `C71_messages`, `C71_noise`, `C71_damage`, `C71_any_damage`, `C72_parts`
- PropertiesKinds: `C78_kinds`, `C72_json_text`, `C78_selection`
- PropertiesGrowing: `C80_growing`
- PropertiesRuns: `C78_runs`, `C80_runs`, `C72_runs`
- PropertiesTolerance: `C43_default_partial`, `C43_units`
- PropertiesModes: `C75_observations`, `C75_other_messages`, `C75_union`, `C75_bare`
- PropertiesLossless: `C76_lossless`, `C76_conversion`
- PropertiesResolution: `C77_products`, `C77_conversion`

<!-- assumptions:end -->
