# Formal model of CXMLTestFramework in Rocq (Coq 8.16.1)

The plan of section 3 was written (in a shorter form) before the proofs and has been kept up to date since.

## 1. Layout

`rocq/theories/` holds, per area of the code base:

* `*Model.v`  executable Gallina model of the C++ functions; each definition cites file and lines;
* `*Spec.v`   a small independent specification, without helpers of the model (some short ones are at the top of a `*Props.v`);
* `*Facts.v`, `*Dec.v`, `*Mid*.v`, `*Run.v`, ...  lemmas;
* `*Props*.v` the property theorems `Cnn_*`, each followed by `Print Assumptions` and by an `Example` in which a concrete case meets
  its hypotheses;
* `Cases*.v`  one `Example <theorem>_met` per theorem with hypotheses (C01-C65), which applies the theorem itself to a concrete case; from C64
  on the `Example` beside the theorems lists all their hypotheses for one case.
* `MetProps.v`  theorems about several runs (C64, C70, C73, C74, C75) applied to concrete programs, files and arguments.

| area | code | files |
|---|---|---|
| common | - | `Base` (outcomes `Ok / Throw / UB / Abort / Hang`, strings as byte lists), `Str`, `Dec` (decimal integers as the C++ streams write and read them) |
| base64 | tfBase64.{h,cpp} | `B64*` |
| paths | PathName.cpp, FileUtilities.cpp | `Path*` |
| measurements | tfMeasurement.{h,cpp} | `Meas*`, `TolFacts`, `FloatFacts` (link SpecFloat - Flocq), `Num*` (decimal text of float and double) |
| visitors | tfMeasurementVisitor.{h,cpp} | `Visit*` |
| line difference | tfDiff.{h,cpp} | `Diff*` |
| XML reader | tfRegressionTest.cpp 608-784 | `XmlModel` (expat), `XmlText`, `Read*`, `Elem*` |
| driver | tfRegressionTest.{h,cpp} | `Reg*`, `Arg*`, `NoThrow`, `File*`, `Line*`, `Api*`, `Conf*`, `Change*`, `Version*`, `Report*`, `Reuse*`, `Cut*` |
| images | itktfDifferenceImageFilter.{h,txx}, itktfRegression.h 196-307, itktfCompareVisitor.cxx | `Img*` (pixels of type double), `Pix*` (any pixel type) |
| ITK driver | itktfRegression.{h,cxx}, itktfDifferenceVisitor.cxx, itktfImageCompare.cxx, tfPipeToXML.cxx | `Itk*` |
| filter watcher | itktfFilterWatcher.h | `Watch*` |
| validation | TestingFramework/tests/*.cxx | `RepoTests` (generated by `tools/gen_repotests.py`) |

`tools/gen_props.py` writes `properties.jsonl`, `tools/gen_manifest.py` writes `MANIFEST.json` from the theorems,
`tools/gen_assumptions.py` writes section 5 from `Print Assumptions`.

## 2. How the code is modelled

* A C++ function is a Gallina function with the outcome type `res`: `Ok v` (returned), `Throw i` (exception of kind i), `UB` (undefined
  behaviour: an index out of range, a read of an indeterminate value, signed overflow, a null pointer), `Abort` (failed `assert`), `Hang`
  (does not end, also used when recursion fuel runs out, so a theorem that concludes `Ok` excludes it).
* Memory is modelled where the code handles it by hand: arrays are lists of cells `option byte`, `None` being indeterminate, and every index
  is checked. The decoded-data cache of a measurement is part of its record.
* A member function that changes its object returns the changed record, also in the outcomes where it throws.
* The driver (`tfRegressionTest.cpp`) is a state monad over the object (`rst`), which includes the parts of the world it acts on: files,
  standard output, the current baseline list. The virtual function `Test` is a value of an inductive type of programs (`prog`, `aprog`, `iprog`):
  a tree whose nodes are the calls a test can make and whose continuation receives the returned value. A theorem "for every test" is a theorem for all such
  trees. The setters and getters the class offers are nodes of `aprog`.
* Threads of the difference filter: each thread is a list of memory actions, a run is any interleaving (`interleaving`), the split of the region is any
  partition into faces.
* IEEE arithmetic is Coq's executable `SpecFloat` with the parameters of binary32/binary64; the statements about real numbers go through Flocq's
  `BinarySingleNaN`. Integers of the code that can overflow (`int` in tolerant comparison, `unsigned` partition length, 16 bit hash, 32 bit counter of names, the 64 bit line
  hash) keep their width.

## 3. Properties: what is modelled and how it is proved

All 91 properties are expressed and proved; none is `partial` or `not_applicable`. Where the code deviates from its documentation, the property states what the code does
and a companion theorem `Cnn_*_refuted` proves a concrete violation of the documented claim (a proved negation, not an excuse).

| property | modelled by | method |
|---|---|---|
| C01-C03 Encode | `B64Model.Encode`, array writes with index check | closed form of the loop by induction over triples; spec `rfc4648` is on bit lists |
| C04-C09 Decode, IsBase64 | `B64Model.Decode`, `IsBase64`: scan with signed-char table index | machine refined to a pure scan, language characterised by the filtered symbol list; induction over quads |
| C10-C14 path names | `PathModel` string functions | induction on strings |
| C15, C53, C58 file system | `PathModel` tree file system, current directory | resolution as a relation over components; induction over components and over call histories |
| C16 escaping | `ApplyEscapeSequences` | induction; unescaping is written independently |
| C17, C40, C41, C42, C65 reader | `XmlModel` (expat) and `ReadModel` (handlers, file reading loop) | invariants of the parser machine over all prefixes; simulation for text splitting |
| C18-C20 factory, data cache | `MeasModel` | case analysis; arrays of indeterminate bytes |
| C21 integer text | `Dec` (num_put / num_get) | induction over digits |
| C22, C23, C60, C61, C69 numbers | `SpecFloat`, `NumModel` (decimal conversion) | Flocq: rounding error bounds over the reals |
| C24-C26 visitors | double dispatch as match on the pair | case analysis over classes |
| C27-C35 difference | `DiffModel`: hash table, `FindEditMidPoint`, `GenerateEditList`, `PrintEditList` | loop invariants for both search directions, well-founded recursion on the sizes, separate parser for the printed patch |
| C36, C62 arguments, constructor | `ParseAndRemoveArguments` on argc/argv | induction over options |
| C37, C38, C43, C44, C54, C59, C64, C66, C68, C70, C71, C72, C73, C74 driver | `Main` over programs, from any state of the object | induction over programs; relation `unfolds` gives the history of a run; C64 over three versions: the accepted recordings are prefixes, and prefixes of prefixes; not so with tolerances, `C69_drift_refuted` (`ChainProps`) |
| C75 parallel runs | `ProcModel`: the driver with every file access a step of its own, processes over one shared file system | the step version run alone is `Main` (`process_alone`); invariant over all interleavings: every process is where it would be alone and sees its files as alone; a Hoare logic over the accesses (`ProcNames`, `ProcItkNames`) gives the files in terms of command line, test and baseline; both drivers (`itk_process_alone`: the ITK one alone is `itk_Main`), in any mixture |
| C76 objects allocated | `HeapModel`: the driver and the reader with every `new`, `delete` and use through a pointer | erasing the pointers gives `Main` (`C76_same_driver`); separation-style accounting (`holds`: objects owned, objects lost) through every function as Hoare triples; the parser of XmlModel reports no attribute twice and closes every element (`HeapXml`) |
| C77 messages on standard error | `ErrModel`: driver, reader and comparisons again with every `std::cerr` message; `ErrSpec`: when each message is due | erasing the messages gives `Main` (`C77_same_driver`); the reader's messages are `complaint`s of start tags at their depth; a comparison's are `remark`s; induction over the run; the framework's own documents cause none |
| C78 memory behind measurement objects | `BufModel`: the functions of `MeasModel` on objects in a store, with blocks, `malloc`, `free`, aliasing and the pointers a program keeps; `BufSpec`: values, stray blocks, orphans, the bill | every operation refines the pure function of `MeasModel` (`acts`, `gentle`), objects own disjoint live blocks (`good`); a frame (`sound`) with the blocks and objects each step loses; induction over histories |
| C79 memory of the line difference | `DiffMemModel`: tfDiff.cpp again, over a heap: five blocks, `struct line` as two words, indeterminate elements, `new[]` refused by an oracle, `delete[]` | simulation with `DiffModel` (`DiffMemFacts`: the search changes only the diagonals; `DiffMemBuild`: the index arrays describe the lines, elements of lines no longer in the hash tables are written; `DiffMemRun`: printing, allocation, freeing), then C29, C34 |
| C80 interrupted ITK recordings | the ITK driver (`itk_Main`), its tests as `iprog` cut after k steps (`icut`), documents cut at any byte | as C70: prefixes of a recorded document are rejected by the parser model (`prefix_rejected`), lifted to `Main_with` for any body (`with_unreadable`); `C80_stopped_recording`, `C80_cut_off_noticed`, `C80_exception_noticed`, `C80_newline_not_needed` in `CutItkProps` |
| C81 ITK driver on a full disk | `ItkLimitModel`: ItkModel with the output stream replaced by one that takes n bytes (with no output file it is shared with everything printed) | as C73: a relation between the states of the unlimited and the limited run kept by every function (`mimics`), then C80 for the runs compared with the cut document; `ItkLimitProps` |
| C82 changes between versions with images | - | C55 and the recorded document (C80) give the moments of the comparing run; each is classified as unchanged or changed (C38 for in-memory values, C49 for images); for generated images an invariant on the files kept by the writes and the reports; `ItkChangeProps` |
| C83 transcript of an ITK comparison | - | an inductive account (`tells`, `image_told`) of what is printed where, the files, mismatches and outcome, itself shown deterministic; simulation of the run by induction over the test, the image reports from C55, the others from C66; `ItkTellProps` |
| C84 standard error of the ITK driver and itktfImageCompare | `ItkErrModel`: visitors, driver and tool again with every `std::cerr` message; `ItkErrSpec`: when each message is due; texts of ITK exceptions and whether rescaling fails come from outside (`itkerr`) | erasing the messages gives `itk_Main` (`C84_same_driver`); simulation of the run with C77 for basic measurements; the tool reduced to a test (`perform`, C51) followed by its parting word |
| C85 messages and memory of tfPipeToXML | `PipeModel`: the program again with memory blocks (the command array, the process object) and messages. Exact result of the test for every child (`PipeFacts.test_eq`), simulation with the program of C52, then the messages and the blocks alive at the end for recording, not started and comparing runs; leak, unreported end and ambiguous status as `_refuted` |
| C86 int counters | `IntModel`: both drivers again with `inputUnmatched` and `depth` as 32-bit ints, overflow is `UB`. Relation `within` between every step with and without bounds (`IntFacts`), induction over test programs and over parser events; exact bounds; `C86_count_refuted` and `C86_depth_refuted` reach both bounds by induction on the number of measurements and of nested elements (a real XML text, through the parser model) |
| C87 whole interface, ITK | `FullItkModel`: tests `xprog` on the ITK driver with CompareMeasurement of arbitrary objects, caught exceptions, free output, image calls, tolerances, generated names, settings, files. `FullItkSpec.does`: the course step by step; `weighed` = image report (`image_told`, C83) or plain report (`judged`, C71). Both directions by induction on the test (`FullItkFacts.xrun_does`, `does_xrun`); image comparisons reduced to C83 by independence of the input stream (`blind`). `C87_generalises`, `C87_same_without_images`, `C87_by_hand` connect it to ItkModel, FullModel and the base interface. |
| C88 exception classes | `ExnModel`: classes with public/private, virtual/non-virtual direct bases; base subobjects; `takes` = ISO C++ rule for `catch (E &)`; the twelve handlers in order; what() that fails with the unexpected and terminate handlers. `ExnSpec`: `subobject`, `is_a` inductively, direct bases in the standard library. | `takes` = `is_a` by mutual induction on class and bases; handler order = linear extension of `derives`; single inheritance by induction on the line; C77 for whole runs; independence of the thrown value by induction on the test |
| C89 reading in tests | `InModel`: tests `rprog` = the tests of `FullModel` with getline and read on GetInStream; two streams (std::cin, the baseline after ReadXMLInput) with eofbit and failbit. `InSpec`: `line_got`, `chars_got`, and `supplied`: the test with its readings replaced. | the run equals that of `supplied` by induction on it, with the invariant that the stream in use (`s_is`) is not changed by the framework; lines and pieces by induction |
| C90 runs that return | `RegModel` (base driver) and `ItkModel`. `RetSpec`: `harmless`: what a baseline and a call must fulfil to be comparable; `can_be_compared`: for every call the test can make and every baseline of its name and type. | one comparison gives a value or an exception (case analysis over the 3x3 kinds and the tolerance), the line difference by C29; induction on the test; the end of `Main` always has a compare mode; images: `image_verdict` and the difference report give a value or an exception; undefined examples by computation |
| C91 reading in ITK tests | `InItkModel`: tests `yprog` = the tests of `FullItkModel` with getline and read on GetInStream, streams of `InModel`. `InItkSpec`: `i_supplied`: the test with its readings replaced by what `InSpec` says they give. | as C89, by induction on `i_supplied`; that the ITK visitors and measurements keep the stream follows from `blind` (C87); plain tests by `C87_same_without_images` |
| C39, C52, C57, C61, C69 record then compare | composition of all the parts | refinement: document of a run, its reading, comparison of each pair |
| C45-C47, C67 filter | interleavings of thread actions; for C67 over any pixel type, with an action for an undefined cast | commutation of the actions of different threads, permutation invariance of the count |
| C48, C49 image comparison | `CompareImage`, `RegressionTestImage` | case analysis plus C45 |
| C50, C51, C55, C56 ITK driver | `ItkModel` | induction over programs, simulation of the base class |
| C63 watcher | `WatchModel` | induction over event histories; unique decoding of the text |

## 4. What is modelled, what is not

### Code of the repository

* tfBase64.cpp: all functions. `size_t` unbounded.
* PathName.cpp, FileUtilities.cpp: all functions in their POSIX branch. WIN32 branches are not modelled (they cannot be compiled: PathName.cpp 307-308 is `#error This needs to be implemented`), nor the caching fields `fileStat`, `statCached` (never read).
  `GetPathFromEnviroment` is `getenv` followed by the modelled list splitting.
* tfMeasurement.{h,cpp}: all classes, construction, setters, `Print`, `IsEqual`, `IsEqualTolerant`, `Load`, factory. The text on `std::cerr` is in `ErrModel` (C77); the memory of the objects, aliasing,
  assignment, destruction and the pointers returned are in `BufModel` (C78), where addresses are never used again and `operator=` is between objects of one class.
* tfMeasurementVisitor.{h,cpp}: both visitors.
* tfDiff.{h,cpp}: all; the length of a partition keeps its 32 bits, hash values their 64. Reads outside the sequences in the recursion are modelled by an oracle (`oob`),
  results are proved independent of it. In `DiffModel` `new` succeeds, `delete` is absent and the identifiers start from 0; `DiffMemModel` (C79) runs the same functions on a heap of blocks of never-written elements, with `new[]` that may fail and `delete[]`, and is proved equal to it; the containers of the standard library stay values, and text written before an exception is not kept; the objects of the driver (streams, measurements read, visitors, parser) are in `HeapModel` (C76).
* tfRegressionTest.{h,cpp}: `ParseAndRemoveArguments`, `Main`, `BeginMeasurement`, `EndMeasurement`, all measurement functions, comparison, lookup, reports, the XML handlers, the getters, and the setters of
  names, search path, tolerance, expected value (`FullModel`, on the ITK driver `FullItkModel`, have the largest class of tests: everything protected, with caught exceptions; the other models of tests are parts of it). Not modelled:
  the installation of the `terminate`/`unexpected` handlers and their staying installed after Main (what they write when what() fails is in `ExnModel`, C88), clear(), seekg() and exceptions() on `GetInStream` in `Test` (reading is in `InModel`, C89, for ITK tests `InItkModel`, C91), (the `int` counters: `IntModel`, C86). Write errors of the output stream (full disk) are in `LimitModel` (C73) for the plain driver and in `ItkLimitModel` (C81) for the ITK driver; write errors of files the test itself writes are not modelled. Processes running at the same time (C75) are in `ProcModel` for the plain and the ITK driver: one access to one file per step; stream buffering and two streams writing to one file are not described.
* itktfDifferenceImageFilter: `ThreadedGenerateData`, `BeforeThreadedGenerateData`, `AfterThreadedGenerateData`, with pixels of type double as the visitors instantiate it (`Img*`) and over a record of the operations of a pixel type (`Pix*`). Not modelled: progress, `PrintSelf`.
* itktfRegression.{h,cxx}, visitors, itktfImageCompare.cxx, itktfFilterWatcher.h: all functions; `ItkModel` lets one object make one run, `ItkReuseModel` (C72) any number of them; their messages on standard error: `ItkErrModel` (C84).
* tfPipeToXML.cxx: all of it. `ItkModel` (C52) has argument passing, the reading loop, the exit value; `PipeModel` (C85) also the array of the command, the process object and the messages. The kwsys process library is described by what its functions are documented to give: chunks of data and a final state, or never an end.
* CMake files and configuration headers are not modelled; the configured directories are parameters.

A test (`Test`) may measure, set and ask through the interface, throw, return, write files and (ITK) print. Its only effect on the world outside the driver is writing whole files.

### Environment models (trusted descriptions of libraries and of the machine)

* Plain `char` signed or unsigned: parameter `sc`.
* File system for C13, C15, C53, C58: a tree of files and directories with read, write and search permission, no links; search permission of intermediate directories is not enforced. For the driver: a store of file
  objects with `canon` giving the object a path denotes (so aliases of a file are covered) and `cancreate` telling where files can be made. Opening a directory for reading succeeds if it may be read; reading it as a baseline gives no bytes, reading it as a measured file raises an exception
  (which of `std::bad_alloc`, `std::length_error` or the `runtime_error` of `MeasurementFile::Load` depends on the file system: the model has one kind). Devices, pipes and sockets are not modelled.
* `malloc` and `new` succeed; `malloc(0)` is not null.
* Decimal text of floating point numbers: parameter `numio` in general theorems; `std_io` in `NumModel` is the concrete libstdc++/glibc behaviour
  (`%.*g`, correctly rounding `strtod`), used in C60 and C61. It was checked against Python's conversions on random and boundary values.
* expat: `XmlModel` covers the XML declaration the framework writes, comments, elements, attributes, text, predefined entities and normalisation. For any other syntax an arbitrary function `ext` decides, so theorems do not
  depend on it.
* Host name and time: arbitrary strings.
* A process that is killed leaves a beginning of what it has written to the output stream (C70). C70 also assumes that expat rejects a document consisting of a part of the XML declaration
  (`rejects_incomplete_declaration`, a hypothesis on the function `ext`).
* ITK: reading of image files is a function of name and bytes; a neighbourhood iterator enumerates the clamped offsets; the region is split arbitrarily; the text and PNG made by ITK
  are parameters (see the headers of `ImgModel.v`, `ItkModel.v`).

### Validation of the model

`RepoTests.v` runs the repository's own tests (programs and command lines of `TestingFramework/tests` and its CMakeLists) on the model and checks their expected outcomes by `vm_compute`. These are
tests of the model, not proofs. `seeded/LOG.jsonl` records the wrong programs tried against the theorems (section 6).

## 5. Trusted base

Coq's kernel, including `vm_compute`; the faithfulness of the models to the cited lines; the environment models above. No axiom is declared in the development. `Print Assumptions` lists for the
theorems of MANIFEST.json only axioms of the standard library's real numbers and classical logic (used by Flocq's rounding theorems):

<!-- assumptions -->
* **No axioms** ("Closed under the global context") (413 theorems): C01_encode_is_rfc4648, C02_encode_layout, C02_line_length_refuted, C03_encode_memory_safe, C04_decode_encode, C04_roundtrip_refuted, C05_decode_language, C06_padded_overruns, C06_padded_rejected, C07_decode_fits_reported_size, C08_isbase64_counts_symbols, C08_isbase64_ratio, C08_reported_size_refuted, C09_decode_undefined_iff, C09_isbase64_undefined_iff, C09_unsigned_char_defined, C10_append, C10_append_assoc, C10_append_empty_left, C11_directory_and_tail, C11_directory_of_append, C11_rejoin_refuted, C11_tail_of_append, C12_extension, C12_extension_of_append, C13_not_found_empty_refuted, C13_search_in_file_system, C13_search_path_list, C14_colon_list, C14_colon_list_empty, C14_colon_list_of_join, C15_get_current_directory_defined, C15_history, C15_not_a_directory, C15_relative_paths_follow, C15_set_get, C15_success, C15_two_steps, C16_escape_total_and_lossless, C16_identity_iff, C16_injective, C16_no_markup, C17_all_texts_refuted, C17_control_character_breaks_file, C17_nothing_is_lost, C17_printed_measurements_read_back, C18_factory, C18_load, C18_types_distinct, C18_unknown, C19_conversion_refuted, C19_copy_loses_data, C19_set_content_refreshes, C19_set_data_with_compression, C19_set_data_without_encoding, C19_stale_after_encoding_change, C20_base64_comparison_undefined, C20_base64_data, C20_base64_set_get, C21_boolean_value_kept, C21_integer_text_injective, C21_integer_value_kept, C21_value_defined_iff, C21_value_read, C21_white_space, C22_integer_undefined, C23_sign_of_tolerance_irrelevant, C24_default_is_exact, C24_in_memory_data, C24_in_memory_exact, C24_tolerant, C24_tolerant_ignores_names, C24_tolerant_names_refuted, C25_directory, C25_file_and_data, C25_images_never_equal, C25_two_files, C26_general_report, C26_plain_text_report, C26_plain_text_report_is_patch, C27_line_count, C27_lines_lossless, C28_collision_refuted, C28_same_id_iff_same_line, C28_succeeds_without_collisions, C29_diff_succeeds, C29_diff_terminates, C29_middle_snake_terminates, C30_in_bounds_refuted, C30_outside_reads_harmless, C30_search_in_bounds, C31_edits_correct, C32_edits_well_formed, C33_empty_iff_equal, C34_nul_refuted, C34_printed_difference_is_patch, C35_bounded, C35_minimal_refuted, C36_arguments_removed, C36_expected_text, C36_expected_value, C36_lone_option_hangs, C36_only_leading_options, C36_rejected, C37_compare_status, C37_exit_status_refuted, C37_missing_baseline_refuted, C37_record_status, C37_unexpected_zero_refuted, C38_all_baselines_needed_refuted, C38_beyond_the_end, C38_leftover_not_counted, C38_mismatches_of_exact_measurements, C38_positions, C38_run, C38_run_positions, C39_carriage_return_refuted, C39_expected_exception_refuted, C39_host_name_refuted, C39_image_refuted, C39_name_refuted, C39_result_dependent_refuted, C39_same_output_destroys_baseline, C39_smallest_integer_refuted, C40_cut_anywhere, C40_text_splitting_irrelevant, C41_result, C41_whole_file_reaches_parser, C42_nested_element, C42_truncated, C42_type_missing, C42_unknown_element_skipped, C43_baseline_only_in_current_directory, C43_directory_raises, C43_image_files_never_match, C43_measured_file_found, C43_measured_file_not_found, C43_no_directories, C43_no_permission, C43_recorded_without_name, C44_exception_refuted, C44_line_determined, C44_other_files_untouched, C44_recorded_document, C44_recorded_text, C45_count, C45_output, C46_magnitude_depends_on_split_refuted, C46_schedule, C46_split_and_schedule, C47_bounds, C47_radius, C47_symmetric_refuted, C48_count, C48_files, C48_files_and_measurement, C48_only_region_compared_refuted, C48_region, C48_region_irrelevant, C48_region_only, C48_size, C48_start, C49_accepted, C49_documented_checks_refuted, C49_origin_ignored, C50_absolute_program, C50_boundaries_ignored, C50_distinct, C50_distinct_tails, C50_hash_distinct_refuted, C50_kth_name, C50_names_of_a_run, C50_needs_arguments, C50_numbers_wrap, C50_one_character, C50_runs_distinct_refuted, C51_comparison, C51_counts, C51_every_command_line, C51_images_in_order, C51_only_numbers_refuted, C51_passes_iff, C51_plan_unique, C52_comparison, C52_is_a_text_measurement, C52_pieces_do_not_matter, C52_readable_without_output_file_refuted, C52_recorded, C52_standard_output_only_refuted, C53_append_denotes, C54_return_value, C54_zero_if_same_refuted, C55_baseline_must_be_in_directory, C55_compare_status, C55_pictures_kept_refuted, C55_plain_tests, C55_recorded_document, C55_report_of_pixels, C55_report_of_sizes, C55_unreadable_image, C56_all_sizes_refuted, C56_compared, C56_names_distinct, C56_names_unique_refuted, C56_recorded, C56_size_mismatches, C56_size_run, C56_small_sizes, C57_changed_image_detected_refuted, C58_at_most_one, C58_change_directory, C58_kind, C58_nul, C58_permissions, C58_search_directory, C59_asking, C59_comparison, C59_mismatches_count_refuted, C59_mode_is_fixed_refuted, C59_mode_while_recording, C59_output_name, C60_not_numbers, C60_value_kept_exactly_refuted, C61_infinite_result_noticed_refuted, C61_not_numbers_count_as_zero, C62_constructor_is_options, C62_constructor_is_options_Main, C62_constructor_is_options_api, C62_constructor_tolerance, C62_refused_output, C63_always_defined_refuted, C63_as_measurement, C63_text, C63_text_determines_events, C64_both_ways, C64_changes_counted, C64_passes_iff, C64_rebaselined, C64_rebaselined_back_refuted, C64_what_numbers, C64_what_texts, C65_attribute_order, C65_data_element, C65_data_element_without_type, C65_file_element, C66_file_content_in_difference_refuted, C66_nothing_written_iff_no_mismatch, C66_report_determined, C66_reports, C67_any_pixel_type, C67_compare_image, C67_compare_region, C67_defined_pixel_types, C67_doubles, C67_exchange_refuted, C67_split_and_schedule, C68_first_output_kept_refuted, C68_next_run, C68_only_this_run_counts_refuted, C68_passing_run, C69_drift_refuted, C70_cut_off_noticed, C70_exception_noticed, C70_newline_not_needed, C70_stopped_recording, C71_by_hand, C71_caught_exception_refuted, C71_compare_value_refuted, C71_comparison, C71_determined, C71_generalises, C71_record_then_compare_refuted, C71_recording, C71_search_directory_refuted, C72_first_run, C72_names, C72_names_differ, C72_names_differ_tails, C72_names_received, C72_next_run, C72_no_output_name_refuted, C72_own_tolerance_refuted, C72_same_names_refuted, C73_full_disk, C73_noticed_later, C73_recording_success_refuted, C74_converted_baseline, C74_line_ends, C74_only_measurements_count, C74_text_file_refuted, C75_always_parallel_refuted, C75_apart_by_names, C75_files_changed, C75_files_used, C75_itk_difference_images_refuted, C75_itk_files_changed, C75_itk_files_used, C75_parallel, C75_same_as_serial, C76_exception_leaves, C76_no_misuse, C76_nothing_left, C76_reuse_refuted, C76_same_driver, C77_compare_run, C77_exception_reported, C77_image_types, C77_missing_files_refuted, C77_not_started, C77_not_the_status_refuted, C77_reader_messages, C77_record_run, C77_rejected, C77_same_driver, C77_silent_reader, C78_assignment_refuted, C78_bill, C78_dangling, C78_no_faults, C78_no_leak, C78_own_data, C78_own_data_refuted, C78_pointer, C78_throwing_comparison_refuted, C78_values, C79_always_given_back_refuted, C79_memory_given_back, C79_output_is_patch, C79_refused_request, C79_same_as_lists, C80_cut_off_noticed, C80_exception_noticed, C80_newline_not_needed, C80_stopped_recording, C81_full_disk, C81_noticed_later, C82_changes_counted, C82_images_counted, C82_no_changes, C83_determined, C83_failures_in_output_file_refuted, C83_image_determined, C83_output_file, C83_transcript, C84_compare_run, C84_exception_reported, C84_lines_refuted, C84_not_started, C84_objection, C84_record_run, C84_rejected, C84_remarks_determined, C84_same_driver, C84_silent_image, C84_tool, C85_compare, C85_end_told_refuted, C85_freed_refuted, C85_never_ends, C85_no_arguments, C85_not_started, C85_record, C85_same_program, C85_status_ambiguous_refuted, C86_compare, C86_count_refuted, C86_depth_refuted, C86_itk_compare, C86_itk_not_started, C86_not_started, C86_reading, C86_recording, C87_by_hand, C87_compare_value_refuted, C87_comparison, C87_determined, C87_generalises, C87_recording, C87_same_without_images, C87_type_decides_refuted, C87_unreadable_counted, C88_ambiguous_refuted, C88_compare_run, C88_failing_what, C88_named_class, C88_nearest, C88_own_exceptions, C88_private_refuted, C88_record_run, C88_same_run, C88_takes, C88_unknown, C89_blind, C89_chars, C89_comparing, C89_comparing_reads_nothing, C89_generalises, C89_lines, C89_record_then_compare_refuted, C89_recording, C89_total, C90_every_run_returns_refuted, C90_itk_run_returns, C90_reader_ends, C90_run_returns, C90_unread_baseline_returns, C91_as_plain, C91_blind, C91_comparing, C91_generalises, C91_image_named_on_input_refuted, C91_recording, C91_total.
* **ClassicalDedekindReals.sig_forall_dec, FunctionalExtensionality.functional_extensionality_dep** (7 theorems): C45_every_difference_reported_refuted, C60_distinct_numbers_distinct_texts_refuted, C60_text_error, C60_text_resolution, C61_equal_numbers_agree_refuted, C61_exact, C69_default_tolerance.
* **ClassicalDedekindReals.sig_forall_dec, ClassicalDedekindReals.sig_not_dec, Classical_Prop.classic, FunctionalExtensionality.functional_extensionality_dep** (34 theorems): C22_integer_tolerance, C22_integer_within_tolerance, C23_infinity, C23_meaning, C23_monotone, C23_nan_tolerance, C23_nan_value, C23_reflexive, C23_symmetric, C39_record_then_compare, C45_differing_reported, C45_integers, C45_reported_differs, C47_identical, C47_symmetric, C47_threshold, C52_record_then_compare, C57_images_recorded, C57_overwritten_baseline_agrees, C57_record_then_compare, C60_reading, C60_short_numbers_kept, C60_value_kept, C61_double_tolerance, C61_float_tolerance, C61_repeated_run, C67_componentwise_refuted, C67_integer_images, C67_integer_vectors, C67_unsigned_images, C69_passes, C69_versions, C74_record_convert_compare, C77_record_then_compare_silent.
<!-- end -->

## 6. Seeded wrong programs

Method: a scratch copy of the built development outside /verif; one textual edit of one definition of a model, as a realistic bug would change the program; rebuild with failing proofs skipped, so that each theorem is
tried on its own; a theorem counts as failed if its own proof or a lemma it depends on no longer checks. A mutation that left the theorems of the claim it breaks intact led to a stronger theorem (field `tightened` of the log).
Mutants that break no claim (equivalent programs) are marked so.
