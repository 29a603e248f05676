# Formal model of trichter/rf (v1.1.1) in Rocq/Coq 8.16

## Approach

* Source of truth: `/repo/rf/*.py`, read as text. Every definition in `rocq/theories/Model/*.v`
  carries a comment citing file and lines.
* Layout
  * `Model/*.v`   — the model (no proofs about properties), branch by branch, exceptions as values (`res A`).
  * `Spec/*.v`    — small independent specifications used in statements (where plain list/number
    vocabulary is not enough).
  * `Proofs/*.v`  — lemmas.
  * `Properties/*.v` — only the property theorems `Cxx_...`, closed by `exact`/`apply` of a lemma,
    each with `Print Assumptions`, and non-vacuity `Example`s.
* Naming: theorem `Cxx_name` proves (part of) property `Cxx` of `properties.jsonl`.
  `..._partial`: less than the full English property, guard visible in the statement.
  `..._refuted`: the English property is false of the code as it is; the theorem exhibits a witness.

## Numbers

* Times: `Z` nanoseconds (ObsPy's `UTCDateTime` stores integer nanoseconds). Sampling interval `delta` : `Z` ns > 0.
* Samples and header numbers in bookkeeping code (`stack`, `profile`, `rf`, headers): `Q` or an
  abstract type; exact arithmetic.
* Numerical kernels (`deconvolve`, `simple_model`, `harmonics`): Coq reals `R` (exact arithmetic). NaN is
  `None : option R` where the code can produce and tests NaN.
* IEEE rounding is NOT modelled, except in `FloatIndex.v` (sample indices, C140).

## Plan per property

| id | modelled | how proved |
|----|----------|-----------|
| C01-C03 | `IterMultipleComponents.__init__` as grouping into an insertion ordered dict + sort + filter | closed form: groups = filters of the input; induction over stream |
| C04-C06 | `RFStream.stack` with arbitrary set order | induction; witness for C06 |
| C07,C08,C10 | `profile`, `_find_box` with the point-in-box relation as parameter; heap of arrays for aliasing | loop invariant over the accumulator dictionary |
| C09 | `get_profile_boxes`, `_get_box` with `direct_geodetic` as parameter; planar instance | induction on bins; trigonometry |
| C11-C13 | `_read/_write_format_specific_header` on dictionaries; SAC reference time; JSON and file writer as parameters with stated contracts | induction over header table |
| C14,C15 | `RFStream.write` as state transformer on traces and the global obspyh5 index, writer may fail | case analysis, witness for failure/aliasing |
| C16 | `type`, `method` getter/setter | list lemmas |
| C17-C20, C66 | `RFStream.rf` over a heap of traces; filter, decimate, rotate, deconvolve as parameters | heap reasoning |
| C21-C23 | `trim2`, `slice2`, `_seconds2utc`; ObsPy's `Trace.trim` modelled from its documentation | arithmetic (`lia`) |
| C24,C25 | `deconvolve` driver and `__find_nearest` | case analysis, sortedness |
| C26,C27 | `_acorrt`, `_xcorrt`, `_add_zeros`, `correlate(...,'valid')` | index algebra |
| C28-C30 | `deconv_time` with an arbitrary correct solver | quadratic forms over lists of reals |
| C31-C33 | `deconv_waterlevel`, `_phase_shift_filter` with a DFT defined by sums over complex numbers | roots of unity |
| C34,C35,C37 | `deconv_iterative` | matching pursuit energy identity, loop invariant |
| C36 | argument handling (list/array) of the three functions, Python name binding rules | case analysis |
| C38, C92-C95 | `deconv_multitaper` completely, the Slepian tapers as parameter | windows as sums of weights; DFT; peak of a spectrum with non-negative amplitudes |
| C39-C49 | `SimpleModel` (all methods), `np.interp`, `np.cumsum`, `np.linspace` | reals; state machine for the `t_ref` cache |
| C50-C52 | `rfstats`, `obj2stats` with TauPy, geodesics as parameters | induction over stream |
| C53-C55, C70 | `iter_event_data`, `_get_stations`, `iter_event_metadata`, `init_data` wrapper | induction over the product |
| C56-C59 | `decomp_one/two`, least squares as minimiser, stream bookkeeping | trigonometry, linear algebra |
| C60-C63 | file name templates, `write`, `run`, `run_commands`, config decoder, file system as map | strings, induction over streams |
| C64 | `_add_processing_info` | sorting is permutation invariant |
| C65 | heap with deep copies | invariant over histories |
| C67-C69 | `_label`, scaling in `plot_harmonics`, bars in `plot_profile` | case analysis |

| C71, C82 | header tables and reading of files with foreign COMMENT fields | case analysis over the table |
| C73-C75, C80, C81 | `deconv_time`: normal equations, linearity, recovery; real parts of `deconv_waterlevel`; reported norm | linear algebra over lists, conjugate symmetry |
| C76-C79 | `moveout`: arrivals, onsets, models from lists, headers | interpolation lemmas, state machine |
| C83 | `rfstats` on streams | induction over the stream |
| C84, C85 | `harmonics` in both domains, selection | DFT is linear, permutation invariance |
| C86, C87 | `run_commands` with objects, failing requests in `iter_event_data` | case analysis, induction |
| C88-C91 | what `plot_rf`, `plot_profile`, `plot_stations`, `plot_harmonics` draw | list lemmas over Q |
| C96, C97 | arguments and noise which `deconvolve` passes on | window arithmetic |
| C98 | peak of the source component, three kernels | positive spectra, first spike by Cauchy-Schwarz, normal equations |
| C99 | driver and kernel together; taper and rounding enter as contracts (`tapers`, `computes_waterlevel`, `computes_iterative` up to eps) | C96 window arithmetic composed with C98 |
| C100 | sums of delayed sources through `deconv_waterlevel` | linearity, non-negative spectra |
| C101 | responses with gains through the three kernels | normal equations, DFT, induction over the greedy loop |
| C102 | one conversion through `deconv_iterative` | C101 with the first spike of C98 |
| C103 | `load_model`, reading of columns (`ModelFile.v`) | C39 with the columns of the file |
| C104 | the model cache as state of a process, histories of loads, moveouts, piercing points and writes of files | invariant over histories: what is cached is the file |
| C105, C107 | `ppoint`, `ppoints`; the geodesic is a parameter | induction over traces; errors do not depend on the slowness |
| C106 | `moveout` followed by `ppoints` | slowness after moveout, witness |
| C108 | the iterators of `run_commands` over an archive (`Figures.v`) | different pairs give different patterns; induction over pairs |
| C109 | read, process, write, read again | C108 composed with the lemmas on files in `BatchFacts.v` and `BatchRead.v` |
| C110, C111 | `plot` and `plot-profile` up to the drawing (`Figures.v`); set of channels in any order | names of figures are different for different stations and channels |
| C113 | `stack` command | C04 per station; names of files are different for different ids |
| C114 | depth axis of `plot_profile` | position of the interpolated value between two layers, then the delay of the next layer as sum over layers; strictly later for Ps by Snell's law |
| C115 | depth axis of `plot_profile` | computation of labels; interpolation of increasing delays is monotone |
| C116, C117 | `run_cli` with the rules of argparse for the arguments of rf, `run` | induction over the options; decomposition of every accepted command line |
| C118 | command `create` | computation; directories of names |
| C119 | command `print` | case analysis, composition with `run_cli` and `run` |
| C120 | command `stack` on an archive written by `write` | composition of C108 (reading by stations) and C113; invariance of means under permutation; counterexamples for two bands and for H5 in place |
| C121 | the loop of command `stack` | induction over the stations before the failing one; counterexample for later stations |
| C122 | command `plot` on an archive written by `write` | what the iteration over stations yields, also for stations visited twice; figures under the same name are equal |
| C123 | maps: `plot_ppoints`, `plot_profile_map`, `plot_stations` | what is drawn as lists; case analysis |
| C124 | the same | exact conditions of success; counterexample for an empty list |
| C125 | `_get_geoaxes` | counting in sorted lists for the median; counterexample across the date line |
| C126 | `run_commands`, `run_cli` with arbitrary libraries (`Dispatch.v`) | names of all operations by cases of the command and induction over loops |
| C127 | `run_commands` | cases of reading the inputs; counterexample plot-profile |
| C128 | the program: parsing, configuration, `run_commands` | C116 with C120; what is read does not depend on files written elsewhere |
| C129 | the program | C116 with C122 and C63 for the options |
| C130 | the program | C116 with C109 and C63 for the options |
| C131 | the program | C116 and C63 with the loop over streams; totality from that of writing |
| C132 | the program | as C130, with the archive itself as conclusion instead of what is read from it |
| C133 | the program, three calls | C131, C132 and C128 one after the other; files of one path do not touch the other ones |
| C134 | arrays, views and trace objects (`Memory.v`); programs of any length which have hold of some traces only | induction over the program; invariant: these traces use other arrays than the rest |
| C135 | as C134 | the same invariant after `filter` or `rf`; frame argument without `moveout`; exact effect of `moveout` on the original of a slice, which refutes the claim in general |
| C136 | as C134 | refinement: what is seen after `rf` on arrays equals `rf` on values, step by step; `moveout` for traces without common samples, refuted otherwise |
| C137 | `batch.py` data and calc loop with a local file on shared arrays (`LocalData.v`), with selection, slicing, trimming, merging | frame argument: the arrays of the file are not written; induction over events; two overlapping windows refute the claim for moveout |
| C138 | as C137 | samples as pairs of time and value; both cuts are filters on times; arithmetic of rounding halves away from zero |
| C139 | `deconvolve` with the keyword `noise` (`Deconv.v`) | case analysis of the driver, filters of both lists; swapped noise refutes the claim |
| C140 | doubles: `FloatIndex.v` (Flocq) for the index of moveout and the shifts of deconvolution | error bounds of rounded operations, floor of a number near a whole one; 0.29 s at 100 Hz refutes the claim |
| C141 | `RFTrace.__str__` with `str.format` (`Str.v`) | the format function is a homomorphism on texts without open fields |
| C142 | `program` (Dispatch.v) with `profile_traces` (ProfileCommand.v: `rf_profile` on traces read from files) | chain of C108 (iteration), C07 (means), C112 (read back) and C111 (figures); `_refuted` runs for two bands and for empty profiles |
| C143 | `rf data` as a whole: decoding of `options`, `init_data` with its three sources, `iter_event_data`, the loop and the files (Model/DataCommand.v on top of Dispatch.v and EventData.v) | the iteration is a list of pairs with at most one item each; items are good streams of different pairs, so C131 applies; SAC headers: witness |
| C144 | `init_data` for plugins, keyword arguments of a request | splitting and stripping of the name; witness: the example of conf.json |
| C145 | `init_data` for clients, files and without a source | unfolding with arbitrary clients, readers and options; a request is known by the arguments it makes (`arguments_of` of the specification); witness without a source |
| C146 | float32 header fields of SAC files, difference to and sum with the reference time, product in float32 or float64 (Model/SacFile.v, Flocq) | error bounds of each rounding; no drift: the microsecond is found again below 16 s, above it the float32 grid is coarser than the error; witness for float32 products |
| C147 | `read_file`: times cut in Q and H5 files, rounded in SAC files; `program` of C132 | bounds of C146 and C132; witness by computation with the values of C146 |
| C148 | `read_file` and `IterMultipleComponents` | one key for all components; witness 10 ms |
| C149 | `rf` with `Stream.rotate` (`Rotate.v`) | groups do not touch each other; unit circle |
| C150 | `rf` with rotation and waterlevel deconvolution | C149, C100 on the heap, mirrored data |
| C112 | `profile` and `_iter_profile` | glob lemmas, witness for the second run |

Properties that cannot be expressed: none are dropped; where the truth lies in a library (FFT rounding,
SAC float32 storage, geodesics, travel times) the library call is a parameter with a stated contract.

## Trusted base

1. Coq 8.16.1: its kernel (and `coqchk`, which `vcheck` runs), the parser and pretty printer for reading statements.
2. The axioms of the standard library listed below for each theorem. No axioms, `Admitted`, functors,
   module types or switched off checks in this development. `ClassicalEpsilon.constructive_indefinite_description`
   is used by non-vacuity examples only (existence of a least squares solver: `solver_exists`, `solvers_exist`).
3. The correspondence between `Model/*.v` and `/repo/rf/*.py`, which is by reading. Each definition cites its lines.
4. The contracts on library functions below.

### What Print Assumptions lists (theorems named in MANIFEST.json)

`ClassicalDedekindReals.*` are the axioms on which Coq's real numbers rest.

<!-- assumptions:begin -->

**No axioms (closed under the global context)** (235 theorems)

`C01_iter_partition`, `C02_no_mixing`, `C03_number_components`, `C04_stack_mean`, `C05_stack_order`, `C06_stack_metadata_partial`, `C06_stack_metadata_refuted`, `C07_profile_mean`, `C07_profile_mean`, `C08_profile_order`, `C108_events_partial`, `C108_stations_partial`, `C108_twice_refuted`, `C109_in_place_refuted`, `C109_in_place_refuted`, `C109_in_place_refuted`, `C109_results_partial`, `C10_find_first_box`, `C110_figures`, `C110_succeeds`, `C111_figures`, `C112_earlier_profile_refuted`, `C112_read_back_partial`, `C113_stacks`, `C116_config`, `C116_missing_config`, `C116_no_config`, `C117_no_command_refuted`, `C117_shape_partial`, `C117_word_as_path_refuted`, `C118_create`, `C118_directory`, `C119_events`, `C119_files`, `C119_inventory_refuted`, `C11_sac_roundtrip`, `C120_archive_partial`, `C120_bands_refuted`, `C120_bands_refuted`, `C120_in_place_refuted`, `C120_in_place_refuted`, `C121_before_partial`, `C121_later_refuted`, `C122_archive`, `C123_ppoints`, `C123_profile`, `C124_empty_refuted`, `C124_ppoints_partial`, `C124_profile_partial`, `C125_centre_partial`, `C125_dateline_refuted`, `C125_profile`, `C126_paths`, `C126_program`, `C127_missing_partial`, `C127_no_events_partial`, `C127_plot_profile_refuted`, `C128_stack_partial`, `C129_plot`, `C12_q_roundtrip`, `C12_q_sh_compat`, `C130_results_partial`, `C131_again_refuted`, `C131_data_partial`, `C131_same_second_refuted`, `C132_archive_partial`, `C133_pipeline_partial`, `C133_stale_refuted`, `C133_stale_refuted`, `C134_copy`, `C134_independent`, `C135_filtered_partial`, `C135_no_moveout_partial`, `C135_rf_partial`, `C135_shared_refuted`, `C135_slice_writes`, `C136_moveout_partial`, `C136_slice`, `C136_twice_refuted`, `C137_data`, `C137_file_partial`, `C137_moveout_refuted`, `C138_window`, `C139_given`, `C139_methods`, `C139_no_window`, `C139_order_refuted`, `C139_own_partial`, `C13_deleted_header_refuted`, `C13_unset_q_partial`, `C13_unset_sac_partial`, `C141_fails`, `C141_magnitude_refuted`, `C141_plain`, `C141_text_partial`, `C142_bands_refuted`, `C142_empty_refuted`, `C142_profile_partial`, `C143_data_partial`, `C143_sac_refuted`, `C144_event_refuted`, `C144_plugin_partial`, `C145_client`, `C145_file`, `C145_null_refuted`, `C149_energy`, `C149_horizontal`, `C149_polarity`, `C149_ray`, `C14_ids_restored_q_partial`, `C14_ids_unchanged`, `C14_q_dotted_code_refuted`, `C14_q_repeated_trace_refuted`, `C14_q_writer_fails_refuted`, `C15_harmonic_refuted`, `C15_index_by_type`, `C15_index_restored`, `C15_other_types_rejected`, `C15_writer_fails_refuted`, `C16_method_common`, `C16_set_method`, `C16_set_type`, `C16_type_common`, `C17_accepted`, `C17_method_partial`, `C17_no_method`, `C17_substring_refuted`, `C18_S_alone`, `C18_S_mirrored`, `C18_twice`, `C19_sign`, `C19_sign_visible`, `C20_groups_partial`, `C20_single_refuted`, `C21_trim2_reversed`, `C21_trim2_window`, `C21_trim_absolute`, `C22_slice2_fails_with_trim2`, `C22_slice2_is_trim2`, `C23_missing_entry`, `C23_nearest`, `C23_no_reference`, `C23_seconds2utc`, `C24_normalize_index`, `C24_one_source`, `C24_only_responses_partial`, `C24_source_changed_refuted`, `C24_three_responses`, `C24_unknown_method`, `C25_after_end`, `C25_before_start`, `C25_nearest`, `C25_onset_snapped`, `C27_shift`, `C50_failure`, `C50_returns`, `C50_selection`, `C51_default_range`, `C51_other_phases_partial`, `C51_pp_phase_agrees_partial`, `C51_pp_phase_refuted`, `C51_ps_refuted`, `C52_complete`, `C52_missing`, `C53_isolation_partial`, `C53_merge_refuted`, `C53_no_origin_refuted`, `C53_none_returned_refuted`, `C54_complete_streams`, `C54_entries_partial`, `C54_product_order`, `C54_product_order`, `C54_sac_refuted`, `C55_requests`, `C55_stations`, `C55_trims`, `C60_lower_case_refuted`, `C60_names`, `C60_read_back_partial`, `C61_moveout_twice_partial`, `C61_refuted`, `C62_Q_refuted`, `C62_failed_writer`, `C62_failure`, `C62_in_place_refuted`, `C62_rerun_data_partial`, `C62_rerun_partial`, `C63_comments_partial`, `C63_comments_refuted`, `C63_merged`, `C63_no_file`, `C63_options`, `C63_precedence_refuted`, `C63_unknown`, `C64_call_style`, `C64_entry`, `C64_keyword_order`, `C64_transparent`, `C65_Srf`, `C65_rf`, `C66_factor_refuted`, `C66_float_always`, `C66_float_refuted`, `C66_rate_partial`, `C67_label`, `C68_refuted`, `C68_scaled_partial`, `C68_second_partial`, `C69_hist_partial`, `C69_refuted`, `C70_metadata`, `C71_comment_read_partial`, `C71_foreign_comment_refuted`, `C72_tags`, `C82_q_fields`, `C82_sac_fields`, `C82_sac_read`, `C83_event_alone_refuted`, `C83_event_and_station_partial`, `C83_stale_event_refuted`, `C86_input_partial`, `C86_refuted`, `C87_refuted`, `C87_wrapper_partial`, `C88_plot_rf`, `C89_profile_limits_partial`, `C89_refuted`, `C90_inventory`, `C90_stations`, `C91_rows`, `C96_source_window`, `C97_noise_partial`, `C97_refuted`, `C97_starts_refuted`, `C97_window`

**Axioms: `FunctionalExtensionality.functional_extensionality_dep`** (2 theorems)

`C136_rf`, `C137_calc`

**Axioms: `ClassicalDedekindReals.sig_forall_dec`, `FunctionalExtensionality.functional_extensionality_dep`** (36 theorems)

`C09_boxes_tile`, `C101_time`, `C103_failure_unchanged`, `C103_four_columns`, `C103_refused`, `C103_three_columns`, `C26_acorrt`, `C26_no_assertion`, `C26_xcorrt`, `C27_alignment_partial`, `C27_even_window_refuted`, `C27_even_window_witness_refuted`, `C27_length_refuted`, `C27_self_maximum`, `C28_matrix`, `C28_positive_definite`, `C28_receiver_functions`, `C28_unique`, `C29_time`, `C29_time_total`, `C30_common_gain`, `C30_gain`, `C36_time`, `C39_between`, `C39_interpolation`, `C39_valid`, `C41_phases`, `C41_sp`, `C73_formula_partial`, `C73_formula_refuted`, `C74_linear`, `C75_components`, `C75_recovery`, `C78_arrays_partial`, `C98_time_partial`, `C98_time_refuted`

**Axioms: `ClassicalDedekindReals.sig_forall_dec`, `ClassicalDedekindReals.sig_not_dec`, `FunctionalExtensionality.functional_extensionality_dep`** (123 theorems)

`C09_boxes_rectangles`, `C100_conversion`, `C100_waterlevel`, `C101_iterative`, `C101_waterlevel`, `C102_iterative`, `C104_current_partial`, `C104_default_partial`, `C104_moveout_partial`, `C104_repaired_partial`, `C104_rewritten_refuted`, `C104_witness_refuted`, `C105_points`, `C105_succeeds`, `C106_reference_ray_refuted`, `C106_same_slowness_partial`, `C106_witness_refuted`, `C107_errors_first_partial`, `C107_half_done_refuted`, `C10_at_most_one`, `C10_edge_in_no_box`, `C10_enclosed`, `C114_ticks_partial`, `C114_ticks_refuted`, `C115_axis`, `C115_needs_moveout`, `C150_S_receiver_functions`, `C150_deconvolve`, `C150_receiver_functions`, `C29_iterative`, `C29_waterlevel_partial`, `C29_waterlevel_refuted`, `C29_waterlevel_src`, `C30_iterative`, `C30_waterlevel`, `C31_division`, `C32_recovery`, `C32_recovery_linear`, `C33_phase_shift`, `C33_waterlevel`, `C34_greedy`, `C34_monotone`, `C35_muted`, `C35_shift`, `C36_iterative_refuted`, `C36_waterlevel_partial`, `C36_waterlevel_refuted`, `C37_total_partial`, `C37_total_partial`, `C37_total_refuted`, `C37_zero_response`, `C38_noise_refuted`, `C38_partial`, `C38_refuted`, `C40_snell`, `C41_delay_times`, `C41_monotone`, `C41_nan_below`, `C42_same_reference_partial`, `C42_stale_reference_refuted`, `C42_unused_consistent`, `C42_witness_refuted`, `C43_first_layer_refuted`, `C43_reference_refuted`, `C43_tables_partial`, `C44_identity_partial`, `C44_largest_delay_refuted`, `C44_s_multiple_partial`, `C44_s_multiple_refuted`, `C45_idempotent_partial`, `C45_largest_delay_refuted`, `C45_s_multiple_partial`, `C46_frame`, `C46_streams`, `C46_succeeds`, `C46_succeeds`, `C47_error_state_partial`, `C47_first_trace_partial`, `C47_half_done_refuted`, `C47_onset_outside`, `C48_distance_partial`, `C48_too_far_refuted`, `C49_above_model_refuted`, `C49_below_model_partial`, `C49_bottom_layer_refuted`, `C56_fit_one`, `C56_recover_one`, `C56_recover_two`, `C57_prediction_one`, `C57_prediction_two`, `C57_turn`, `C58_counts`, `C58_pairs_partial`, `C58_pairs_partial`, `C58_refuted`, `C59_one`, `C59_refuted`, `C59_two_partial`, `C76_arrivals`, `C76_s_multiple_refuted`, `C77_first_sample_refuted`, `C77_last_sample_refuted`, `C77_s_multiple_partial`, `C78_lists_refuted`, `C79_headers`, `C80_real_partial`, `C80_real_refuted`, `C81_info_partial`, `C81_info_refuted`, `C84_methods_agree`, `C85_order_partial`, `C85_refuted`, `C92_components`, `C92_linear`, `C93_detrended`, `C94_gain`, `C94_normalized`, `C95_timing_partial`, `C95_timing_refuted`, `C98_iterative`, `C98_waterlevel`, `C99_iterative`, `C99_waterlevel`

**Axioms: `ClassicalDedekindReals.sig_forall_dec`, `ClassicalDedekindReals.sig_not_dec`, `Classical_Prop.classic`, `FunctionalExtensionality.functional_extensionality_dep`** (17 theorems)

`C140_before_onset_refuted`, `C140_frame`, `C140_index_partial`, `C140_index_refuted`, `C140_shift`, `C140_trunc_partial`, `C140_whole`, `C146_cycles_partial`, `C146_drift_refuted`, `C146_number`, `C146_time`, `C147_archive_partial`, `C147_second_partial`, `C147_second_refuted`, `C148_split_refuted`, `C148_together_partial`, `C31_bounded`

<!-- assumptions:end -->

### Parts of the code which are modelled

| file | model | what |
|------|-------|------|
| `batch.py` | `Batch.v`, `Config.v`, `Figures.v`, `Cli.v`, `Dispatch.v`, `DataCommand.v`, `ProfileCommand.v`, `LocalData.v` | `run_cli`, file names, `write`, `iter_event_processed_data`, `_iter_profile`, `init_data`, `ConfigJSONDecoder`, `run`, `run_commands` with its commands `convert`, `plot`, `plot-profile`, `stack`, `profile`, `print`, `create` |
| `deconvolve.py` | `Deconv.v`, `DeconvTime.v`, `Waterlevel.v`, `Iterative.v`, `Multitaper.v` | everything |
| `harmonics.py` | `Harmonics.v` | everything |
| `imaging.py` | `Imaging.v`, `DepthAxis.v`, `Maps.v` | positions and values of what is drawn by `plot_rf`, `plot_profile`, `plot_stations`, `plot_ppoints`, `plot_profile_map`, `plot_harmonics`, `_label` |
| `profile.py` | `Boxes.v`, `Profile.v` | everything |
| `rfstream.py` | `Headers.v`, `SacFile.v`, `Write.v`, `Times.v`, `Rf.v`, `Rotate.v`, `Stack.v`, `Rfstats.v`, `SimpleModel.v` (wrappers), `Memory.v` (arrays and views), `Str.v` | everything |
| `simple_model.py` | `SimpleModel.v`, `ModelFile.v`, `FloatIndex.v` | everything (text files as numbers of their lines) |
| `util.py` | `EventData.v`, `LocalData.v`, `Iter.v`, `Util.v`, `ModelFile.v` (`direct_geodetic`) | everything |

Not modelled: IEEE rounding (except for sample indices, `FloatIndex.v`, and times in SAC files, `SacFile.v`), NaN and infinities (operations which give them are errors of the model, or
`None` where the code tests for NaN); float32 storage of samples in SAC and Q files; colours, fonts, ticks (except of depth axes) and figure files; progress bars, warnings and log messages; threads (the code has none).

### Contracts on library functions

These are assumed where the model calls a library; they are definitions in `Model/*.v` or hypotheses in the statements.

* ObsPy: `Trace.trim` (rounds to the nearest sample, halves away from zero; padding), `Stream.select/sort/copy` (copies are deep), `slice` and `trim` give views, `Stream.trim` moves the times to samples of the first trace, `merge` keeps single traces or joins them to new arrays, `select` uses `fnmatch`,
  `filter`, `decimate`, `rotate` and `taper` assign new arrays, mirrored data are copied,
  `decimate` and `integer_decimation`, the Q writer appends to existing files, SAC files hold one trace, stats are dictionaries with
  attribute access, differences of two times are `round(ns / 1e9, 6)`, `gps2dist_azimuth`, TauPy, inventories, catalogs, the limit of 100 entries of `_internal_add_processing_info`.
* ObsPy, times in files: the SAC reference time is the start time cut to milliseconds, `UTCDateTime + x` adds `int(round(x * 1e9))` ns, texts of times in Q files
  have three decimals, `str(UTCDateTime)` six, both cut. In C120, C122, C128, C129, C133 and C142 reading may change anything but the codes (`reads`).
* ObsPy `Stream.rotate` (in C149 and C150; elsewhere any change of the groups): the formulas of `rotate_zne_lqt` and `rotate_ne_rt`, the angles of the first trace of the group,
  an error for different time spans, anything but a change for incomplete groups; cosine and sine of degrees lie on the unit circle.
* obspyh5: a file is a map from the text of the index to traces; mode `a`; `set_index` is global state.
* numpy: `median` (of an empty list: nan), `searchsorted`, `interp` (the search of compiled_base.c is modelled with its guess, also for unsorted nodes), `linspace`, `cumsum`, `argmax` (first maximum), `max` of complex arrays
  (lexicographic), slices (views) and broadcasting of assignments, assignment to a slice writes into the array, `linalg.lstsq` (minimises the residual), `hstack`.
* scipy: `fft`, `ifft` (exact sums), `next_fast_len` (some number >= n), `correlate(mode='valid')`, `detrend`, `toeplitz` solver (solves the equations).
* geographiclib: `Geodesic.WGS84.Direct` (any function of station, azimuth and metres; distinct points for distances up to 10000 km in C106).
* multitaper: `MTSpec` delivers K tapers with the requested number of samples and positive eigenvalues.
* Python: insertion ordered dictionaries, stable sort, sets (any order without repetition), `str()` of a box position (different for different boxes, no slash), `str.format`, `glob`, `json.loads` (parameter), `inspect.getcallargs`, `round` (halves to even),
  argparse (options, abbreviations, `nargs='*'` takes as many tokens as possible, subparsers are not required; the token `--` is refused), `os.path`, `shutil.copyfile`.
* matplotlib: `bar` centres at x by default, `fill_between`, `plot` draw the arrays they are given, `scatter` without x and y is a TypeError. cartopy: axes and projections are what is passed to them.
* shapely: `Polygon.contains` is containment in the interior.

### How theorems are tested

`seeded/LOG.jsonl`: edits of the model in a scratch copy. A proof that no longer goes through is replaced by `Admitted` there, and every
theorem which then depends on it counts as failed.
