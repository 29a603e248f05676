{
 "claims": [
  {
   "property": "C01",
   "status": "proved",
   "theorems": [
    "C01_iter_partition"
   ],
   "note": ""
  },
  {
   "property": "C02",
   "status": "proved",
   "theorems": [
    "C02_no_mixing"
   ],
   "note": ""
  },
  {
   "property": "C03",
   "status": "proved",
   "theorems": [
    "C03_number_components"
   ],
   "note": ""
  },
  {
   "property": "C04",
   "status": "proved",
   "theorems": [
    "C04_stack_mean"
   ],
   "note": "exact rational arithmetic; codes without dots"
  },
  {
   "property": "C05",
   "status": "proved",
   "theorems": [
    "C05_stack_order"
   ],
   "note": ""
  },
  {
   "property": "C06",
   "status": "partial",
   "theorems": [
    "C06_stack_metadata_refuted",
    "C06_stack_metadata_partial"
   ],
   "note": "refuted: metadata of every stacked trace come from the first trace of the whole stream; the partial theorem characterises them exactly"
  },
  {
   "property": "C07",
   "status": "proved",
   "theorems": [
    "C07_profile_mean"
   ],
   "note": "point-in-box test is an oracle; traces stacked together have equal length"
  },
  {
   "property": "C08",
   "status": "proved",
   "theorems": [
    "C07_profile_mean",
    "C08_profile_order"
   ],
   "note": "arrays are modelled as references; C07_profile_mean contains the part on unmodified input arrays"
  },
  {
   "property": "C09",
   "status": "proved",
   "theorems": [
    "C09_boxes_tile",
    "C09_boxes_rectangles"
   ],
   "note": "geometry on a plane instead of the ellipsoid"
  },
  {
   "property": "C10",
   "status": "proved",
   "theorems": [
    "C10_find_first_box",
    "C10_enclosed",
    "C10_at_most_one",
    "C10_edge_in_no_box"
   ],
   "note": "geometry on a plane instead of the ellipsoid"
  },
  {
   "property": "C11",
   "status": "proved",
   "theorems": [
    "C11_sac_roundtrip"
   ],
   "note": "file contract: the SAC plugin keeps stats.sac; exact arithmetic; streams without repeated traces"
  },
  {
   "property": "C12",
   "status": "proved",
   "theorems": [
    "C12_q_roundtrip",
    "C12_q_sh_compat"
   ],
   "note": "file contract: the Q plugin keeps stats.sh and the station code; codes without dots"
  },
  {
   "property": "C13",
   "status": "partial",
   "theorems": [
    "C13_deleted_header_refuted",
    "C13_unset_sac_partial",
    "C13_unset_q_partial"
   ],
   "note": "refuted: stale entries of stats.sac / stats.sh reappear; partial: stays absent if the format dictionary has no such field"
  },
  {
   "property": "C14",
   "status": "partial",
   "theorems": [
    "C14_ids_unchanged",
    "C14_ids_restored_q_partial",
    "C14_q_writer_fails_refuted",
    "C14_q_repeated_trace_refuted",
    "C14_q_dotted_code_refuted"
   ],
   "note": "proved for all formats but Q, including failures; for Q proved for successful writes of distinct traces without dots in codes, refuted otherwise"
  },
  {
   "property": "C15",
   "status": "partial",
   "theorems": [
    "C15_index_restored",
    "C15_index_by_type",
    "C15_other_types_rejected",
    "C15_harmonic_refuted",
    "C15_writer_fails_refuted"
   ],
   "note": "refuted for streams of type harmonic (KeyError) and for failing writers (index not restored)"
  },
  {
   "property": "C16",
   "status": "proved",
   "theorems": [
    "C16_type_common",
    "C16_method_common",
    "C16_set_type",
    "C16_set_method"
   ],
   "note": "headers are texts"
  },
  {
   "property": "C17",
   "status": "partial",
   "theorems": [
    "C17_method_partial",
    "C17_no_method",
    "C17_accepted",
    "C17_substring_refuted"
   ],
   "note": "refuted for the methods \"\" and \"PS\", which are accepted; proved for all other texts"
  },
  {
   "property": "C18",
   "status": "proved",
   "theorems": [
    "C18_S_mirrored",
    "C18_S_alone",
    "C18_twice"
   ],
   "note": "streams without repeated traces; filter, rotation and deconvolution are arbitrary functions"
  },
  {
   "property": "C19",
   "status": "proved",
   "theorems": [
    "C19_sign",
    "C19_sign_visible"
   ],
   "note": ""
  },
  {
   "property": "C20",
   "status": "partial",
   "theorems": [
    "C20_groups_partial",
    "C20_single_refuted"
   ],
   "note": "groups are passed exactly once in key order; refuted: traces outside groups of 2 or 3 are tagged without deconvolution"
  },
  {
   "property": "C21",
   "status": "proved",
   "theorems": [
    "C21_trim2_window",
    "C21_trim2_reversed",
    "C21_trim_absolute"
   ],
   "note": "library contract: obspy Trace.trim with nearest_sample; integer ns times"
  },
  {
   "property": "C22",
   "status": "proved",
   "theorems": [
    "C22_slice2_is_trim2",
    "C22_slice2_fails_with_trim2"
   ],
   "note": ""
  },
  {
   "property": "C23",
   "status": "proved",
   "theorems": [
    "C23_seconds2utc",
    "C23_nearest",
    "C23_no_reference",
    "C23_missing_entry"
   ],
   "note": "times in integer ns, seconds rational"
  },
  {
   "property": "C24",
   "status": "partial",
   "theorems": [
    "C24_unknown_method",
    "C24_one_source",
    "C24_three_responses",
    "C24_only_responses_partial",
    "C24_normalize_index",
    "C24_source_changed_refuted"
   ],
   "note": "refuted: with the source excluded from the responses its trace is cut in place"
  },
  {
   "property": "C25",
   "status": "proved",
   "theorems": [
    "C25_onset_snapped",
    "C25_nearest",
    "C25_after_end",
    "C25_before_start"
   ],
   "note": ""
  },
  {
   "property": "C26",
   "status": "proved",
   "theorems": [
    "C26_acorrt",
    "C26_xcorrt",
    "C26_no_assertion"
   ],
   "note": "real numbers; library contract: scipy correlate"
  },
  {
   "property": "C27",
   "status": "partial",
   "theorems": [
    "C27_alignment_partial",
    "C27_shift",
    "C27_self_maximum",
    "C27_even_window_refuted",
    "C27_even_window_witness_refuted",
    "C27_length_refuted"
   ],
   "note": "proved for windows of odd length or with the onset inside; refuted for windows of even length starting at or after the onset (one sample early) and for the length argument"
  },
  {
   "property": "C28",
   "status": "proved",
   "theorems": [
    "C28_matrix",
    "C28_positive_definite",
    "C28_unique",
    "C28_receiver_functions"
   ],
   "note": "real numbers; holds for spiking >= 0"
  },
  {
   "property": "C29",
   "status": "partial",
   "theorems": [
    "C29_time",
    "C29_time_total",
    "C29_waterlevel_partial",
    "C29_waterlevel_src",
    "C29_waterlevel_refuted",
    "C29_iterative"
   ],
   "note": "water level: refuted for a reference trace whose largest sample is negative (signed maximum); proved for time domain and iterative"
  },
  {
   "property": "C30",
   "status": "proved",
   "theorems": [
    "C30_gain",
    "C30_common_gain",
    "C30_waterlevel",
    "C30_iterative"
   ],
   "note": "real numbers; water level and iterative without solver; for every solver that solves uniquely solvable systems"
  },
  {
   "property": "C31",
   "status": "proved",
   "theorems": [
    "C31_bounded",
    "C31_division"
   ],
   "note": "real numbers"
  },
  {
   "property": "C32",
   "status": "proved",
   "theorems": [
    "C32_recovery",
    "C32_recovery_linear"
   ],
   "note": "real numbers"
  },
  {
   "property": "C33",
   "status": "proved",
   "theorems": [
    "C33_phase_shift",
    "C33_waterlevel"
   ],
   "note": "shifts by a whole number of samples"
  },
  {
   "property": "C34",
   "status": "proved",
   "theorems": [
    "C34_greedy",
    "C34_monotone"
   ],
   "note": "real numbers; non-empty responses"
  },
  {
   "property": "C35",
   "status": "proved",
   "theorems": [
    "C35_muted",
    "C35_shift"
   ],
   "note": "real numbers; non-empty responses"
  },
  {
   "property": "C36",
   "status": "partial",
   "theorems": [
    "C36_time",
    "C36_waterlevel_partial",
    "C36_waterlevel_refuted",
    "C36_iterative_refuted",
    "C37_total_partial"
   ],
   "note": "refuted: a single array with normalize=None raises in deconv_waterlevel, and always in deconv_iterative"
  },
  {
   "property": "C37",
   "status": "partial",
   "theorems": [
    "C37_zero_response",
    "C37_total_partial",
    "C37_total_refuted"
   ],
   "note": "refuted for a zero source"
  },
  {
   "property": "C38",
   "status": "partial",
   "theorems": [
    "C38_partial",
    "C38_refuted",
    "C38_noise_refuted"
   ],
   "note": "refuted: source and response may differ by less than the overlap of the windows (ValueError), noise may be shorter than the part of a window that does not overlap (ZeroDivisionError); proved for lengths which exclude both"
  },
  {
   "property": "C39",
   "status": "proved",
   "theorems": [
    "C39_interpolation",
    "C39_between",
    "C39_valid"
   ],
   "note": "real numbers; n holds natural numbers"
  },
  {
   "property": "C40",
   "status": "proved",
   "theorems": [
    "C40_snell"
   ],
   "note": "real numbers; NaN is None; positive velocities"
  },
  {
   "property": "C41",
   "status": "proved",
   "theorems": [
    "C41_delay_times",
    "C41_nan_below",
    "C41_monotone",
    "C41_phases",
    "C41_sp"
   ],
   "note": "real numbers; NaN is None"
  },
  {
   "property": "C42",
   "status": "partial",
   "theorems": [
    "C42_same_reference_partial",
    "C42_unused_consistent",
    "C42_stale_reference_refuted",
    "C42_witness_refuted"
   ],
   "note": "refuted: the reference of the first call for a phase is used for ever; proved as long as all calls on the instance have the same reference"
  },
  {
   "property": "C43",
   "status": "partial",
   "theorems": [
    "C43_tables_partial",
    "C43_first_layer_refuted",
    "C43_reference_refuted"
   ],
   "note": "refuted: NaN stays in the tables if the phase cannot cross the first layer or the reference cannot cross a layer"
  },
  {
   "property": "C44",
   "status": "partial",
   "theorems": [
    "C44_identity_partial",
    "C44_largest_delay_refuted",
    "C44_s_multiple_partial",
    "C44_s_multiple_refuted"
   ],
   "note": "P phases, their multiples and Sp: proved for all samples before and after the largest delay in models with at least two used layers; refuted for a sample at exactly the largest delay (it becomes the last sample). S multiples: the trace is unchanged if it does not begin earlier than the largest delay; refuted for longer traces, which lose all samples before the onset"
  },
  {
   "property": "C45",
   "status": "partial",
   "theorems": [
    "C45_idempotent_partial",
    "C45_largest_delay_refuted",
    "C45_s_multiple_partial"
   ],
   "note": "proved except for a sample at exactly the largest delay, refuted there; proved for S multiples if the traces do not begin earlier than the largest delay"
  },
  {
   "property": "C46",
   "status": "proved",
   "theorems": [
    "C46_frame",
    "C46_streams",
    "C46_succeeds"
   ],
   "note": "samples less than one sampling interval before the onset may change"
  },
  {
   "property": "C47",
   "status": "partial",
   "theorems": [
    "C47_error_state_partial",
    "C47_first_trace_partial",
    "C47_onset_outside",
    "C47_half_done_refuted"
   ],
   "note": "refuted: traces in front of the failing one are corrected but keep their old headers"
  },
  {
   "property": "C48",
   "status": "partial",
   "theorems": [
    "C48_distance_partial",
    "C48_too_far_refuted"
   ],
   "note": "refuted: the result is the distance for a point one layer deeper; the partial theorem gives the exact value"
  },
  {
   "property": "C49",
   "status": "partial",
   "theorems": [
    "C49_below_model_partial",
    "C49_above_model_refuted",
    "C49_bottom_layer_refuted"
   ],
   "note": "refuted: negative depths give a number; depths inside the bottom layer raise"
  },
  {
   "property": "C50",
   "status": "proved",
   "theorems": [
    "C50_selection",
    "C50_returns",
    "C50_failure"
   ],
   "note": "Geodesics, TauPy and piercing points are parameters. C50_failure: if a trace raises, the exception is passed on."
  },
  {
   "property": "C51",
   "status": "partial",
   "theorems": [
    "C51_default_range",
    "C51_other_phases_partial",
    "C51_ps_refuted",
    "C51_pp_phase_agrees_partial",
    "C51_pp_phase_refuted"
   ],
   "note": "refuted: phases as Ps or SKS are accepted because only the last letter is looked at; rfstats and ppoints derive the default piercing point phase differently for streams with mixed phases"
  },
  {
   "property": "C52",
   "status": "proved",
   "theorems": [
    "C52_missing",
    "C52_complete"
   ],
   "note": ""
  },
  {
   "property": "C53",
   "status": "partial",
   "theorems": [
    "C53_isolation_partial",
    "C53_no_origin_refuted",
    "C53_none_returned_refuted",
    "C53_merge_refuted"
   ],
   "note": "refuted: events without origin, get_waveforms returning None, and streams that cannot be merged end the iteration"
  },
  {
   "property": "C54",
   "status": "partial",
   "theorems": [
    "C54_product_order",
    "C54_complete_streams",
    "C54_entries_partial",
    "C54_sac_refuted"
   ],
   "note": "Order, completeness and at most one stream per pair hold for all services. refuted: headers of SAC or Q data override the entries of rfstats"
  },
  {
   "property": "C55",
   "status": "proved",
   "theorems": [
    "C55_requests",
    "C55_trims",
    "C55_stations",
    "C54_product_order"
   ],
   "note": "at most one request per pair: C54_product_order"
  },
  {
   "property": "C56",
   "status": "proved",
   "theorems": [
    "C56_fit_one",
    "C56_recover_one",
    "C56_recover_two",
    "C58_pairs_partial"
   ],
   "note": "one component: no restriction (method freq: traces of the same length). Two components: for the same events in both components, see C58"
  },
  {
   "property": "C57",
   "status": "proved",
   "theorems": [
    "C57_turn",
    "C57_prediction_one",
    "C57_prediction_two"
   ],
   "note": ""
  },
  {
   "property": "C58",
   "status": "partial",
   "theorems": [
    "C58_counts",
    "C58_pairs_partial",
    "C58_refuted"
   ],
   "note": "refuted: only the number of traces has to agree, traces of different events are paired silently; holds if both components have the same events, each once"
  },
  {
   "property": "C59",
   "status": "partial",
   "theorems": [
    "C59_one",
    "C59_two_partial",
    "C59_refuted"
   ],
   "note": "refuted: traces 5 to 8 of a two component decomposition lack the entry components; everything else holds"
  },
  {
   "property": "C60",
   "status": "partial",
   "theorems": [
    "C60_names",
    "C60_read_back_partial",
    "C60_lower_case_refuted"
   ],
   "note": "holds for the formats Q, SAC and H5 as written in the documentation; refuted for formats in lower case, which are accepted for writing, but not for reading"
  },
  {
   "property": "C61",
   "status": "partial",
   "theorems": [
    "C61_moveout_twice_partial",
    "C61_refuted"
   ],
   "note": "refuted: calc twice is accepted, and everything after data; only moveout twice after calc is rejected"
  },
  {
   "property": "C62",
   "status": "partial",
   "theorems": [
    "C62_failure",
    "C62_failed_writer",
    "C62_rerun_data_partial",
    "C62_rerun_partial",
    "C62_Q_refuted",
    "C62_in_place_refuted"
   ],
   "note": "the first part holds (C62_failure); repeated runs for SAC and H5 with different input and output paths; refuted for Q (traces are appended) and for equal paths"
  },
  {
   "property": "C63",
   "status": "partial",
   "theorems": [
    "C63_comments_partial",
    "C63_comments_refuted",
    "C63_merged",
    "C63_no_file",
    "C63_unknown",
    "C63_options",
    "C63_precedence_refuted"
   ],
   "note": "refuted: # in strings starts a comment; phase, moveout_phase and boxbins of the file replace entries of the options on the command line"
  },
  {
   "property": "C64",
   "status": "proved",
   "theorems": [
    "C64_entry",
    "C64_transparent",
    "C64_call_style",
    "C64_keyword_order"
   ],
   "note": "obspy keeps at most 100 entries (library contract); boxes have to describe their profile"
  },
  {
   "property": "C65",
   "status": "proved",
   "theorems": [
    "C65_rf",
    "C65_Srf"
   ],
   "note": "for every history of calls and modifications; Stream.copy is deep (library contract)"
  },
  {
   "property": "C66",
   "status": "partial",
   "theorems": [
    "C66_rate_partial",
    "C66_float_refuted",
    "C66_float_always",
    "C66_factor_refuted"
   ],
   "note": "proved for int d and rates below 17 d; refuted for floats (TypeError) and factors above 16; library contract: obspy decimate"
  },
  {
   "property": "C67",
   "status": "proved",
   "theorems": [
    "C67_label"
   ],
   "note": ""
  },
  {
   "property": "C68",
   "status": "partial",
   "theorems": [
    "C68_scaled_partial",
    "C68_second_partial",
    "C68_refuted"
   ],
   "note": "refuted for a second stream: its amplitudes are compared with the reference of the first stream"
  },
  {
   "property": "C69",
   "status": "partial",
   "theorems": [
    "C69_hist_partial",
    "C69_refuted"
   ],
   "note": "refuted: left edges are passed to bar(), which centers; bars are shifted by half a box"
  },
  {
   "property": "C70",
   "status": "proved",
   "theorems": [
    "C70_metadata"
   ],
   "note": ""
  },
  {
   "property": "C71",
   "status": "partial",
   "theorems": [
    "C71_comment_read_partial",
    "C71_foreign_comment_refuted"
   ],
   "note": "refuted for COMMENT texts that are JSON but not an object"
  },
  {
   "property": "C72",
   "status": "proved",
   "theorems": [
    "C72_tags"
   ],
   "note": "non-empty text phases"
  },
  {
   "property": "C73",
   "status": "partial",
   "theorems": [
    "C73_formula_partial",
    "C73_formula_refuted"
   ],
   "note": "refuted: the matrix is normalised by STS_0 but the right-hand side is not; the partial theorem gives the exact relation"
  },
  {
   "property": "C74",
   "status": "proved",
   "theorems": [
    "C74_linear"
   ],
   "note": "real numbers"
  },
  {
   "property": "C75",
   "status": "proved",
   "theorems": [
    "C75_recovery",
    "C75_components"
   ],
   "note": "real numbers; windows as in C27"
  },
  {
   "property": "C76",
   "status": "partial",
   "theorems": [
    "C76_arrivals",
    "C76_s_multiple_refuted"
   ],
   "note": "proved for P phases, their multiples and Sp in models with a first layer of no thickness; refuted for S multiples"
  },
  {
   "property": "C77",
   "status": "partial",
   "theorems": [
    "C46_succeeds",
    "C77_last_sample_refuted",
    "C77_first_sample_refuted",
    "C77_s_multiple_partial"
   ],
   "note": "refuted for traces without a sample after the onset, for S multiples also without a sample before it; proved otherwise"
  },
  {
   "property": "C78",
   "status": "partial",
   "theorems": [
    "C78_lists_refuted",
    "C78_arrays_partial"
   ],
   "note": "refuted for lists without n"
  },
  {
   "property": "C79",
   "status": "proved",
   "theorems": [
    "C79_headers"
   ],
   "note": ""
  },
  {
   "property": "C80",
   "status": "partial",
   "theorems": [
    "C80_real_partial",
    "C80_real_refuted"
   ],
   "note": "refuted for an even number of points and shifts that are no multiple of the sampling interval"
  },
  {
   "property": "C81",
   "status": "partial",
   "theorems": [
    "C81_info_partial",
    "C81_info_refuted"
   ],
   "note": "refuted: info for an index has the factor of the source, normalize=None raises"
  },
  {
   "property": "C82",
   "status": "proved",
   "theorems": [
    "C82_sac_fields",
    "C82_q_fields",
    "C82_sac_read"
   ],
   "note": "The table of the documentation is restated in Spec/HeaderSpec.v; found missing by a seeded bug that exchanged two fields consistently. Q files of other programs: only the COMMENT is covered (C71)."
  },
  {
   "property": "C83",
   "status": "partial",
   "theorems": [
    "C83_event_and_station_partial",
    "C83_event_alone_refuted",
    "C83_stale_event_refuted"
   ],
   "note": "refuted: an event (or a station) passed alone is ignored without warning"
  },
  {
   "property": "C84",
   "status": "proved",
   "theorems": [
    "C84_methods_agree"
   ],
   "note": ""
  },
  {
   "property": "C85",
   "status": "partial",
   "theorems": [
    "C85_order_partial",
    "C85_refuted"
   ],
   "note": "refuted: the number of samples is that of the first trace of the stream, whatever its component; holds for traces of the same length"
  },
  {
   "property": "C86",
   "status": "partial",
   "theorems": [
    "C86_input_partial",
    "C86_refuted"
   ],
   "note": "refuted: no Catalog is accepted, the condition is always true"
  },
  {
   "property": "C87",
   "status": "partial",
   "theorems": [
    "C87_wrapper_partial",
    "C87_refuted"
   ],
   "note": "refuted: the function around get_waveforms returns None for failed requests, the iteration then ends with an AttributeError"
  },
  {
   "property": "C88",
   "status": "proved",
   "theorems": [
    "C88_plot_rf"
   ],
   "note": ""
  },
  {
   "property": "C89",
   "status": "partial",
   "theorems": [
    "C89_profile_limits_partial",
    "C89_refuted"
   ],
   "note": "not for negative scales"
  },
  {
   "property": "C90",
   "status": "proved",
   "theorems": [
    "C90_stations",
    "C90_inventory"
   ],
   "note": ""
  },
  {
   "property": "C91",
   "status": "proved",
   "theorems": [
    "C91_rows"
   ],
   "note": ""
  },
  {
   "property": "C92",
   "status": "proved",
   "theorems": [
    "C92_components",
    "C92_linear"
   ],
   "note": ""
  },
  {
   "property": "C93",
   "status": "proved",
   "theorems": [
    "C93_detrended"
   ],
   "note": ""
  },
  {
   "property": "C94",
   "status": "proved",
   "theorems": [
    "C94_normalized",
    "C94_gain"
   ],
   "note": ""
  },
  {
   "property": "C95",
   "status": "partial",
   "theorems": [
    "C95_timing_partial",
    "C95_timing_refuted"
   ],
   "note": "proved for windows without overlap, delays by whole windows and sources without trend; refuted for other delays, which meet different parts of the tapers: for a taper concentrated in the middle of the window and a delay of one sample the largest amplitude is negative and at the delay 0, and the value at the delay is not 1"
  },
  {
   "property": "C96",
   "status": "proved",
   "theorems": [
    "C96_source_window"
   ],
   "note": ""
  },
  {
   "property": "C97",
   "status": "partial",
   "theorems": [
    "C97_noise_partial",
    "C97_window",
    "C97_refuted",
    "C97_starts_refuted"
   ],
   "note": "proved for responses with the same start time; C97_window gives the exact windows for all streams. Violated: less than 5 s of data before the onset make deconvolve() fail; the window begins for all responses at the start of the first one, and a response without data in it gets the noise of the next one"
  },
  {
   "property": "C98",
   "status": "partial",
   "theorems": [
    "C98_waterlevel",
    "C98_iterative",
    "C98_time_partial",
    "C98_time_refuted"
   ],
   "note": "proved for water level and iterative deconvolution; time domain: proved for spiking = 0, refuted for the default spiking = 1, where the peak of a smooth source is moved away from the onset"
  },
  {
   "property": "C99",
   "status": "proved",
   "theorems": [
    "C99_waterlevel",
    "C99_iterative"
   ],
   "note": "the kernel is assumed to compute the result of the model of deconv_waterlevel or deconv_iterative up to eps; obspy taper by its contract"
  },
  {
   "property": "C100",
   "status": "proved",
   "theorems": [
    "C100_waterlevel",
    "C100_conversion"
   ],
   "note": ""
  },
  {
   "property": "C101",
   "status": "proved",
   "theorems": [
    "C101_time",
    "C101_waterlevel",
    "C101_iterative"
   ],
   "note": "real numbers"
  },
  {
   "property": "C102",
   "status": "proved",
   "theorems": [
    "C102_iterative"
   ],
   "note": "real numbers"
  },
  {
   "property": "C103",
   "status": "proved",
   "theorems": [
    "C103_four_columns",
    "C103_three_columns",
    "C103_refused",
    "C103_failure_unchanged"
   ],
   "note": "Text is modelled as the numbers of the lines. Column n is rounded towards zero; the count -1 is not modelled."
  },
  {
   "property": "C104",
   "status": "partial",
   "theorems": [
    "C104_rewritten_refuted",
    "C104_witness_refuted",
    "C104_current_partial",
    "C104_moveout_partial",
    "C104_default_partial",
    "C104_repaired_partial"
   ],
   "note": "Refuted: a file that was loaded is never read again, even if it is rewritten or removed. Proved for all histories in which the file was not written after its first use; for moveouts all earlier moveouts with the model need the same reference (see C42)."
  },
  {
   "property": "C105",
   "status": "proved",
   "theorems": [
    "C105_points",
    "C105_succeeds"
   ],
   "note": "Geodesic and model distances as in the contracts; the distance itself is the subject of C48, C49."
  },
  {
   "property": "C106",
   "status": "partial",
   "theorems": [
    "C106_reference_ray_refuted",
    "C106_witness_refuted",
    "C106_same_slowness_partial"
   ],
   "note": "Refuted: moveout overwrites the slowness by the reference, so that later piercing points are those of rays with the reference slowness. Holds if all slownesses equal the reference."
  },
  {
   "property": "C107",
   "status": "partial",
   "theorems": [
    "C107_errors_first_partial",
    "C107_half_done_refuted"
   ],
   "note": "Refuted for headers missing in a later trace. Errors concerning model, phase and depth leave all traces unchanged."
  },
  {
   "property": "C108",
   "status": "partial",
   "theorems": [
    "C108_events_partial",
    "C108_stations_partial",
    "C108_twice_refuted"
   ],
   "note": "Refuted: a location with two channel groups (BH? and HH?), or two events in the same second, is visited twice, and converting to Q then stores the traces twice. Proved for inventories with one channel group per location and events in different seconds."
  },
  {
   "property": "C109",
   "status": "partial",
   "theorems": [
    "C109_results_partial",
    "C109_in_place_refuted"
   ],
   "note": "Refuted if the results are written to the input path (format Q appends). Proved for a new output path, codes without separators and wildcards and the guards of C108."
  },
  {
   "property": "C110",
   "status": "proved",
   "theorems": [
    "C110_figures",
    "C110_succeeds"
   ],
   "note": "Codes as in SEED (upper case, no wildcards); streams of different stations as yielded by the iterator. The drawing is a parameter (C88 describes it)."
  },
  {
   "property": "C111",
   "status": "proved",
   "theorems": [
    "C111_figures"
   ],
   "note": "Components are upper case letters or digits. The drawing is a parameter (C89 describes it)."
  },
  {
   "property": "C112",
   "status": "partial",
   "theorems": [
    "C112_read_back_partial",
    "C112_earlier_profile_refuted"
   ],
   "note": "Refuted: boxes of an earlier profile at the same path are read as part of the new one. Proved for a path without files of an earlier profile; rendering of the box position is a parameter, distinct for distinct boxes."
  },
  {
   "property": "C113",
   "status": "proved",
   "theorems": [
    "C113_stacks"
   ],
   "note": "Streams of different stations as yielded by the iterator, with the same number of samples within a channel (C04), and an output path without earlier results."
  },
  {
   "property": "C114",
   "status": "partial",
   "theorems": [
    "C114_ticks_partial",
    "C114_ticks_refuted"
   ],
   "note": "Violated: delays of conversions at the bottom of the layers are interpolated at the depths of their tops, so that every tick is one layer too late. The partial theorem gives the exact depth the tick belongs to; the refutation holds for every model, depth and slowness of Ps."
  },
  {
   "property": "C115",
   "status": "proved",
   "theorems": [
    "C115_axis",
    "C115_needs_moveout"
   ],
   "note": "Velocity models with contiguous layers; order of the ticks if the phase propagates in all layers."
  },
  {
   "property": "C116",
   "status": "proved",
   "theorems": [
    "C116_config",
    "C116_no_config",
    "C116_missing_config"
   ],
   "note": "argparse is modelled as library (its rules for the arguments of rf); arguments which do not start with a minus sign. What run_commands does with the entries: C63."
  },
  {
   "property": "C117",
   "status": "partial",
   "theorems": [
    "C117_shape_partial",
    "C117_no_command_refuted",
    "C117_word_as_path_refuted"
   ],
   "note": "The number and kind of arguments is checked for every command. Violated: without command nothing is refused (the configuration is loaded and run_commands is called with None), and if a path is forgotten the words calc and moveout are taken for a path"
  },
  {
   "property": "C118",
   "status": "proved",
   "theorems": [
    "C118_create",
    "C118_directory"
   ],
   "note": "copying of files is shutil.copyfile (library)"
  },
  {
   "property": "C119",
   "status": "partial",
   "theorems": [
    "C119_files",
    "C119_events",
    "C119_inventory_refuted"
   ],
   "note": "Violated: the word inventory of the help is taken for a file name, the code expects stations"
  },
  {
   "property": "C120",
   "status": "partial",
   "theorems": [
    "C120_archive_partial",
    "C120_bands_refuted",
    "C120_in_place_refuted"
   ],
   "note": "Proved end to end (write, read by pattern, group, average, write) for an inventory with one band per station and location and a new output path. With two bands the stacks are written twice to Q files; with H5 and the path of the archive the stacks become part of the archive: both refuted by witnesses."
  },
  {
   "property": "C121",
   "status": "partial",
   "theorems": [
    "C121_before_partial",
    "C121_later_refuted"
   ],
   "note": "Stations before the failing one are written as without it; later ones are lost (refuted: the error of one station ends the command)."
  },
  {
   "property": "C122",
   "status": "proved",
   "theorems": [
    "C122_archive"
   ],
   "note": "End to end: write, read by pattern, select, sort, save. Drawing is a parameter. Hypotheses: readable archive of well-formed streams, traces with back azimuth, upper case channel codes."
  },
  {
   "property": "C123",
   "status": "proved",
   "theorems": [
    "C123_ppoints",
    "C123_profile"
   ],
   "note": "For every successful call. matplotlib and cartopy are represented by what is passed to them."
  },
  {
   "property": "C124",
   "status": "partial",
   "theorems": [
    "C124_ppoints_partial",
    "C124_profile_partial",
    "C124_empty_refuted"
   ],
   "note": "Exact conditions of success; an empty list of piercing points raises an error (refuted)."
  },
  {
   "property": "C125",
   "status": "partial",
   "theorems": [
    "C125_centre_partial",
    "C125_profile",
    "C125_dateline_refuted"
   ],
   "note": "The centre is the componentwise median (at most half of the points on each side), which is on the other side of the globe for points across the date line (refuted)."
  },
  {
   "property": "C126",
   "status": "proved",
   "theorems": [
    "C126_paths",
    "C126_program"
   ],
   "note": "For all calls, with arbitrary results and failures of libraries and processing functions."
  },
  {
   "property": "C127",
   "status": "partial",
   "theorems": [
    "C127_missing_partial",
    "C127_no_events_partial",
    "C127_plot_profile_refuted"
   ],
   "note": "Nothing is written without the needed inputs, stack and plot do not depend on events; plot-profile does nothing without readable events and inventory although it does not use them (refuted)."
  },
  {
   "property": "C128",
   "status": "partial",
   "theorems": [
    "C128_stack_partial",
    "C120_bands_refuted",
    "C120_in_place_refuted"
   ],
   "note": "From the command line to the files, for paths which are not in each other and inventories with one band for each station and location; the other cases are refuted."
  },
  {
   "property": "C129",
   "status": "proved",
   "theorems": [
    "C129_plot"
   ],
   "note": "From the command line to the saved figures; drawing is a function of options and traces."
  },
  {
   "property": "C130",
   "status": "partial",
   "theorems": [
    "C130_results_partial",
    "C109_in_place_refuted"
   ],
   "note": "From the command line to what is read afterwards, for a new output path, events in different seconds and one band; with the same path the files contain results and data (refuted)."
  },
  {
   "property": "C131",
   "status": "partial",
   "theorems": [
    "C131_data_partial",
    "C131_same_second_refuted",
    "C131_again_refuted"
   ],
   "note": "For a new output path and streams of events in different seconds; otherwise files contain traces of two events or all traces twice (refuted). The data source (init_data, iter_event_data) is a parameter here, see C53-C55 and C87 for it."
  },
  {
   "property": "C132",
   "status": "partial",
   "theorems": [
    "C132_archive_partial",
    "C109_in_place_refuted",
    "C133_stale_refuted"
   ],
   "note": "For a new output path, events in different seconds and one band; in a path which has been used before old results stay (refuted)."
  },
  {
   "property": "C133",
   "status": "partial",
   "theorems": [
    "C133_pipeline_partial",
    "C133_stale_refuted"
   ],
   "note": "For new paths, events in different seconds and one band. The guards which rf data, calc and stack need follow from those of the first call."
  },
  {
   "property": "C134",
   "status": "proved",
   "theorems": [
    "C134_independent",
    "C134_copy"
   ],
   "note": "Arrays, views and trace objects are modelled (Memory.v). Rotation, deconvolution and the moveout kernel are parameters: the first two change traces of their group only and assign new arrays, the last keeps the number of samples."
  },
  {
   "property": "C135",
   "status": "partial",
   "theorems": [
    "C135_no_moveout_partial",
    "C135_filtered_partial",
    "C135_rf_partial",
    "C135_slice_writes",
    "C135_shared_refuted"
   ],
   "note": "Refuted for moveout, which writes into the data in place: C135_slice_writes says what happens to the original. Proved for programs without moveout, and for all programs after filter or rf (with filter or with rotation of all traces)."
  },
  {
   "property": "C136",
   "status": "partial",
   "theorems": [
    "C136_rf",
    "C136_slice",
    "C136_moveout_partial",
    "C136_twice_refuted"
   ],
   "note": "rf and slice2 give the values of the model without memory. moveout does if the traces have no common samples, and corrects common samples twice otherwise (refuted)."
  },
  {
   "property": "C137",
   "status": "partial",
   "theorems": [
    "C137_file_partial",
    "C137_data",
    "C137_calc",
    "C137_moveout_refuted"
   ],
   "note": "Refuted for rf data moveout: moveout writes into the arrays of the file, of which the streams of later events are views. Proved for sequences of commands without moveout and for those in which rf renews the arrays before. Merging is a parameter: traces are kept or joined to new arrays."
  },
  {
   "property": "C138",
   "status": "proved",
   "theorems": [
    "C138_window"
   ],
   "note": "Stated for the loop of rf data on arrays in memory (LocalData.v). Merging keeps records of different channels (hypothesis on the library)."
  },
  {
   "property": "C139",
   "status": "partial",
   "theorems": [
    "C139_given",
    "C139_own_partial",
    "C139_no_window",
    "C139_methods",
    "C139_order_refuted"
   ],
   "note": "Refuted if the noise has the components in another order than the stream: pairing is by position. Proved if the orders agree; the rest of the claim holds in general."
  },
  {
   "property": "C140",
   "status": "partial",
   "theorems": [
    "C140_index_partial",
    "C140_whole",
    "C140_trunc_partial",
    "C140_shift",
    "C140_frame",
    "C140_index_refuted",
    "C140_before_onset_refuted"
   ],
   "note": "Refuted: onset on sample 29 of a 100 Hz trace gives 28, and moveout changes the sample before the onset. Proved: off by one at most (never too large for an onset on a sample), right for whole seconds and whole rates, samples two intervals before the onset untouched; the rounded shift of time domain deconvolution is always right. Doubles without overflow (Flocq); the rest of moveout is over the reals."
  },
  {
   "property": "C141",
   "status": "partial",
   "theorems": [
    "C141_text_partial",
    "C141_fails",
    "C141_plain",
    "C141_magnitude_refuted"
   ],
   "note": "Refuted: an event whose magnitude has no value gives the header None, and str() fails. Proved for headers which are numbers and ids without braces; one header which is not a number makes it fail always."
  },
  {
   "property": "C142",
   "status": "partial",
   "theorems": [
    "C142_profile_partial",
    "C142_bands_refuted",
    "C142_empty_refuted"
   ],
   "note": "guards: one band per station, events in different seconds, unused output path, at least one trace in a box; with two bands traces are counted twice, and without traces in a box plot-profile raises"
  },
  {
   "property": "C143",
   "status": "partial",
   "theorems": [
    "C143_data_partial",
    "C143_sac_refuted"
   ],
   "note": "With data which are not read from SAC or Q files the statement holds for the whole command, including the options and the source of the waveforms. refuted: SAC files with the header o are stored under the origin time of the header, where rf calc does not find them"
  },
  {
   "property": "C144",
   "status": "partial",
   "theorems": [
    "C144_plugin_partial",
    "C144_event_refuted"
   ],
   "note": "Codes and times are passed for each request, and errors of the plugin are reported. refuted: the documented argument event is never passed; the documented example fails for each request and ends rf data"
  },
  {
   "property": "C145",
   "status": "partial",
   "theorems": [
    "C145_client",
    "C145_file",
    "C145_null_refuted"
   ],
   "note": "Clients and files: creation with the options given, the codes and times of each request, errors of single requests give None. refuted: without a data source the example data of ObsPy are used for every station and event instead of an error"
  },
  {
   "property": "C146",
   "status": "partial",
   "theorems": [
    "C146_time",
    "C146_number",
    "C146_cycles_partial",
    "C146_drift_refuted"
   ],
   "note": "Error bound for both precisions of the product; no drift over any number of cycles for the double product. refuted: with numpy 2 the product is float32 and times drift from cycle to cycle (8.27 s after the reference time: 640 ns, then 1664 ns)"
  },
  {
   "property": "C147",
   "status": "partial",
   "theorems": [
    "C147_second_partial",
    "C147_archive_partial",
    "C147_second_refuted"
   ],
   "note": "Q and H5 files keep the second, SAC files if event_time has room to the next full seconds; then rf calc, rf moveout and rf convert make archives which the next command finds completely. refuted: an event at a full second with a record starting 700.002 s later: rf calc on the SAC archive writes the results under the second before and rf moveout finds nothing"
  },
  {
   "property": "C148",
   "status": "partial",
   "theorems": [
    "C148_together_partial",
    "C148_split_refuted"
   ],
   "note": "Q and H5 always, SAC if the start times of the components agree. refuted: one component starts 10 ms later, its onset gets another text and the component is left out"
  },
  {
   "property": "C149",
   "status": "proved",
   "theorems": [
    "C149_ray",
    "C149_horizontal",
    "C149_energy",
    "C149_polarity"
   ],
   "note": "cosine and sine of degrees are any functions on the unit circle; obspy Stream.rotate is modelled by its formulas"
  },
  {
   "property": "C150",
   "status": "proved",
   "theorems": [
    "C150_deconvolve",
    "C150_receiver_functions",
    "C150_conversion",
    "C150_S_receiver_functions"
   ],
   "note": "no filter, trim and downsampling; the source signal lies inside of the window and outside of the tapered seconds; the kernel is spectral division in real arithmetic up to eps"
  }
 ]
}