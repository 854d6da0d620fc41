{
 "claims": [
  {
   "property": "C01",
   "status": "proved",
   "theorems": [
    "C01_transparent",
    "C01_sticky",
    "C01_once",
    "C01_errors_not_stored"
   ],
   "note": ""
  },
  {
   "property": "C02",
   "status": "proved",
   "theorems": [
    "C02_key_injective"
   ],
   "note": ""
  },
  {
   "property": "C03",
   "status": "proved",
   "theorems": [
    "C03_errors",
    "C03_short_window",
    "C03_length_border",
    "C03_length_none"
   ],
   "note": ""
  },
  {
   "property": "C04",
   "status": "proved",
   "theorems": [
    "C04_bounds",
    "C04_constant",
    "C04_weighted_mean",
    "C04_interior"
   ],
   "note": ""
  },
  {
   "property": "C05",
   "status": "partial",
   "theorems": [
    "C05_no_window",
    "C05_length_partial",
    "C05_length_refuted",
    "C05_values",
    "C05_centred"
   ],
   "note": "The full statement is false of the code. C05_length_refuted: with a window of two samples the result has another length. The other theorems give what holds."
  },
  {
   "property": "C06",
   "status": "proved",
   "theorems": [
    "C06_gmean_plain",
    "C06_gmean_weighted",
    "C06_gmean_bounds",
    "C06_gmean_homogeneous",
    "C06_gmean_order",
    "C06_gmean_order_weighted",
    "C06_gmean_weight_scale",
    "C06_gmean_equal_weights",
    "C06_gmean_integer_weights"
   ],
   "note": ""
  },
  {
   "property": "C07",
   "status": "proved",
   "theorems": [
    "C07_gmeanlist",
    "C07_gmeanlist_weighted",
    "C07_gmeanlist_column",
    "C07_robust_fall_back",
    "C07_identical_data",
    "C07_robust_weights"
   ],
   "note": ""
  },
  {
   "property": "C08",
   "status": "proved",
   "theorems": [
    "C08_gerr",
    "C08_gerr_exists",
    "C08_gerr_weighted",
    "C08_gerr_robust",
    "C08_gerr_unbiased",
    "C08_gerr_equal_weights",
    "C08_gerr_fall_back"
   ],
   "note": ""
  },
  {
   "property": "C09",
   "status": "partial",
   "theorems": [
    "C09_causal",
    "C09_unknown_type_partial",
    "C09_unknown_type_refuted"
   ],
   "note": "The full statement is false of the code. C09_unknown_type_refuted: full statement \"an unknown type always raises\" is false: rt.py:126 does not raise, and early times never look at the type. The other theorems give what holds."
  },
  {
   "property": "C10",
   "status": "partial",
   "theorems": [
    "C10_time_vector_partial",
    "C10_direct_wave",
    "C10_time_vector_refuted",
    "C10_first_sample_lost"
   ],
   "note": "The full statement is false of the code. C10_time_vector_refuted: full statement is false: on a vector starting behind the front the first value is 0. The other theorems give what holds."
  },
  {
   "property": "C11",
   "status": "partial",
   "theorems": [
    "C11_distance_vector_partial",
    "C11_direct_wave",
    "C11_distance_vector_refuted",
    "C11_arrays",
    "C11_arrays_refused"
   ],
   "note": "The full statement is false of the code. C11_distance_vector_refuted: full statement is false: energy in front of the wave front. The other theorems give what holds."
  },
  {
   "property": "C12",
   "status": "proved",
   "theorems": [
    "C12_rt2d_energy_inside",
    "C12_rt2d_energy_total"
   ],
   "note": ""
  },
  {
   "property": "C13",
   "status": "proved",
   "theorems": [
    "C13_coda_positive",
    "C13_direct_positive"
   ],
   "note": ""
  },
  {
   "property": "C14",
   "status": "proved",
   "theorems": [
    "C14_similarity",
    "C14_time_unit"
   ],
   "note": ""
  },
  {
   "property": "C15",
   "status": "proved",
   "theorems": [
    "C15_diffusion_equation",
    "C15_diffapprox_bound"
   ],
   "note": ""
  },
  {
   "property": "C16",
   "status": "proved",
   "theorems": [
    "C16_rt3d_diffusion_limit",
    "C16_rt2d_diffusion_limit",
    "C16_diffapprox_limit",
    "C16_rt1d_diffusion_limit",
    "C16_rt2d_distance",
    "C16_rt3d_distance"
   ],
   "note": ""
  },
  {
   "property": "C17",
   "status": "partial",
   "theorems": [
    "C17_plot_r_absorption",
    "C17_plot_t_absorption_refuted",
    "C17_plot_t_absorption_partial"
   ],
   "note": "The full statement is false of the code. C17_plot_t_absorption_refuted: full statement is false for time plots: the factor of the end time is applied to every sample. The other theorems give what holds."
  },
  {
   "property": "C18",
   "status": "proved",
   "theorems": [
    "C18_inverse",
    "C18_inverse_back",
    "C18_increasing",
    "C18_unit"
   ],
   "note": ""
  },
  {
   "property": "C19",
   "status": "proved",
   "theorems": [
    "C19_positive",
    "C19_recover_W",
    "C19_scale_W",
    "C19_scale_rho",
    "C19_scale_f",
    "C19_scale_v"
   ],
   "note": ""
  },
  {
   "property": "C20",
   "status": "proved",
   "theorems": [
    "C20_formula",
    "C20_bounds",
    "C20_decreasing",
    "C20_corner",
    "C20_proportional",
    "C20_low_frequency",
    "C20_high_frequency"
   ],
   "note": ""
  },
  {
   "property": "C21",
   "status": "proved",
   "theorems": [
    "C21_reparametrisation",
    "C21_reported_parameters",
    "C21_default_model"
   ],
   "note": ""
  },
  {
   "property": "C22",
   "status": "proved",
   "theorems": [
    "C22_mean",
    "C22_error",
    "C22_locality",
    "C22_none",
    "C22_no_corner"
   ],
   "note": ""
  },
  {
   "property": "C23",
   "status": "proved",
   "theorems": [
    "C23_least_squares",
    "C23_recovery",
    "C23_search_recovery",
    "C23_scale_equivariant"
   ],
   "note": ""
  },
  {
   "property": "C24",
   "status": "partial",
   "theorems": [
    "C24_keys_partial",
    "C24_mean_keys",
    "C24_none",
    "C24_too_few",
    "C24_none_refuted"
   ],
   "note": "The full statement is false of the code. C24_none_refuted: the documented None is not returned whenever M0 is not determined. The other theorems give what holds."
  },
  {
   "property": "C25",
   "status": "proved",
   "theorems": [
    "C25_spectrum_aligned",
    "C25_magnitude"
   ],
   "note": ""
  },
  {
   "property": "C26",
   "status": "partial",
   "theorems": [
    "C26_untouched",
    "C26_no_stale_values_partial",
    "C26_magnitude_partial",
    "C26_magnitude_refuted",
    "C26_idempotent",
    "C26_given_options",
    "C26_config_options",
    "C26_default_options",
    "C26_event_velocity"
   ],
   "note": "The full statement is false of the code. C26_magnitude_refuted: but an old magnitude survives when no moment is determined. The other theorems give what holds."
  },
  {
   "property": "C27",
   "status": "proved",
   "theorems": [
    "C27_merge_components",
    "C27_rounds_suffice"
   ],
   "note": ""
  },
  {
   "property": "C28",
   "status": "proved",
   "theorems": [
    "C28_areas"
   ],
   "note": ""
  },
  {
   "property": "C29",
   "status": "proved",
   "theorems": [
    "C29_product"
   ],
   "note": ""
  },
  {
   "property": "C30",
   "status": "proved",
   "theorems": [
    "C30_normalisation"
   ],
   "note": ""
  },
  {
   "property": "C31",
   "status": "proved",
   "theorems": [
    "C31_consistent"
   ],
   "note": ""
  },
  {
   "property": "C32",
   "status": "proved",
   "theorems": [
    "C32_largest_area",
    "C32_sorted"
   ],
   "note": ""
  },
  {
   "property": "C33",
   "status": "partial",
   "theorems": [
    "C33_mean_partial",
    "C33_stale_mean_refuted"
   ],
   "note": "The full statement is false of the code. C33_stale_mean_refuted: A station which lost all its responses keeps the mean stored before. The other theorems give what holds."
  },
  {
   "property": "C34",
   "status": "partial",
   "theorems": [
    "C34_station_list",
    "C34_station_partial",
    "C34_substring_refuted",
    "C34_no_station"
   ],
   "note": "The full statement is false of the code. C34_substring_refuted: Aligning to station S10 also pins station S1. The other theorems give what holds."
  },
  {
   "property": "C35",
   "status": "proved",
   "theorems": [
    "C35_result",
    "C35_result_errors",
    "C35_event",
    "C35_sort_dict",
    "C35_unknown_key",
    "C35_error_reason",
    "C35_order_free",
    "C35_simultaneous"
   ],
   "note": ""
  },
  {
   "property": "C36",
   "status": "proved",
   "theorems": [
    "C36_octave_spacing",
    "C36_given_centres",
    "C36_below_min",
    "C36_errors"
   ],
   "note": ""
  },
  {
   "property": "C37",
   "status": "partial",
   "theorems": [
    "C37_all_bands_partial",
    "C37_narrowest",
    "C37_all_bands_refuted"
   ],
   "note": "The full statement is false of the code. C37_all_bands_refuted: of two bands with the same centre only the last is inverted. The other theorems give what holds."
  },
  {
   "property": "C38",
   "status": "proved",
   "theorems": [
    "C38_energy_trace",
    "C38_refused",
    "C38_quadratic",
    "C38_parameters",
    "C38_amplitude_free",
    "C38_coda_mean",
    "C38_zero_mean"
   ],
   "note": ""
  },
  {
   "property": "C39",
   "status": "partial",
   "theorems": [
    "C39_station_name",
    "C39_names_distinct",
    "C39_network_ignored_partial",
    "C39_network_ignored_refuted",
    "C39_event_id"
   ],
   "note": "The full statement is false of the code. C39_network_ignored_refuted: a station without network code raises an IndexError. The other theorems give what holds."
  },
  {
   "property": "C40",
   "status": "proved",
   "theorems": [
    "C40_preferred",
    "C40_first",
    "C40_only_other",
    "C40_none",
    "C40_raises"
   ],
   "note": ""
  },
  {
   "property": "C41",
   "status": "proved",
   "theorems": [
    "C41_picks",
    "C41_unresolved"
   ],
   "note": ""
  },
  {
   "property": "C42",
   "status": "proved",
   "theorems": [
    "C42_seconds",
    "C42_travel_times",
    "C42_nothing_else",
    "C42_value_error",
    "C42_case"
   ],
   "note": ""
  },
  {
   "property": "C43",
   "status": "partial",
   "theorems": [
    "C43_first_weak_sample_partial",
    "C43_any_start",
    "C43_first_weak_sample_refuted",
    "C43_not_before_start",
    "C43_own_start",
    "C43_no_own_start",
    "C43_not_before_start_refuted"
   ],
   "note": "The full statement is false of the code. C43_first_weak_sample_refuted: for a start between two samples the result is no time of a sample. C43_not_before_start_refuted: ... which may be before the start of the window. The other theorems give what holds."
  },
  {
   "property": "C44",
   "status": "proved",
   "theorems": [
    "C44_window",
    "C44_window_exists"
   ],
   "note": ""
  },
  {
   "property": "C45",
   "status": "proved",
   "theorems": [
    "C45_ids",
    "C45_rows",
    "C45_keys",
    "C45_sites",
    "C45_total"
   ],
   "note": ""
  },
  {
   "property": "C46",
   "status": "proved",
   "theorems": [
    "C46_check_times"
   ],
   "note": ""
  },
  {
   "property": "C47",
   "status": "partial",
   "theorems": [
    "C47_cut_reference",
    "C47_cut_partial",
    "C47_cut_refuted"
   ],
   "note": "The full statement is false of the code. C47_cut_refuted: the window can be cut at its start, which is no minimum. The other theorems give what holds."
  },
  {
   "property": "C48",
   "status": "partial",
   "theorems": [
    "C48_lines",
    "C48_comments_partial",
    "C48_quoted_refuted"
   ],
   "note": "The full statement is false of the code. C48_quoted_refuted: C48 is false in general: a # inside a quoted string cuts the text. The other theorems give what holds."
  },
  {
   "property": "C49",
   "status": "partial",
   "theorems": [
    "C49_path_partial",
    "C49_path_iff",
    "C49_path_refuted"
   ],
   "note": "The full statement is false of the code. C49_path_refuted: C49 is false in general: a failing import leaves the path changed. The other theorems give what holds."
  },
  {
   "property": "C50",
   "status": "proved",
   "theorems": [
    "C50_retrieval",
    "C50_codes",
    "C50_source"
   ],
   "note": ""
  },
  {
   "property": "C51",
   "status": "proved",
   "theorems": [
    "C51_energies",
    "C51_alignment",
    "C51_selection",
    "C51_distances",
    "C51_bulk_windows",
    "C51_result"
   ],
   "note": ""
  },
  {
   "property": "C52",
   "status": "proved",
   "theorems": [
    "C52_noise",
    "C52_positive"
   ],
   "note": ""
  },
  {
   "property": "C53",
   "status": "proved",
   "theorems": [
    "C53_unknowns",
    "C53_go",
    "C53_fixed",
    "C53_source",
    "C53_allowed",
    "C53_nstations",
    "C53_entries"
   ],
   "note": ""
  },
  {
   "property": "C54",
   "status": "proved",
   "theorems": [
    "C54_go",
    "C54_fixed",
    "C54_source"
   ],
   "note": "For the go command the result is exact if the chosen g0 is the one of the synthetic data; the optimiser itself is an arbitrary function."
  },
  {
   "property": "C55",
   "status": "proved",
   "theorems": [
    "C55_accepted",
    "C55_discarded",
    "C55_negative_refuted",
    "C55_missing"
   ],
   "note": "Stated for positive bounds. C55_negative_refuted shows that the restriction is needed: with a negative lower bound a result outside of the bounds, with infinite error, is accepted."
  },
  {
   "property": "C56",
   "status": "proved",
   "theorems": [
    "C56_misfit",
    "C56_optimum",
    "C56_final"
   ],
   "note": ""
  },
  {
   "property": "C57",
   "status": "proved",
   "theorems": [
    "C57_records",
    "C57_no_optimisation"
   ],
   "note": ""
  },
  {
   "property": "C58",
   "status": "partial",
   "theorems": [
    "C58_aligned_partial",
    "C58_no_result",
    "C58_stations",
    "C58_network_ignored",
    "C58_event_W",
    "C58_event_sds",
    "C58_duplicate_refuted",
    "C58_expected"
   ],
   "note": "The full statement is false of the code. C58_duplicate_refuted: C58 is false for events with the same id: W has two entries per band. The other theorems give what holds."
  },
  {
   "property": "C59",
   "status": "proved",
   "theorems": [
    "C59_pairs",
    "C59_exits_coordinates",
    "C59_exits_response"
   ],
   "note": ""
  },
  {
   "property": "C60",
   "status": "partial",
   "theorems": [
    "C60_skip_refuted",
    "C60_skip_partial",
    "C60_band"
   ],
   "note": "The full statement is false of the code. C60_skip_refuted: C60 fails for the inversion of events: it is skipped with exactly num_pairs pairs. The other theorems give what holds."
  },
  {
   "property": "C61",
   "status": "partial",
   "theorems": [
    "C61_jobs_partial",
    "C61_serial",
    "C61_schedule",
    "C61_result_partial",
    "C61_independent",
    "C61_result_independent",
    "C61_chunks_refuted"
   ],
   "note": "The full statement is false of the code. C61_chunks_refuted: C61 is false for more bands: bands in a chunk get streams that have been filtered for other bands. The other theorems give what holds."
  },
  {
   "property": "C62",
   "status": "proved",
   "theorems": [
    "C62_own_band",
    "C62_other_frequencies",
    "C62_same_frequencies",
    "C62_short",
    "C62_no_input",
    "C62_go"
   ],
   "note": ""
  },
  {
   "property": "C63",
   "status": "partial",
   "theorems": [
    "C63_joint_refuted",
    "C63_joint_partial",
    "C63_separate",
    "C63_single_events"
   ],
   "note": "The full statement is false of the code. C63_joint_refuted: C63 fails for the joint inversion: an event without arrivals prevents the inversion of the other one. The other theorems give what holds."
  },
  {
   "property": "C64",
   "status": "partial",
   "theorems": [
    "C64_distance",
    "C64_borehole",
    "C64_ignored_refuted"
   ],
   "note": "The full statement is false of the code. C64_ignored_refuted: C64 fails if network codes are ignored: the names of the borehole stations have a network code, the names of the traces do not, and the correction for the surface is used (4 instead of 1). The other theorems give what holds."
  },
  {
   "property": "C65",
   "status": "partial",
   "theorems": [
    "C65_order_partial",
    "C65_distinct",
    "C65_equal_times",
    "C65_equal_times_refuted",
    "C65_no_origin",
    "C65_no_origin_refuted",
    "C65_results"
   ],
   "note": "The full statement is false of the code. C65_equal_times_refuted: two events with the same origin time raise a TypeError. C65_no_origin_refuted: events without origin raise an IndexError. The other theorems give what holds."
  },
  {
   "property": "C66",
   "status": "partial",
   "theorems": [
    "C66_run",
    "C66_print_mag_refuted",
    "C66_align_refuted",
    "C66_separate_partial",
    "C66_none",
    "C66_simultaneous",
    "C66_simultaneous_refuted"
   ],
   "note": "The full statement is false of the code. C66_print_mag_refuted: With print_mag a run without result fails. C66_align_refuted: With the alignment of sites a run without result fails. C66_simultaneous_refuted: a simultaneous inversion without result raises a TypeError. The other theorems give what holds."
  },
  {
   "property": "C67",
   "status": "partial",
   "theorems": [
    "C67_means_partial",
    "C67_total",
    "C67_weighted_refuted"
   ],
   "note": "The full statement is false of the code. C67_weighted_refuted: a station without value for one of the events makes the weighted mean fail. The other theorems give what holds."
  },
  {
   "property": "C68",
   "status": "partial",
   "theorems": [
    "C68_precedence",
    "C68_options",
    "C68_mean",
    "C68_mean_refuted",
    "C68_plots",
    "C68_total",
    "C68_inversion",
    "C68_data",
    "C68_cmdline",
    "C68_cmdline_pairs",
    "C68_cmdline_refused",
    "C68_print_mag_refuted",
    "C68_eventid_refuted"
   ],
   "note": "The full statement is false of the code. C68_mean_refuted: Without options for the plot the mean is lost. C68_print_mag_refuted: An option of the signature of run is ignored in the configuration file: print_mag. C68_eventid_refuted: eventid in the configuration file does not select an event and lets the plots fail. The other theorems give what holds."
  },
  {
   "property": "C69",
   "status": "partial",
   "theorems": [
    "C69_prefix",
    "C69_fname",
    "C69_no_prefix",
    "C69_stdout_refuted",
    "C69_none_refuted",
    "C69_default_refuted"
   ],
   "note": "The full statement is false of the code. C69_stdout_refuted: With a prefix the output to stdout becomes a file. C69_none_refuted: With a prefix an output switched off becomes a file. C69_default_refuted: A plot with its default file name gets no prefix. The other theorems give what holds."
  },
  {
   "property": "C70",
   "status": "partial",
   "theorems": [
    "C70_overall",
    "C70_events",
    "C70_events_refuted",
    "C70_source"
   ],
   "note": "The full statement is false of the code. C70_events_refuted: The site responses of an event are not those of the other result. The other theorems give what holds."
  },
  {
   "property": "C71",
   "status": "partial",
   "theorems": [
    "C71_selected",
    "C71_missing",
    "C71_recalc",
    "C71_recalc_refuted",
    "C71_plot_refuted",
    "C71_empty_refuted"
   ],
   "note": "The full statement is false of the code. C71_recalc_refuted: So the claim fails for recalc_source, which works without eventid. C71_plot_refuted: A missing id is a KeyError for the command plot. C71_empty_refuted: A missing id is an IndexError for an empty catalogue. The other theorems give what holds."
  },
  {
   "property": "C72",
   "status": "proved",
   "theorems": [
    "C72_default",
    "C72_repeatable",
    "C72_consistent",
    "C72_total",
    "C72_invalid"
   ],
   "note": ""
  },
  {
   "property": "C73",
   "status": "partial",
   "theorems": [
    "C73_square",
    "C73_sites",
    "C73_sites_refuted",
    "C73_spectra",
    "C73_spectra_column",
    "C73_spectra_refuted",
    "C73_nothing"
   ],
   "note": "The full statement is false of the code. C73_sites_refuted: Without a single value there is no plot of the sites but an exception. C73_spectra_refuted: A grid with one column is an exception. The other theorems give what holds."
  },
  {
   "property": "C74",
   "status": "partial",
   "theorems": [
    "C74_panels",
    "C74_even",
    "C74_even_refuted",
    "C74_two_refuted",
    "C74_records",
    "C74_best",
    "C74_best_refuted",
    "C74_no_steps"
   ],
   "note": "The full statement is false of the code. C74_even_refuted: With an even number of panels two records share a cell. C74_two_refuted: Two panels are an exception. C74_best_refuted: But there may be none: the optimum among the first values is not recorded again. The other theorems give what holds."
  },
  {
   "property": "C75",
   "status": "partial",
   "theorems": [
    "C75_events",
    "C75_event",
    "C75_value",
    "C75_length",
    "C75_single",
    "C75_single_value",
    "C75_broadcast",
    "C75_broadcast_length",
    "C75_one_event",
    "C75_lengths",
    "C75_frequencies",
    "C75_infinite",
    "C75_default",
    "C75_default_refuted"
   ],
   "note": "The full statement is false of the code. C75_default_refuted: Quantities that need no velocity fail with the default velocity. The other theorems give what holds."
  },
  {
   "property": "C76",
   "status": "partial",
   "theorems": [
    "C76_reverse_partial",
    "C76_reverse_refuted"
   ],
   "note": "The full statement is false of the code. C76_reverse_refuted: with method reflect the smoothed reverse is not the reverse of the smoothed signal. The other theorems give what holds."
  },
  {
   "property": "C77",
   "status": "partial",
   "theorems": [
    "C77_align_succeeds",
    "C77_all_ignored_refuted",
    "C77_frequencies"
   ],
   "note": "The full statement is false of the code. C77_all_ignored_refuted: Results in which only ignored stations have responses make it fail. The other theorems give what holds."
  },
  {
   "property": "C78",
   "status": "partial",
   "theorems": [
    "C78_onset_partial",
    "C78_onset_refuted"
   ],
   "note": "The full statement is false of the code. C78_onset_refuted: C78 fails if the window starts before the data: the index of the maximum is counted from the start of the window. The other theorems give what holds."
  },
  {
   "property": "C79",
   "status": "proved",
   "theorems": [
    "C79_times"
   ],
   "note": ""
  },
  {
   "property": "C80",
   "status": "partial",
   "theorems": [
    "C80_config_partial",
    "C80_plugin_refuted"
   ],
   "note": "The full statement is false of the code. C80_plugin_refuted: the key of the module of the Green's function in the order of the configuration is not the name of the argument (G_plugin), which is dropped. The other theorems give what holds."
  },
  {
   "property": "C81",
   "status": "partial",
   "theorems": [
    "C81_unknown",
    "C81_rt",
    "C81_rt_refuted",
    "C81_create"
   ],
   "note": "The full statement is false of the code. C81_rt_refuted: The accepted command rt fails. The other theorems give what holds."
  },
  {
   "property": "C82",
   "status": "partial",
   "theorems": [
    "C82_caller_refuted"
   ],
   "note": "The full statement is false of the code. C82_caller_refuted: run changes the options of its caller: a second call with the same dictionaries gets the prefix twice. The other theorems give what holds."
  },
  {
   "property": "C83",
   "status": "partial",
   "theorems": [
    "C83_xlabel",
    "C83_labels",
    "C83_xlabel_refuted",
    "C83_ticks"
   ],
   "note": "The full statement is false of the code. C83_xlabel_refuted: With more columns than panels the label may be missing. The other theorems give what holds."
  },
  {
   "property": "C84",
   "status": "proved",
   "theorems": [
    "C84_exists",
    "C84_increasing",
    "C84_decreasing",
    "C84_half_step"
   ],
   "note": ""
  },
  {
   "property": "C85",
   "status": "partial",
   "theorems": [
    "C85_eventresult",
    "C85_eventresult_refuted",
    "C85_eventsites_refuted",
    "C85_no_event"
   ],
   "note": "The full statement is false of the code. C85_eventresult_refuted: Without source energies the plot shows the overall values in place of those of the event. C85_eventsites_refuted: The plot of the site responses of an event shows the overall responses although the event has its own. The other theorems give what holds."
  },
  {
   "property": "C86",
   "status": "partial",
   "theorems": [
    "C86_points",
    "C86_model",
    "C86_below",
    "C86_mean",
    "C86_mean_refuted"
   ],
   "note": "The full statement is false of the code. C86_mean_refuted: A result with the method \"mean\" has a moment, but its spectrum cannot be plotted. The other theorems give what holds."
  },
  {
   "property": "C87",
   "status": "partial",
   "theorems": [
    "C87_points",
    "C87_selection_refuted",
    "C87_none_refuted"
   ],
   "note": "The full statement is false of the code. C87_selection_refuted: The empty selection is all events in the plot of the spectra and none in the plot of the magnitudes. C87_none_refuted: A selection without any event is an exception in the plot of the spectra. The other theorems give what holds."
  },
  {
   "property": "C88",
   "status": "partial",
   "theorems": [
    "C88_separate",
    "C88_simultaneous",
    "C88_refuted"
   ],
   "note": "The full statement is false of the code. C88_refuted: The velocity of such a result is lost by plotting. The other theorems give what holds."
  },
  {
   "property": "C89",
   "status": "partial",
   "theorems": [
    "C89_robust",
    "C89_plain",
    "C89_refuted"
   ],
   "note": "The full statement is false of the code. C89_refuted: With plain means the values of a simultaneous inversion cannot be plotted. The other theorems give what holds."
  },
  {
   "property": "C90",
   "status": "partial",
   "theorems": [
    "C90_given",
    "C90_lost",
    "C90_refuted",
    "C90_plot",
    "C90_shown"
   ],
   "note": "The full statement is false of the code. C90_refuted: The recorded method \"fit\" is used by the recalculation, but not recorded. The other theorems give what holds."
  },
  {
   "property": "C91",
   "status": "proved",
   "theorems": [
    "C91_calc",
    "C91_calc_total",
    "C91_direct",
    "C91_no_direct",
    "C91_types",
    "C91_missing"
   ],
   "note": ""
  },
  {
   "property": "C92",
   "status": "proved",
   "theorems": [
    "C92_curves",
    "C92_times",
    "C92_time_defaults",
    "C92_distances",
    "C92_distance_defaults",
    "C92_distance_needs_time",
    "C92_mesh",
    "C92_mesh_defaults"
   ],
   "note": ""
  },
  {
   "property": "C93",
   "status": "proved",
   "theorems": [
    "C93_given",
    "C93_config",
    "C93_separate",
    "C93_simultaneous",
    "C93_missing",
    "C93_event"
   ],
   "note": ""
  },
  {
   "property": "C94",
   "status": "proved",
   "theorems": [
    "C94_drawn",
    "C94_command",
    "C94_title"
   ],
   "note": ""
  },
  {
   "property": "C95",
   "status": "proved",
   "theorems": [
    "C95_align",
    "C95_recalc"
   ],
   "note": ""
  },
  {
   "property": "C96",
   "status": "proved",
   "theorems": [
    "C96_output",
    "C96_magnitudes"
   ],
   "note": ""
  },
  {
   "property": "C97",
   "status": "partial",
   "theorems": [
    "C97_conf",
    "C97_load",
    "C97_inventory",
    "C97_input",
    "C97_plot",
    "C97_refuted"
   ],
   "note": "The full statement is false of the code. C97_refuted: An input file that cannot be read is not handled: its error is raised, although all other files that cannot be read end the run without error. The other theorems give what holds."
  },
  {
   "property": "C98",
   "status": "proved",
   "theorems": [
    "C98_sound",
    "C98_complete",
    "C98_run",
    "C98_rejected",
    "C98_unknown"
   ],
   "note": ""
  },
  {
   "property": "C99",
   "status": "partial",
   "theorems": [
    "C99_usage_refuted",
    "C99_command_refuted",
    "C99_no_command",
    "C99_stopped",
    "C99_first_word",
    "C99_information"
   ],
   "note": "The full statement is false of the code. C99_usage_refuted: An unknown event for the command go is reported with the usage of the command plot. C99_command_refuted: The option --overwrite-conf replaces the command: go turns into create. The other theorems give what holds."
  },
  {
   "property": "C100",
   "status": "proved",
   "theorems": [
    "C100_rt1d_energy_coda",
    "C100_rt1d_energy_total"
   ],
   "note": ""
  },
  {
   "property": "C101",
   "status": "proved",
   "theorems": [
    "C101_diff2d_energy",
    "C101_diff2d_lost"
   ],
   "note": ""
  },
  {
   "property": "C102",
   "status": "proved",
   "theorems": [
    "C102_integral",
    "C102_steep",
    "C102_bounds",
    "C102_zerophase",
    "C102_units",
    "C102_refused",
    "C102_missing",
    "C102_no_corners"
   ],
   "note": ""
  },
  {
   "property": "C103",
   "status": "partial",
   "theorems": [
    "C103_misfit",
    "C103_residuals",
    "C103_range",
    "C103_empty",
    "C103_right_refuted"
   ],
   "note": "The full statement is false of the code. C103_right_refuted: C103, false for bulk windows: a bulk window after the coda windows lies outside of the panel. The other theorems give what holds."
  },
  {
   "property": "C104",
   "status": "partial",
   "theorems": [
    "C104_misfit",
    "C104_drawn",
    "C104_panels",
    "C104_limits",
    "C104_lower_refuted",
    "C104_fixed_sites_refuted",
    "C104_given",
    "C104_no_site"
   ],
   "note": "The full statement is false of the code. C104_lower_refuted: C104, false for the observed coda: a value in the coda window that is used in the inversion may lie below the axis. C104_fixed_sites_refuted: C104, false for fixed sites: with two events the fit may be exact although the modelled energy drawn for a station is four times the observed energy. The other theorems give what holds."
  },
  {
   "property": "C105",
   "status": "partial",
   "theorems": [
    "C105_samples",
    "C105_windows",
    "C105_missing",
    "C105_no_bulk_refuted",
    "C105_downsample"
   ],
   "note": "The full statement is false of the code. C105_no_bulk_refuted: C105, false without bulk windows: the coda window is not drawn then. The other theorems give what holds."
  },
  {
   "property": "C106",
   "status": "partial",
   "theorems": [
    "C106_crosses",
    "C106_best_refuted",
    "C106_no_trial_refuted"
   ],
   "note": "The full statement is false of the code. C106_best_refuted: the cross marked as the best value need not be the value of g0 in the result, although the latter is one of the crosses. C106_no_trial_refuted: the plot fails if no trial value is inside of the bounds. The other theorems give what holds."
  },
  {
   "property": "C107",
   "status": "partial",
   "theorems": [
    "C107_areas",
    "C107_far",
    "C107_interior_refuted",
    "C107_success",
    "C107_small",
    "C107_missing"
   ],
   "note": "The full statement is false of the code. C107_interior_refuted: C107, false for stations inside of the hull: two stations closer than max_distance may be left in different areas. The other theorems give what holds."
  },
  {
   "property": "C108",
   "status": "partial",
   "theorems": [
    "C108_near",
    "C108_links_refuted",
    "C108_same_place_refuted"
   ],
   "note": "The full statement is false of the code. C108_links_refuted: C108, false for chains of areas: a station has only one near station, the last one, so that the near stations may not connect the areas which were joined. C108_same_place_refuted: C108, false for stations at the same place: a station may be its own near station, with no link between the two areas that were joined. The other theorems give what holds."
  },
  {
   "property": "C109",
   "status": "partial",
   "theorems": [
    "C109_coordinates",
    "C109_channels",
    "C109_equator_refuted"
   ],
   "note": "The full statement is false of the code. C109_equator_refuted: C109, false for a channel at the equator: the latitude of the station is used in place of the latitude 0 of the channel. The other theorems give what holds."
  },
  {
   "property": "C110",
   "status": "proved",
   "theorems": [
    "C110_go",
    "C110_fixed",
    "C110_source"
   ],
   "note": ""
  },
  {
   "property": "C111",
   "status": "proved",
   "theorems": [
    "C111_go",
    "C111_source",
    "C111_velocity"
   ],
   "note": ""
  },
  {
   "property": "C112",
   "status": "partial",
   "theorems": [
    "C112_plain",
    "C112_short",
    "C112_smoothed",
    "C112_exact",
    "C112_first_low",
    "C112_bulk",
    "C112_infinite",
    "C112_no_result",
    "C112_exact_data_refuted"
   ],
   "note": "The full statement is false of the code. C112_exact_data_refuted: it is false that exact energies of the built-in Green's function with parameters inside of the bounds give a result. The other theorems give what holds."
  },
  {
   "property": "C113",
   "status": "proved",
   "theorems": [
    "C113_observations",
    "C113_go",
    "C113_fixed",
    "C113_source"
   ],
   "note": ""
  },
  {
   "property": "C114",
   "status": "partial",
   "theorems": [
    "C114_total",
    "C114_known",
    "C114_shown",
    "C114_derived",
    "C114_stored",
    "C114_errors",
    "C114_weighted_errors",
    "C114_lost_errors",
    "C114_weighted_refuted",
    "C114_nobs"
   ],
   "note": "The full statement is false of the code. C114_weighted_refuted: two events with valid values and positive errors do not suffice for an error bar of the weighted mean. The other theorems give what holds."
  },
  {
   "property": "C115",
   "status": "partial",
   "theorems": [
    "C115_total",
    "C115_stations",
    "C115_shown",
    "C115_errors",
    "C115_colours",
    "C115_cells",
    "C115_excluded",
    "C115_weighted",
    "C115_weighted_refuted",
    "C115_none",
    "C115_cmap_refuted"
   ],
   "note": "The full statement is false of the code. C115_weighted_refuted: so the plot of weighted means fails for complete results where a station did not record all events. C115_cmap_refuted: cmap=None is meant for black points, but it fails. The other theorems give what holds."
  },
  {
   "property": "C116",
   "status": "partial",
   "theorems": [
    "C116_total",
    "C116_selected",
    "C116_events",
    "C116_shown",
    "C116_colours",
    "C116_given",
    "C116_black",
    "C116_total_given",
    "C116_bar",
    "C116_bar_refuted",
    "C116_mean",
    "C116_mean_refuted"
   ],
   "note": "The full statement is false of the code. C116_bar_refuted: so the colour bar is not the one of the points although there are some. C116_mean_refuted: complete results with the method \"mean\" cannot be plotted. The other theorems give what holds."
  },
  {
   "property": "C117",
   "status": "partial",
   "theorems": [
    "C117_total",
    "C117_shown",
    "C117_spectrum",
    "C117_first",
    "C117_velocity",
    "C117_velocity_refuted",
    "C117_mean",
    "C117_mean_refuted",
    "C117_quantities"
   ],
   "note": "The full statement is false of the code. C117_velocity_refuted: g0, b and error are shown without a velocity. C117_mean_refuted: the result of an inversion with the method \"mean\" can be plotted. The other theorems give what holds."
  },
  {
   "property": "C118",
   "status": "partial",
   "theorems": [
    "C118_shown",
    "C118_nothing",
    "C118_nothing_refuted"
   ],
   "note": "The full statement is false of the code. C118_nothing_refuted: stations without values have empty panels, even if there are no others. The other theorems give what holds."
  },
  {
   "property": "C119",
   "status": "proved",
   "theorems": [
    "C119_closest",
    "C119_only",
    "C119_fixed",
    "C119_exact",
    "C119_lengths",
    "C119_line",
    "C119_none",
    "C119_true",
    "C119_axis",
    "C119_moment"
   ],
   "note": ""
  },
  {
   "property": "C120",
   "status": "partial",
   "theorems": [
    "C120_default",
    "C120_text",
    "C120_missing",
    "C120_positional",
    "C120_off",
    "C120_drawing",
    "C120_agrees",
    "C120_options_refuted",
    "C120_null",
    "C120_empty",
    "C120_empty_refuted",
    "C120_place"
   ],
   "note": "The full statement is false of the code. C120_options_refuted: with options it is false that the annotated moment is the one that is drawn. C120_empty_refuted: so it is false that every spectrum is plotted with a text of one's own. The other theorems give what holds."
  },
  {
   "property": "C121",
   "status": "partial",
   "theorems": [
    "C121_none",
    "C121_sensitivity",
    "C121_full",
    "C121_plot_names",
    "C121_plots_distinct",
    "C121_plots_refuted"
   ],
   "note": "The full statement is false of the code. C121_plots_refuted: this is false for several events: all plots have the name of the last event, so plots of the same channel overwrite each other. The other theorems give what holds."
  },
  {
   "property": "C122",
   "status": "partial",
   "theorems": [
    "C122_name",
    "C122_title",
    "C122_different",
    "C122_joint",
    "C122_near_refuted",
    "C122_directory",
    "C122_directory_refuted",
    "C122_dump",
    "C122_drawn",
    "C122_failed_energies",
    "C122_failed_optimization",
    "C122_failed_refuted"
   ],
   "note": "The full statement is false of the code. C122_near_refuted: adjacent bands at low frequencies have the same file. C122_directory_refuted: but not in simultaneous inversions if it has two underscores. C122_failed_refuted: a plot that does not fail itself need not be drawn. The other theorems give what holds."
  },
  {
   "property": "C123",
   "status": "proved",
   "theorems": [
    "C123_saved",
    "C123_unsaved",
    "C123_shown"
   ],
   "note": ""
  },
  {
   "property": "C124",
   "status": "partial",
   "theorems": [
    "C124_drawn",
    "C124_returned",
    "C124_joint",
    "C124_shared",
    "C124_title",
    "C124_independent_refuted"
   ],
   "note": "The full statement is false of the code. C124_independent_refuted: the plots are not independent of each other: the plot of the sites, which would be drawn alone, is missing after a failed plot of the results. The other theorems give what holds."
  },
  {
   "property": "C125",
   "status": "partial",
   "theorems": [
    "C125_time",
    "C125_distance",
    "C125_unscaled",
    "C125_distance_absorption",
    "C125_time_absorption_refuted",
    "C125_time_absorption"
   ],
   "note": "The full statement is false of the code. C125_time_absorption_refuted: absorption lowers the late values of a scaled curve over time against the early ones - false, the curve is the same with and without absorption. The other theorems give what holds."
  },
  {
   "property": "C126",
   "status": "proved",
   "theorems": [
    "C126_labels"
   ],
   "note": ""
  },
  {
   "property": "C127",
   "status": "proved",
   "theorems": [
    "C127_inside",
    "C127_conserved",
    "C127_lost",
    "C127_late",
    "C127_coda"
   ],
   "note": ""
  },
  {
   "property": "C128",
   "status": "proved",
   "theorems": [
    "C128_early",
    "C128_late",
    "C128_reduced"
   ],
   "note": ""
  },
  {
   "property": "C129",
   "status": "proved",
   "theorems": [
    "C129_rt1d",
    "C129_rt2d",
    "C129_diffusion",
    "C129_diffusion_inside",
    "C129_bounds",
    "C129_rt3d_late"
   ],
   "note": ""
  },
  {
   "property": "C130",
   "status": "proved",
   "theorems": [
    "C130_rt1d_transfer",
    "C130_rt1d_direct"
   ],
   "note": ""
  },
  {
   "property": "C131",
   "status": "proved",
   "theorems": [
    "C131_go",
    "C131_fixed",
    "C131_source"
   ],
   "note": ""
  },
  {
   "property": "C132",
   "status": "proved",
   "theorems": [
    "C132_go",
    "C132_fixed",
    "C132_source",
    "C132_builtin"
   ],
   "note": ""
  },
  {
   "property": "C133",
   "status": "proved",
   "theorems": [
    "C133_go",
    "C133_fixed"
   ],
   "note": ""
  },
  {
   "property": "C134",
   "status": "proved",
   "theorems": [
    "C134_coda",
    "C134_bulk",
    "C134_go",
    "C134_fixed",
    "C134_source"
   ],
   "note": ""
  },
  {
   "property": "C135",
   "status": "proved",
   "theorems": [
    "C135_coda",
    "C135_bulk",
    "C135_go",
    "C135_fixed",
    "C135_uneven"
   ],
   "note": ""
  },
  {
   "property": "C136",
   "status": "proved",
   "theorems": [
    "C136_go",
    "C136_fixed",
    "C136_source"
   ],
   "note": ""
  },
  {
   "property": "C137",
   "status": "proved",
   "theorems": [
    "C137_sds",
    "C137_magnitude",
    "C137_moment",
    "C137_fit_error",
    "C137_mean_error",
    "C137_event"
   ],
   "note": ""
  },
  {
   "property": "C138",
   "status": "partial",
   "theorems": [
    "C138_origin",
    "C138_no_origin",
    "C138_magnitude",
    "C138_no_magnitude",
    "C138_catalogue",
    "C138_catalogue_last",
    "C138_sorted",
    "C138_complete",
    "C138_no_depth",
    "C138_no_result",
    "C138_depth_refuted",
    "C138_simultaneous",
    "C138_points"
   ],
   "note": "Proved except for the separate inversion: an event whose origin has no depth raises TypeError in a log message (core.py:1492) and stops the run (C138_depth_refuted, C138_no_depth); the simultaneous inversion leaves out exactly its pairs."
  },
  {
   "property": "C139",
   "status": "proved",
   "theorems": [
    "C139_mean",
    "C139_monotone",
    "C139_list",
    "C139_spread"
   ],
   "note": ""
  },
  {
   "property": "C140",
   "status": "proved",
   "theorems": [
    "C140_stations",
    "C140_energies",
    "C140_means"
   ],
   "note": ""
  },
  {
   "property": "C141",
   "status": "proved",
   "theorems": [
    "C141_values",
    "C141_means"
   ],
   "note": ""
  },
  {
   "property": "C142",
   "status": "proved",
   "theorems": [
    "C142_returns",
    "C142_values",
    "C142_means"
   ],
   "note": ""
  },
  {
   "property": "C143",
   "status": "proved",
   "theorems": [
    "C143_returns",
    "C143_values",
    "C143_means"
   ],
   "note": ""
  },
  {
   "property": "C144",
   "status": "proved",
   "theorems": [
    "C144_rise",
    "C144_decay",
    "C144_peak",
    "C144_height",
    "C144_distance"
   ],
   "note": ""
  },
  {
   "property": "C145",
   "status": "proved",
   "theorems": [
    "C145_line",
    "C145_plane_fall",
    "C145_plane_grow",
    "C145_space_fall",
    "C145_space_grow"
   ],
   "note": ""
  },
  {
   "property": "C146",
   "status": "proved",
   "theorems": [
    "C146_plane",
    "C146_line",
    "C146_space"
   ],
   "note": ""
  },
  {
   "property": "C147",
   "status": "proved",
   "theorems": [
    "C147_clock",
    "C147_cut_clock",
    "C147_complete",
    "C147_unit",
    "C147_cut_unit"
   ],
   "note": ""
  },
  {
   "property": "C148",
   "status": "proved",
   "theorems": [
    "C148_linear",
    "C148_order",
    "C148_errors",
    "C148_function",
    "C148_function_order",
    "C148_function_errors"
   ],
   "note": ""
  },
  {
   "property": "C149",
   "status": "proved",
   "theorems": [
    "C149_unit",
    "C149_order"
   ],
   "note": ""
  },
  {
   "property": "C150",
   "status": "proved",
   "theorems": [
    "C150_residuals",
    "C150_order",
    "C150_moved",
    "C150_weights",
    "C150_mixed",
    "C150_errors",
    "C150_level"
   ],
   "note": ""
  },
  {
   "property": "C151",
   "status": "proved",
   "theorems": [
    "C151_corner",
    "C151_below",
    "C151_above",
    "C151_sharp",
    "C151_envelope",
    "C151_unit"
   ],
   "note": ""
  }
 ]
}