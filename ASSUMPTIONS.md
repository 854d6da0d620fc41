# Axioms used by the property theorems

Output of `Print Assumptions` for all 701 property theorems, written by `tools/assumptions.py`.
All axioms are declared in the standard library of Coq 8.16; the development declares none.

## No axioms

- C01_errors_not_stored
- C01_once
- C01_sticky
- C01_transparent
- C02_key_injective
- C05_no_window
- C116_selected
- C117_quantities
- C120_default
- C120_empty
- C120_missing
- C120_null
- C120_off
- C120_positional
- C120_text
- C121_none
- C121_plot_names
- C121_plots_distinct
- C123_saved
- C123_shown
- C123_unsaved
- C124_drawn
- C124_independent_refuted
- C124_joint
- C124_returned
- C124_shared
- C124_title
- C138_catalogue
- C138_catalogue_last
- C138_complete
- C138_magnitude
- C138_no_depth
- C138_no_magnitude
- C138_no_origin
- C138_no_result
- C138_origin
- C138_sorted
- C147_clock
- C147_complete
- C147_cut_clock
- C147_cut_unit
- C147_unit
- C27_merge_components
- C27_rounds_suffice
- C28_areas
- C35_error_reason
- C35_order_free
- C35_result
- C35_result_errors
- C35_sort_dict
- C35_unknown_key
- C39_event_id
- C39_names_distinct
- C39_network_ignored_partial
- C39_network_ignored_refuted
- C39_station_name
- C40_first
- C40_none
- C40_only_other
- C40_preferred
- C40_raises
- C41_picks
- C41_unresolved
- C42_case
- C42_nothing_else
- C42_seconds
- C42_travel_times
- C42_value_error
- C43_any_start
- C43_first_weak_sample_partial
- C43_first_weak_sample_refuted
- C43_no_own_start
- C43_not_before_start
- C43_not_before_start_refuted
- C43_own_start
- C44_window
- C44_window_exists
- C45_ids
- C45_keys
- C45_rows
- C45_sites
- C45_total
- C46_check_times
- C47_cut_partial
- C47_cut_reference
- C47_cut_refuted
- C48_comments_partial
- C48_lines
- C48_quoted_refuted
- C49_path_iff
- C49_path_partial
- C49_path_refuted
- C50_codes
- C50_retrieval
- C50_source
- C53_unknowns
- C58_aligned_partial
- C58_no_result
- C59_exits_response
- C61_chunks_refuted
- C61_independent
- C61_jobs_partial
- C61_schedule
- C61_serial
- C65_distinct
- C65_equal_times
- C65_equal_times_refuted
- C65_no_origin
- C65_no_origin_refuted
- C65_order_partial
- C66_align_refuted
- C66_print_mag_refuted
- C66_run
- C68_cmdline
- C68_cmdline_pairs
- C68_cmdline_refused
- C68_data
- C68_eventid_refuted
- C68_inversion
- C68_mean
- C68_mean_refuted
- C68_options
- C68_plots
- C68_precedence
- C68_print_mag_refuted
- C68_total
- C69_default_refuted
- C69_fname
- C69_no_prefix
- C69_none_refuted
- C69_prefix
- C69_stdout_refuted
- C70_events
- C70_events_refuted
- C70_overall
- C70_source
- C71_empty_refuted
- C71_missing
- C71_plot_refuted
- C71_recalc
- C71_recalc_refuted
- C71_selected
- C72_consistent
- C72_default
- C72_invalid
- C72_repeatable
- C72_total
- C73_nothing
- C73_sites
- C73_sites_refuted
- C73_spectra
- C73_spectra_column
- C73_spectra_refuted
- C73_square
- C74_best
- C74_best_refuted
- C74_even
- C74_even_refuted
- C74_no_steps
- C74_panels
- C74_records
- C74_two_refuted
- C75_default
- C80_plugin_refuted
- C81_create
- C81_rt
- C81_rt_refuted
- C81_unknown
- C82_caller_refuted
- C83_labels
- C83_ticks
- C83_xlabel
- C83_xlabel_refuted
- C85_eventresult
- C85_eventresult_refuted
- C85_eventsites_refuted
- C85_no_event
- C87_none_refuted
- C87_points
- C88_refuted
- C88_separate
- C88_simultaneous
- C90_given
- C90_lost
- C90_refuted
- C92_distance_needs_time
- C93_config
- C93_event
- C93_given
- C93_missing
- C93_separate
- C93_simultaneous
- C94_command
- C94_drawn
- C94_title
- C95_align
- C95_recalc
- C96_magnitudes
- C96_output
- C97_conf
- C97_input
- C97_inventory
- C97_load
- C97_plot
- C97_refuted
- C98_complete
- C98_rejected
- C98_run
- C98_sound
- C98_unknown
- C99_command_refuted
- C99_first_word
- C99_information
- C99_no_command
- C99_stopped
- C99_usage_refuted

## `ClassicalDedekindReals.sig_forall_dec`

- C119_lengths
- C138_depth_refuted
- C58_duplicate_refuted

## `ClassicalDedekindReals.sig_forall_dec`, `FunctionalExtensionality.functional_extensionality_dep`

- C105_downsample
- C105_missing
- C105_no_bulk_refuted
- C105_samples
- C105_windows
- C107_areas
- C107_far
- C107_interior_refuted
- C107_missing
- C107_small
- C107_success
- C108_links_refuted
- C108_near
- C108_same_place_refuted
- C109_channels
- C109_coordinates
- C109_equator_refuted
- C118_nothing
- C118_nothing_refuted
- C118_shown
- C119_closest
- C119_exact
- C119_fixed
- C119_line
- C119_none
- C119_only
- C119_true
- C120_place
- C121_full
- C121_plots_refuted
- C121_sensitivity
- C122_different
- C122_directory
- C122_directory_refuted
- C122_drawn
- C122_dump
- C122_failed_energies
- C122_failed_optimization
- C122_failed_refuted
- C122_joint
- C122_name
- C122_near_refuted
- C122_title
- C150_errors
- C150_level
- C150_mixed
- C150_moved
- C150_order
- C150_residuals
- C150_weights
- C29_product
- C38_amplitude_free
- C38_coda_mean
- C38_energy_trace
- C38_parameters
- C38_quadratic
- C38_refused
- C38_zero_mean
- C51_alignment
- C51_bulk_windows
- C51_distances
- C51_energies
- C51_result
- C51_selection
- C52_noise
- C52_positive
- C58_network_ignored
- C58_stations
- C60_band
- C61_result_independent
- C61_result_partial
- C62_go
- C62_no_input
- C62_other_frequencies
- C62_own_band
- C62_same_frequencies
- C62_short
- C78_onset_partial
- C78_onset_refuted
- C79_times
- C87_selection_refuted

## `ClassicalDedekindReals.sig_forall_dec`, `ClassicalDedekindReals.sig_not_dec`, `FunctionalExtensionality.functional_extensionality_dep`

- C03_errors
- C03_length_border
- C03_length_none
- C03_short_window
- C04_bounds
- C04_constant
- C04_interior
- C04_weighted_mean
- C05_centred
- C05_length_partial
- C05_length_refuted
- C05_values
- C102_missing
- C102_no_corners
- C102_refused
- C102_units
- C104_drawn
- C104_given
- C104_limits
- C104_lower_refuted
- C104_no_site
- C104_panels
- C113_observations
- C138_points
- C138_simultaneous
- C13_direct_positive
- C148_errors
- C148_function
- C148_function_errors
- C148_function_order
- C148_linear
- C148_order
- C19_positive
- C19_recover_W
- C19_scale_W
- C19_scale_f
- C19_scale_rho
- C59_exits_coordinates
- C59_pairs
- C60_skip_partial
- C60_skip_refuted
- C63_joint_partial
- C63_joint_refuted
- C64_borehole
- C64_distance
- C64_ignored_refuted
- C75_broadcast
- C75_broadcast_length
- C75_default_refuted
- C75_event
- C75_events
- C75_frequencies
- C75_infinite
- C75_length
- C75_lengths
- C75_one_event
- C75_single
- C75_single_value
- C75_value
- C76_reverse_partial
- C76_reverse_refuted

## `ClassicalDedekindReals.sig_forall_dec`, `ClassicalDedekindReals.sig_not_dec`, `Classical_Prop.classic`, `FunctionalExtensionality.functional_extensionality_dep`

- C06_gmean_bounds
- C06_gmean_equal_weights
- C06_gmean_homogeneous
- C06_gmean_integer_weights
- C06_gmean_order
- C06_gmean_order_weighted
- C06_gmean_plain
- C06_gmean_weight_scale
- C06_gmean_weighted
- C07_gmeanlist
- C07_gmeanlist_column
- C07_gmeanlist_weighted
- C07_identical_data
- C07_robust_fall_back
- C07_robust_weights
- C08_gerr
- C08_gerr_equal_weights
- C08_gerr_exists
- C08_gerr_fall_back
- C08_gerr_robust
- C08_gerr_unbiased
- C08_gerr_weighted
- C09_causal
- C09_unknown_type_partial
- C09_unknown_type_refuted
- C100_rt1d_energy_coda
- C100_rt1d_energy_total
- C101_diff2d_energy
- C101_diff2d_lost
- C102_bounds
- C102_integral
- C102_steep
- C102_zerophase
- C103_empty
- C103_misfit
- C103_range
- C103_residuals
- C103_right_refuted
- C104_misfit
- C106_crosses
- C10_direct_wave
- C10_first_sample_lost
- C10_time_vector_partial
- C10_time_vector_refuted
- C110_fixed
- C110_go
- C110_source
- C111_go
- C111_source
- C111_velocity
- C112_bulk
- C112_exact
- C112_exact_data_refuted
- C112_first_low
- C112_infinite
- C112_no_result
- C112_plain
- C112_short
- C112_smoothed
- C113_fixed
- C113_go
- C113_source
- C114_derived
- C114_errors
- C114_known
- C114_lost_errors
- C114_nobs
- C114_shown
- C114_stored
- C114_total
- C114_weighted_errors
- C114_weighted_refuted
- C115_cells
- C115_cmap_refuted
- C115_colours
- C115_errors
- C115_excluded
- C115_none
- C115_shown
- C115_stations
- C115_total
- C115_weighted
- C115_weighted_refuted
- C116_bar
- C116_bar_refuted
- C116_black
- C116_colours
- C116_events
- C116_given
- C116_mean
- C116_mean_refuted
- C116_shown
- C116_total
- C116_total_given
- C117_first
- C117_mean
- C117_mean_refuted
- C117_shown
- C117_spectrum
- C117_total
- C117_velocity
- C117_velocity_refuted
- C119_axis
- C119_moment
- C11_arrays
- C11_arrays_refused
- C11_direct_wave
- C11_distance_vector_partial
- C11_distance_vector_refuted
- C120_agrees
- C120_drawing
- C120_empty_refuted
- C120_options_refuted
- C125_distance
- C125_distance_absorption
- C125_time
- C125_time_absorption
- C125_time_absorption_refuted
- C125_unscaled
- C126_labels
- C127_coda
- C127_conserved
- C127_inside
- C127_late
- C127_lost
- C128_early
- C128_late
- C128_reduced
- C129_bounds
- C129_diffusion
- C129_diffusion_inside
- C129_rt1d
- C129_rt2d
- C129_rt3d_late
- C12_rt2d_energy_inside
- C12_rt2d_energy_total
- C130_rt1d_direct
- C130_rt1d_transfer
- C131_fixed
- C131_go
- C131_source
- C132_builtin
- C132_fixed
- C132_go
- C132_source
- C133_fixed
- C133_go
- C134_bulk
- C134_coda
- C134_fixed
- C134_go
- C134_source
- C135_bulk
- C135_coda
- C135_fixed
- C135_go
- C135_uneven
- C136_fixed
- C136_go
- C136_source
- C137_event
- C137_fit_error
- C137_magnitude
- C137_mean_error
- C137_moment
- C137_sds
- C139_list
- C139_mean
- C139_monotone
- C139_spread
- C13_coda_positive
- C140_energies
- C140_means
- C140_stations
- C141_means
- C141_values
- C142_means
- C142_returns
- C142_values
- C143_means
- C143_returns
- C143_values
- C144_decay
- C144_distance
- C144_height
- C144_peak
- C144_rise
- C145_line
- C145_plane_fall
- C145_plane_grow
- C145_space_fall
- C145_space_grow
- C146_line
- C146_plane
- C146_space
- C149_order
- C149_unit
- C14_similarity
- C14_time_unit
- C151_above
- C151_below
- C151_corner
- C151_envelope
- C151_sharp
- C151_unit
- C15_diffapprox_bound
- C15_diffusion_equation
- C16_diffapprox_limit
- C16_rt1d_diffusion_limit
- C16_rt2d_diffusion_limit
- C16_rt2d_distance
- C16_rt3d_diffusion_limit
- C16_rt3d_distance
- C17_plot_r_absorption
- C17_plot_t_absorption_partial
- C17_plot_t_absorption_refuted
- C18_increasing
- C18_inverse
- C18_inverse_back
- C18_unit
- C19_scale_v
- C20_bounds
- C20_corner
- C20_decreasing
- C20_formula
- C20_high_frequency
- C20_low_frequency
- C20_proportional
- C21_default_model
- C21_reparametrisation
- C21_reported_parameters
- C22_error
- C22_locality
- C22_mean
- C22_no_corner
- C22_none
- C23_least_squares
- C23_recovery
- C23_scale_equivariant
- C23_search_recovery
- C24_keys_partial
- C24_mean_keys
- C24_none
- C24_none_refuted
- C24_too_few
- C25_magnitude
- C25_spectrum_aligned
- C26_config_options
- C26_default_options
- C26_event_velocity
- C26_given_options
- C26_idempotent
- C26_magnitude_partial
- C26_magnitude_refuted
- C26_no_stale_values_partial
- C26_untouched
- C30_normalisation
- C31_consistent
- C32_largest_area
- C32_sorted
- C33_mean_partial
- C33_stale_mean_refuted
- C34_no_station
- C34_station_list
- C34_station_partial
- C34_substring_refuted
- C35_event
- C35_simultaneous
- C36_below_min
- C36_errors
- C36_given_centres
- C36_octave_spacing
- C37_all_bands_partial
- C37_all_bands_refuted
- C37_narrowest
- C53_allowed
- C53_entries
- C53_fixed
- C53_go
- C53_nstations
- C53_source
- C54_fixed
- C54_go
- C54_source
- C55_accepted
- C55_discarded
- C55_missing
- C56_final
- C56_misfit
- C56_optimum
- C57_no_optimisation
- C57_records
- C58_event_W
- C58_event_sds
- C58_expected
- C63_separate
- C63_single_events
- C65_results
- C66_none
- C66_separate_partial
- C66_simultaneous
- C66_simultaneous_refuted
- C67_means_partial
- C67_total
- C67_weighted_refuted
- C77_align_succeeds
- C77_all_ignored_refuted
- C77_frequencies
- C80_config_partial
- C84_decreasing
- C84_exists
- C84_half_step
- C84_increasing
- C86_below
- C86_mean
- C86_mean_refuted
- C86_model
- C86_points
- C89_plain
- C89_refuted
- C89_robust
- C90_plot
- C90_shown
- C91_calc
- C91_calc_total
- C91_direct
- C91_missing
- C91_no_direct
- C91_types
- C92_curves
- C92_distance_defaults
- C92_distances
- C92_mesh
- C92_mesh_defaults
- C92_time_defaults
- C92_times

## `ClassicalDedekindReals.sig_forall_dec`, `ClassicalDedekindReals.sig_not_dec`, `Classical_Prop.classic`, `Description.constructive_definite_description`, `FunctionalExtensionality.functional_extensionality_dep`

- C104_fixed_sites_refuted
- C106_best_refuted
- C106_no_trial_refuted
- C55_negative_refuted
