{"claims": [
{"property": "C01", "status": "proved", "theorems": ["C01_vector_product_laws", "C01_operations_exact", "C01_elementwise"], "note": ""},
{"property": "C02", "status": "proved", "theorems": ["C02_norm_is_unit", "C02_direction_is_displacement", "C02_direction_unit_refuted"], "note": ""},
{"property": "C03", "status": "proved", "theorems": ["C03_inverse_two_sided", "C03_det_mul_apply", "C03_identity_needs_zero", "C03_zero"], "note": ""},
{"property": "C04", "status": "proved", "theorems": ["C04_rotate_to_axis"], "note": ""},
{"property": "C05", "status": "proved", "theorems": ["C05_antiparallel_z", "C05_antiparallel_general_refuted"], "note": ""},
{"property": "C06", "status": "proved", "theorems": ["C06_interpolation_inside", "C06_interpolation_nodes"], "note": ""},
{"property": "C07", "status": "proved", "theorems": ["C07_interpolation_below", "C07_interpolation_above_is_offset", "C07_interpolation_jump", "C07_interpolation_last_uses_first_segment", "C07_interpolation_refuted"], "note": ""},
{"property": "C08", "status": "proved", "theorems": ["C08_interpolation_memory_safe", "C08_interpolation_short_table_ub"], "note": ""},
{"property": "C09", "status": "proved", "theorems": ["C09_nearest_bin", "C09_index_in_range", "C09_index_empty_ub"], "note": ""},
{"property": "C10", "status": "proved", "theorems": ["C10_closest_points", "C10_closest_points_short_ub"], "note": ""},
{"property": "C11", "status": "proved", "theorems": ["C11_simpson_exact_for_cubics", "C11_simpson_even_points", "C11_simpson_even_refuted", "C11_simpson_two_points", "C11_simpson_short_ub"], "note": ""},
{"property": "C12", "status": "proved", "theorems": ["C12_seed_has_no_effect", "C12_reproducible_seed_refuted"], "note": ""},
{"property": "C13", "status": "proved", "theorems": ["C13_discrete_index", "C13_discrete_intervals", "C13_discrete_degenerate"], "note": ""},
{"property": "C14", "status": "proved", "theorems": ["C14_depth_nonneg", "C14_depth_exponential_law", "C14_depth_increasing"], "note": ""},
{"property": "C15", "status": "proved", "theorems": ["C15_units_coherent", "C15_units_round_trip", "C15_unit_names"], "note": ""},
{"property": "C16", "status": "proved", "theorems": ["C16_lepton_kinematics"], "note": ""},
{"property": "C17", "status": "proved", "theorems": ["C17_photon_getters", "C17_photon_from_energy"], "note": ""},
{"property": "C18", "status": "proved", "theorems": ["C18_lepton_from_energy"], "note": ""},
{"property": "C19", "status": "proved", "theorems": ["C19_track_consistent", "C19_history_is_the_updates"], "note": ""},
{"property": "C20", "status": "proved", "theorems": ["C20_history_lags", "C20_photon_record"], "note": ""},
{"property": "C21", "status": "proved", "theorems": ["C21_list_is_bounded_sequence", "C21_list_destruction", "C21_duplicate_is_double_free"], "note": ""},
{"property": "C22", "status": "proved", "theorems": ["C22_each_primary_once", "C22_unknown_species"], "note": ""},
{"property": "C23", "status": "proved", "theorems": ["C23_source_direction", "C23_direction_right_only_along_z"], "note": ""},
{"property": "C24", "status": "proved", "theorems": ["C24_no_overrun", "C24_serial_calls", "C24_duplicate_primary", "C24_lost_increment", "C24_torn_primary", "C24_extra_call_overruns"], "note": ""},
{"property": "C25", "status": "proved", "theorems": ["C25_static_field"], "note": ""},
{"property": "C26", "status": "proved", "theorems": ["C26_plane_wave_shape", "C26_plane_wave_strength", "C26_plane_wave_travels"], "note": ""},
{"property": "C27", "status": "proved", "theorems": ["C27_plane_wave_polarisation", "C27_perpendicular_iff", "C27_backward_flux"], "note": ""},
{"property": "C28", "status": "proved", "theorems": ["C28_gauss_bound"], "note": ""},
{"property": "C29", "status": "proved", "theorems": ["C29_gauss_ignores_position", "C29_gauss_no_carrier"], "note": ""},
{"property": "C30", "status": "proved", "theorems": ["C30_cut_off", "C30_non_positive_strength", "C30_polarisation_changes_strength", "C30_polarisation_is_rotation_refuted"], "note": ""},
{"property": "C31", "status": "proved", "theorems": ["C31_dead_not_pushed", "C31_dead_ignored", "C31_other_species_ignored"], "note": ""},
{"property": "C32", "status": "proved", "theorems": ["C32_photon_ballistic", "C32_light_speed"], "note": ""},
{"property": "C33", "status": "proved", "theorems": ["C33_below_light_speed", "C33_never_outruns_light"], "note": ""},
{"property": "C34", "status": "proved", "theorems": ["C34_free_flight", "C34_uniform_electric_field"], "note": ""},
{"property": "C35", "status": "proved", "theorems": ["C35_lorentz_force", "C35_landau_power", "C35_modified_between"], "note": ""},
{"property": "C36", "status": "proved", "theorems": ["C36_quantum_parameter", "C36_zero_without_field", "C36_linear_in_field", "C36_longitudinal_field"], "note": ""},
{"property": "C37", "status": "proved", "theorems": ["C37_depth_discipline", "C37_emission_when_depth_runs_out"], "note": ""},
{"property": "C38", "status": "proved", "theorems": ["C38_momentum_balance", "C38_emitter_frame"], "note": ""},
{"property": "C39", "status": "proved", "theorems": ["C39_photon_needs_large_draw", "C39_default_fraction_no_photon", "C39_no_photon_in_a_run"], "note": ""},
{"property": "C40", "status": "proved", "theorems": ["C40_emitter_untouched", "C40_continuous_photon"], "note": ""},
{"property": "C41", "status": "proved", "theorems": ["C41_pair_or_nothing", "C41_pair_kinematics"], "note": ""},
{"property": "C42", "status": "proved", "theorems": ["C42_pair_below_threshold"], "note": ""},
{"property": "C43", "status": "proved", "theorems": ["C43_charges_come_in_pairs", "C43_charge_conserved", "C43_live_charge_conserved"], "note": ""},
{"property": "C44", "status": "proved", "theorems": ["C44_electron_lost", "C44_charge_off_by_one", "C44_pair_lost"], "note": ""},
{"property": "C45", "status": "proved", "theorems": ["C45_pass_ends", "C45_each_once", "C45_at_most_capacity"], "note": ""},
{"property": "C46", "status": "proved", "theorems": ["C46_number_of_steps", "C46_no_step", "C46_endless"], "note": ""},
{"property": "C47", "status": "proved", "theorems": ["C47_clock_by_generation", "C47_never_behind", "C47_born_at_parents_clock"], "note": ""},
{"property": "C48", "status": "proved", "theorems": ["C48_identity", "C48_identity_between_steps"], "note": ""},
{"property": "C49", "status": "proved", "theorems": ["C49_one_particle", "C49_entries", "C49_without_bins", "C49_counting", "C49_run_adds_named", "C49_run_histograms", "C49_axis"], "note": ""},
{"property": "C50", "status": "proved", "theorems": ["C50_type_ignored", "C50_energy_only"], "note": ""},
{"property": "C51", "status": "proved", "theorems": ["C51_one_bin_empty"], "note": ""},
{"property": "C52", "status": "proved", "theorems": ["C52_merge_one", "C52_entries", "C52_merge_many", "C52_any_order", "C52_argument_gone", "C52_self_merge"], "note": ""},
{"property": "C53", "status": "proved", "theorems": ["C53_fill_normalises", "C53_two_portions"], "note": ""},
{"property": "C54", "status": "proved", "theorems": ["C54_each_histogram_once", "C54_schedule_meaning"], "note": ""},
{"property": "C55", "status": "proved", "theorems": ["C55_final_rows", "C55_one_row_each", "C55_primary_row", "C55_names"], "note": ""},
{"property": "C56", "status": "proved", "theorems": ["C56_tables", "C56_any_order"], "note": ""},
{"property": "C57", "status": "proved", "theorems": ["C57_layout", "C57_bijection", "C57_beyond"], "note": ""},
{"property": "C58", "status": "proved", "theorems": ["C58_second_source_fails", "C58_program", "C58_throws"], "note": ""},
{"property": "C59", "status": "proved", "theorems": ["C59_add_group", "C59_file_stays_empty", "C59_program"], "note": ""},
{"property": "C60", "status": "proved", "theorems": ["C60_gamma", "C60_list_tracks"], "note": ""},
{"property": "C61", "status": "proved", "theorems": ["C61_gather"], "note": ""},
{"property": "C62", "status": "proved", "theorems": ["C62_some_order", "C62_sum"], "note": ""},
{"property": "C63", "status": "proved", "theorems": ["C63_parse_written", "C63_round_trip"], "note": ""},
{"property": "C64", "status": "proved", "theorems": ["C64_lookup_ignores_case", "C64_file_ignores_case", "C64_names_have_no_separator", "C64_no_collision"], "note": ""},
{"property": "C65", "status": "proved", "theorems": ["C65_comment_line_ignored", "C65_long_comment_tail"], "note": ""},
{"property": "C66", "status": "proved", "theorems": ["C66_repeated_keys_accumulate", "C66_numbers_use_first"], "note": ""},
{"property": "C67", "status": "proved", "theorems": ["C67_spaced_numbers", "C67_missing_is_zero", "C67_commas_join_digits", "C67_capital_exponent_dropped", "C67_total"], "note": ""},
{"property": "C68", "status": "proved", "theorems": ["C68_integer_default", "C68_integer_values", "C68_real_default", "C68_real_values", "C68_booleans", "C68_strings"], "note": ""},
{"property": "C69", "status": "proved", "theorems": ["C69_numbered_sections", "C69_negative_number"], "note": ""},
{"property": "C70", "status": "proved", "theorems": ["C70_reader_total", "C70_mandatory_settings", "C70_accepted_files", "C70_same_settings_same_parameters", "C70_junk_line_ignored"], "note": ""},
{"property": "C71", "status": "proved", "theorems": ["C71_synonyms", "C71_model_of_name", "C71_rejected_names"], "note": ""},
{"property": "C72", "status": "proved", "theorems": ["C72_double_free", "C72_serial_build"], "note": ""},
{"property": "C73", "status": "proved", "theorems": ["C73_serial_tables", "C73_any_assignment", "C73_events_sound"], "note": ""},
{"property": "C74", "status": "proved", "theorems": ["C74_argument_of_a_run", "C74_input_file", "C74_refused"], "note": ""},
{"property": "C75", "status": "proved", "theorems": ["C75_handover", "C75_only_the_events", "C75_same_events"], "note": ""},
{"property": "C76", "status": "proved", "theorems": ["C76_no_field_at_focus", "C76_focused_ignores_position", "C76_focused_no_carrier"], "note": ""},
{"property": "C77", "status": "proved", "theorems": ["C77_no_undefined_access", "C77_exit_beyond_table", "C77_pair_exit_beyond_table"], "note": ""},
{"property": "C78", "status": "proved", "theorems": ["C78_run_memory_safe"], "note": ""},
{"property": "C79", "status": "proved", "theorems": ["C79_nothing_in_range", "C79_garbage_counter"], "note": ""},
{"property": "C80", "status": "proved", "theorems": ["C80_bounds", "C80_serial_exact", "C80_half_lost"], "note": ""},
{"property": "C81", "status": "proved", "theorems": ["C81_tracks_twice", "C81_program"], "note": ""},
{"property": "C82", "status": "proved", "theorems": ["C82_ids_not_written", "C82_schedule_dependent"], "note": ""},
{"property": "C83", "status": "proved", "theorems": ["C83_list_then_tracks"], "note": ""},
{"property": "C84", "status": "proved", "theorems": ["C84_same_name_twice", "C84_distinct_names"], "note": ""},
{"property": "C85", "status": "proved", "theorems": ["C85_event_numbers"], "note": ""},
{"property": "C86", "status": "proved", "theorems": ["C86_no_tracks"], "note": ""},
{"property": "C87", "status": "proved", "theorems": ["C87_exact_section_names"], "note": ""},
{"property": "C88", "status": "proved", "theorems": ["C88_indented_line_is_continuation"], "note": ""},
{"property": "C89", "status": "proved", "theorems": ["C89_settings_in_SI"], "note": ""},
{"property": "C90", "status": "proved", "theorems": ["C90_processes_leak"], "note": ""},
{"property": "C91", "status": "proved", "theorems": ["C91_run_iff", "C91_output_file"], "note": ""},
{"property": "C92", "status": "proved", "theorems": ["C92_two_output_sources", "C92_tracking_two_sources", "C92_two_histograms", "C92_documented_library"], "note": ""},
{"property": "C93", "status": "proved", "theorems": ["C93_every_second_query", "C93_second_track_never"], "note": ""},
{"property": "C94", "status": "proved", "theorems": ["C94_never_slow", "C94_energy_without_field", "C94_gun_energy"], "note": ""},
{"property": "C95", "status": "proved", "theorems": ["C95_destructor_undefined"], "note": ""},
{"property": "C96", "status": "proved", "theorems": ["C96_photons_are_copies", "C96_photon_component"], "note": ""},
{"property": "C97", "status": "proved", "theorems": ["C97_emission_tables", "C97_axes", "C97_pair_tables", "C97_any_contents", "C97_failures"], "note": ""},
{"property": "C98", "status": "proved", "theorems": ["C98_short_rate_table", "C98_short_photon_table", "C98_reproducible_refuted"], "note": ""},
{"property": "C99", "status": "proved", "theorems": ["C99_photon_parameter", "C99_photon_energy", "C99_wide_table", "C99_photon_energy_refuted"], "note": ""},
{"property": "C100", "status": "proved", "theorems": ["C100_split_inside", "C100_split_negative", "C100_pair_energy", "C100_energy_conservation_refuted"], "note": ""},
{"property": "C101", "status": "proved", "theorems": ["C101_event", "C101_histograms", "C101_file"], "note": ""},
{"property": "C102", "status": "proved", "theorems": ["C102_runge_kutta", "C102_impulse_step", "C102_impulse_exact"], "note": ""},
{"property": "C103", "status": "proved", "theorems": ["C103_along_field", "C103_energy_refuted"], "note": ""},
{"property": "C104", "status": "proved", "theorems": ["C104_number_of_steps", "C104_ends", "C104_endless"], "note": ""},
{"property": "C105", "status": "proved", "theorems": ["C105_emission_creates_energy"], "note": ""},
{"property": "C106", "status": "proved", "theorems": ["C106_pair_loses_momentum"], "note": ""},
{"property": "C107", "status": "proved", "theorems": ["C107_normal", "C107_component", "C107_without_skew", "C107_requested_refuted"], "note": ""},
{"property": "C108", "status": "proved", "theorems": ["C108_same_simulation", "C108_classical_name"], "note": ""},
{"property": "C109", "status": "proved", "theorems": ["C109_plane", "C109_gaussian", "C109_gaussian_flux", "C109_focused"], "note": ""},
{"property": "C110", "status": "proved", "theorems": ["C110_gauss_laws", "C110_maxwell"], "note": ""},
{"property": "C111", "status": "proved", "theorems": ["C111_single", "C111_single_completes", "C111_single_untracked", "C111_single_momenta_missing", "C111_list", "C111_properties"], "note": ""},
{"property": "C112", "status": "proved", "theorems": ["C112_destructor", "C112_not_loaded", "C112_parameters_missing", "C112_step", "C112_test", "C112_test_throws", "C112_sessions", "C112_lag", "C112_first_component_unused", "C112_load_is_atomic_refuted"], "note": ""},
{"property": "C113", "status": "proved", "theorems": ["C113_buffers", "C113_closes", "C113_documented", "C113_main", "C113_always_deletable_refuted"], "note": ""},
{"property": "C114", "status": "proved", "theorems": ["C114_within_arrays", "C114_written", "C114_one_less_refuted", "C114_sections_cut"], "note": ""},
{"property": "C115", "status": "proved", "theorems": ["C115_string_is_file", "C115_written", "C115_unterminated", "C115_nul_in_text_refuted"], "note": ""},
{"property": "C116", "status": "proved", "theorems": ["C116_from_zero", "C116_range", "C116_half_open_refuted", "C116_depth", "C116_discrete", "C116_tiny_total_refuted"], "note": ""},
{"property": "C117", "status": "proved", "theorems": ["C117_lepton", "C117_gamma_error", "C117_velocity", "C117_direction", "C117_photon_energy", "C117_below_light_refuted"], "note": ""},
{"property": "C118", "status": "proved", "theorems": ["C118_momentum_constant", "C118_bits_refuted"], "note": ""},
{"property": "C119", "status": "proved", "theorems": ["C119_exact_counts", "C119_saturates"], "note": ""},
{"property": "C120", "status": "proved", "theorems": ["C120_error", "C120_between_refuted"], "note": ""},
{"property": "C121", "status": "proved", "theorems": ["C121_constants_consistent", "C121_natural_units", "C121_geant_units"], "note": ""},
{"property": "C122", "status": "proved", "theorems": ["C122_no_influence", "C122_contents", "C122_tells", "C122_refused", "C122_complete_refuted"], "note": ""},
{"property": "C123", "status": "proved", "theorems": ["C123_emission_tables", "C123_pair_tables"], "note": ""},
{"property": "C124", "status": "proved", "theorems": ["C124_sampling_table", "C124_photon_energy", "C124_range", "C124_emission_number", "C124_last_entry_refuted", "C124_continuous_energy", "C124_classical_excess", "C124_classical_energy_refuted"], "note": ""},
{"property": "C125", "status": "proved", "theorems": ["C125_fraction", "C125_negative_fraction", "C125_range", "C125_pair_energy", "C125_pair_number", "C125_energy_conservation_refuted"], "note": ""},
{"property": "C126", "status": "proved", "theorems": ["C126_process_safe", "C126_run_safe"], "note": ""},
{"property": "C127", "status": "proved", "theorems": ["C127_classical_run"], "note": ""},
{"property": "C128", "status": "proved", "theorems": ["C128_input", "C128_event", "C128_event_double", "C128_run", "C128_documented_library"], "note": ""},
{"property": "C129", "status": "proved", "theorems": ["C129_without_openmp", "C129_event", "C129_event_double", "C129_with_openmp", "C129_one_thread"], "note": ""},
{"property": "C130", "status": "proved", "theorems": ["C130_push", "C130_process", "C130_run", "C130_run_creates_nothing", "C130_histogram", "C130_radiation_reaction_at_rest"], "note": ""},
{"property": "C131", "status": "proved", "theorems": ["C131_deaf", "C131_at_rest", "C131_run"], "note": ""},
{"property": "C132", "status": "proved", "theorems": ["C132_photon_energy", "C132_momentum_after_emission", "C132_run_completes"], "note": ""},
{"property": "C133", "status": "proved", "theorems": ["C133_quantum_run", "C133_input", "C133_example_run"], "note": ""},
{"property": "C134", "status": "proved", "theorems": ["C134_no_pair", "C134_draws", "C134_outcomes"], "note": ""},
{"property": "C135", "status": "proved", "theorems": ["C135_no_undefined_behaviour", "C135_small_runs", "C135_shipped_tables", "C135_names_needed"], "note": ""},
{"property": "C136", "status": "proved", "theorems": ["C136_error", "C136_limit", "C136_static_regular", "C136_plane_regular", "C136_gyration", "C136_momentum_drift"], "note": ""},
{"property": "C137", "status": "proved", "theorems": ["C137_merge", "C137_serial_runs", "C137_sum", "C137_one_rank"], "note": ""},
{"property": "C138", "status": "proved", "theorems": ["C138_serialises", "C138_transfers", "C138_serial_schedule", "C138_any_order", "C138_one_file_refuted"], "note": ""},
{"property": "C139", "status": "proved", "theorems": ["C139_schedules_end", "C139_schedules_go_on", "C139_outcomes", "C139_completes", "C139_no_undefined_behaviour", "C139_shipped_tables", "C139_example", "C139_quantum_example"], "note": ""},
{"property": "C140", "status": "proved", "theorems": ["C140_serialises", "C140_transfers", "C140_events", "C140_serial_schedule", "C140_single_thread", "C140_any_order", "C140_schedules_end", "C140_schedules_go_on", "C140_script", "C140_one_result_refuted"], "note": ""},
{"property": "C141", "status": "proved", "theorems": ["C141_tracked", "C141_transfers", "C141_tables", "C141_outcomes", "C141_completes"], "note": ""},
{"property": "C142", "status": "proved", "theorems": ["C142_events", "C142_file", "C142_no_pairs", "C142_threads", "C142_mpi", "C142_exact", "C142_binary64"], "note": ""},
{"property": "C143", "status": "proved", "theorems": ["C143_one_push", "C143_gyration", "C143_fourth_order", "C143_momentum_drift"], "note": ""},
{"property": "C144", "status": "proved", "theorems": ["C144_rounding", "C144_orbit", "C144_gyration", "C144_stalled"], "note": ""},
{"property": "C145", "status": "proved", "theorems": ["C145_photon", "C145_lepton", "C145_stalled"], "note": ""},
{"property": "C146", "status": "proved", "theorems": ["C146_merge", "C146_serial", "C146_mpi", "C146_order"], "note": ""},
{"property": "C147", "status": "proved", "theorems": ["C147_line", "C147_motion", "C147_position", "C147_loss", "C147_braked"], "note": ""},
{"property": "C148", "status": "proved", "theorems": ["C148_steps", "C148_run", "C148_place"], "note": ""},
{"property": "C149", "status": "proved", "theorems": ["C149_eta", "C149_push", "C149_process", "C149_run"], "note": ""}
]}
