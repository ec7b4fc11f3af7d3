{
 "claims": [
  {
   "property": "C01",
   "status": "proved",
   "theorems": [
    "C01_round_trip",
    "C01_round_trip_int"
   ],
   "note": ""
  },
  {
   "property": "C02",
   "status": "proved",
   "theorems": [
    "C02_pair_injective",
    "C02_unpair_inverse",
    "C02_pair_range",
    "C02_negative",
    "C02_negative_only"
   ],
   "note": ""
  },
  {
   "property": "C03",
   "status": "proved",
   "theorems": [
    "C03_limit_sharp",
    "C03_refuted_for_all_int64"
   ],
   "note": ""
  },
  {
   "property": "C04",
   "status": "proved",
   "theorems": [
    "C04_lookup_in_bounds"
   ],
   "note": ""
  },
  {
   "property": "C05",
   "status": "proved",
   "theorems": [
    "C05_acceptance",
    "C05_last_mm_rejected"
   ],
   "note": ""
  },
  {
   "property": "C06",
   "status": "proved",
   "theorems": [
    "C06_resolution",
    "C06_centres_refuted"
   ],
   "note": ""
  },
  {
   "property": "C07",
   "status": "proved",
   "theorems": [
    "C07_bookkeeping",
    "C07_success",
    "C07_total_charge"
   ],
   "note": ""
  },
  {
   "property": "C08",
   "status": "proved",
   "theorems": [
    "C08_no_beam_pads",
    "C08_no_beam_pads_decoded",
    "C08_negative_times",
    "C08_beam_pad_table"
   ],
   "note": ""
  },
  {
   "property": "C09",
   "status": "proved",
   "theorems": [
    "C09_last_depositor",
    "C09_zero_takeover"
   ],
   "note": ""
  },
  {
   "property": "C10",
   "status": "proved",
   "theorems": [
    "C10_single_pad",
    "C10_total_charge"
   ],
   "note": ""
  },
  {
   "property": "C11",
   "status": "proved",
   "theorems": [
    "C11_row_no_creation",
    "C11_track_no_creation",
    "C11_bounded_loss"
   ],
   "note": ""
  },
  {
   "property": "C12",
   "status": "proved",
   "theorems": [
    "C12_refuted_in_binary64"
   ],
   "note": ""
  },
  {
   "property": "C13",
   "status": "proved",
   "theorems": [
    "C13_memory_safety",
    "C13_deposits_nonnegative",
    "C13_negative_time_refuted"
   ],
   "note": ""
  },
  {
   "property": "C14",
   "status": "proved",
   "theorems": [
    "C14_row_major",
    "C14_mesh",
    "C14_extent"
   ],
   "note": ""
  },
  {
   "property": "C15",
   "status": "proved",
   "theorems": [
    "C15_order_independence"
   ],
   "note": ""
  },
  {
   "property": "C16",
   "status": "proved",
   "theorems": [
    "C16_cloud_shape",
    "C16_grid_required",
    "C16_far_times_refuted"
   ],
   "note": ""
  },
  {
   "property": "C17",
   "status": "proved",
   "theorems": [
    "C17_one_point_per_cell",
    "C17_exact_charge"
   ],
   "note": ""
  },
  {
   "property": "C18",
   "status": "proved",
   "theorems": [
    "C18_labels_are_requested_charged_nuclei",
    "C18_neutral_nuclei_have_no_effect",
    "C18_all_neutral_is_empty"
   ],
   "note": ""
  },
  {
   "property": "C19",
   "status": "proved",
   "theorems": [
    "C19_smearing",
    "C19_negative_times_dropped",
    "C19_bucket_not_preserved_refuted"
   ],
   "note": ""
  },
  {
   "property": "C20",
   "status": "proved",
   "theorems": [
    "C20_default_nuclei"
   ],
   "note": ""
  },
  {
   "property": "C21",
   "status": "proved",
   "theorems": [
    "C21_each_nonempty_event_written_once",
    "C21_increasing_events",
    "C21_failed_run_is_a_prefix"
   ],
   "note": ""
  },
  {
   "property": "C22",
   "status": "proved",
   "theorems": [
    "C22_run_file_names",
    "C22_documented_label_name_refuted",
    "C22_output_is_split",
    "C22_successful_writes_are_stored",
    "C22_repeated_event_raises"
   ],
   "note": ""
  },
  {
   "property": "C23",
   "status": "proved",
   "theorems": [
    "C23_event_ranges"
   ],
   "note": ""
  },
  {
   "property": "C24",
   "status": "proved",
   "theorems": [
    "C24_limit_zero",
    "C24_negative_limit_never_splits"
   ],
   "note": ""
  },
  {
   "property": "C25",
   "status": "proved",
   "theorems": [
    "C25_stored_rows",
    "C25_centres_required",
    "C25_unknown_pad",
    "C25_below_threshold",
    "C25_threshold_above_saturation"
   ],
   "note": ""
  },
  {
   "property": "C26",
   "status": "proved",
   "theorems": [
    "C26_adc_range",
    "C26_monotone",
    "C26_amplitude_is_peak"
   ],
   "note": ""
  },
  {
   "property": "C27",
   "status": "proved",
   "theorems": [
    "C27_only_own_run_files",
    "C27_finished_files_are_final"
   ],
   "note": ""
  },
  {
   "property": "C28",
   "status": "proved",
   "theorems": [
    "C28_finished_after_close"
   ],
   "note": ""
  },
  {
   "property": "C29",
   "status": "proved",
   "theorems": [
    "C29_round_trip",
    "C29_range",
    "C29_truncation_error"
   ],
   "note": ""
  },
  {
   "property": "C30",
   "status": "proved",
   "theorems": [
    "C30_response",
    "C30_inverse_gain",
    "C30_zero_gain",
    "C30_response_binary64"
   ],
   "note": ""
  },
  {
   "property": "C31",
   "status": "proved",
   "theorems": [
    "C31_zero_division",
    "C31_constructor_zero_division",
    "C31_velocity",
    "C31_velocity_binary64",
    "C31_settings"
   ],
   "note": ""
  },
  {
   "property": "C32",
   "status": "proved",
   "theorems": [
    "C32_default_sizes",
    "C32_custom_sizes_are_pad_positions",
    "C32_custom_sizes_default_geometry",
    "C32_size_file_is_never_read",
    "C32_size_file_refuted"
   ],
   "note": ""
  },
  {
   "property": "C33",
   "status": "proved",
   "theorems": [
    "C33_centres",
    "C33_too_many_rows",
    "C33_grid"
   ],
   "note": ""
  },
  {
   "property": "C34",
   "status": "proved",
   "theorems": [
    "C34_lorentz_force",
    "C34_magnetic_field_does_no_work",
    "C34_power",
    "C34_energy_never_increases",
    "C34_track_energies"
   ],
   "note": ""
  },
  {
   "property": "C35",
   "status": "proved",
   "theorems": [
    "C35_target_of_a_file",
    "C35_at_rest",
    "C35_trajectory_at_rest"
   ],
   "note": ""
  },
  {
   "property": "C36",
   "status": "proved",
   "theorems": [
    "C36_counts",
    "C36_energy_accounting",
    "C36_zero_w",
    "C36_electron_budget"
   ],
   "note": ""
  },
  {
   "property": "C37",
   "status": "proved",
   "theorems": [
    "C37_times",
    "C37_track_volume"
   ],
   "note": ""
  },
  {
   "property": "C38",
   "status": "proved",
   "theorems": [
    "C38_reaction",
    "C38_reaction_refused",
    "C38_decay",
    "C38_decay_refused"
   ],
   "note": ""
  },
  {
   "property": "C39",
   "status": "proved",
   "theorems": [
    "C39_reaction"
   ],
   "note": ""
  },
  {
   "property": "C40",
   "status": "proved",
   "theorems": [
    "C40_allowed_is_exact",
    "C40_allowed_is_calculated",
    "C40_window",
    "C40_below_threshold_nan",
    "C40_allowed_but_refused_refuted"
   ],
   "note": ""
  },
  {
   "property": "C41",
   "status": "proved",
   "theorems": [
    "C41_decay",
    "C41_refused",
    "C41_not_massive"
   ],
   "note": ""
  },
  {
   "property": "C42",
   "status": "proved",
   "theorems": [
    "C42_accepted",
    "C42_refused"
   ],
   "note": ""
  },
  {
   "property": "C43",
   "status": "proved",
   "theorems": [
    "C43_row_order",
    "C43_numbers",
    "C43_conserved"
   ],
   "note": ""
  },
  {
   "property": "C44",
   "status": "proved",
   "theorems": [
    "C44_first_allowed",
    "C44_limit",
    "C44_outcomes"
   ],
   "note": ""
  },
  {
   "property": "C45",
   "status": "proved",
   "theorems": [
    "C45_no_stale_data"
   ],
   "note": ""
  },
  {
   "property": "C46",
   "status": "proved",
   "theorems": [
    "C46_alias",
    "C46_overwritten_refuted"
   ],
   "note": ""
  },
  {
   "property": "C47",
   "status": "proved",
   "theorems": [
    "C47_conservation",
    "C47_no_nan",
    "C47_on_shell",
    "C47_accepted_iff"
   ],
   "note": ""
  },
  {
   "property": "C48",
   "status": "proved",
   "theorems": [
    "C48_counts_decayed_nuclei",
    "C48_no_decays",
    "C48_chain_rejected_refuted",
    "C48_endothermic_refuted"
   ],
   "note": ""
  },
  {
   "property": "C49",
   "status": "proved",
   "theorems": [
    "C49_finished",
    "C49_location",
    "C49_ranges",
    "C49_paths"
   ],
   "note": ""
  },
  {
   "property": "C50",
   "status": "proved",
   "theorems": [
    "C50_read_back",
    "C50_simulation",
    "C50_conversion",
    "C50_frame_rows"
   ],
   "note": ""
  },
  {
   "property": "C51",
   "status": "proved",
   "theorems": [
    "C51_interrupted",
    "C51_simulation_refuses",
    "C51_conversion_refuses"
   ],
   "note": ""
  },
  {
   "property": "C52",
   "status": "proved",
   "theorems": [
    "C52_no_material",
    "C52_vertex",
    "C52_sample_is_complete",
    "C52_own_distributions"
   ],
   "note": ""
  },
  {
   "property": "C53",
   "status": "proved",
   "theorems": [
    "C53_in_range",
    "C53_uniform_in_cos",
    "C53_attained",
    "C53_reversed_limits_fail"
   ],
   "note": ""
  },
  {
   "property": "C54",
   "status": "proved",
   "theorems": [
    "C54_folded",
    "C54_sample",
    "C54_accepted_iff",
    "C54_deficient_fails_late",
    "C54_exact_sum_refused"
   ],
   "note": ""
  },
  {
   "property": "C55",
   "status": "proved",
   "theorems": [
    "C55_uniform",
    "C55_gaussian_zero_width",
    "C55_gaussian_fwhm",
    "C55_negative_excitation",
    "C55_breit_wigner",
    "C55_light_residual"
   ],
   "note": ""
  },
  {
   "property": "C56",
   "status": "proved",
   "theorems": [
    "C56_track_cut_refuted",
    "C56_time_limit",
    "C56_sampling"
   ],
   "note": ""
  },
  {
   "property": "C57",
   "status": "proved",
   "theorems": [
    "C57_events",
    "C57_succeeds",
    "C57_conservation"
   ],
   "note": ""
  },
  {
   "property": "C58",
   "status": "proved",
   "theorems": [
    "C58_storable",
    "C58_run"
   ],
   "note": ""
  },
  {
   "property": "C59",
   "status": "proved",
   "theorems": [
    "C59_helix",
    "C59_brho",
    "C59_helix_exists"
   ],
   "note": ""
  },
  {
   "property": "C60",
   "status": "proved",
   "theorems": [
    "C60_range",
    "C60_loss_rate",
    "C60_stopping_time",
    "C60_track_range",
    "C60_complete_track"
   ],
   "note": ""
  },
  {
   "property": "C61",
   "status": "proved",
   "theorems": [
    "C61_rotation",
    "C61_mirror",
    "C61_translation",
    "C61_track_rotation",
    "C61_electric_force"
   ],
   "note": ""
  },
  {
   "property": "C62",
   "status": "proved",
   "theorems": [
    "C62_width",
    "C62_monotone",
    "C62_no_drift_no_spread_refuted"
   ],
   "note": ""
  },
  {
   "property": "C63",
   "status": "proved",
   "theorems": [
    "C63_backwards_from_the_window",
    "C63_slow_start",
    "C63_outside_refuted"
   ],
   "note": ""
  },
  {
   "property": "C64",
   "status": "proved",
   "theorems": [
    "C64_failed_writes_lose_nothing",
    "C64_reasons",
    "C64_ranges",
    "C64_minimum_is_stored_refuted"
   ],
   "note": ""
  },
  {
   "property": "C65",
   "status": "proved",
   "theorems": [
    "C65_break_up_is_real",
    "C65_allowed_is_real_refuted"
   ],
   "note": ""
  },
  {
   "property": "C66",
   "status": "proved",
   "theorems": [
    "C66_rows_lie_on_the_track"
   ],
   "note": ""
  },
  {
   "property": "C67",
   "status": "proved",
   "theorems": [
    "C67_conservation_binary64",
    "C67_exact_refuted"
   ],
   "note": ""
  },
  {
   "property": "C68",
   "status": "proved",
   "theorems": [
    "C68_reaction",
    "C68_decay",
    "C68_events",
    "C68_energies"
   ],
   "note": ""
  },
  {
   "property": "C69",
   "status": "proved",
   "theorems": [
    "C69_laboratory",
    "C69_energy_falls",
    "C69_cone"
   ],
   "note": ""
  },
  {
   "property": "C70",
   "status": "proved",
   "theorems": [
    "C70_exactly_what_passes"
   ],
   "note": ""
  },
  {
   "property": "C71",
   "status": "proved",
   "theorems": [
    "C71_threshold",
    "C71_gain",
    "C71_gain_stored",
    "C71_overflow_refuted"
   ],
   "note": ""
  },
  {
   "property": "C72",
   "status": "proved",
   "theorems": [
    "C72_generate_and_detect"
   ],
   "note": ""
  },
  {
   "property": "C73",
   "status": "proved",
   "theorems": [
    "C73_start",
    "C73_event",
    "C73_excess_refuted"
   ],
   "note": ""
  },
  {
   "property": "C74",
   "status": "proved",
   "theorems": [
    "C74_depth",
    "C74_stopped_beam_refuted"
   ],
   "note": ""
  },
  {
   "property": "C75",
   "status": "proved",
   "theorems": [
    "C75_energy",
    "C75_means",
    "C75_counts",
    "C75_no_loss",
    "C75_rest"
   ],
   "note": ""
  },
  {
   "property": "C76",
   "status": "proved",
   "theorems": [
    "C76_charge",
    "C76_energy"
   ],
   "note": ""
  },
  {
   "property": "C77",
   "status": "proved",
   "theorems": [
    "C77_decay",
    "C77_reaction",
    "C77_decay_calculated"
   ],
   "note": ""
  },
  {
   "property": "C78",
   "status": "proved",
   "theorems": [
    "C78_stop",
    "C78_motion",
    "C78_speed",
    "C78_ends",
    "C78_rest",
    "C78_moving_is_enough_refuted"
   ],
   "note": ""
  },
  {
   "property": "C79",
   "status": "proved",
   "theorems": [
    "C79_stored",
    "C79_right_iff",
    "C79_untouched",
    "C79_stale_refuted",
    "C79_shared_refuted"
   ],
   "note": ""
  },
  {
   "property": "C80",
   "status": "proved",
   "theorems": [
    "C80_gaussian",
    "C80_breit_wigner",
    "C80_uniform",
    "C80_azimuth",
    "C80_polar",
    "C80_excitation",
    "C80_vertex",
    "C80_sample",
    "C80_half_open_refuted"
   ],
   "note": ""
  },
  {
   "property": "C81",
   "status": "proved",
   "theorems": [
    "C81_superposition",
    "C81_simulated_iff",
    "C81_charge",
    "C81_cloud"
   ],
   "note": ""
  },
  {
   "property": "C82",
   "status": "proved",
   "theorems": [
    "C82_samples",
    "C82_charge",
    "C82_proportional"
   ],
   "note": ""
  },
  {
   "property": "C83",
   "status": "proved",
   "theorems": [
    "C83_rows",
    "C83_total",
    "C83_energy"
   ],
   "note": ""
  },
  {
   "property": "C84",
   "status": "proved",
   "theorems": [
    "C84_decay",
    "C84_reaction",
    "C84_event",
    "C84_exact"
   ],
   "note": ""
  },
  {
   "property": "C85",
   "status": "proved",
   "theorems": [
    "C85_event"
   ],
   "note": ""
  },
  {
   "property": "C86",
   "status": "proved",
   "theorems": [
    "C86_library",
    "C86_event"
   ],
   "note": ""
  },
  {
   "property": "C87",
   "status": "proved",
   "theorems": [
    "C87_pixel",
    "C87_row_no_creation",
    "C87_track_no_creation",
    "C87_bounded_loss",
    "C87_width"
   ],
   "note": ""
  },
  {
   "property": "C88",
   "status": "proved",
   "theorems": [
    "C88_charge"
   ],
   "note": ""
  },
  {
   "property": "C89",
   "status": "proved",
   "theorems": [
    "C89_simulate",
    "C89_missing_data",
    "C89_negative_time_refuted",
    "C89_countable",
    "C89_event",
    "C89_run",
    "C89_short_detector_refuted"
   ],
   "note": ""
  },
  {
   "property": "C90",
   "status": "proved",
   "theorems": [
    "C90_energy"
   ],
   "note": ""
  },
  {
   "property": "C91",
   "status": "proved",
   "theorems": [
    "C91_start",
    "C91_charge"
   ],
   "note": ""
  },
  {
   "property": "C92",
   "status": "proved",
   "theorems": [
    "C92_file",
    "C92_failure",
    "C92_sample",
    "C92_certain"
   ],
   "note": ""
  },
  {
   "property": "C93",
   "status": "proved",
   "theorems": [
    "C93_script",
    "C93_rest"
   ],
   "note": ""
  },
  {
   "property": "C94",
   "status": "proved",
   "theorems": [
    "C94_uniform",
    "C94_polar",
    "C94_table"
   ],
   "note": ""
  },
  {
   "property": "C95",
   "status": "proved",
   "theorems": [
    "C95_stored"
   ],
   "note": ""
  },
  {
   "property": "C96",
   "status": "proved",
   "theorems": [
    "C96_draws",
    "C96_isotropic",
    "C96_vertex",
    "C96_depth",
    "C96_excitation",
    "C96_table"
   ],
   "note": ""
  },
  {
   "property": "C97",
   "status": "proved",
   "theorems": [
    "C97_next_bucket",
    "C97_time",
    "C97_cloud",
    "C97_lost"
   ],
   "note": ""
  },
  {
   "property": "C98",
   "status": "proved",
   "theorems": [
    "C98_files",
    "C98_late_gain",
    "C98_late_paths",
    "C98_last_assignment",
    "C98_config",
    "C98_factor"
   ],
   "note": ""
  },
  {
   "property": "C99",
   "status": "proved",
   "theorems": [
    "C99_pad_at_position",
    "C99_beam_pads",
    "C99_hole",
    "C99_beam_extent",
    "C99_stored_near_track",
    "C99_beam_region_silent",
    "C99_every_pad"
   ],
   "note": ""
  },
  {
   "property": "C100",
   "status": "proved",
   "theorems": [
    "C100_shape",
    "C100_conditional",
    "C100_limit"
   ],
   "note": ""
  },
  {
   "property": "C101",
   "status": "proved",
   "theorems": [
    "C101_chain",
    "C101_numbers",
    "C101_words"
   ],
   "note": ""
  },
  {
   "property": "C102",
   "status": "proved",
   "theorems": [
    "C102_average",
    "C102_silent",
    "C102_cloud"
   ],
   "note": ""
  },
  {
   "property": "C103",
   "status": "proved",
   "theorems": [
    "C103_spot",
    "C103_radius"
   ],
   "note": ""
  },
  {
   "property": "C104",
   "status": "proved",
   "theorems": [
    "C104_box",
    "C104_box64",
    "C104_mean",
    "C104_mean_reaction"
   ],
   "note": ""
  },
  {
   "property": "C105",
   "status": "proved",
   "theorems": [
    "C105_resolution",
    "C105_steps",
    "C105_cloud"
   ],
   "note": ""
  },
  {
   "property": "C106",
   "status": "proved",
   "theorems": [
    "C106_middle",
    "C106_track",
    "C106_cloud"
   ],
   "note": ""
  }
 ]
}