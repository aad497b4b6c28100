{
 "claims": [
  {
   "property": "C01",
   "status": "proved",
   "theorems": [
    "C01_aoi_projection_is_dot_product",
    "C01_aoi_projection_range",
    "C01_aoi_projection_nan"
   ],
   "note": ""
  },
  {
   "property": "C02",
   "status": "proved",
   "theorems": [
    "C02_aoi_is_angle",
    "C02_aoi_invariance",
    "C02_aoi_nan"
   ],
   "note": ""
  },
  {
   "property": "C03",
   "status": "proved",
   "theorems": [
    "C03_poa_accounting",
    "C03_beam_component",
    "C03_direct_nonneg"
   ],
   "note": ""
  },
  {
   "property": "C04",
   "status": "proved",
   "theorems": [
    "C04_horizontal_isotropic",
    "C04_horizontal_king",
    "C04_horizontal_haydavies",
    "C04_horizontal_reindl",
    "C04_horizontal_perez",
    "C04_horizontal_perez_driesse",
    "C04_horizontal_ground",
    "C04_horizontal_klucher_refuted"
   ],
   "note": ""
  },
  {
   "property": "C05",
   "status": "proved",
   "theorems": [
    "C05_isotropic_components",
    "C05_haydavies_components",
    "C05_reindl_components",
    "C05_perez_components",
    "C05_perez_driesse_components"
   ],
   "note": ""
  },
  {
   "property": "C06",
   "status": "proved",
   "theorems": [
    "C06_haydavies_nonneg",
    "C06_king_nonneg",
    "C06_perez_nonneg",
    "C06_perez_driesse_nonneg",
    "C06_isotropic_value",
    "C06_isotropic_range",
    "C06_klucher_ge_isotropic",
    "C06_reindl_nonneg"
   ],
   "note": ""
  },
  {
   "property": "C07",
   "status": "proved",
   "theorems": [
    "C07_ground_diffuse_value",
    "C07_view_factor",
    "C07_surface_type",
    "C07_named_surfaces",
    "C07_albedo_table"
   ],
   "note": ""
  },
  {
   "property": "C08",
   "status": "proved",
   "theorems": [
    "C08_bins",
    "C08_tables_have_8_rows",
    "C08_night",
    "C08_no_row",
    "C08_row_used",
    "C08_clearness"
   ],
   "note": ""
  },
  {
   "property": "C09",
   "status": "proved",
   "theorems": [
    "C09_erbs_closure",
    "C09_orgill_hollands_closure",
    "C09_boland_closure",
    "C09_erbs_driesse_closure",
    "C09_erbs_driesse_arguments",
    "C09_louche_closure",
    "C09_undefined_exactly",
    "C09_dni_nonneg",
    "C09_night"
   ],
   "note": ""
  },
  {
   "property": "C10",
   "status": "proved",
   "theorems": [
    "C10_diffuse_fraction",
    "C10_diffuse_range"
   ],
   "note": ""
  },
  {
   "property": "C11",
   "status": "proved",
   "theorems": [
    "C11_ranges",
    "C11_clearness_index_value",
    "C11_zenith_independent_value",
    "C11_clearsky_index"
   ],
   "note": ""
  },
  {
   "property": "C12",
   "status": "proved",
   "theorems": [
    "C12_complete_irradiance",
    "C12_closure",
    "C12_computed_dni"
   ],
   "note": ""
  },
  {
   "property": "C13",
   "status": "proved",
   "theorems": [
    "C13_bins_partition",
    "C13_bins_computed",
    "C13_coefficient",
    "C13_coefficient_any_input",
    "C13_stability_index"
   ],
   "note": ""
  },
  {
   "property": "C14",
   "status": "proved",
   "theorems": [
    "C14_best_iterate",
    "C14_step_sizes"
   ],
   "note": ""
  },
  {
   "property": "C15",
   "status": "proved",
   "theorems": [
    "C15_asce",
    "C15_spencer",
    "C15_period",
    "C15_inverse_square",
    "C15_errors"
   ],
   "note": ""
  },
  {
   "property": "C16",
   "status": "proved",
   "theorems": [
    "C16_rotation_within_limits",
    "C16_nan_exactly_in_the_dark",
    "C16_outputs_consistent"
   ],
   "note": ""
  },
  {
   "property": "C17",
   "status": "proved",
   "theorems": [
    "C17_true_tracking_optimal",
    "C17_true_tracking_projection"
   ],
   "note": ""
  },
  {
   "property": "C18",
   "status": "proved",
   "theorems": [
    "C18_backtracking_exactly_avoids_shade",
    "C18_backtracking_unlimited"
   ],
   "note": ""
  },
  {
   "property": "C19",
   "status": "proved",
   "theorems": [
    "C19_orientation_is_rotated_normal",
    "C19_horizontal_azimuth"
   ],
   "note": ""
  },
  {
   "property": "C20",
   "status": "proved",
   "theorems": [
    "C20_axis_lies_in_slope",
    "C20_axis_tilt_unique",
    "C20_cross_axis_line_in_slope",
    "C20_cross_axis_any_axis",
    "C20_flat_ground"
   ],
   "note": ""
  },
  {
   "property": "C21",
   "status": "proved",
   "theorems": [
    "C21_projected_zenith_is_rotation_to_sun",
    "C21_nonfinite"
   ],
   "note": ""
  },
  {
   "property": "C22",
   "status": "proved",
   "theorems": [
    "C22_passias_is_mean_masking_angle",
    "C22_passias_flat",
    "C22_shaded_fraction_range",
    "C22_shaded_part",
    "C22_shaded_part_same_rotation",
    "C22_passias_range",
    "C22_passias_monotone",
    "C22_martinez_range",
    "C22_martinez_unshaded",
    "C22_martinez_fully_shaded",
    "C22_martinez_formula"
   ],
   "note": ""
  },
  {
   "property": "C23",
   "status": "proved",
   "theorems": [
    "C23_masking_angle_geometry",
    "C23_ground_angle_geometry",
    "C23_masking_zero_at_top"
   ],
   "note": ""
  },
  {
   "property": "C24",
   "status": "proved",
   "theorems": [
    "C24_sandia_sleeps_and_clips",
    "C24_sandia_never_above_rating",
    "C24_sandia_published_curve",
    "C24_sandia_reference_points",
    "C24_sandia_monotone"
   ],
   "note": ""
  },
  {
   "property": "C25",
   "status": "proved",
   "theorems": [
    "C25_multi_length_mismatch",
    "C25_multi_order_irrelevant",
    "C25_multi_same_voltage",
    "C25_multi_single_input",
    "C25_multi_sleep",
    "C25_multi_weighting"
   ],
   "note": ""
  },
  {
   "property": "C26",
   "status": "proved",
   "theorems": [
    "C26_adr_range",
    "C26_adr_value",
    "C26_adr_nan_exactly_outside_window",
    "C26_adr_nan_input"
   ],
   "note": ""
  },
  {
   "property": "C27",
   "status": "proved",
   "theorems": [
    "C27_pvwatts_range",
    "C27_pvwatts_formula",
    "C27_pvwatts_zero",
    "C27_pvwatts_rated",
    "C27_pvwatts_clipped",
    "C27_pvwatts_monotone",
    "C27_pvwatts_monotone_everywhere_refuted",
    "C27_pvwatts_creates_no_energy",
    "C27_pvwatts_multi_is_sum"
   ],
   "note": ""
  },
  {
   "property": "C28",
   "status": "proved",
   "theorems": [
    "C28_transformer_power_balance",
    "C28_transformer_unique",
    "C28_transformer_output_below_input",
    "C28_transformer_strictly_increasing"
   ],
   "note": ""
  },
  {
   "property": "C29",
   "status": "proved",
   "theorems": [
    "C29_coverage_follows_recurrence",
    "C29_coverage_is_fraction",
    "C29_too_short_raises"
   ],
   "note": ""
  },
  {
   "property": "C30",
   "status": "proved",
   "theorems": [
    "C30_loss_is_least_multiple",
    "C30_loss_is_fraction",
    "C30_nan"
   ],
   "note": ""
  },
  {
   "property": "C31",
   "status": "proved",
   "theorems": [
    "C31_fraction_every_month",
    "C31_published_equation",
    "C31_no_events_no_loss"
   ],
   "note": ""
  },
  {
   "property": "C32",
   "status": "proved",
   "theorems": [
    "C32_kimber_follows_recurrence",
    "C32_kimber_bounds",
    "C32_kimber_errors"
   ],
   "note": ""
  },
  {
   "property": "C33",
   "status": "proved",
   "theorems": [
    "C33_hsu_mass_recurrence",
    "C33_hsu_range_and_cleaning",
    "C33_needs_two_rows"
   ],
   "note": ""
  },
  {
   "property": "C34",
   "status": "proved",
   "theorems": [
    "C34_stops_at_first_small_bracket",
    "C34_result_inside_bracket",
    "C34_unimodal_accuracy",
    "C34_reversed_bracket_raises",
    "C34_nonpositive_atol_never_stops"
   ],
   "note": ""
  },
  {
   "property": "C35",
   "status": "proved",
   "theorems": [
    "C35_latitude_nearest_cell",
    "C35_longitude_nearest_cell",
    "C35_out_of_range_raises",
    "C35_other_inputs_raise"
   ],
   "note": ""
  },
  {
   "property": "C36",
   "status": "proved",
   "theorems": [
    "C36_round_trip",
    "C36_round_trip_exact",
    "C36_zone",
    "C36_djd_counts_days"
   ],
   "note": ""
  },
  {
   "property": "C37",
   "status": "proved",
   "theorems": [
    "C37_ashrae",
    "C37_martin_ruiz",
    "C37_schlick",
    "C37_physical_is_desoto",
    "C37_physical_range",
    "C37_physical_coated_normal",
    "C37_physical_coated",
    "C37_physical_coating_ignored",
    "C37_physical_above_one_refuted"
   ],
   "note": ""
  },
  {
   "property": "C38",
   "status": "proved",
   "theorems": [
    "C38_martin_ruiz_error_iff",
    "C38_martin_ruiz_error_kind",
    "C38_interp",
    "C38_interp_nonnegative",
    "C38_sapm",
    "C38_sapm_bounds"
   ],
   "note": ""
  },
  {
   "property": "C39",
   "status": "proved",
   "theorems": [
    "C39_sapm_cell",
    "C39_pvsyst_cell",
    "C39_faiman",
    "C39_faiman_rad",
    "C39_ross",
    "C39_ross_errors",
    "C39_noct_sam",
    "C39_noct_sam_errors",
    "C39_generic_linear"
   ],
   "note": ""
  },
  {
   "property": "C40",
   "status": "proved",
   "theorems": [
    "C40_faiman_roundtrip",
    "C40_pvsyst_roundtrip",
    "C40_noct_sam_roundtrip",
    "C40_sapm_roundtrip",
    "C40_uninitialised"
   ],
   "note": ""
  },
  {
   "property": "C41",
   "status": "proved",
   "theorems": [
    "C41_coarse_data_unchanged",
    "C41_first_value_kept",
    "C41_weighted_mean",
    "C41_between_window_extremes",
    "C41_causal",
    "C41_default_coefficients"
   ],
   "note": ""
  },
  {
   "property": "C42",
   "status": "proved",
   "theorems": [
    "C42_below_horizon_is_nan",
    "C42_above_horizon_is_defined",
    "C42_unknown_model",
    "C42_case_insensitive",
    "C42_simple",
    "C42_at_most_simple",
    "C42_at_least_one_refuted",
    "C42_absolute"
   ],
   "note": ""
  },
  {
   "property": "C43",
   "status": "proved",
   "theorems": [
    "C43_dew_point_round_trip",
    "C43_humidity_round_trip",
    "C43_humidity_saturation_and_order",
    "C43_angstrom_alpha_of_aod",
    "C43_angstrom_aod_of_alpha",
    "C43_wind_power_law",
    "C43_wind_value",
    "C43_wind_arguments",
    "C43_wind_surface_types"
   ],
   "note": ""
  },
  {
   "property": "C44",
   "status": "proved",
   "theorems": [
    "C44_desoto_reference",
    "C44_desoto_equations",
    "C44_desoto_proportional",
    "C44_desoto_dark",
    "C44_desoto_saturation_increasing",
    "C44_cec_is_adjusted_desoto",
    "C44_cec_adjust_zero",
    "C44_pvsyst_reference",
    "C44_pvsyst_equations",
    "C44_pvsyst_shunt"
   ],
   "note": ""
  },
  {
   "property": "C45",
   "status": "proved",
   "theorems": [
    "C45_scaled_columns",
    "C45_succeeds_iff_known_columns",
    "C45_power_is_product"
   ],
   "note": ""
  },
  {
   "property": "C46",
   "status": "proved",
   "theorems": [
    "C46_pvwatts_dc",
    "C46_pvwatts_dc_linear",
    "C46_pvwatts_dc_nameplate",
    "C46_pvwatts_dc_with_k",
    "C46_pvwatts_dc_k_nonnegative",
    "C46_marion_correction",
    "C46_losses_value",
    "C46_losses_range",
    "C46_losses_order_independent",
    "C46_no_losses",
    "C46_losses_keywords",
    "C46_combine_value",
    "C46_combine_missing",
    "C46_combine_backfill",
    "C46_combine_no_fill",
    "C46_combine_other_missing",
    "C46_combine_range"
   ],
   "note": ""
  },
  {
   "property": "C47",
   "status": "proved",
   "theorems": [
    "C47_losses_are_percentage",
    "C47_losses_quadratic",
    "C47_parameter_priority"
   ],
   "note": ""
  },
  {
   "property": "C48",
   "status": "proved",
   "theorems": [
    "C48_get_iam",
    "C48_get_irradiance",
    "C48_get_cell_temperature",
    "C48_calcparams_desoto",
    "C48_desoto_parameters",
    "C48_cec_parameters",
    "C48_pvsyst_parameters",
    "C48_missing_parameter",
    "C48_calcparams_cec",
    "C48_calcparams_pvsyst",
    "C48_sapm",
    "C48_sapm_effective_irradiance",
    "C48_scale_voltage_current_power",
    "C48_pvwatts_dc",
    "C48_first_solar_spectral_loss",
    "C48_no_argument_methods",
    "C48_get_aoi",
    "C48_mismatch_is_valueerror",
    "C48_at_least_one_array"
   ],
   "note": ""
  },
  {
   "property": "C49",
   "status": "proved",
   "theorems": [
    "C49_dc_model",
    "C49_aoi_model",
    "C49_temperature_model",
    "C49_ac_model"
   ],
   "note": ""
  },
  {
   "property": "C50",
   "status": "proved",
   "theorems": [
    "C50_dc_model",
    "C50_singlediode_selects_a_model_refuted",
    "C50_dc_model_inferred",
    "C50_aoi_model",
    "C50_spectral_model",
    "C50_dc_ohmic_model",
    "C50_losses_model",
    "C50_temperature_model",
    "C50_ac_model",
    "C50_ac_model_documented_names_only_refuted",
    "C50_none"
   ],
   "note": ""
  },
  {
   "property": "C51",
   "status": "proved",
   "theorems": [
    "C51_run_model",
    "C51_run_model_from_poa",
    "C51_run_model_from_effective_irradiance",
    "C51_other_fields_untouched",
    "C51_complete_irradiance_history_independent_refuted"
   ],
   "note": ""
  },
  {
   "property": "C52",
   "status": "proved",
   "theorems": [
    "C52_run_model",
    "C52_run_model_from_poa",
    "C52_run_model_from_effective_irradiance",
    "C52_tuple_or_list",
    "C52_adr_inverter_refuted"
   ],
   "note": ""
  },
  {
   "property": "C53",
   "status": "proved",
   "theorems": [
    "C53_temperature"
   ],
   "note": ""
  },
  {
   "property": "C54",
   "status": "proved",
   "theorems": [
    "C54_run_model",
    "C54_run_model_from_poa",
    "C54_run_model_from_effective_irradiance",
    "C54_valid_data_accepted"
   ],
   "note": ""
  },
  {
   "property": "C55",
   "status": "proved",
   "theorems": [
    "C55_dispatch",
    "C55_case_insensitive",
    "C55_errors"
   ],
   "note": ""
  },
  {
   "property": "C56",
   "status": "proved",
   "theorems": [
    "C56_altitude_pressure",
    "C56_precipitable_water_floor",
    "C56_turbidity",
    "C56_broadband_aod"
   ],
   "note": ""
  },
  {
   "property": "C57",
   "status": "proved",
   "theorems": [
    "C57_water_albedo_range",
    "C57_water_albedo_decreases_with_elevation",
    "C57_value",
    "C57_arguments",
    "C57_surface_conditions"
   ],
   "note": ""
  },
  {
   "property": "C58",
   "status": "proved",
   "theorems": [
    "C58_kwargs_exactly_requested_and_present",
    "C58_args_in_order_or_keyerror"
   ],
   "note": ""
  },
  {
   "property": "C59",
   "status": "proved",
   "theorems": [
    "C59_uneven_sampling_raises",
    "C59_samples_per_window",
    "C59_daily_data_divides_by_zero"
   ],
   "note": ""
  },
  {
   "property": "C60",
   "status": "proved",
   "theorems": [
    "C60_normalised_by_largest_magnitude",
    "C60_centered_difference"
   ],
   "note": ""
  },
  {
   "property": "C61",
   "status": "proved",
   "theorems": [
    "C61_weighted_average",
    "C61_constant",
    "C61_errors",
    "C61_diffuse_regions",
    "C61_schlick_average"
   ],
   "note": ""
  },
  {
   "property": "C62",
   "status": "proved",
   "theorems": [
    "C62_convert_errors",
    "C62_physical_to_physical_crashes",
    "C62_convert_result",
    "C62_fit",
    "C62_fit_unknown",
    "C62_fit_minimises_misfit",
    "C62_fit_start",
    "C62_convert_minimises_misfit",
    "C62_martin_ruiz_source",
    "C62_guess_within_bounds",
    "C62_fix_n_same_intercept"
   ],
   "note": ""
  },
  {
   "property": "C63",
   "status": "proved",
   "theorems": [
    "C63_martin_ruiz_limits",
    "C63_martin_ruiz_symmetry",
    "C63_martin_ruiz_default_c2",
    "C63_martin_ruiz_value",
    "C63_schlick_closure",
    "C63_schlick_flat"
   ],
   "note": ""
  },
  {
   "property": "C64",
   "status": "proved",
   "theorems": [
    "C64_setup_physical",
    "C64_temperature_bounds",
    "C64_causal",
    "C64_needs_two_samples"
   ],
   "note": ""
  },
  {
   "property": "C65",
   "status": "proved",
   "theorems": [
    "C65_named_sets",
    "C65_unknown_set_keyerror",
    "C65_named_sets_monotone"
   ],
   "note": ""
  },
  {
   "property": "C66",
   "status": "proved",
   "theorems": [
    "C66_run_model",
    "C66_run_model_from_poa",
    "C66_run_model_from_effective_irradiance",
    "C66_systems_have_arrays"
   ],
   "note": ""
  },
  {
   "property": "C67",
   "status": "proved",
   "theorems": [
    "C67_complete_irradiance"
   ],
   "note": ""
  },
  {
   "property": "C68",
   "status": "proved",
   "theorems": [
    "C68_inferred_temperature_parameters",
    "C68_array",
    "C68_array_total",
    "C68_system_of_arrays",
    "C68_default_array",
    "C68_cell_type"
   ],
   "note": ""
  },
  {
   "property": "C69",
   "status": "proved",
   "theorems": [
    "C69_orientation",
    "C69_irradiance",
    "C69_iam",
    "C69_cell_temperature",
    "C69_pvwatts_dc",
    "C69_pvwatts_losses"
   ],
   "note": ""
  },
  {
   "property": "C70",
   "status": "proved",
   "theorems": [
    "C70_one_array",
    "C70_several_arrays",
    "C70_errors"
   ],
   "note": ""
  },
  {
   "property": "C71",
   "status": "proved",
   "theorems": [
    "C71_published_equations",
    "C71_reference_point",
    "C71_required_keys",
    "C71_outputs",
    "C71_dark",
    "C71_x_points"
   ],
   "note": ""
  },
  {
   "property": "C72",
   "status": "proved",
   "theorems": [
    "C72_sapm",
    "C72_sapm_total",
    "C72_firstsolar",
    "C72_firstsolar_general",
    "C72_firstsolar_errors",
    "C72_jrc",
    "C72_pvspec",
    "C72_jrc_pvspec_arguments",
    "C72_caballero",
    "C72_caballero_coefficients",
    "C72_caballero_errors",
    "C72_polo",
    "C72_polo_behind",
    "C72_polo_errors"
   ],
   "note": ""
  },
  {
   "property": "C73",
   "status": "proved",
   "theorems": [
    "C73_self_is_one",
    "C73_scale_invariant",
    "C73_mean_of_response",
    "C73_mismatch_bounds",
    "C73_response_interpolation",
    "C73_response_bounds",
    "C73_positive_integral"
   ],
   "note": ""
  },
  {
   "property": "C74",
   "status": "proved",
   "theorems": [
    "C74_names",
    "C74_names_clean_and_stable",
    "C74_product_names",
    "C74_retrieve_sam",
    "C74_path"
   ],
   "note": ""
  },
  {
   "property": "C75",
   "status": "proved",
   "theorems": [
    "C75_average_photon_energy",
    "C75_negative_spectrum",
    "C75_response_conversion",
    "C75_round_trip",
    "C75_wavelengths",
    "C75_normalize"
   ],
   "note": ""
  },
  {
   "property": "C76",
   "status": "proved",
   "theorems": [
    "C76_point_solves_single_diode_equation",
    "C76_every_point_is_reached",
    "C76_nan_from_breakdown_voltage_down"
   ],
   "note": ""
  },
  {
   "property": "C77",
   "status": "proved",
   "theorems": [
    "C77_gradients_are_derivatives",
    "C77_breakdown_gradient_refuted"
   ],
   "note": ""
  },
  {
   "property": "C78",
   "status": "proved",
   "theorems": [
    "C78_current_falls_voltage_rises",
    "C78_one_current_per_voltage",
    "C78_one_voltage_per_current",
    "C78_curve_decreasing"
   ],
   "note": ""
  },
  {
   "property": "C79",
   "status": "proved",
   "theorems": [
    "C79_stationary_point_is_global_maximum",
    "C79_mpp_with_bracketing_solver",
    "C79_exact_solver_gives_maximum"
   ],
   "note": ""
  },
  {
   "property": "C80",
   "status": "proved",
   "theorems": [
    "C80_estimate_voc",
    "C80_voltage_from_current",
    "C80_current_from_voltage",
    "C80_newton_root_is_a_solution",
    "C80_newton_call",
    "C80_unknown_method",
    "C80_chandrupatla_needs_scipy_1_15",
    "C80_brentq_bracket_below_builtin",
    "C80_chandrupatla_bracket_refuted"
   ],
   "note": ""
  },
  {
   "property": "C81",
   "status": "proved",
   "theorems": [
    "C81_lambertw_accuracy",
    "C81_log_lambertw_accuracy",
    "C81_zero_and_special_values"
   ],
   "note": ""
  },
  {
   "property": "C82",
   "status": "proved",
   "theorems": [
    "C82_v_from_i",
    "C82_v_from_i_beyond_saturation_is_nan",
    "C82_negative_shunt_is_nan",
    "C82_i_from_v",
    "C82_i_from_v_overflow_is_nan"
   ],
   "note": ""
  },
  {
   "property": "C83",
   "status": "proved",
   "theorems": [
    "C83_iterative_points",
    "C83_iterative_errors",
    "C83_lambertw_points",
    "C83_method_case_does_not_matter"
   ],
   "note": ""
  },
  {
   "property": "C84",
   "status": "proved",
   "theorems": [
    "C84_dark_is_zero",
    "C84_ideal_device",
    "C84_closed_form"
   ],
   "note": ""
  },
  {
   "property": "C85",
   "status": "proved",
   "theorems": [
    "C85_sky_view_factor",
    "C85_ground_view_factor",
    "C85_range",
    "C85_top_and_bottom",
    "C85_monotone"
   ],
   "note": ""
  },
  {
   "property": "C86",
   "status": "proved",
   "theorems": [
    "C86_mean_over_segment",
    "C86_short_segment",
    "C86_negative_tilt",
    "C86_segments_average"
   ],
   "note": ""
  },
  {
   "property": "C87",
   "status": "proved",
   "theorems": [
    "C87_unshaded_share",
    "C87_default_share",
    "C87_beyond_max_zenith",
    "C87_missing_dimensions",
    "C87_default_rows_suffice_refuted"
   ],
   "note": ""
  },
  {
   "property": "C88",
   "status": "proved",
   "theorems": [
    "C88_ground_sky_view_factor",
    "C88_range",
    "C88_first_hidden_exists"
   ],
   "note": ""
  },
  {
   "property": "C89",
   "status": "proved",
   "theorems": [
    "C89_mean_over_segment",
    "C89_mean_over_segment_flat",
    "C89_not_negative",
    "C89_row_ground_not_negative"
   ],
   "note": ""
  },
  {
   "property": "C90",
   "status": "proved",
   "theorems": [
    "C90_shaded_fraction",
    "C90_shaded_fraction_range",
    "C90_sun_behind_is_fully_shaded_refuted",
    "C90_haydavies_conserves",
    "C90_other_models_change_nothing",
    "C90_components",
    "C90_rows",
    "C90_rows_not_finite",
    "C90_haydavies_needs_dni_extra",
    "C90_succeeds"
   ],
   "note": ""
  },
  {
   "property": "C91",
   "status": "proved",
   "theorems": [
    "C91_back_faces_opposite",
    "C91_both_sides",
    "C91_fails_with_a_side",
    "C91_beam_on_one_side"
   ],
   "note": ""
  },
  {
   "property": "C92",
   "status": "proved",
   "theorems": [
    "C92_polynomial",
    "C92_fill_factor",
    "C92_zero_fill_factor_ignored",
    "C92_uniform"
   ],
   "note": ""
  },
  {
   "property": "C93",
   "status": "proved",
   "theorems": [
    "C93_segment_shade",
    "C93_segments_average",
    "C93_haydavies_conserves",
    "C93_perez_driesse_conserves",
    "C93_perez_conserves",
    "C93_isotropic_unchanged",
    "C93_sky_model_errors",
    "C93_ground_slope",
    "C93_segment_components"
   ],
   "note": ""
  },
  {
   "property": "C94",
   "status": "proved",
   "theorems": [
    "C94_disc_value",
    "C94_disc_zero",
    "C94_disc_range",
    "C94_disc_dark",
    "C94_dirindex",
    "C94_dirindex_cloudless",
    "C94_dirindex_not_negative"
   ],
   "note": ""
  },
  {
   "property": "C95",
   "status": "proved",
   "theorems": [
    "C95_ghi",
    "C95_dni",
    "C95_closure",
    "C95_not_negative",
    "C95_diffuse_not_negative_refuted",
    "C95_night",
    "C95_nan_airmass",
    "C95_nan_propagates",
    "C95_decreasing_in_turbidity"
   ],
   "note": ""
  },
  {
   "property": "C96",
   "status": "proved",
   "theorems": [
    "C96_monthly",
    "C96_interpolated",
    "C96_continuous_over_new_year",
    "C96_within_stored_range",
    "C96_raises_iff_off_the_globe"
   ],
   "note": ""
  },
  {
   "property": "C97",
   "status": "proved",
   "theorems": [
    "C97_haurwitz",
    "C97_haurwitz_bounds",
    "C97_haurwitz_higher_sun_brighter",
    "C97_haurwitz_nan_kept_refuted",
    "C97_solis",
    "C97_solis_not_negative",
    "C97_solis_night",
    "C97_solis_water_floor",
    "C97_solis_nan",
    "C97_solis_nan_elevation"
   ],
   "note": ""
  },
  {
   "property": "C98",
   "status": "proved",
   "theorems": [
    "C98_published_model",
    "C98_ranges",
    "C98_night",
    "C98_beam_below_extraterrestrial_refuted",
    "C98_nan_airmass"
   ],
   "note": ""
  },
  {
   "property": "C99",
   "status": "proved",
   "theorems": [
    "C99_clear_samples",
    "C99_missing_never_clear",
    "C99_clear_sky_is_clear",
    "C99_alpha_produced_the_samples_refuted",
    "C99_refusals",
    "C99_uneven_sampling_refused",
    "C99_inferred_limits",
    "C99_components"
   ],
   "note": ""
  },
  {
   "property": "C100",
   "status": "proved",
   "theorems": [
    "C100_efficiency",
    "C100_reference",
    "C100_range",
    "C100_temperature",
    "C100_missing",
    "C100_fit_asks",
    "C100_fit_empty",
    "C100_fit_max",
    "C100_fit_recovers",
    "C100_fit_curve_arity",
    "C100_fit_curve"
   ],
   "note": ""
  },
  {
   "property": "C101",
   "status": "proved",
   "theorems": [
    "C101_power",
    "C101_dark",
    "C101_rating",
    "C101_builtin",
    "C101_proportional",
    "C101_refusals"
   ],
   "note": ""
  },
  {
   "property": "C102",
   "status": "proved",
   "theorems": [
    "C102_value",
    "C102_reference",
    "C102_temperature_coefficients",
    "C102_dark",
    "C102_missing"
   ],
   "note": ""
  },
  {
   "property": "C103",
   "status": "proved",
   "theorems": [
    "C103_zenith",
    "C103_azimuth",
    "C103_azimuth_tolerance",
    "C103_azimuth_vertical",
    "C103_azimuth_range",
    "C103_nan",
    "C103_noon",
    "C103_noon_north_refuted",
    "C103_past_midnight_mirrored"
   ],
   "note": ""
  },
  {
   "property": "C104",
   "status": "proved",
   "theorems": [
    "C104_published",
    "C104_bounds",
    "C104_yearly",
    "C104_seasons"
   ],
   "note": ""
  },
  {
   "property": "C105",
   "status": "proved",
   "theorems": [
    "C105_naive",
    "C105_hour_angle",
    "C105_hour_angle_offset_change",
    "C105_dst_day_refuted",
    "C105_inverse",
    "C105_sunrise_sunset",
    "C105_polar",
    "C105_missing_midnight"
   ],
   "note": ""
  },
  {
   "property": "C106",
   "status": "proved",
   "theorems": [
    "C106_terminates",
    "C106_position",
    "C106_kepler_unique",
    "C106_time_arguments",
    "C106_calendar_refuted",
    "C106_refraction",
    "C106_refraction_formula"
   ],
   "note": ""
  },
  {
   "property": "C107",
   "status": "proved",
   "theorems": [
    "C107_errors",
    "C107_error_kind",
    "C107_dispatch",
    "C107_nrel_c_altitude_refuted",
    "C107_nrel_c"
   ],
   "note": ""
  },
  {
   "property": "C108",
   "status": "proved",
   "theorems": [
    "C108_direction",
    "C108_observer_unique",
    "C108_zenith",
    "C108_atmosphere",
    "C108_longitude"
   ],
   "note": ""
  },
  {
   "property": "C109",
   "status": "proved",
   "theorems": [
    "C109_distance",
    "C109_tables",
    "C109_equation_of_time",
    "C109_refraction",
    "C109_refraction_below",
    "C109_refraction_below_refuted",
    "C109_refraction_positive_refuted"
   ],
   "note": ""
  },
  {
   "property": "C110",
   "status": "proved",
   "theorems": [
    "C110_schedule",
    "C110_race_free",
    "C110_even_split",
    "C110_thread_count"
   ],
   "note": ""
  },
  {
   "property": "C111",
   "status": "proved",
   "theorems": [
    "C111_deltat",
    "C111_deltat_recent",
    "C111_julian_day"
   ],
   "note": ""
  },
  {
   "property": "C112",
   "status": "proved",
   "theorems": [
    "C112_errors",
    "C112_elementwise",
    "C112_day",
    "C112_local_day",
    "C112_naive"
   ],
   "note": ""
  },
  {
   "property": "C113",
   "status": "proved",
   "theorems": [
    "C113_import",
    "C113_without_numba",
    "C113_environment_refuted",
    "C113_spa_python",
    "C113_refract_default"
   ],
   "note": ""
  },
  {
   "property": "C114",
   "status": "proved",
   "theorems": [
    "C114_offset",
    "C114_offset_only",
    "C114_float",
    "C114_other",
    "C114_history",
    "C114_read_back",
    "C114_value_error_refuted"
   ],
   "note": ""
  },
  {
   "property": "C115",
   "status": "proved",
   "theorems": [
    "C115_lookup_altitude",
    "C115_lookup_error",
    "C115_init",
    "C115_from_tmy",
    "C115_from_epw",
    "C115_missing_metadata"
   ],
   "note": ""
  },
  {
   "property": "C116",
   "status": "proved",
   "theorems": [
    "C116_solarposition",
    "C116_airmass",
    "C116_airmass_models_refuted",
    "C116_ineichen_arguments",
    "C116_ineichen_value",
    "C116_pressure_used_refuted",
    "C116_ineichen_ignores_pressure",
    "C116_haurwitz",
    "C116_simplified_solis",
    "C116_other_model",
    "C116_position_computed",
    "C116_clearsky_physical",
    "C116_rise_set"
   ],
   "note": ""
  },
  {
   "property": "C117",
   "status": "proved",
   "theorems": [
    "C117_timescales",
    "C117_accepts",
    "C117_step_errors",
    "C117_time_index",
    "C117_long_step_refuted",
    "C117_wavelets",
    "C117_reconstruction",
    "C117_missing"
   ],
   "note": ""
  },
  {
   "property": "C118",
   "status": "proved",
   "theorems": [
    "C118_count_is_the_minimum",
    "C118_variability_reduction",
    "C118_reduction_monotone",
    "C118_smoothed",
    "C118_within_range",
    "C118_coincident",
    "C118_single_site_refuted"
   ],
   "note": ""
  },
  {
   "property": "C119",
   "status": "proved",
   "theorems": [
    "C119_coordinates",
    "C119_single",
    "C119_meridian",
    "C119_only_distances"
   ],
   "note": ""
  },
  {
   "property": "C120",
   "status": "proved",
   "theorems": [
    "C120_points",
    "C120_increasing",
    "C120_first_quadrant",
    "C120_order",
    "C120_clean_unchanged",
    "C120_rounding"
   ],
   "note": ""
  },
  {
   "property": "C121",
   "status": "proved",
   "theorems": [
    "C121_first_derivative",
    "C121_ends",
    "C121_second_derivative_refuted",
    "C121_second_equally_spaced"
   ],
   "note": ""
  },
  {
   "property": "C122",
   "status": "proved",
   "theorems": [
    "C122_knots",
    "C122_joins",
    "C122_gap",
    "C122_interpolates_refuted",
    "C122_slopes"
   ],
   "note": ""
  },
  {
   "property": "C123",
   "status": "proved",
   "theorems": [
    "C123_intercepts",
    "C123_max_power",
    "C123_accepts",
    "C123_refuses"
   ],
   "note": ""
  },
  {
   "property": "C124",
   "status": "proved",
   "theorems": [
    "C124_inverse",
    "C124_io",
    "C124_params_errors",
    "C124_window",
    "C124_no_exponential_portion",
    "C124_defaults",
    "C124_exact"
   ],
   "note": ""
  },
  {
   "property": "C125",
   "status": "proved",
   "theorems": [
    "C125_cocontent",
    "C125_model",
    "C125_params",
    "C125_isc_refuted",
    "C125_rotation",
    "C125_rotation_unique",
    "C125_regress",
    "C125_errors"
   ],
   "note": ""
  },
  {
   "property": "C126",
   "status": "proved",
   "theorems": [
    "C126_equations",
    "C126_fit",
    "C126_bad_guess"
   ],
   "note": ""
  },
  {
   "property": "C127",
   "status": "proved",
   "theorems": [
    "C127_value",
    "C127_points"
   ],
   "note": ""
  },
  {
   "property": "C128",
   "status": "proved",
   "theorems": [
    "C128_cec_sam"
   ],
   "note": ""
  },
  {
   "property": "C129",
   "status": "proved",
   "theorems": [
    "C129_series_resistance",
    "C129_shunt_resistance",
    "C129_five_hundred_steps",
    "C129_overflow_accuracy_refuted",
    "C129_theta"
   ],
   "note": ""
  },
  {
   "property": "C130",
   "status": "proved",
   "theorems": [
    "C130_step",
    "C130_accuracy",
    "C130_rounds",
    "C130_no_curves"
   ],
   "note": ""
  },
  {
   "property": "C131",
   "status": "proved",
   "theorems": [
    "C131_line",
    "C131_filter",
    "C131_zero_resistance_refuted"
   ],
   "note": ""
  },
  {
   "property": "C132",
   "status": "proved",
   "theorems": [
    "C132_initial",
    "C132_initial_errors",
    "C132_start",
    "C132_statistics",
    "C132_update",
    "C132_no_iteration",
    "C132_round",
    "C132_result",
    "C132_none_left"
   ],
   "note": ""
  },
  {
   "property": "C133",
   "status": "proved",
   "theorems": [
    "C133_desoto_roundtrip",
    "C133_band_gap_refuted",
    "C133_desoto_errors",
    "C133_pvsyst_roundtrip",
    "C133_pvsyst_shunt",
    "C133_pvsyst_shunt_unique",
    "C133_pvsyst_start"
   ],
   "note": ""
  },
  {
   "property": "C134",
   "status": "proved",
   "theorems": [
    "C134_desoto_diode",
    "C134_gamma",
    "C134_start",
    "C134_fit_desoto",
    "C134_fit_pvsyst"
   ],
   "note": ""
  },
  {
   "property": "C135",
   "status": "proved",
   "theorems": [
    "C135_tempco",
    "C135_shunt",
    "C135_series",
    "C135_ideality",
    "C135_saturation",
    "C135_photocurrent",
    "C135_post"
   ],
   "note": ""
  },
  {
   "property": "C136",
   "status": "proved",
   "theorems": [
    "C136_reference",
    "C136_steps",
    "C136_tempcoeff"
   ],
   "note": ""
  },
  {
   "property": "C137",
   "status": "proved",
   "theorems": [
    "C137_table",
    "C137_day",
    "C137_direct",
    "C137_thicker"
   ],
   "note": ""
  },
  {
   "property": "C138",
   "status": "proved",
   "theorems": [
    "C138_value",
    "C138_energy",
    "C138_asymmetry_refuted"
   ],
   "note": ""
  },
  {
   "property": "C139",
   "status": "proved",
   "theorems": [
    "C139_tilted",
    "C139_horizontal",
    "C139_missing"
   ],
   "note": ""
  },
  {
   "property": "C140",
   "status": "proved",
   "theorems": [
    "C140_parameters",
    "C140_same_inverter",
    "C140_missing_level",
    "C140_levels_separate",
    "C140_linear_inverter_refuted",
    "C140_no_selfconsumption_refuted"
   ],
   "note": ""
  },
  {
   "property": "C141",
   "status": "proved",
   "theorems": [
    "C141_text",
    "C141_contradiction",
    "C141_custom",
    "C141_wrapper",
    "C141_warn"
   ],
   "note": ""
  },
  {
   "property": "C142",
   "status": "proved",
   "theorems": [
    "C142_renamed",
    "C142_both",
    "C142_modern",
    "C142_same_result"
   ],
   "note": ""
  },
  {
   "property": "C143",
   "status": "proved",
   "theorems": [
    "C143_round_trip",
    "C143_determined",
    "C143_blank_lines",
    "C143_blank_refuted",
    "C143_last_line",
    "C143_last_entry_lost",
    "C143_errors"
   ],
   "note": ""
  },
  {
   "property": "C144",
   "status": "proved",
   "theorems": [
    "C144_list",
    "C144_value",
    "C144_second_equals"
   ],
   "note": ""
  },
  {
   "property": "C145",
   "status": "proved",
   "theorems": [
    "C145_index",
    "C145_errors",
    "C145_coerced",
    "C145_last_row_refuted",
    "C145_leap_year_refuted"
   ],
   "note": ""
  },
  {
   "property": "C146",
   "status": "proved",
   "theorems": [
    "C146_tmy3",
    "C146_epw",
    "C146_errors",
    "C146_utc_offset"
   ],
   "note": ""
  },
  {
   "property": "C147",
   "status": "proved",
   "theorems": [
    "C147_header",
    "C147_header_errors",
    "C147_fields",
    "C147_field_errors",
    "C147_index"
   ],
   "note": ""
  },
  {
   "property": "C148",
   "status": "proved",
   "theorems": [
    "C148_index",
    "C148_leap_day"
   ],
   "note": ""
  },
  {
   "property": "C149",
   "status": "proved",
   "theorems": [
    "C149_surfrad",
    "C149_solrad",
    "C149_missing",
    "C149_site"
   ],
   "note": ""
  },
  {
   "property": "C150",
   "status": "proved",
   "theorems": [
    "C150_midc",
    "C150_crn"
   ],
   "note": ""
  },
  {
   "property": "C151",
   "status": "proved",
   "theorems": [
    "C151_index",
    "C151_errors",
    "C151_half_hours_refuted",
    "C151_last_interval_refuted"
   ],
   "note": ""
  },
  {
   "property": "C152",
   "status": "proved",
   "theorems": [
    "C152_flags",
    "C152_mapped",
    "C152_names",
    "C152_kept",
    "C152_no_flag"
   ],
   "note": ""
  },
  {
   "property": "C153",
   "status": "proved",
   "theorems": [
    "C153_surfrad",
    "C153_solrad",
    "C153_srml",
    "C153_other_error",
    "C153_map_variables_refuted",
    "C153_days",
    "C153_files_distinct",
    "C153_months"
   ],
   "note": ""
  },
  {
   "property": "C154",
   "status": "proved",
   "theorems": [
    "C154_metadata",
    "C154_no_station_record",
    "C154_errors",
    "C154_horizon"
   ],
   "note": ""
  },
  {
   "property": "C155",
   "status": "proved",
   "theorems": [
    "C155_locate"
   ],
   "note": ""
  },
  {
   "property": "C156",
   "status": "proved",
   "theorems": [
    "C156_0100",
    "C156_0500",
    "C156_0300",
    "C156_columns"
   ],
   "note": ""
  },
  {
   "property": "C157",
   "status": "proved",
   "theorems": [
    "C157_tables",
    "C157_months",
    "C157_get",
    "C157_get_errors"
   ],
   "note": ""
  },
  {
   "property": "C158",
   "status": "proved",
   "theorems": [
    "C158_rolled",
    "C158_same_instant",
    "C158_kept",
    "C158_errors",
    "C158_leap_year_refuted"
   ],
   "note": ""
  },
  {
   "property": "C159",
   "status": "proved",
   "theorems": [
    "C159_csv",
    "C159_errors",
    "C159_dictionaries"
   ],
   "note": ""
  },
  {
   "property": "C160",
   "status": "proved",
   "theorems": [
    "C160_csv"
   ],
   "note": ""
  },
  {
   "property": "C161",
   "status": "proved",
   "theorems": [
    "C161_get",
    "C161_unknown",
    "C161_parser_error",
    "C161_horizon"
   ],
   "note": ""
  },
  {
   "property": "C162",
   "status": "proved",
   "theorems": [
    "C162_data",
    "C162_names",
    "C162_place"
   ],
   "note": ""
  },
  {
   "property": "C163",
   "status": "proved",
   "theorems": [
    "C163_table",
    "C163_azimuth",
    "C163_key_refuted"
   ],
   "note": ""
  },
  {
   "property": "C164",
   "status": "proved",
   "theorems": [
    "C164_table",
    "C164_clear_refuted",
    "C164_resolution",
    "C164_half_hour_refuted",
    "C164_metadata",
    "C164_place",
    "C164_errors"
   ],
   "note": ""
  },
  {
   "property": "C165",
   "status": "proved",
   "theorems": [
    "C165_table",
    "C165_truncated",
    "C165_errors",
    "C165_water_refuted",
    "C165_header",
    "C165_header_error"
   ],
   "note": ""
  },
  {
   "property": "C166",
   "status": "proved",
   "theorems": [
    "C166_names",
    "C166_others",
    "C166_wait"
   ],
   "note": ""
  },
  {
   "property": "C167",
   "status": "proved",
   "theorems": [
    "C167_header",
    "C167_endless_refuted"
   ],
   "note": ""
  },
  {
   "property": "C168",
   "status": "proved",
   "theorems": [
    "C168_metadata",
    "C168_errors"
   ],
   "note": ""
  },
  {
   "property": "C169",
   "status": "proved",
   "theorems": [
    "C169_instants",
    "C169_days",
    "C169_months"
   ],
   "note": ""
  },
  {
   "property": "C170",
   "status": "proved",
   "theorems": [
    "C170_power",
    "C170_table",
    "C170_errors",
    "C170_request",
    "C170_request_errors"
   ],
   "note": ""
  },
  {
   "property": "C171",
   "status": "proved",
   "theorems": [
    "C171_row",
    "C171_empty",
    "C171_errors"
   ],
   "note": ""
  },
  {
   "property": "C172",
   "status": "proved",
   "theorems": [
    "C172_read",
    "C172_errors",
    "C172_header_numbers",
    "C172_time_zone"
   ],
   "note": ""
  },
  {
   "property": "C173",
   "status": "proved",
   "theorems": [
    "C173_request",
    "C173_round_trip"
   ],
   "note": ""
  },
  {
   "property": "C174",
   "status": "proved",
   "theorems": [
    "C174_grid",
    "C174_place",
    "C174_errors",
    "C174_request",
    "C174_units"
   ],
   "note": ""
  },
  {
   "property": "C175",
   "status": "proved",
   "theorems": [
    "C175_data",
    "C175_not_a_number",
    "C175_stations",
    "C175_altitude_refuted",
    "C175_box"
   ],
   "note": ""
  },
  {
   "property": "C176",
   "status": "proved",
   "theorems": [
    "C176_metadata",
    "C176_two_colons",
    "C176_meta_errors",
    "C176_read",
    "C176_offset_errors"
   ],
   "note": ""
  },
  {
   "property": "C177",
   "status": "proved",
   "theorems": [
    "C177_times",
    "C177_poll",
    "C177_terminates"
   ],
   "note": ""
  },
  {
   "property": "C178",
   "status": "proved",
   "theorems": [
    "C178_result",
    "C178_missing",
    "C178_not_a_number"
   ],
   "note": ""
  },
  {
   "property": "C179",
   "status": "proved",
   "theorems": [
    "C179_names",
    "C179_request",
    "C179_time",
    "C179_time_zone_refuted",
    "C179_tmy",
    "C179_albedo_refuted"
   ],
   "note": ""
  },
  {
   "property": "C180",
   "status": "proved",
   "theorems": [
    "C180_parse",
    "C180_errors"
   ],
   "note": ""
  },
  {
   "property": "C181",
   "status": "proved",
   "theorems": [
    "C181_bisection",
    "C181_true_value",
    "C181_reproduces",
    "C181_errors",
    "C181_elementwise",
    "C181_trivial",
    "C181_missing",
    "C181_horizontal",
    "C181_xtol_refuted"
   ],
   "note": ""
  },
  {
   "property": "C182",
   "status": "proved",
   "theorems": [
    "C182_modelchain",
    "C182_with_pvwatts",
    "C182_with_sapm",
    "C182_pvwatts_outcome",
    "C182_pvwatts_checks_the_inverter_refuted",
    "C182_sapm_outcome",
    "C182_get_orientation"
   ],
   "note": ""
  },
  {
   "property": "C183",
   "status": "proved",
   "theorems": [
    "C183_every_time_has_a_date",
    "C183_simple_methods",
    "C183_distance_methods",
    "C183_days",
    "C183_errors",
    "C183_local_day_refuted"
   ],
   "note": ""
  },
  {
   "property": "C184",
   "status": "proved",
   "theorems": [
    "C184_events",
    "C184_errors",
    "C184_calc_time",
    "C184_calc_time_raises"
   ],
   "note": ""
  },
  {
   "property": "C185",
   "status": "proved",
   "theorems": [
    "C185_errors",
    "C185_reproduces",
    "C185_warning",
    "C185_single_guess_warns",
    "C185_closure",
    "C185_bright_missing"
   ],
   "note": ""
  },
  {
   "property": "C186",
   "status": "proved",
   "theorems": [
    "C186_behind"
   ],
   "note": ""
  },
  {
   "property": "C187",
   "status": "proved",
   "theorems": [
    "C187_result",
    "C187_errors",
    "C187_integer_zenith_refuted"
   ],
   "note": ""
  },
  {
   "property": "C188",
   "status": "proved",
   "theorems": [
    "C188_table",
    "C188_errors",
    "C188_commas_refuted"
   ],
   "note": ""
  },
  {
   "property": "C189",
   "status": "proved",
   "theorems": [
    "C189_result",
    "C189_errors",
    "C189_version_refuted"
   ],
   "note": ""
  },
  {
   "property": "C190",
   "status": "proved",
   "theorems": [
    "C190_processed",
    "C190_raw",
    "C190_errors",
    "C190_request"
   ],
   "note": ""
  },
  {
   "property": "C191",
   "status": "proved",
   "theorems": [
    "C191_datetime",
    "C191_index",
    "C191_errors",
    "C191_index_differs_refuted"
   ],
   "note": ""
  },
  {
   "property": "C192",
   "status": "proved",
   "theorems": [
    "C192_reference_spectra",
    "C192_reference_errors",
    "C192_reference_own_wavelengths"
   ],
   "note": ""
  },
  {
   "property": "C193",
   "status": "proved",
   "theorems": [
    "C193_response",
    "C193_response_points",
    "C193_default_wavelengths"
   ],
   "note": ""
  },
  {
   "property": "C194",
   "status": "proved",
   "theorems": [
    "C194_inputs",
    "C194_common_shape",
    "C194_one_shape",
    "C194_column_and_row_refuted",
    "C194_empty_refuted"
   ],
   "note": ""
  },
  {
   "property": "C195",
   "status": "proved",
   "theorems": [
    "C195_bracket",
    "C195_mpp_bracket",
    "C195_mpp_upper",
    "C195_integer_photocurrent_refuted",
    "C195_scalar_photocurrent_refuted"
   ],
   "note": ""
  },
  {
   "property": "C196",
   "status": "proved",
   "theorems": [
    "C196_haurwitz_float",
    "C196_haurwitz_integer",
    "C196_haurwitz_integer_refuted",
    "C196_solis_float",
    "C196_solis_integer",
    "C196_solis_integer_refuted"
   ],
   "note": ""
  },
  {
   "property": "C197",
   "status": "proved",
   "theorems": [
    "C197_era5_days",
    "C197_merra2_times",
    "C197_errors"
   ],
   "note": ""
  },
  {
   "property": "C198",
   "status": "proved",
   "theorems": [
    "C198_days",
    "C198_zone_ignored",
    "C198_utc_day",
    "C198_errors"
   ],
   "note": ""
  },
  {
   "property": "C199",
   "status": "proved",
   "theorems": [
    "C199_request",
    "C199_aspect",
    "C199_errors"
   ],
   "note": ""
  },
  {
   "property": "C200",
   "status": "proved",
   "theorems": [
    "C200_tmy_request",
    "C200_horizon_request"
   ],
   "note": ""
  },
  {
   "property": "C201",
   "status": "proved",
   "theorems": [
    "C201_request",
    "C201_errors",
    "C201_key",
    "C201_endpoints"
   ],
   "note": ""
  }
 ]
}