{
 "claims": [
  {
   "property": "C01",
   "status": "proved",
   "theorems": [
    "C01_first_unknown_key_rejected",
    "C01_known_keys_accepted"
   ],
   "note": ""
  },
  {
   "property": "C02",
   "status": "proved",
   "theorems": [
    "C02_copy_with_overrides",
    "C02_copy_with_rejects_unknown"
   ],
   "note": ""
  },
  {
   "property": "C03",
   "status": "proved",
   "theorems": [
    "C03_construct_fresh",
    "C03_history_frame",
    "C03_model_scenario_isolated"
   ],
   "note": ""
  },
  {
   "property": "C04",
   "status": "proved",
   "theorems": [
    "C04_only_declared_parameters_matter"
   ],
   "note": ""
  },
  {
   "property": "C05",
   "status": "proved",
   "theorems": [
    "C05_required_iff_value_error"
   ],
   "note": ""
  },
  {
   "property": "C06",
   "status": "proved",
   "theorems": [
    "C06_absent_gets_default",
    "C06_nan_silent",
    "C06_numeric_check_warns_and_keeps"
   ],
   "note": ""
  },
  {
   "property": "C07",
   "status": "proved",
   "theorems": [
    "C07_categorical_option_or_default"
   ],
   "note": ""
  },
  {
   "property": "C08",
   "status": "proved",
   "theorems": [
    "C08_limit_in_warning_max_refuted",
    "C08_limit_in_warning_refuted"
   ],
   "note": ""
  },
  {
   "property": "C09",
   "status": "proved",
   "theorems": [
    "C09_peak_accessors"
   ],
   "note": ""
  },
  {
   "property": "C10",
   "status": "proved",
   "theorems": [
    "C10_ln_stds",
    "C10_spec_accels"
   ],
   "note": ""
  },
  {
   "property": "C11",
   "status": "proved",
   "theorems": [
    "C11_interpolation",
    "C11_interpolation_stds"
   ],
   "note": ""
  },
  {
   "property": "C12",
   "status": "proved",
   "theorems": [
    "C12_attribute_assignment_shadows",
    "C12_attribute_item_agree"
   ],
   "note": ""
  },
  {
   "property": "C13",
   "status": "proved",
   "theorems": [
    "C13_extra_entries_ignored",
    "C13_never_a_warning",
    "C13_recognised_and_distinct"
   ],
   "note": ""
  },
  {
   "property": "C14",
   "status": "proved",
   "theorems": [
    "C14_finite_positive"
   ],
   "note": ""
  },
  {
   "property": "C15",
   "status": "proved",
   "theorems": [
    "C15_decay_refuted_above_7_3",
    "C15_decays_with_distance"
   ],
   "note": ""
  },
  {
   "property": "C16",
   "status": "proved",
   "theorems": [
    "C16_finite_up_to_8_5",
    "C16_nan_above_8_5",
    "C16_python_floats_above_8_5",
    "C16_python_floats_up_to_8_5"
   ],
   "note": ""
  },
  {
   "property": "C17",
   "status": "proved",
   "theorems": [
    "C17_decays_near_and_far",
    "C17_finite_positive",
    "C17_growth_between_75_and_139_km"
   ],
   "note": ""
  },
  {
   "property": "C18",
   "status": "proved",
   "theorems": [
    "C18_decays_with_distance",
    "C18_finite_positive",
    "C18_grows_with_magnitude",
    "C18_reverse_not_lower",
    "C18_sigma_not_increasing",
    "C18_stiffer_site_shakes_less"
   ],
   "note": ""
  },
  {
   "property": "C19",
   "status": "proved",
   "theorems": [
    "C19_branches_join"
   ],
   "note": ""
  },
  {
   "property": "C20",
   "status": "proved",
   "theorems": [
    "C20_pga_jumps_at_300_and_180"
   ],
   "note": ""
  },
  {
   "property": "C21",
   "status": "proved",
   "theorems": [
    "C21_missing_velocity_rejected",
    "C21_no_hard_rock_set_for_stiff_sites",
    "C21_zero_velocity_selects_hard_rock"
   ],
   "note": ""
  },
  {
   "property": "C22",
   "status": "proved",
   "theorems": [
    "C22_peaks_divided_by_gravity"
   ],
   "note": ""
  },
  {
   "property": "C23",
   "status": "proved",
   "theorems": [
    "C23_china_coefficient_differs",
    "C23_china_is_global"
   ],
   "note": ""
  },
  {
   "property": "C24",
   "status": "proved",
   "theorems": [
    "C24_finite_positive",
    "C24_sigma_linear_sites",
    "C24_sigma_same_on_rock"
   ],
   "note": ""
  },
  {
   "property": "C25",
   "status": "proved",
   "theorems": [
    "C25_regions_indistinguishable"
   ],
   "note": ""
  },
  {
   "property": "C26",
   "status": "proved",
   "theorems": [
    "C26_reference_rock"
   ],
   "note": ""
  },
  {
   "property": "C27",
   "status": "proved",
   "theorems": [
    "C27_positive_bounded",
    "C27_sigma_continuous",
    "C27_sigma_published"
   ],
   "note": ""
  },
  {
   "property": "C28",
   "status": "proved",
   "theorems": [
    "C28_finite_positive"
   ],
   "note": ""
  },
  {
   "property": "C29",
   "status": "proved",
   "theorems": [
    "C29_sigma_linear_sites",
    "C29_soil_lowers_sigma"
   ],
   "note": ""
  },
  {
   "property": "C30",
   "status": "proved",
   "theorems": [
    "C30_stiff_sites"
   ],
   "note": ""
  },
  {
   "property": "C31",
   "status": "proved",
   "theorems": [
    "C31_italy_lower",
    "C31_italy_same"
   ],
   "note": ""
  },
  {
   "property": "C32",
   "status": "proved",
   "theorems": [
    "C32_finite_positive"
   ],
   "note": ""
  },
  {
   "property": "C33",
   "status": "proved",
   "theorems": [
    "C33_any_metric_accepted",
    "C33_no_metric_rejected",
    "C33_precedence",
    "C33_published_median"
   ],
   "note": ""
  },
  {
   "property": "C34",
   "status": "proved",
   "theorems": [
    "C34_continuous_in_magnitude",
    "C34_continuous_in_velocity",
    "C34_reference_site"
   ],
   "note": ""
  },
  {
   "property": "C35",
   "status": "proved",
   "theorems": [
    "C35_bounded",
    "C35_unknown_mechanism"
   ],
   "note": ""
  },
  {
   "property": "C36",
   "status": "proved",
   "theorems": [
    "C36_history_independent",
    "C36_loaded_once"
   ],
   "note": ""
  },
  {
   "property": "C37",
   "status": "proved",
   "theorems": [
    "C37_continuous_in_magnitude",
    "C37_published_median"
   ],
   "note": ""
  },
  {
   "property": "C38",
   "status": "proved",
   "theorems": [
    "C38_continuous_in_velocity",
    "C38_discontinuous_above_1000"
   ],
   "note": ""
  },
  {
   "property": "C39",
   "status": "proved",
   "theorems": [
    "C39_reference_pga_always_needed",
    "C39_value_error"
   ],
   "note": ""
  },
  {
   "property": "C40",
   "status": "proved",
   "theorems": [
    "C40_ratio_continuous_in_magnitude",
    "C40_ratio_continuous_in_velocity",
    "C40_sigma_continuous_in_magnitude"
   ],
   "note": ""
  },
  {
   "property": "C41",
   "status": "proved",
   "theorems": [
    "C41_increment",
    "C41_increment_grows",
    "C41_increment_overwrites_argument",
    "C41_interp_overwrites_argument",
    "C41_list_argument_untouched",
    "C41_second_call_agrees"
   ],
   "note": ""
  },
  {
   "property": "C42",
   "status": "proved",
   "theorems": [
    "C42_in_limits",
    "C42_nan_refuted_in_limits",
    "C42_published"
   ],
   "note": ""
  },
  {
   "property": "C43",
   "status": "proved",
   "theorems": [
    "C43_finite_positive",
    "C43_medians_ordered",
    "C43_published",
    "C43_sigma_shrinks_with_magnitude"
   ],
   "note": ""
  },
  {
   "property": "C44",
   "status": "proved",
   "theorems": [
    "C44_continuous_in_distance",
    "C44_continuous_in_magnitude",
    "C44_continuous_in_velocity",
    "C44_grows_with_distance",
    "C44_grows_with_magnitude",
    "C44_longer_on_softer_sites",
    "C44_ordered",
    "C44_published"
   ],
   "note": ""
  },
  {
   "property": "C45",
   "status": "proved",
   "theorems": [
    "C45_doubled_next_to_75",
    "C45_monotone_on_the_table",
    "C45_shorter_far_away_on_rock",
    "C45_shorter_from_76_to_80"
   ],
   "note": ""
  },
  {
   "property": "C46",
   "status": "proved",
   "theorems": [
    "C46_accepted_pairs",
    "C46_missing_magnitude"
   ],
   "note": ""
  },
  {
   "property": "C47",
   "status": "proved",
   "theorems": [
    "C47_one_on_the_diagonal",
    "C47_published",
    "C47_range_refuted_below_0_0099",
    "C47_symmetric",
    "C47_within_0_1"
   ],
   "note": ""
  },
  {
   "property": "C48",
   "status": "proved",
   "theorems": [
    "C48_published",
    "C48_shape_errors",
    "C48_std_never_larger",
    "C48_target_reproduced"
   ],
   "note": ""
  },
  {
   "property": "C49",
   "status": "proved",
   "theorems": [
    "C49_lengths",
    "C49_no_condition_changes_nothing",
    "C49_no_mask_raises",
    "C49_one_condition_is_baker_jayaram",
    "C49_periods_must_increase",
    "C49_targets_reproduced",
    "C49_two_conditions_succeed"
   ],
   "note": ""
  },
  {
   "property": "C50",
   "status": "proved",
   "theorems": [
    "C50_covariance_of_given_std",
    "C50_covariance_of_one_std",
    "C50_covariance_of_published_std",
    "C50_errors",
    "C50_published",
    "C50_square_and_symmetric",
    "C50_within_0_1"
   ],
   "note": ""
  },
  {
   "property": "C51",
   "status": "proved",
   "theorems": [
    "C51_how_many",
    "C51_magnitude_ignored",
    "C51_nan_above_24hz",
    "C51_published_from_magnitude_6",
    "C51_rising_components_published",
    "C51_too_small_below_magnitude_6"
   ],
   "note": ""
  },
  {
   "property": "C52",
   "status": "proved",
   "theorems": [
    "C52_finite_positive",
    "C52_lengths_agree",
    "C52_nonlinear_term",
    "C52_published",
    "C52_same_above_1000"
   ],
   "note": ""
  },
  {
   "property": "C53",
   "status": "proved",
   "theorems": [
    "C53_asymmetric_in_the_band",
    "C53_covariance",
    "C53_exceeds_one",
    "C53_not_a_covariance",
    "C53_one_missing_discards_all",
    "C53_rejects_other_lengths",
    "C53_unit_diagonal_symmetric"
   ],
   "note": ""
  },
  {
   "property": "C54",
   "status": "proved",
   "theorems": [
    "C54_conditioning_period",
    "C54_default_is_not_none",
    "C54_never_succeeds",
    "C54_other_arguments",
    "C54_pga_key_error"
   ],
   "note": ""
  },
  {
   "property": "C55",
   "status": "proved",
   "theorems": [
    "C55_sigma_hinge"
   ],
   "note": ""
  },
  {
   "property": "C56",
   "status": "proved",
   "theorems": [
    "C56_decays_on_rock",
    "C56_finite_positive",
    "C56_pga_decays_on_all_sites"
   ],
   "note": ""
  },
  {
   "property": "C57",
   "status": "proved",
   "theorems": [
    "C57_decay"
   ],
   "note": ""
  },
  {
   "property": "C58",
   "status": "proved",
   "theorems": [
    "C58_ask14_depth",
    "C58_cy14_depth"
   ],
   "note": ""
  },
  {
   "property": "C59",
   "status": "proved",
   "theorems": [
    "C59_decay_pga",
    "C59_decay_rock",
    "C59_decay_soil"
   ],
   "note": ""
  },
  {
   "property": "C60",
   "status": "proved",
   "theorems": [
    "C60_turkey_grows"
   ],
   "note": ""
  },
  {
   "property": "C61",
   "status": "proved",
   "theorems": [
    "C61_decay_pga",
    "C61_decay_rock",
    "C61_decay_stiff",
    "C61_soft_rises"
   ],
   "note": ""
  },
  {
   "property": "C62",
   "status": "proved",
   "theorems": [
    "C62_japan_step"
   ],
   "note": ""
  },
  {
   "property": "C63",
   "status": "proved",
   "theorems": [
    "C63_depth_1_0_unused",
    "C63_unknown_mechanism"
   ],
   "note": ""
  },
  {
   "property": "C64",
   "status": "proved",
   "theorems": [
    "C64_hanging_wall_needs_dist_x"
   ],
   "note": ""
  },
  {
   "property": "C65",
   "status": "proved",
   "theorems": [
    "C65_decay"
   ],
   "note": ""
  },
  {
   "property": "C66",
   "status": "proved",
   "theorems": [
    "C66_region_same"
   ],
   "note": ""
  },
  {
   "property": "C67",
   "status": "proved",
   "theorems": [
    "C67_stiff_sites"
   ],
   "note": ""
  },
  {
   "property": "C68",
   "status": "proved",
   "theorems": [
    "C68_basin_term_dropped_at_1180"
   ],
   "note": ""
  },
  {
   "property": "C69",
   "status": "proved",
   "theorems": [
    "C69_aftershock_ignored"
   ],
   "note": ""
  },
  {
   "property": "C70",
   "status": "proved",
   "theorems": [
    "C70_decay",
    "C70_decay_on_every_site",
    "C70_finite_positive",
    "C70_published_sigma"
   ],
   "note": ""
  },
  {
   "property": "C71",
   "status": "proved",
   "theorems": [
    "C71_decay",
    "C71_finite_positive"
   ],
   "note": ""
  },
  {
   "property": "C72",
   "status": "proved",
   "theorems": [
    "C72_missing_depth",
    "C72_missing_distance",
    "C72_other_metrics_ignored",
    "C72_unknown_event_backarc",
    "C72_wrong_number_of_adjustments"
   ],
   "note": ""
  },
  {
   "property": "C73",
   "status": "proved",
   "theorems": [
    "C73_continuous_in_magnitude",
    "C73_continuous_in_velocity",
    "C73_decay",
    "C73_finite_positive",
    "C73_missing_distance",
    "C73_published_median"
   ],
   "note": ""
  },
  {
   "property": "C74",
   "status": "proved",
   "theorems": [
    "C74_larger_rock_pga",
    "C74_published",
    "C74_sigma_bounds"
   ],
   "note": ""
  },
  {
   "property": "C75",
   "status": "proved",
   "theorems": [
    "C75_between_tabulated_ratios",
    "C75_exact_at_tabulated_periods"
   ],
   "note": ""
  },
  {
   "property": "C76",
   "status": "proved",
   "theorems": [
    "C76_interp_ln_std_exponentiated"
   ],
   "note": ""
  },
  {
   "property": "C77",
   "status": "proved",
   "theorems": [
    "C77_published_network"
   ],
   "note": ""
  },
  {
   "property": "C78",
   "status": "proved",
   "theorems": [
    "C78_decay"
   ],
   "note": ""
  },
  {
   "property": "C79",
   "status": "proved",
   "theorems": [
    "C79_longer_for_larger_farther_softer",
    "C79_more_deviations_longer",
    "C79_published"
   ],
   "note": ""
  },
  {
   "property": "C80",
   "status": "proved",
   "theorems": [
    "C80_interp_075_is_not_duration",
    "C80_interp_values"
   ],
   "note": ""
  },
  {
   "property": "C81",
   "status": "proved",
   "theorems": [
    "C81_longer_for_larger_farther_softer"
   ],
   "note": ""
  },
  {
   "property": "C82",
   "status": "proved",
   "theorems": [
    "C82_longer_for_larger_magnitude",
    "C82_longer_when_farther",
    "C82_shorter_on_stiffer_sites"
   ],
   "note": ""
  },
  {
   "property": "C83",
   "status": "proved",
   "theorems": [
    "C83_nearly_continuous",
    "C83_reverse_20t80_jumps",
    "C83_reverse_equals_strike_slip"
   ],
   "note": ""
  },
  {
   "property": "C84",
   "status": "proved",
   "theorems": [
    "C84_basin_depth_in_km_has_no_effect"
   ],
   "note": ""
  },
  {
   "property": "C85",
   "status": "proved",
   "theorems": [
    "C85_continuous"
   ],
   "note": ""
  },
  {
   "property": "C86",
   "status": "proved",
   "theorems": [
    "C86_decays_to_longer_periods",
    "C86_decays_to_shorter_periods",
    "C86_refuted_for_wide_ratios"
   ],
   "note": ""
  },
  {
   "property": "C87",
   "status": "proved",
   "theorems": [
    "C87_monotone_in_the_target",
    "C87_unchanged_at_the_median"
   ],
   "note": ""
  },
  {
   "property": "C88",
   "status": "proved",
   "theorems": [
    "C88_conditional_normal",
    "C88_implied_conditions_change_nothing"
   ],
   "note": ""
  },
  {
   "property": "C89",
   "status": "proved",
   "theorems": [
    "C89_decays"
   ],
   "note": ""
  },
  {
   "property": "C90",
   "status": "proved",
   "theorems": [
    "C90_duplicate_not_fully_correlated"
   ],
   "note": ""
  },
  {
   "property": "C91",
   "status": "proved",
   "theorems": [
    "C91_nearest_event",
    "C91_velocity_outweighs_magnitude"
   ],
   "note": ""
  },
  {
   "property": "C92",
   "status": "proved",
   "theorems": [
    "C92_exact_at_events"
   ],
   "note": ""
  },
  {
   "property": "C93",
   "status": "proved",
   "theorems": [
    "C93_optional_distance_raises"
   ],
   "note": ""
  },
  {
   "property": "C94",
   "status": "proved",
   "theorems": [
    "C94_decay_with_frequency",
    "C94_faster_on_soft_sites"
   ],
   "note": ""
  },
  {
   "property": "C95",
   "status": "proved",
   "theorems": [
    "C95_decays_with_distance",
    "C95_grows_with_magnitude"
   ],
   "note": ""
  },
  {
   "property": "C96",
   "status": "proved",
   "theorems": [
    "C96_normal_lower",
    "C96_only_normal_matters"
   ],
   "note": ""
  },
  {
   "property": "C97",
   "status": "proved",
   "theorems": [
    "C97_default_depth",
    "C97_default_depth_range"
   ],
   "note": ""
  },
  {
   "property": "C98",
   "status": "proved",
   "theorems": [
    "C98_accepts_the_rest",
    "C98_nearest_ratio",
    "C98_rejects",
    "C98_same_as_stored_at_75"
   ],
   "note": ""
  },
  {
   "property": "C99",
   "status": "proved",
   "theorems": [
    "C99_nan_at_10_percent",
    "C99_ordered"
   ],
   "note": ""
  },
  {
   "property": "C100",
   "status": "proved",
   "theorems": [
    "C100_divided_twice",
    "C100_falls_with_separation",
    "C100_range",
    "C100_same_frequency"
   ],
   "note": ""
  },
  {
   "property": "C101",
   "status": "proved",
   "theorems": [
    "C101_nearby_uncorrelated",
    "C101_published",
    "C101_range"
   ],
   "note": ""
  },
  {
   "property": "C102",
   "status": "proved",
   "theorems": [
    "C102_exceeds_one",
    "C102_grows_with_separation",
    "C102_published"
   ],
   "note": ""
  },
  {
   "property": "C103",
   "status": "proved",
   "theorems": [
    "C103_continuous_in_distance",
    "C103_continuous_in_magnitude",
    "C103_grows_with_distance",
    "C103_grows_with_magnitude",
    "C103_longer_on_softer_sites",
    "C103_ordered",
    "C103_published"
   ],
   "note": ""
  },
  {
   "property": "C104",
   "status": "proved",
   "theorems": [
    "C104_grows_with_energy",
    "C104_nearest_threshold",
    "C104_ordered",
    "C104_rejects",
    "C104_same_as_stored_at_75",
    "C104_thresholds"
   ],
   "note": ""
  },
  {
   "property": "C105",
   "status": "proved",
   "theorems": [
    "C105_by_name",
    "C105_names_disagree_violation"
   ],
   "note": ""
  },
  {
   "property": "C106",
   "status": "proved",
   "theorems": [
    "C106_agrees_with_the_class",
    "C106_drops_the_rest_violation",
    "C106_empty_arrays",
    "C106_uses_first_elements_only"
   ],
   "note": ""
  },
  {
   "property": "C107",
   "status": "proved",
   "theorems": [
    "C107_published"
   ],
   "note": ""
  },
  {
   "property": "C108",
   "status": "proved",
   "theorems": [
    "C108_published"
   ],
   "note": ""
  },
  {
   "property": "C109",
   "status": "proved",
   "theorems": [
    "C109_published"
   ],
   "note": ""
  },
  {
   "property": "C110",
   "status": "proved",
   "theorems": [
    "C110_published"
   ],
   "note": ""
  },
  {
   "property": "C111",
   "status": "proved",
   "theorems": [
    "C111_rock",
    "C111_soil"
   ],
   "note": ""
  },
  {
   "property": "C112",
   "status": "proved",
   "theorems": [
    "C112_published"
   ],
   "note": ""
  },
  {
   "property": "C113",
   "status": "proved",
   "theorems": [
    "C113_published"
   ],
   "note": ""
  },
  {
   "property": "C114",
   "status": "proved",
   "theorems": [
    "C114_published"
   ],
   "note": ""
  },
  {
   "property": "C115",
   "status": "proved",
   "theorems": [
    "C115_published"
   ],
   "note": ""
  },
  {
   "property": "C116",
   "status": "proved",
   "theorems": [
    "C116_grows_pga",
    "C116_grows_stiff",
    "C116_soft_falls"
   ],
   "note": ""
  },
  {
   "property": "C117",
   "status": "proved",
   "theorems": [
    "C117_deep_falls",
    "C117_grows_pga",
    "C117_grows_stiff",
    "C117_soft_falls"
   ],
   "note": ""
  },
  {
   "property": "C118",
   "status": "proved",
   "theorems": [
    "C118_grows",
    "C118_japan_falls"
   ],
   "note": ""
  },
  {
   "property": "C119",
   "status": "proved",
   "theorems": [
    "C119_grows",
    "C119_near_falls",
    "C119_small_falls"
   ],
   "note": ""
  },
  {
   "property": "C120",
   "status": "proved",
   "theorems": [
    "C120_positive_definite",
    "C120_positive_semidefinite"
   ],
   "note": ""
  },
  {
   "property": "C121",
   "status": "proved",
   "theorems": [
    "C121_more_conditions_never_raise_a_deviation",
    "C121_never_raises"
   ],
   "note": ""
  },
  {
   "property": "C122",
   "status": "proved",
   "theorems": [
    "C122_printing_needs_mag_and_dist_jb",
    "C122_scenario_of_these_models_never_prints",
    "C122_the_others_always_print"
   ],
   "note": ""
  },
  {
   "property": "C123",
   "status": "proved",
   "theorems": [
    "C123_after_any_history",
    "C123_deepcopy_always_fails",
    "C123_hasattr_never_false",
    "C123_missing_name_is_a_key_error",
    "C123_unpickling_always_overflows"
   ],
   "note": ""
  },
  {
   "property": "C124",
   "status": "proved",
   "theorems": [
    "C124_merge_operator_never_works",
    "C124_unchecked_entries_do_not_reach_a_model",
    "C124_unchecked_entries_survive_copy_with",
    "C124_update_unchecked"
   ],
   "note": ""
  },
  {
   "property": "C125",
   "status": "proved",
   "theorems": [
    "C125_elsewhere_the_same",
    "C125_numpy_zero_distance_gives_no_number",
    "C125_python_zero_distance_raises"
   ],
   "note": ""
  },
  {
   "property": "C126",
   "status": "proved",
   "theorems": [
    "C126_keywords_alone",
    "C126_keywords_beside_a_scenario_are_ignored",
    "C126_two_scenarios_are_both_ignored",
    "C126_unknown_keyword_rejected"
   ],
   "note": ""
  },
  {
   "property": "C127",
   "status": "proved",
   "theorems": [
    "C127_continuous"
   ],
   "note": ""
  },
  {
   "property": "C128",
   "status": "proved",
   "theorems": [
    "C128_continuous",
    "C128_japan_not_continuous_at_200"
   ],
   "note": ""
  },
  {
   "property": "C129",
   "status": "proved",
   "theorems": [
    "C129_continuous",
    "C129_italy_not_continuous_at_6"
   ],
   "note": ""
  },
  {
   "property": "C130",
   "status": "proved",
   "theorems": [
    "C130_basin_not_continuous_at_1180",
    "C130_continuous"
   ],
   "note": ""
  },
  {
   "property": "C131",
   "status": "proved",
   "theorems": [
    "C131_any_interleaving",
    "C131_any_interleaving_once_loaded",
    "C131_every_thread_finishes",
    "C131_race_when_file_changes"
   ],
   "note": ""
  },
  {
   "property": "C132",
   "status": "proved",
   "theorems": [
    "C132_nonfinite_refused"
   ],
   "note": ""
  },
  {
   "property": "C133",
   "status": "proved",
   "theorems": [
    "C133_short_period_below_pga"
   ],
   "note": ""
  },
  {
   "property": "C134",
   "status": "proved",
   "theorems": [
    "C134_ask14",
    "C134_ask14_pga",
    "C134_cb14_pga",
    "C134_cb14_rock",
    "C134_cy14",
    "C134_cy14_lowers"
   ],
   "note": ""
  },
  {
   "property": "C135",
   "status": "proved",
   "theorems": [
    "C135_ask14_normal",
    "C135_ask14_reverse_same",
    "C135_bssa14_normal",
    "C135_cb14_normal_pga",
    "C135_cb14_normal_rock",
    "C135_cb14_reverse_same",
    "C135_cy14"
   ],
   "note": ""
  },
  {
   "property": "C136",
   "status": "proved",
   "theorems": [
    "C136_accels_are_exponentials",
    "C136_default_kind",
    "C136_every_model_is_tabulated",
    "C136_kinds",
    "C136_no_stds",
    "C136_unknown_kind"
   ],
   "note": ""
  },
  {
   "property": "C137",
   "status": "proved",
   "theorems": [
    "C137_ask14_1180",
    "C137_ask14_soft",
    "C137_ask14_stiff",
    "C137_bssa14",
    "C137_bssa14_saturates",
    "C137_cb14_deep",
    "C137_cb14_shallow",
    "C137_cb14_shallow_japan",
    "C137_cy14",
    "C137_cy14_japan"
   ],
   "note": ""
  },
  {
   "property": "C138",
   "status": "proved",
   "theorems": [
    "C138_constructor",
    "C138_eas_follows",
    "C138_freqs_shared",
    "C138_later_models",
    "C138_own_arrays",
    "C138_writes_invisible"
   ],
   "note": ""
  },
  {
   "property": "C139",
   "status": "proved",
   "theorems": [
    "C139_always",
    "C139_default_used_shown_once",
    "C139_each_text_once",
    "C139_error",
    "C139_error_first",
    "C139_ignore",
    "C139_other_model_silent",
    "C139_outcome",
    "C139_same_construction_silent",
    "C139_too_large_shown_once",
    "C139_too_small_shown_once"
   ],
   "note": ""
  },
  {
   "property": "C140",
   "status": "proved",
   "theorems": [
    "C140_ask14_long_rises",
    "C140_ask14_rock",
    "C140_bssa14",
    "C140_bssa14_ends",
    "C140_bssa14_long_rises",
    "C140_cb14_rock",
    "C140_cy14",
    "C140_cy14_japan_rises"
   ],
   "note": ""
  },
  {
   "property": "C141",
   "status": "proved",
   "theorems": [
    "C141_ask14_strong",
    "C141_ask14_weak",
    "C141_bssa14_strong",
    "C141_bssa14_weak",
    "C141_cb14_strong",
    "C141_cb14_weak",
    "C141_cy14_strong",
    "C141_cy14_weak"
   ],
   "note": ""
  },
  {
   "property": "C142",
   "status": "proved",
   "theorems": [
    "C142_abbreviations_clash",
    "C142_offers",
    "C142_pga_is_first_spectral_value"
   ],
   "note": ""
  },
  {
   "property": "C143",
   "status": "proved",
   "theorems": [
    "C143_akkar_grows",
    "C143_campbell_grows",
    "C143_campbell_refuted_above_8_1",
    "C143_coppersmith_grows",
    "C143_pezeshk_grows",
    "C143_pezeshk_refuted_near",
    "C143_subduction_grows",
    "C143_subduction_grows_by_default",
    "C143_subduction_refuted_near",
    "C143_tavakoli_pezeshk_grows",
    "C143_tavakoli_pezeshk_refuted_near"
   ],
   "note": ""
  },
  {
   "property": "C144",
   "status": "proved",
   "theorems": [
    "C144_ab06",
    "C144_aga16",
    "C144_as16",
    "C144_as96",
    "C144_asb14",
    "C144_ask14",
    "C144_ba19",
    "C144_bssa14",
    "C144_c03",
    "C144_cb14",
    "C144_cop14",
    "C144_cy14",
    "C144_dbc14",
    "C144_ga11",
    "C144_hkr14",
    "C144_i14",
    "C144_ks06",
    "C144_pr23",
    "C144_pr24",
    "C144_pzt11",
    "C144_tp05"
   ],
   "note": ""
  },
  {
   "property": "C145",
   "status": "proved",
   "theorems": [
    "C145_bssa14",
    "C145_cb14",
    "C145_cy14"
   ],
   "note": ""
  },
  {
   "property": "C146",
   "status": "proved",
   "theorems": [
    "C146_campbell_medians",
    "C146_campbell_sigma",
    "C146_campbell_sigma_jump",
    "C146_campbell_sigma_refuted",
    "C146_idriss_medians",
    "C146_idriss_sigma",
    "C146_pezeshk_medians",
    "C146_pezeshk_sigma",
    "C146_pezeshk_sigma_jump",
    "C146_tavakoli_medians",
    "C146_tavakoli_sigma",
    "C146_tavakoli_sigma_jump"
   ],
   "note": ""
  },
  {
   "property": "C147",
   "status": "proved",
   "theorems": [
    "C147_aga16",
    "C147_asb14",
    "C147_cop14"
   ],
   "note": ""
  },
  {
   "property": "C148",
   "status": "proved",
   "theorems": [
    "C148_aga16",
    "C148_asb14",
    "C148_cop14"
   ],
   "note": ""
  },
  {
   "property": "C149",
   "status": "proved",
   "theorems": [
    "C149_as16",
    "C149_as96",
    "C149_ks06",
    "C149_pr23",
    "C149_pr24"
   ],
   "note": ""
  },
  {
   "property": "C150",
   "status": "proved",
   "theorems": [
    "C150_ba19",
    "C150_dbc14",
    "C150_ga11",
    "C150_i14"
   ],
   "note": ""
  },
  {
   "property": "C151",
   "status": "proved",
   "theorems": [
    "C151_clear",
    "C151_members_hide_entries",
    "C151_models_after_pop",
    "C151_no_recognised_key_is_hidden",
    "C151_pop",
    "C151_pop_missing",
    "C151_popitem_empty",
    "C151_popitem_takes_the_first",
    "C151_setdefault"
   ],
   "note": ""
  },
  {
   "property": "C152",
   "status": "proved",
   "theorems": [
    "C152_aftershock",
    "C152_nearer",
    "C152_within_5_km"
   ],
   "note": ""
  },
  {
   "property": "C153",
   "status": "proved",
   "theorems": [
    "C153_interface_far",
    "C153_interface_near",
    "C153_slab_far",
    "C153_slab_mid",
    "C153_slab_near"
   ],
   "note": ""
  },
  {
   "property": "C154",
   "status": "proved",
   "theorems": [
    "C154_aga16",
    "C154_ask14",
    "C154_ask14_beyond",
    "C154_cb14",
    "C154_cb14_outside",
    "C154_cb14_pga",
    "C154_cy14"
   ],
   "note": ""
  },
  {
   "property": "C155",
   "status": "proved",
   "theorems": [
    "C155_ask14_china",
    "C155_bssa14_fast",
    "C155_bssa14_slow",
    "C155_cb14",
    "C155_cb14_near",
    "C155_cy14_china",
    "C155_cy14_italy"
   ],
   "note": ""
  },
  {
   "property": "C156",
   "status": "proved",
   "theorems": [
    "C156_falls_at_one_km",
    "C156_grows_on_rock",
    "C156_pga_grows_on_every_site"
   ],
   "note": ""
  },
  {
   "property": "C157",
   "status": "proved",
   "theorems": [
    "C157_ask14_japan_far",
    "C157_ask14_taiwan"
   ],
   "note": ""
  }
 ]
}