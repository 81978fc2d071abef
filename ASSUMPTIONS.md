# What `Print Assumptions` lists

Generated by `tools/assumptions.py` from the compiled files.  470 theorems, 8 distinct sets of assumptions.  No axiom of our own occurs.

## Axioms that occur

- `ClassicalDedekindReals.sig_forall_dec` — ClassicalDedekindReals (Coq stdlib)
- `ClassicalDedekindReals.sig_not_dec` — ClassicalDedekindReals (Coq stdlib)
- `Classical_Prop.classic` — Classical_Prop (Coq stdlib)
- `FloatAxioms.Prim2SF_SF2Prim` — Coq stdlib, machine integers and floats (used by the interval tactic)
- `FloatAxioms.Prim2SF_valid` — Coq stdlib, machine integers and floats (used by the interval tactic)
- `FloatAxioms.SF2Prim_Prim2SF` — Coq stdlib, machine integers and floats (used by the interval tactic)
- `FloatAxioms.abs_spec` — Coq stdlib, machine integers and floats (used by the interval tactic)
- `FloatAxioms.add_spec` — Coq stdlib, machine integers and floats (used by the interval tactic)
- `FloatAxioms.classify_spec` — Coq stdlib, machine integers and floats (used by the interval tactic)
- `FloatAxioms.compare_spec` — Coq stdlib, machine integers and floats (used by the interval tactic)
- `FloatAxioms.div_spec` — Coq stdlib, machine integers and floats (used by the interval tactic)
- `FloatAxioms.eqb_spec` — Coq stdlib, machine integers and floats (used by the interval tactic)
- `FloatAxioms.frshiftexp_spec` — Coq stdlib, machine integers and floats (used by the interval tactic)
- `FloatAxioms.ldshiftexp_spec` — Coq stdlib, machine integers and floats (used by the interval tactic)
- `FloatAxioms.ltb_spec` — Coq stdlib, machine integers and floats (used by the interval tactic)
- `FloatAxioms.mul_spec` — Coq stdlib, machine integers and floats (used by the interval tactic)
- `FloatAxioms.next_down_spec` — Coq stdlib, machine integers and floats (used by the interval tactic)
- `FloatAxioms.next_up_spec` — Coq stdlib, machine integers and floats (used by the interval tactic)
- `FloatAxioms.normfr_mantissa_spec` — Coq stdlib, machine integers and floats (used by the interval tactic)
- `FloatAxioms.of_uint63_spec` — Coq stdlib, machine integers and floats (used by the interval tactic)
- `FloatAxioms.opp_spec` — Coq stdlib, machine integers and floats (used by the interval tactic)
- `FloatAxioms.sqrt_spec` — Coq stdlib, machine integers and floats (used by the interval tactic)
- `FloatAxioms.sub_spec` — Coq stdlib, machine integers and floats (used by the interval tactic)
- `FunctionalExtensionality.functional_extensionality_dep` — FunctionalExtensionality (Coq stdlib)
- `PrimFloat.abs` — Coq stdlib, machine integers and floats (used by the interval tactic)
- `PrimFloat.add` — Coq stdlib, machine integers and floats (used by the interval tactic)
- `PrimFloat.classify` — Coq stdlib, machine integers and floats (used by the interval tactic)
- `PrimFloat.compare` — Coq stdlib, machine integers and floats (used by the interval tactic)
- `PrimFloat.div` — Coq stdlib, machine integers and floats (used by the interval tactic)
- `PrimFloat.eqb` — Coq stdlib, machine integers and floats (used by the interval tactic)
- `PrimFloat.float` — Coq stdlib, machine integers and floats (used by the interval tactic)
- `PrimFloat.frshiftexp` — Coq stdlib, machine integers and floats (used by the interval tactic)
- `PrimFloat.ldshiftexp` — Coq stdlib, machine integers and floats (used by the interval tactic)
- `PrimFloat.ltb` — Coq stdlib, machine integers and floats (used by the interval tactic)
- `PrimFloat.mul` — Coq stdlib, machine integers and floats (used by the interval tactic)
- `PrimFloat.next_down` — Coq stdlib, machine integers and floats (used by the interval tactic)
- `PrimFloat.next_up` — Coq stdlib, machine integers and floats (used by the interval tactic)
- `PrimFloat.normfr_mantissa` — Coq stdlib, machine integers and floats (used by the interval tactic)
- `PrimFloat.of_uint63` — Coq stdlib, machine integers and floats (used by the interval tactic)
- `PrimFloat.opp` — Coq stdlib, machine integers and floats (used by the interval tactic)
- `PrimFloat.sqrt` — Coq stdlib, machine integers and floats (used by the interval tactic)
- `PrimFloat.sub` — Coq stdlib, machine integers and floats (used by the interval tactic)
- `PrimInt63.add` — Coq stdlib, machine integers and floats (used by the interval tactic)
- `PrimInt63.addc` — Coq stdlib, machine integers and floats (used by the interval tactic)
- `PrimInt63.addcarryc` — Coq stdlib, machine integers and floats (used by the interval tactic)
- `PrimInt63.addmuldiv` — Coq stdlib, machine integers and floats (used by the interval tactic)
- `PrimInt63.compare` — Coq stdlib, machine integers and floats (used by the interval tactic)
- `PrimInt63.div` — Coq stdlib, machine integers and floats (used by the interval tactic)
- `PrimInt63.diveucl` — Coq stdlib, machine integers and floats (used by the interval tactic)
- `PrimInt63.diveucl_21` — Coq stdlib, machine integers and floats (used by the interval tactic)
- `PrimInt63.eqb` — Coq stdlib, machine integers and floats (used by the interval tactic)
- `PrimInt63.head0` — Coq stdlib, machine integers and floats (used by the interval tactic)
- `PrimInt63.int` — Coq stdlib, machine integers and floats (used by the interval tactic)
- `PrimInt63.land` — Coq stdlib, machine integers and floats (used by the interval tactic)
- `PrimInt63.leb` — Coq stdlib, machine integers and floats (used by the interval tactic)
- `PrimInt63.lor` — Coq stdlib, machine integers and floats (used by the interval tactic)
- `PrimInt63.lsl` — Coq stdlib, machine integers and floats (used by the interval tactic)
- `PrimInt63.lsr` — Coq stdlib, machine integers and floats (used by the interval tactic)
- `PrimInt63.ltb` — Coq stdlib, machine integers and floats (used by the interval tactic)
- `PrimInt63.lxor` — Coq stdlib, machine integers and floats (used by the interval tactic)
- `PrimInt63.mod` — Coq stdlib, machine integers and floats (used by the interval tactic)
- `PrimInt63.mul` — Coq stdlib, machine integers and floats (used by the interval tactic)
- `PrimInt63.mulc` — Coq stdlib, machine integers and floats (used by the interval tactic)
- `PrimInt63.sub` — Coq stdlib, machine integers and floats (used by the interval tactic)
- `PrimInt63.subc` — Coq stdlib, machine integers and floats (used by the interval tactic)
- `PrimInt63.subcarryc` — Coq stdlib, machine integers and floats (used by the interval tactic)
- `PrimInt63.tail0` — Coq stdlib, machine integers and floats (used by the interval tactic)
- `Uint63.add_spec` — Coq stdlib, machine integers and floats (used by the interval tactic)
- `Uint63.addc_def_spec` — Coq stdlib, machine integers and floats (used by the interval tactic)
- `Uint63.addcarryc_def_spec` — Coq stdlib, machine integers and floats (used by the interval tactic)
- `Uint63.addmuldiv_def_spec` — Coq stdlib, machine integers and floats (used by the interval tactic)
- `Uint63.compare_def_spec` — Coq stdlib, machine integers and floats (used by the interval tactic)
- `Uint63.div_spec` — Coq stdlib, machine integers and floats (used by the interval tactic)
- `Uint63.diveucl_21_spec` — Coq stdlib, machine integers and floats (used by the interval tactic)
- `Uint63.diveucl_def_spec` — Coq stdlib, machine integers and floats (used by the interval tactic)
- `Uint63.eqb_correct` — Coq stdlib, machine integers and floats (used by the interval tactic)
- `Uint63.eqb_refl` — Coq stdlib, machine integers and floats (used by the interval tactic)
- `Uint63.head0_spec` — Coq stdlib, machine integers and floats (used by the interval tactic)
- `Uint63.land_spec` — Coq stdlib, machine integers and floats (used by the interval tactic)
- `Uint63.leb_spec` — Coq stdlib, machine integers and floats (used by the interval tactic)
- `Uint63.lor_spec` — Coq stdlib, machine integers and floats (used by the interval tactic)
- `Uint63.lsl_spec` — Coq stdlib, machine integers and floats (used by the interval tactic)
- `Uint63.lsr_spec` — Coq stdlib, machine integers and floats (used by the interval tactic)
- `Uint63.ltb_spec` — Coq stdlib, machine integers and floats (used by the interval tactic)
- `Uint63.lxor_spec` — Coq stdlib, machine integers and floats (used by the interval tactic)
- `Uint63.mod_spec` — Coq stdlib, machine integers and floats (used by the interval tactic)
- `Uint63.mul_spec` — Coq stdlib, machine integers and floats (used by the interval tactic)
- `Uint63.mulc_spec` — Coq stdlib, machine integers and floats (used by the interval tactic)
- `Uint63.of_to_Z` — Coq stdlib, machine integers and floats (used by the interval tactic)
- `Uint63.sub_spec` — Coq stdlib, machine integers and floats (used by the interval tactic)
- `Uint63.subc_def_spec` — Coq stdlib, machine integers and floats (used by the interval tactic)
- `Uint63.subcarryc_def_spec` — Coq stdlib, machine integers and floats (used by the interval tactic)
- `Uint63.tail0_spec` — Coq stdlib, machine integers and floats (used by the interval tactic)

## Theorems by set of assumptions

### 23 theorems: closed under the global context

Theorems: `C01_first_unknown_key_rejected`, `C01_known_keys_accepted`, `C02_copy_with_overrides`, `C02_copy_with_rejects_unknown`, `C10_ln_stds`, `C12_attribute_assignment_shadows`, `C41_list_argument_untouched`, `C51_how_many`, `C122_printing_needs_mag_and_dist_jb`, `C123_hasattr_never_false`, `C123_missing_name_is_a_key_error`, `C123_unpickling_always_overflows`, `C124_merge_operator_never_works`, `C124_unchecked_entries_survive_copy_with`, `C124_update_unchecked`, `C151_clear`, `C151_members_hide_entries`, `C151_no_recognised_key_is_hidden`, `C151_pop`, `C151_pop_missing`, `C151_popitem_empty`, `C151_popitem_takes_the_first`, `C151_setdefault`

### 1 theorem: 1 axioms

Axioms: `ClassicalDedekindReals.sig_forall_dec`

Theorems: `C151_models_after_pop`

### 35 theorems: 2 axioms

Axioms: `ClassicalDedekindReals.sig_forall_dec`, `FunctionalExtensionality.functional_extensionality_dep`

Theorems: `C03_construct_fresh`, `C03_history_frame`, `C03_model_scenario_isolated`, `C04_only_declared_parameters_matter`, `C05_required_iff_value_error`, `C06_absent_gets_default`, `C06_nan_silent`, `C06_numeric_check_warns_and_keeps`, `C07_categorical_option_or_default`, `C08_limit_in_warning_max_refuted`, `C08_limit_in_warning_refuted`, `C12_attribute_item_agree`, `C13_extra_entries_ignored`, `C13_never_a_warning`, `C13_recognised_and_distinct`, `C23_china_coefficient_differs`, `C104_thresholds`, `C122_scenario_of_these_models_never_prints`, `C122_the_others_always_print`, `C123_after_any_history`, `C123_deepcopy_always_fails`, `C124_unchecked_entries_do_not_reach_a_model`, `C136_every_model_is_tabulated`, `C139_always`, `C139_default_used_shown_once`, `C139_each_text_once`, `C139_error`, `C139_error_first`, `C139_ignore`, `C139_other_model_silent`, `C139_outcome`, `C139_same_construction_silent`, `C139_too_large_shown_once`, `C139_too_small_shown_once`, `C142_abbreviations_clash`

### 15 theorems: 3 axioms

Axioms: `ClassicalDedekindReals.sig_forall_dec`, `ClassicalDedekindReals.sig_not_dec`, `FunctionalExtensionality.functional_extensionality_dep`

Theorems: `C09_peak_accessors`, `C10_spec_accels`, `C36_history_independent`, `C36_loaded_once`, `C54_conditioning_period`, `C91_nearest_event`, `C91_velocity_outweighs_magnitude`, `C92_exact_at_events`, `C93_optional_distance_raises`, `C131_any_interleaving`, `C131_any_interleaving_once_loaded`, `C131_every_thread_finishes`, `C131_race_when_file_changes`, `C132_nonfinite_refused`, `C144_hkr14`

### 234 theorems: 4 axioms

Axioms: `ClassicalDedekindReals.sig_forall_dec`, `ClassicalDedekindReals.sig_not_dec`, `Classical_Prop.classic`, `FunctionalExtensionality.functional_extensionality_dep`

Theorems: `C11_interpolation`, `C11_interpolation_stds`, `C14_finite_positive`, `C16_finite_up_to_8_5`, `C16_nan_above_8_5`, `C16_python_floats_up_to_8_5`, `C17_decays_near_and_far`, `C17_finite_positive`, `C18_decays_with_distance`, `C18_reverse_not_lower`, `C18_sigma_not_increasing`, `C18_stiffer_site_shakes_less`, `C20_pga_jumps_at_300_and_180`, `C21_missing_velocity_rejected`, `C21_no_hard_rock_set_for_stiff_sites`, `C21_zero_velocity_selects_hard_rock`, `C22_peaks_divided_by_gravity`, `C23_china_is_global`, `C24_finite_positive`, `C24_sigma_linear_sites`, `C24_sigma_same_on_rock`, `C25_regions_indistinguishable`, `C26_reference_rock`, `C27_positive_bounded`, `C27_sigma_continuous`, `C27_sigma_published`, `C30_stiff_sites`, `C31_italy_lower`, `C31_italy_same`, `C32_finite_positive`, `C33_any_metric_accepted`, `C33_no_metric_rejected`, `C33_precedence`, `C33_published_median`, `C34_continuous_in_magnitude`, `C34_continuous_in_velocity`, `C34_reference_site`, `C35_unknown_mechanism`, `C37_continuous_in_magnitude`, `C37_published_median`, `C38_continuous_in_velocity`, `C38_discontinuous_above_1000`, `C39_reference_pga_always_needed`, `C39_value_error`, `C40_ratio_continuous_in_magnitude`, `C40_ratio_continuous_in_velocity`, `C40_sigma_continuous_in_magnitude`, `C41_increment`, `C41_increment_overwrites_argument`, `C41_interp_overwrites_argument`, `C41_second_call_agrees`, `C42_published`, `C43_published`, `C43_sigma_shrinks_with_magnitude`, `C44_continuous_in_distance`, `C44_continuous_in_magnitude`, `C44_continuous_in_velocity`, `C46_accepted_pairs`, `C46_missing_magnitude`, `C47_one_on_the_diagonal`, `C47_published`, `C47_symmetric`, `C48_shape_errors`, `C48_target_reproduced`, `C49_lengths`, `C49_no_condition_changes_nothing`, `C49_no_mask_raises`, `C49_one_condition_is_baker_jayaram`, `C49_periods_must_increase`, `C49_targets_reproduced`, `C50_covariance_of_given_std`, `C50_covariance_of_one_std`, `C50_covariance_of_published_std`, `C50_errors`, `C50_published`, `C50_square_and_symmetric`, `C52_lengths_agree`, `C53_covariance`, `C53_one_missing_discards_all`, `C53_rejects_other_lengths`, `C53_unit_diagonal_symmetric`, `C54_default_is_not_none`, `C54_never_succeeds`, `C54_other_arguments`, `C54_pga_key_error`, `C55_sigma_hinge`, `C56_finite_positive`, `C58_ask14_depth`, `C58_cy14_depth`, `C59_decay_rock`, `C61_decay_rock`, `C63_depth_1_0_unused`, `C63_unknown_mechanism`, `C64_hanging_wall_needs_dist_x`, `C66_region_same`, `C69_aftershock_ignored`, `C70_decay`, `C70_decay_on_every_site`, `C70_finite_positive`, `C70_published_sigma`, `C72_missing_depth`, `C72_missing_distance`, `C72_other_metrics_ignored`, `C72_unknown_event_backarc`, `C72_wrong_number_of_adjustments`, `C73_continuous_in_magnitude`, `C73_continuous_in_velocity`, `C73_missing_distance`, `C73_published_median`, `C74_larger_rock_pga`, `C74_published`, `C74_sigma_bounds`, `C75_between_tabulated_ratios`, `C75_exact_at_tabulated_periods`, `C77_published_network`, `C79_more_deviations_longer`, `C79_published`, `C80_interp_values`, `C82_longer_when_farther`, `C82_shorter_on_stiffer_sites`, `C83_reverse_equals_strike_slip`, `C87_unchanged_at_the_median`, `C88_conditional_normal`, `C88_implied_conditions_change_nothing`, `C94_faster_on_soft_sites`, `C97_default_depth`, `C98_accepts_the_rest`, `C98_rejects`, `C100_divided_twice`, `C100_same_frequency`, `C101_published`, `C102_grows_with_separation`, `C102_published`, `C103_continuous_in_distance`, `C103_continuous_in_magnitude`, `C104_rejects`, `C106_drops_the_rest_violation`, `C106_empty_arrays`, `C106_uses_first_elements_only`, `C107_published`, `C108_published`, `C109_published`, `C110_published`, `C111_rock`, `C111_soil`, `C112_published`, `C113_published`, `C114_published`, `C125_elsewhere_the_same`, `C125_numpy_zero_distance_gives_no_number`, `C125_python_zero_distance_raises`, `C126_keywords_alone`, `C126_keywords_beside_a_scenario_are_ignored`, `C126_two_scenarios_are_both_ignored`, `C126_unknown_keyword_rejected`, `C127_continuous`, `C128_continuous`, `C129_continuous`, `C129_italy_not_continuous_at_6`, `C134_cb14_rock`, `C134_cy14`, `C134_cy14_lowers`, `C135_bssa14_normal`, `C135_cb14_normal_rock`, `C135_cb14_reverse_same`, `C135_cy14`, `C136_accels_are_exponentials`, `C136_default_kind`, `C136_kinds`, `C136_no_stds`, `C136_unknown_kind`, `C137_bssa14`, `C137_cb14_deep`, `C137_cb14_shallow`, `C137_cb14_shallow_japan`, `C137_cy14`, `C137_cy14_japan`, `C138_constructor`, `C138_eas_follows`, `C138_freqs_shared`, `C138_own_arrays`, `C138_writes_invisible`, `C140_bssa14`, `C140_bssa14_ends`, `C140_bssa14_long_rises`, `C140_cb14_rock`, `C140_cy14_japan_rises`, `C142_offers`, `C142_pga_is_first_spectral_value`, `C143_campbell_grows`, `C144_ab06`, `C144_aga16`, `C144_as16`, `C144_as96`, `C144_asb14`, `C144_ask14`, `C144_ba19`, `C144_bssa14`, `C144_c03`, `C144_cb14`, `C144_cop14`, `C144_cy14`, `C144_dbc14`, `C144_ga11`, `C144_i14`, `C144_ks06`, `C144_pr23`, `C144_pr24`, `C144_pzt11`, `C144_tp05`, `C145_bssa14`, `C145_cb14`, `C145_cy14`, `C146_campbell_medians`, `C146_campbell_sigma`, `C146_campbell_sigma_jump`, `C146_campbell_sigma_refuted`, `C146_idriss_medians`, `C146_idriss_sigma`, `C146_pezeshk_medians`, `C146_pezeshk_sigma`, `C146_pezeshk_sigma_jump`, `C146_tavakoli_medians`, `C146_tavakoli_sigma`, `C146_tavakoli_sigma_jump`, `C147_aga16`, `C147_asb14`, `C147_cop14`, `C149_as16`, `C149_as96`, `C149_ks06`, `C150_dbc14`, `C150_ga11`, `C150_i14`

### 148 theorems: 55 axioms

Axioms: `ClassicalDedekindReals.sig_forall_dec`, `ClassicalDedekindReals.sig_not_dec`, `Classical_Prop.classic`, `FunctionalExtensionality.functional_extensionality_dep`, `PrimInt63.add`, `PrimInt63.addc`, `PrimInt63.addcarryc`, `PrimInt63.addmuldiv`, `PrimInt63.compare`, `PrimInt63.div`, `PrimInt63.diveucl`, `PrimInt63.diveucl_21`, `PrimInt63.eqb`, `PrimInt63.head0`, `PrimInt63.int`, `PrimInt63.land`, `PrimInt63.leb`, `PrimInt63.lor`, `PrimInt63.lsl`, `PrimInt63.lsr`, `PrimInt63.ltb`, `PrimInt63.lxor`, `PrimInt63.mod`, `PrimInt63.mul`, `PrimInt63.mulc`, `PrimInt63.sub`, `PrimInt63.subc`, `PrimInt63.subcarryc`, `PrimInt63.tail0`, `Uint63.add_spec`, `Uint63.addc_def_spec`, `Uint63.addcarryc_def_spec`, `Uint63.addmuldiv_def_spec`, `Uint63.compare_def_spec`, `Uint63.div_spec`, `Uint63.diveucl_21_spec`, `Uint63.diveucl_def_spec`, `Uint63.eqb_correct`, `Uint63.eqb_refl`, `Uint63.head0_spec`, `Uint63.land_spec`, `Uint63.leb_spec`, `Uint63.lor_spec`, `Uint63.lsl_spec`, `Uint63.lsr_spec`, `Uint63.ltb_spec`, `Uint63.lxor_spec`, `Uint63.mod_spec`, `Uint63.mul_spec`, `Uint63.mulc_spec`, `Uint63.of_to_Z`, `Uint63.sub_spec`, `Uint63.subc_def_spec`, `Uint63.subcarryc_def_spec`, `Uint63.tail0_spec`

Theorems: `C15_decay_refuted_above_7_3`, `C15_decays_with_distance`, `C16_python_floats_above_8_5`, `C17_growth_between_75_and_139_km`, `C28_finite_positive`, `C29_sigma_linear_sites`, `C29_soil_lowers_sigma`, `C35_bounded`, `C43_finite_positive`, `C44_grows_with_distance`, `C44_grows_with_magnitude`, `C44_longer_on_softer_sites`, `C44_ordered`, `C44_published`, `C45_doubled_next_to_75`, `C45_monotone_on_the_table`, `C45_shorter_far_away_on_rock`, `C45_shorter_from_76_to_80`, `C47_range_refuted_below_0_0099`, `C47_within_0_1`, `C48_published`, `C48_std_never_larger`, `C49_two_conditions_succeed`, `C50_within_0_1`, `C51_magnitude_ignored`, `C51_nan_above_24hz`, `C51_published_from_magnitude_6`, `C51_rising_components_published`, `C51_too_small_below_magnitude_6`, `C52_finite_positive`, `C52_nonlinear_term`, `C52_published`, `C52_same_above_1000`, `C53_asymmetric_in_the_band`, `C53_exceeds_one`, `C53_not_a_covariance`, `C57_decay`, `C59_decay_pga`, `C59_decay_soil`, `C60_turkey_grows`, `C61_decay_pga`, `C61_decay_stiff`, `C61_soft_rises`, `C62_japan_step`, `C65_decay`, `C67_stiff_sites`, `C68_basin_term_dropped_at_1180`, `C71_decay`, `C71_finite_positive`, `C73_decay`, `C73_finite_positive`, `C76_interp_ln_std_exponentiated`, `C78_decay`, `C80_interp_075_is_not_duration`, `C84_basin_depth_in_km_has_no_effect`, `C85_continuous`, `C86_decays_to_longer_periods`, `C86_decays_to_shorter_periods`, `C86_refuted_for_wide_ratios`, `C87_monotone_in_the_target`, `C89_decays`, `C90_duplicate_not_fully_correlated`, `C94_decay_with_frequency`, `C95_decays_with_distance`, `C95_grows_with_magnitude`, `C96_normal_lower`, `C96_only_normal_matters`, `C97_default_depth_range`, `C98_nearest_ratio`, `C98_same_as_stored_at_75`, `C99_nan_at_10_percent`, `C99_ordered`, `C100_falls_with_separation`, `C100_range`, `C101_nearby_uncorrelated`, `C101_range`, `C102_exceeds_one`, `C103_grows_with_distance`, `C103_grows_with_magnitude`, `C103_longer_on_softer_sites`, `C103_ordered`, `C103_published`, `C104_grows_with_energy`, `C104_nearest_threshold`, `C104_ordered`, `C104_same_as_stored_at_75`, `C105_by_name`, `C105_names_disagree_violation`, `C106_agrees_with_the_class`, `C115_published`, `C116_grows_pga`, `C116_grows_stiff`, `C116_soft_falls`, `C117_deep_falls`, `C117_grows_pga`, `C117_grows_stiff`, `C117_soft_falls`, `C118_grows`, `C118_japan_falls`, `C119_grows`, `C119_near_falls`, `C119_small_falls`, `C120_positive_definite`, `C120_positive_semidefinite`, `C121_more_conditions_never_raise_a_deviation`, `C121_never_raises`, `C128_japan_not_continuous_at_200`, `C130_basin_not_continuous_at_1180`, `C130_continuous`, `C133_short_period_below_pga`, `C134_ask14`, `C134_ask14_pga`, `C134_cb14_pga`, `C135_ask14_normal`, `C135_ask14_reverse_same`, `C135_cb14_normal_pga`, `C137_ask14_1180`, `C137_ask14_soft`, `C137_ask14_stiff`, `C137_bssa14_saturates`, `C138_later_models`, `C140_ask14_long_rises`, `C140_ask14_rock`, `C140_cy14`, `C141_ask14_strong`, `C141_ask14_weak`, `C141_bssa14_strong`, `C141_bssa14_weak`, `C141_cb14_strong`, `C141_cb14_weak`, `C141_cy14_strong`, `C141_cy14_weak`, `C143_akkar_grows`, `C143_campbell_refuted_above_8_1`, `C143_coppersmith_grows`, `C143_pezeshk_grows`, `C143_pezeshk_refuted_near`, `C143_subduction_grows`, `C143_subduction_grows_by_default`, `C143_subduction_refuted_near`, `C143_tavakoli_pezeshk_grows`, `C143_tavakoli_pezeshk_refuted_near`, `C148_aga16`, `C148_asb14`, `C148_cop14`, `C149_pr23`, `C149_pr24`, `C150_ba19`

### 9 theorems: 63 axioms

Axioms: `ClassicalDedekindReals.sig_forall_dec`, `ClassicalDedekindReals.sig_not_dec`, `Classical_Prop.classic`, `FloatAxioms.Prim2SF_SF2Prim`, `FloatAxioms.Prim2SF_valid`, `FloatAxioms.SF2Prim_Prim2SF`, `FloatAxioms.abs_spec`, `FloatAxioms.add_spec`, `FloatAxioms.classify_spec`, `FloatAxioms.compare_spec`, `FloatAxioms.div_spec`, `FloatAxioms.eqb_spec`, `FloatAxioms.frshiftexp_spec`, `FloatAxioms.ldshiftexp_spec`, `FloatAxioms.ltb_spec`, `FloatAxioms.mul_spec`, `FloatAxioms.next_down_spec`, `FloatAxioms.next_up_spec`, `FloatAxioms.normfr_mantissa_spec`, `FloatAxioms.of_uint63_spec`, `FloatAxioms.opp_spec`, `FloatAxioms.sqrt_spec`, `FloatAxioms.sub_spec`, `FunctionalExtensionality.functional_extensionality_dep`, `PrimFloat.abs`, `PrimFloat.add`, `PrimFloat.classify`, `PrimFloat.compare`, `PrimFloat.div`, `PrimFloat.eqb`, `PrimFloat.float`, `PrimFloat.frshiftexp`, `PrimFloat.ldshiftexp`, `PrimFloat.ltb`, `PrimFloat.mul`, `PrimFloat.next_down`, `PrimFloat.next_up`, `PrimFloat.normfr_mantissa`, `PrimFloat.of_uint63`, `PrimFloat.opp`, `PrimFloat.sqrt`, `PrimFloat.sub`, `PrimInt63.add`, `PrimInt63.eqb`, `PrimInt63.int`, `PrimInt63.land`, `PrimInt63.leb`, `PrimInt63.lor`, `PrimInt63.lsl`, `PrimInt63.lsr`, `PrimInt63.ltb`, `PrimInt63.sub`, `Uint63.add_spec`, `Uint63.eqb_correct`, `Uint63.eqb_refl`, `Uint63.land_spec`, `Uint63.leb_spec`, `Uint63.lor_spec`, `Uint63.lsl_spec`, `Uint63.lsr_spec`, `Uint63.ltb_spec`, `Uint63.of_to_Z`, `Uint63.sub_spec`

Theorems: `C18_finite_positive`, `C18_grows_with_magnitude`, `C19_branches_join`, `C41_increment_grows`, `C56_decays_on_rock`, `C56_pga_decays_on_all_sites`, `C79_longer_for_larger_farther_softer`, `C81_longer_for_larger_farther_softer`, `C82_longer_for_larger_magnitude`

### 5 theorems: 93 axioms

Axioms: `ClassicalDedekindReals.sig_forall_dec`, `ClassicalDedekindReals.sig_not_dec`, `Classical_Prop.classic`, `FloatAxioms.Prim2SF_SF2Prim`, `FloatAxioms.Prim2SF_valid`, `FloatAxioms.SF2Prim_Prim2SF`, `FloatAxioms.abs_spec`, `FloatAxioms.add_spec`, `FloatAxioms.classify_spec`, `FloatAxioms.compare_spec`, `FloatAxioms.div_spec`, `FloatAxioms.eqb_spec`, `FloatAxioms.frshiftexp_spec`, `FloatAxioms.ldshiftexp_spec`, `FloatAxioms.ltb_spec`, `FloatAxioms.mul_spec`, `FloatAxioms.next_down_spec`, `FloatAxioms.next_up_spec`, `FloatAxioms.normfr_mantissa_spec`, `FloatAxioms.of_uint63_spec`, `FloatAxioms.opp_spec`, `FloatAxioms.sqrt_spec`, `FloatAxioms.sub_spec`, `FunctionalExtensionality.functional_extensionality_dep`, `PrimFloat.abs`, `PrimFloat.add`, `PrimFloat.classify`, `PrimFloat.compare`, `PrimFloat.div`, `PrimFloat.eqb`, `PrimFloat.float`, `PrimFloat.frshiftexp`, `PrimFloat.ldshiftexp`, `PrimFloat.ltb`, `PrimFloat.mul`, `PrimFloat.next_down`, `PrimFloat.next_up`, `PrimFloat.normfr_mantissa`, `PrimFloat.of_uint63`, `PrimFloat.opp`, `PrimFloat.sqrt`, `PrimFloat.sub`, `PrimInt63.add`, `PrimInt63.addc`, `PrimInt63.addcarryc`, `PrimInt63.addmuldiv`, `PrimInt63.compare`, `PrimInt63.div`, `PrimInt63.diveucl`, `PrimInt63.diveucl_21`, `PrimInt63.eqb`, `PrimInt63.head0`, `PrimInt63.int`, `PrimInt63.land`, `PrimInt63.leb`, `PrimInt63.lor`, `PrimInt63.lsl`, `PrimInt63.lsr`, `PrimInt63.ltb`, `PrimInt63.lxor`, `PrimInt63.mod`, `PrimInt63.mul`, `PrimInt63.mulc`, `PrimInt63.sub`, `PrimInt63.subc`, `PrimInt63.subcarryc`, `PrimInt63.tail0`, `Uint63.add_spec`, `Uint63.addc_def_spec`, `Uint63.addcarryc_def_spec`, `Uint63.addmuldiv_def_spec`, `Uint63.compare_def_spec`, `Uint63.div_spec`, `Uint63.diveucl_21_spec`, `Uint63.diveucl_def_spec`, `Uint63.eqb_correct`, `Uint63.eqb_refl`, `Uint63.head0_spec`, `Uint63.land_spec`, `Uint63.leb_spec`, `Uint63.lor_spec`, `Uint63.lsl_spec`, `Uint63.lsr_spec`, `Uint63.ltb_spec`, `Uint63.lxor_spec`, `Uint63.mod_spec`, `Uint63.mul_spec`, `Uint63.mulc_spec`, `Uint63.of_to_Z`, `Uint63.sub_spec`, `Uint63.subc_def_spec`, `Uint63.subcarryc_def_spec`, `Uint63.tail0_spec`

Theorems: `C42_in_limits`, `C42_nan_refuted_in_limits`, `C43_medians_ordered`, `C83_nearly_continuous`, `C83_reverse_20t80_jumps`
