{"id": "C01", "title": "Scenario accepts exactly the recognised keys", "statement": "Scenario(**kw) succeeds iff every keyword is a recognised scenario key, and then holds exactly the given values; otherwise it raises Warning naming the first unrecognised keyword.", "quantifier": "every keyword dictionary", "why_tests_cant": "The set of keyword names and values is unbounded.", "anchors": ["src/pygmm/model.py:Scenario.__init__", "src/pygmm/model.py:Scenario._check_keys", "src/pygmm/model.py:Scenario.KNOWN_KEYS"]}
{"id": "C02", "title": "copy_with overrides exactly the given keys", "statement": "s.copy_with(**kw) raises Warning (and has no effect) if kw holds an unrecognised key; otherwise it returns a new scenario in which the given keys have the new values and every other key keeps its value, and s is unchanged.", "quantifier": "every scenario and keyword dictionary", "why_tests_cant": "Needs all keys outside the update to be unchanged, for arbitrary dictionaries.", "anchors": ["src/pygmm/model.py:Scenario.copy_with"]}
{"id": "C03", "title": "Constructing models never alters existing scenarios", "statement": "In any history of scenario creations, copies, item updates and model constructions, each operation changes at most the scenario it is applied to: constructing a model (successfully or not) leaves every existing scenario - the caller's included - unchanged, and later edits of the caller's scenario do not change the scenario stored in the model.", "quantifier": "every finite history of operations on any number of scenario objects", "why_tests_cant": "Aliasing bugs show only in particular histories; the claim is about all of them.", "anchors": ["src/pygmm/model.py:Model.__init__", "src/pygmm/model.py:Scenario.copy_with"]}
{"id": "C04", "title": "The outcome depends only on the declared parameters", "statement": "Two scenarios that agree on the declared parameters of a model (an explicit None counting as absent) give the same outcome of the parameter phase: same stored values, same warnings, same exception. Extra scenario keys have no influence.", "quantifier": "every parameter list, every pair of scenarios", "why_tests_cant": "Ranges over all values of the irrelevant keys.", "anchors": ["src/pygmm/model.py:Model.__init__"]}
{"id": "C05", "title": "Missing required parameters are always rejected", "statement": "Construction raises ValueError iff a required parameter is absent or None (checked in declaration order, even if the parameter declares a default), as long as all supplied values have the right type.", "quantifier": "every parameter list and scenario", "why_tests_cant": "Ranges over all subsets of missing parameters and all values of the others.", "anchors": ["src/pygmm/model.py:Parameter.check", "src/pygmm/model.py:Model._check_inputs"]}
{"id": "C06", "title": "Numeric limits only warn; the value is never altered", "statement": "Checking a numeric parameter returns the value unchanged (the default if absent) and emits exactly one warning iff the value is below the minimum or above the maximum; it never clamps and NaN passes silently.", "quantifier": "every number incl. NaN and infinities, every pair of limits", "why_tests_cant": "Magnitudes, distances and velocities are continuous; a test samples finitely many scenarios.", "anchors": ["src/pygmm/model.py:NumericParameter.check"]}
{"id": "C07", "title": "Categorical values end up as an option or the default", "statement": "After checking, a categorical parameter is either one of its options or its default; no warning is emitted iff the (defaulted) value is an option, otherwise exactly two warnings are emitted and the default is used.", "quantifier": "every value and option list", "why_tests_cant": "Values are arbitrary.", "anchors": ["src/pygmm/model.py:CategoricalParameter.check"]}
{"id": "C08", "title": "Limit warnings do not tell the limit (violation)", "statement": "Expected: the warning for an out-of-range value names the limit. Violated: the second string literal is not an f-string, so for a given name and value the text is the same whatever the limits are.", "quantifier": "every name, value and pair of limits", "why_tests_cant": "Shows the text is independent of the limit for all limits.", "anchors": ["src/pygmm/model.py:NumericParameter.check"]}
{"id": "C09", "title": "Peak accessors", "statement": "pga / pgv / pgd raise NotImplementedError iff the model defines no index for them; otherwise they return the exponential of the log response at that index (times the PGV/PGD scale), which is positive and finite whenever that entry is finite. ln_std_pga etc. return the matching entry of the standard deviations.", "quantifier": "every model instance and index (also negative ones)", "why_tests_cant": "Ranges over all responses and indices.", "anchors": ["src/pygmm/model.py:GroundMotionModel"]}
{"id": "C10", "title": "Spectral accessors", "statement": "spec_accels has one entry per period; entry i is exp of the log response at the i-th PSA index; ln_stds has the same length; ln_stds raises NotImplementedError iff no standard deviation was computed.", "quantifier": "every model instance", "why_tests_cant": "All responses, all lengths.", "anchors": ["src/pygmm/model.py:GroundMotionModel.spec_accels", "src/pygmm/model.py:GroundMotionModel.ln_stds"]}
{"id": "C11", "title": "Period interpolation is exact at the knots, bounded by its neighbours and NaN outside", "statement": "interp_ln_spec_accels returns the tabulated value at each model period, a value between the two neighbouring tabulated values in between, and NaN for periods below the first or above the last (and for NaN or non-positive periods); interp_spec_accels is its exponential; interp_ln_stds behaves the same.", "quantifier": "every response, every strictly increasing period list, every requested period", "why_tests_cant": "Continuous request periods and arbitrary tables.", "anchors": ["src/pygmm/model.py:GroundMotionModel.interp_ln_spec_accels", "src/pygmm/model.py:GroundMotionModel.interp_spec_accels", "src/pygmm/model.py:GroundMotionModel.interp_ln_stds"]}
{"id": "C12", "title": "Attribute and item access agree until an attribute is assigned", "statement": "For a scenario on which no attribute was assigned, s.k and s['k'] give the same value or both raise KeyError (not AttributeError), after any sequence of creations, copies and item updates. After s.k = v they can differ: the item keeps the old value, and copies keep the stale attribute even if the item is updated by copy_with (violation met in CB14).", "quantifier": "every history of scenario operations", "why_tests_cant": "Histories are unbounded.", "anchors": ["src/pygmm/model.py:Scenario.__getattr__", "src/pygmm/campbell_bozorgnia_2014.py:_check_inputs"]}
{"id": "C13", "title": "Every shipped model declares recognised parameters only", "statement": "For each model, every declared parameter is a recognised scenario key, and no parameter is declared twice; so constructing any of the 22 models from any mapping copies exactly the declared parameters, raises only ValueError or TypeError (never Warning), and ignores further entries.", "quantifier": "every shipped model and every mapping", "why_tests_cant": "Ranges over all mappings for each model.", "anchors": ["src/pygmm/model.py:Scenario.KNOWN_KEYS", "src/pygmm/*.py:PARAMS"]}
{"id": "C14", "title": "Campbell (2003): finite positive response everywhere", "statement": "For every real magnitude and every distance >= 0 the model constructs, every spectral acceleration is finite and positive, there is no PGA, PGV or PGD, and every log-standard deviation is positive for magnitudes up to 8.2.", "quantifier": "all real magnitudes and distances >= 0, all 16 periods", "why_tests_cant": "Magnitudes, distances and velocities are continuous; a test samples finitely many scenarios.", "anchors": ["src/pygmm/campbell_2003.py:Campbell2003"]}
{"id": "C15", "title": "Campbell (2003): shaking decays with distance up to magnitude 7.3 (violated above)", "statement": "At fixed magnitude <= 7.3 a larger rupture distance gives strictly smaller spectral acceleration at every period (the piecewise geometric attenuation is continuous at 70 and 130 km). Inside the recommended range but above 7.3 this fails: at M 8.2 and 0.05 s the response at 0.1 km exceeds that at 0 km.", "quantifier": "all magnitudes <= 7.3 and all pairs of distances 0 <= r1 < r2", "why_tests_cant": "Magnitudes, distances and velocities are continuous; a test samples finitely many scenarios.", "anchors": ["src/pygmm/campbell_2003.py:_calc_ln_resp"]}
{"id": "C16", "title": "Tavakoli & Pezeshk (2005): finite exactly up to magnitude 8.5", "statement": "For distance >= 0 the response is finite and positive for every magnitude <= 8.5 and for every larger magnitude no response is a real number (fractional power of a negative number), the recommended limit only warning: with a numpy magnitude all responses are NaN, with a plain Python float the model silently returns complex responses, with non-zero imaginary part up to magnitude 9.5, and real standard deviations.", "quantifier": "all real magnitudes, all distances >= 0", "why_tests_cant": "Magnitudes, distances and velocities are continuous; a test samples finitely many scenarios.", "anchors": ["src/pygmm/tavakoli_pezeshk_2005.py:_calc_ln_resp"]}
{"id": "C17", "title": "Pezeshk et al. (2011): finite response, positive sigma, decay with distance near and far", "statement": "For all magnitudes and distances the response is finite and positive and sigma is positive; for magnitudes in [4, 9] the response is strictly decreasing in distance up to 69.5 km and beyond 140 km. Between 70 and 140 km it is not: for every magnitude in [5, 8] the nine longest periods are larger at 139 km than at 75 km (Moho bounce).", "quantifier": "all real magnitudes and distances", "why_tests_cant": "Magnitudes, distances and velocities are continuous; a test samples finitely many scenarios.", "anchors": ["src/pygmm/pezeshk_zandieh_tavakoli_2011.py"]}
{"id": "C18", "title": "Idriss (2014): finite, decreasing in distance and v_s30, growing with magnitude, reverse faulting never lower", "statement": "For dist_rup >= 0 and v_s30 > 0 the response is finite and positive; for magnitudes in [0, 9] it is strictly decreasing in distance and in v_s30; within each magnitude branch it is strictly increasing in magnitude; mechanism RS gives at least the SS response; sigma is positive and non-increasing in magnitude.", "quantifier": "all scenarios within the domain, all 22 periods", "why_tests_cant": "Magnitudes, distances and velocities are continuous; a test samples finitely many scenarios.", "anchors": ["src/pygmm/idriss_2014.py"]}
{"id": "C19", "title": "Idriss (2014): the two magnitude branches join", "statement": "The small- and large-magnitude coefficient sets are used on either side of 6.75; the response at magnitude m slightly above 6.75 differs from the one at 6.75 by at most 0.001 + 4 (m - 6.75) in natural log, at every period: there is no visible step.", "quantifier": "all distances up to 150 km, all v_s30, both mechanisms", "why_tests_cant": "Magnitudes, distances and velocities are continuous; a test samples finitely many scenarios.", "anchors": ["src/pygmm/idriss_2014.py:_calc_ln_resp"]}
{"id": "C20", "title": "Atkinson & Boore (2006): PGA jumps in v_s30 at 180 and 300 m/s (violation)", "statement": "Expected: the response is continuous in v_s30. The published non-linear slope adds b_2 for 180 < v_s30 <= 300 which the code drops, so for every event whose reference PGA (clipped at 60 cm/s2 from below) is not exactly 100 cm/s2, PGA has a step bounded away from zero at 300 m/s and at 180 m/s.", "quantifier": "all magnitudes, distances > 0", "why_tests_cant": "Magnitudes, distances and velocities are continuous; a test samples finitely many scenarios.", "anchors": ["src/pygmm/atkinson_boore_2006.py:_calc_ln_resp"]}
{"id": "C21", "title": "Atkinson & Boore (2006): hard-rock coefficients are unreachable for positive velocities", "statement": "For every v_s30 >= 760 m/s, however stiff, each spectral acceleration is the 760 m/s one times (v_s30/760)^b with a fixed b of that period: the hard-rock coefficient set is never selected. It is selected by v_s30 = 0 only; a missing v_s30 raises ValueError although a default is documented.", "quantifier": "every scenario", "why_tests_cant": "Ranges over all v_s30.", "anchors": ["src/pygmm/atkinson_boore_2006.py"]}
{"id": "C22", "title": "Atkinson & Boore (2006): PGV and PGD are scaled by gravity (violation)", "statement": "Expected: pgv is in cm/s and pgd in cm. The code subtracts log10(980.665) from every row, PGV and PGD included, and the PGV/PGD scales are 1, so both are 980.665 times too small for every scenario.", "quantifier": "every scenario", "why_tests_cant": "Magnitudes, distances and velocities are continuous; a test samples finitely many scenarios.", "anchors": ["src/pygmm/atkinson_boore_2006.py:_calc_ln_resp"]}
{"id": "C23", "title": "CB14: region 'china' has no effect (violation)", "statement": "Expected: region='china' uses the China anelastic attenuation, whose coefficient differs for PGA, PGV and every period up to 1 s. The code compares the region string with a list, which is never equal, so for every scenario all outputs with region 'china' equal those with 'global' or 'california'.", "quantifier": "every scenario with dist_x and mechanism given", "why_tests_cant": "Magnitudes, distances and velocities are continuous; a test samples finitely many scenarios.", "anchors": ["src/pygmm/campbell_bozorgnia_2014.py:_calc_ln_resp", "src/pygmm/data/campbell_bozorgnia_2014.csv"]}
{"id": "C24", "title": "CB14: finite, positive, and sigma is the root-sum-square of its parts", "statement": "For every scenario with v_s30 > 0 and a valid fault geometry all responses are finite and positive and every sigma is at least 0.3. For v_s30 >= 1086 (linear site) sigma^2 = tau^2 + phi^2, tau and phi being the table values interpolated linearly between magnitudes 4.5 and 5.5; hence sigma there depends on magnitude only.", "quantifier": "all scenarios", "why_tests_cant": "Magnitudes, distances and velocities are continuous; a test samples finitely many scenarios.", "anchors": ["src/pygmm/campbell_bozorgnia_2014.py:_calc_ln_std"]}
{"id": "C25", "title": "BSSA14: the region only selects the attenuation group; the Japanese basin relation is unreachable (violation)", "statement": "Expected: for region 'japan' the basin term uses the Japanese depth relation. The code passes depth_1_0 in the region position, so all outputs of 'japan' equal those of 'italy', those of 'china' equal 'turkey', and 'global', 'california', 'new_zealand' and 'taiwan' agree, for every scenario and basin depth.", "quantifier": "all scenarios", "why_tests_cant": "Magnitudes, distances and velocities are continuous; a test samples finitely many scenarios.", "anchors": ["src/pygmm/boore_stewart_seyhan_atkinson_2014.py:_calc_ln_resp"]}
{"id": "C26", "title": "BSSA14: at 760 m/s the response is the published event and path model", "statement": "At v_s30 = 760 m/s without a basin depth every spectral acceleration, PGA and PGV equals exp(event + path) of the published equations with the tabulated coefficients: no site amplification, linear, non-linear or basin.", "quantifier": "all magnitudes, distances, mechanisms and regions; all 107 rows", "why_tests_cant": "Magnitudes, distances and velocities are continuous; a test samples finitely many scenarios.", "anchors": ["src/pygmm/boore_stewart_seyhan_atkinson_2014.py:calc_site_term", "src/pygmm/boore_stewart_seyhan_atkinson_2014.py:_calc_ln_resp"]}
{"id": "C27", "title": "BSSA14: sigma has the published form, is bounded and continuous", "statement": "For every scenario with v_s30 > 0 responses are finite and positive, sigma lies in [0.46, 1.05], equals sqrt(tau^2 + phi^2) with the published piecewise-linear dependence on magnitude, ln distance and ln v_s30, and is globally Lipschitz in magnitude, distance and v_s30 (no jumps at hinges).", "quantifier": "all scenarios, all 107 rows", "why_tests_cant": "Magnitudes, distances and velocities are continuous; a test samples finitely many scenarios.", "anchors": ["src/pygmm/boore_stewart_seyhan_atkinson_2014.py:_calc_ln_std"]}
{"id": "C28", "title": "ASK14: finite and positive, the NaN reference never propagates", "statement": "The reference response is first computed with a NaN reference; for every scenario with v_s30 > 0, non-negative basin depth and (on the hanging wall) dist_x >= 0 and 0 < dip <= 90, all responses are nevertheless finite and positive, and every sigma is at least 0.4.", "quantifier": "all scenarios, all 24 rows", "why_tests_cant": "Magnitudes, distances and velocities are continuous; a test samples finitely many scenarios.", "anchors": ["src/pygmm/abrahamson_silva_kamai_2014.py"]}
{"id": "C29", "title": "ASK14: sigma is the root-sum-square of its parts; soil only lowers it", "statement": "For v_s30 >= 960 sigma^2 = tau^2 + max(phi, 0.4)^2 with tau and phi the table values interpolated in magnitude (distance for Japan); for softer sites (v_s30 >= 180) sigma is never larger than on such rock.", "quantifier": "all scenarios", "why_tests_cant": "Magnitudes, distances and velocities are continuous; a test samples finitely many scenarios.", "anchors": ["src/pygmm/abrahamson_silva_kamai_2014.py:_calc_ln_std"]}
{"id": "C30", "title": "CY14: outputs independent of v_s30 at or above 1130 m/s for the default basin depth", "statement": "For scenarios without depth_1_0 all outputs (responses and sigmas) are the same for all v_s30 >= 1130 m/s.", "quantifier": "all scenarios", "why_tests_cant": "Magnitudes, distances and velocities are continuous; a test samples finitely many scenarios.", "anchors": ["src/pygmm/chiou_youngs_2014.py:_calc_ln_resp"]}
{"id": "C31", "title": "CY14: Italian attenuation applies only between magnitudes 6 and 6.9", "statement": "All outputs for 'italy' equal those for 'california' if mag <= 6 or mag >= 6.9, and every response is strictly lower if 6 < mag < 6.9.", "quantifier": "all scenarios", "why_tests_cant": "Magnitudes, distances and velocities are continuous; a test samples finitely many scenarios.", "anchors": ["src/pygmm/chiou_youngs_2014.py:_calc_ln_resp_ref"]}
{"id": "C32", "title": "CY14: finite and positive", "statement": "For dist_rup >= 0 and v_s30 > 0 all responses and all sigmas are finite and positive, for every optional input.", "quantifier": "all scenarios", "why_tests_cant": "Magnitudes, distances and velocities are continuous; a test samples finitely many scenarios.", "anchors": ["src/pygmm/chiou_youngs_2014.py:_calc_ln_std", "src/pygmm/chiou_youngs_2014.py:_calc_ln_resp"]}
{"id": "C33", "title": "ASB14: distance metric precedence", "statement": "The model uses dist_jb if given, else dist_hyp, else dist_epi, and raises NotImplementedError iff none is given; the metrics not chosen do not influence the result, and the medians are the published formula with the table of the chosen metric.", "quantifier": "all scenarios", "why_tests_cant": "Ranges over all combinations and values.", "anchors": ["src/pygmm/akkar_sandikkaya_bommer_2014.py"]}
{"id": "C34", "title": "ASB14: no amplification at the reference velocity and continuous magnitude scaling", "statement": "At v_s30 = 750 m/s every response equals the published rock median (no site term); all responses are continuous in magnitude (hinge included) and in v_s30 (across 750 and 1000 m/s).", "quantifier": "all scenarios with v_s30 > 0", "why_tests_cant": "Magnitudes, distances and velocities are continuous; a test samples finitely many scenarios.", "anchors": ["src/pygmm/akkar_sandikkaya_bommer_2014.py"]}
{"id": "C35", "title": "DBC14: bounded response", "statement": "For all dist_jb >= 0 (including 0) and v_s30 > 0 every response is finite and bounded: spectral accelerations within 9e-7..2.7 g, PGA <= 0.52 g, PGV <= 116 cm/s, sigmas within 0.68..0.88; a mechanism other than SS, NS, RS raises KeyError.", "quantifier": "all scenarios", "why_tests_cant": "Magnitudes, distances and velocities are continuous; a test samples finitely many scenarios.", "anchors": ["src/pygmm/derras_bard_cotton_2014.py"]}
{"id": "C36", "title": "HKR14: results depend only on the scenario, not on earlier calls", "statement": "The lazily created shared interpolator is created at most once, from the data file of the first construction that gets that far; each construction returns the same values whatever models were constructed before, and later changes or loss of the file have no effect.", "quantifier": "every history of constructions and of contents of the data file", "why_tests_cant": "Shared mutable cache; all histories.", "anchors": ["src/pygmm/hermkes_kuehn_riggelsen_2014.py:INTERPOLATOR"]}
{"id": "C37", "title": "AGA16: magnitude scaling is continuous", "statement": "The responses are the published equations 1-5 (with the default, a scalar or a per-row adjust_c1), and all of them are continuous in magnitude, break magnitude included, for every period, event type and adjustment.", "quantifier": "all complete scenarios with distance >= 0, v_s30 > 0", "why_tests_cant": "Magnitudes, distances and velocities are continuous; a test samples finitely many scenarios.", "anchors": ["src/pygmm/abrahamson_gregor_addo_2016.py"]}
{"id": "C38", "title": "AGA16: site term continuity", "statement": "All responses are continuous in v_s30 > 0 except at the v_lin values above 1000 m/s (0.05, 0.075 and 0.1 s), where the spectrum does jump because the velocity ratio is capped at 1000 m/s (violation).", "quantifier": "all reference accelerations, all rows", "why_tests_cant": "Magnitudes, distances and velocities are continuous; a test samples finitely many scenarios.", "anchors": ["src/pygmm/abrahamson_gregor_addo_2016.py:_calc_site"]}
{"id": "C39", "title": "GA11: reference PGA must be supplied (violation of the documented fallback)", "statement": "A scenario without pga_ref is always rejected with ValueError, so the documented fallback (computing it with ASK14) is unreachable.", "quantifier": "all scenarios", "why_tests_cant": "Ranges over all scenarios.", "anchors": ["src/pygmm/gulerce_abrahamson_2011.py"]}
{"id": "C40", "title": "GA11: continuity of the magnitude, site and sigma terms", "statement": "The magnitude term is continuous at c1, the site term at v_lin, and sigma in magnitude at its hinges.", "quantifier": "all scenarios, all 24 rows", "why_tests_cant": "Magnitudes, distances and velocities are continuous; a test samples finitely many scenarios.", "anchors": ["src/pygmm/gulerce_abrahamson_2011.py"]}
{"id": "C41", "title": "AS96: duration grows with the Arias ratio, but interp mutates its argument (violation)", "statement": "The increment is strictly increasing in the Arias-intensity ratio on [0.10, 0.95] and NaN outside; interp and calc_ln_dur_incr overwrite the out-of-band entries of a caller-supplied float array with NaN (and touch no other array); a list argument is untouched; a second call returns the same values.", "quantifier": "all ratios, all arrays", "why_tests_cant": "Magnitudes, distances and velocities are continuous; a test samples finitely many scenarios.", "anchors": ["src/pygmm/abrahamson_silva_1996.py"]}
{"id": "C42", "title": "KS06: NaN inside the recommended limits (violation)", "statement": "Each duration is the published source+path+site total when it is positive, 0 when it is 0 and NaN when it is negative. Expected: durations are finite for all in-limit scenarios. This holds for D_5t75a, D_5t95a and D_5t95v, and for D_5t75v from magnitude 5.08 or 0.7 km or up to 965 m/s; violated for D_5t75v (NaN) for magnitudes up to 5.02 within 0.1 km on sites of at least 990 m/s.", "quantifier": "all scenarios", "why_tests_cant": "Magnitudes, distances and velocities are continuous; a test samples finitely many scenarios.", "anchors": ["src/pygmm/kempton_stewart_2006.py"]}
{"id": "C43", "title": "AS16: medians ordered and sigma positive", "statement": "The three durations are the published source+path total times the site and basin factors, finite and positive for distance >= 0 and v_s30 > 0; D_5t95 is at least 1.2 times D_5t75, and at least 1.15 times D_20t80 for v_s30 >= 100 and a basin depth that is not negative or not given; the log standard deviations lie in [0.39, 0.64] and never increase with magnitude; an unknown mechanism gives the unspecified one.", "quantifier": "all scenarios", "why_tests_cant": "Magnitudes, distances and velocities are continuous; a test samples finitely many scenarios.", "anchors": ["src/pygmm/afshari_stewart_2016.py"]}
{"id": "C44", "title": "PR23: the D5-75 duration", "statement": "Within the limits, the median is the published source + path + site sum and the two percentiles are the published ones; 0 < minus < median < plus; the median grows with magnitude and with distance and is longer for a smaller v_s30; it is continuous in magnitude, distance and velocity, including at every break point.", "quantifier": "all in-limit scenarios", "why_tests_cant": "Magnitudes, distances and velocities are continuous; a test samples finitely many scenarios.", "anchors": ["src/pygmm/pinilla_ramos_et_al_2023.py:_calc_duration"]}
{"id": "C45", "title": "PR23: is the duration monotone in the energy ratio?", "statement": "Within 140 km and at the tabulated ratios (0.10, 0.15, ..., 0.95), a larger ratio gives a longer duration. Violated elsewhere: within 0.025 of 0.75 (but not at 0.75) twice the D5-75 duration is returned, so D5-76 exceeds D5-80 always; beyond 185 km on rock D5-55 is shorter than D5-50.", "quantifier": "all in-limit scenarios and all energy ratios", "why_tests_cant": "Magnitudes, distances and velocities are continuous; a test samples finitely many scenarios.", "anchors": ["src/pygmm/pinilla_ramos_et_al_2023.py:duration_for_energy"]}
{"id": "C46", "title": "PR24: rejected combinations", "statement": "With numeric magnitude, distance and velocity, PinillaRamosEtAl2024 constructs exactly for the seven supported pairs of event type and region (interface: Japan, New Zealand, South America; slab: these and Taiwan); Taiwan interface, every other value and a missing value raise ValueError. A missing magnitude raises ValueError too.", "quantifier": "all inputs", "why_tests_cant": "Ranges over all values of every type and all numbers.", "anchors": ["src/pygmm/pinilla_ramos_et_al_2024.py:PinillaRamosEtAl2024.__init__"]}
{"id": "C47", "title": "Baker & Jayaram: correlations follow the published formula, symmetric, 1 on the diagonal, within [0,1]", "statement": "calc_correls returns the published correlation for every pair of periods; swapping the two periods changes nothing; a period with itself gives 1; for periods from 0.01 s to 500 s every value lies in [0, 1] and is below 1 for distinct periods. Outside: with both periods below 0.0099 s values above 1 are returned without an error (violation).", "quantifier": "all pairs of periods", "why_tests_cant": "Magnitudes, distances and velocities are continuous; a test samples finitely many scenarios.", "anchors": ["src/pygmm/baker_jayaram_2008.py:calc_correls"]}
{"id": "C48", "title": "Baker & Jayaram CMS: target reproduced, standard deviation reduced", "statement": "calc_cond_mean_spectrum is ln mean + sigma * rho * epsilon with epsilon from the linear interpolation of the spectrum; at the conditioning period the mean is the target and the standard deviation 0; no conditional standard deviation exceeds the unconditional one; arrays of different or zero length raise ValueError.", "quantifier": "all spectra, periods, conditioning periods and targets", "why_tests_cant": "Magnitudes, distances and velocities are continuous; a test samples finitely many scenarios.", "anchors": ["src/pygmm/baker_jayaram_2008.py:calc_cond_mean_spectrum"]}
{"id": "C49", "title": "Kishida: conditioned periods reproduce their targets", "statement": "Conditioned entries equal the supplied targets with zero standard deviation, results are in the order of the periods whatever the mask; one condition gives exactly Baker & Jayaram, none gives the spectrum back, two conditions with positive sigmas never fail; non-increasing periods raise ValueError; a masked array without an explicit mask always raises.", "quantifier": "all spectra, masks and targets", "why_tests_cant": "Magnitudes, distances and velocities are continuous; a test samples finitely many scenarios.", "anchors": ["src/pygmm/kishida_2017.py:calc_cond_mean_spectrum_vector"]}
{"id": "C50", "title": "BA18: correlation and covariance matrices", "statement": "For positive frequencies corr is the published formula off the diagonal and 1 on it, square and symmetric, with entries in (0, 1] (below 0.9987 off the diagonal); cov_ij = corr_ij * s_i * s_j for a given array, a single number, or the published tau, phi_s2s, phi_s or sigma interpolated at the frequencies; no std and no component raises NotImplementedError, an array of another length ValueError, an unknown component AttributeError.", "quantifier": "all frequency lists and standard deviations", "why_tests_cant": "Magnitudes, distances and velocities are continuous; a test samples finitely many scenarios.", "anchors": ["src/pygmm/bayless_abrahamson_2018.py:BaylessAbrahamson2018.corr", "src/pygmm/bayless_abrahamson_2018.py:BaylessAbrahamson2018.cov"]}
{"id": "C51", "title": "BA19: standard deviation missing above 24 Hz and mostly blind to magnitude (violation)", "statement": "Expected: at every one of the 301 frequencies tau, phi_S2S and phi_SS go linearly from their M 4 to their M 6 value. From M 6 on the result is the published one and positive at the 239 frequencies up to 24 Hz. Violated: ln_std is NaN at the 62 frequencies above 24 Hz for every scenario; a component that falls from M 4 to M 6 is returned at its M 6 value for every magnitude (np.clip with reversed bounds), so at 124 of 239 frequencies the standard deviation does not depend on the magnitude and below M 6 is smaller than published.", "quantifier": "all scenarios and frequencies", "why_tests_cant": "Magnitudes, distances and velocities are continuous; a test samples finitely many scenarios.", "anchors": ["src/pygmm/bayless_abrahamson_2019.py:_calc_ln_std"]}
{"id": "C52", "title": "BA19: the spectrum is the published one, finite, equal lengths, no site effect from 1000 m/s", "statement": "For every scenario with non-negative distance, positive velocity and a basin depth that is absent or not negative, ln_eas has 301 finite values: at each of the 239 frequencies up to 24 Hz the published linear terms plus the smoothed non-linear term, above it the value at 24 Hz reduced by pi*kappa*(f - 24). The non-linear term never amplifies and vanishes from 760 m/s. freqs and ln_std have the same length. With the default depth all velocities from 1000 m/s give the same values up to 24 Hz.", "quantifier": "all scenarios", "why_tests_cant": "Magnitudes, distances and velocities are continuous; a test samples finitely many scenarios.", "anchors": ["src/pygmm/bayless_abrahamson_2019.py:_calc_ln_eas", "src/pygmm/bayless_abrahamson_2019.py:_calc_site_response"]}
{"id": "C53", "title": "Stafford 2017: covariance and correlation matrices", "statement": "cov returns the square array of rho_E sigma_E sigma_E + rho_S sigma_S sigma_S + rho_A sigma_A sigma_A; arrays of another length raise ValueError; cor has a unit diagonal and is symmetric for all pairs that np.isclose treats alike in both orders. Violated: leaving out one of the three arrays silently discards the other two; for every frequency there is another one just above it for which the two orders give 1 and less than 0.025; with the model's own standard deviations cor exceeds 1 for every pair a factor 40 apart (up to 50 Hz), and in every list that contains such a pair cov gives the difference of the two ordinates a negative variance, so it is not a covariance matrix.", "quantifier": "all lists of positive frequencies, standard deviations and magnitudes", "why_tests_cant": "Magnitudes, distances and velocities are continuous; a test samples finitely many scenarios.", "anchors": ["src/pygmm/stafford_2017.py:cov", "src/pygmm/stafford_2017.py:cor"]}
{"id": "C54", "title": "AB20 cannot be constructed (violation)", "statement": "Every construction of the conditional PGV model raises: NotImplementedError with default arguments (the default of psa is a type object, not None), KeyError when psa=None and a PGA, or pga=None too and a 1 s spectral acceleration, is given (velocity read from the coefficients), TypeError when nothing numeric is given. Only the class method for the conditioning period can be used: its exponential is 1 s at magnitude 409/66 and grows by a factor e^0.66 per unit of magnitude.", "quantifier": "all arguments", "why_tests_cant": "Ranges over all arguments.", "anchors": ["src/pygmm/abrahamson_bhasin_2020.py:AbrahamsonBhasin2020.__init__"]}
{"id": "C55", "title": "Tavakoli & Pezeshk (2005): sigma at 0.5 s has a step at magnitude 7.2 (violation)", "statement": "Expected: sigma is continuous in magnitude. At all periods but 0.5 s the values just below 7.2 and at 7.2 agree within 0.01; at 0.5 s the standard deviation jumps from below 0.04 to above 0.5 (coefficient c_15 has the wrong magnitude in the table).", "quantifier": "all distances, all magnitudes in [7.19, 7.2)", "why_tests_cant": "Magnitudes, distances and velocities are continuous; a test samples finitely many scenarios.", "anchors": ["src/pygmm/tavakoli_pezeshk_2005.py:_calc_ln_std", "src/pygmm/data/tavakoli_pezeshk_2005.csv"]}
{"id": "C56", "title": "Atkinson & Boore (2006): finite, positive and decaying with distance", "statement": "For dist_rup > 0 and v_s30 > 0 all accessors are finite and positive; for magnitudes in [2, 8.5] every spectral acceleration is strictly decreasing in distance on rock (v_s30 >= 760) and PGA is on every site.", "quantifier": "all scenarios in the domain", "why_tests_cant": "Magnitudes, distances and velocities are continuous; a test samples finitely many scenarios.", "anchors": ["src/pygmm/atkinson_boore_2006.py:_calc_ln_resp"]}
{"id": "C57", "title": "CY14: every response decreases strictly with rupture distance", "statement": "Off the hanging wall, for mag <= 8.5 and v_s30 >= 180 (with non-negative dpp_centered), increasing dist_rup alone strictly lowers every spectral acceleration, PGA and PGV, also through the non-linear site term.", "quantifier": "all scenarios and pairs of distances", "why_tests_cant": "Magnitudes, distances and velocities are continuous; a test samples finitely many scenarios.", "anchors": ["src/pygmm/chiou_youngs_2014.py:_calc_ln_resp"]}
{"id": "C58", "title": "Default basin depths are positive and decrease with v_s30", "statement": "calc_depth_1_0 of CY14 and of ASK14 is positive and strictly decreasing in v_s30 > 0 for every region argument.", "quantifier": "all velocities and regions", "why_tests_cant": "Magnitudes, distances and velocities are continuous; a test samples finitely many scenarios.", "anchors": ["src/pygmm/chiou_youngs_2014.py:calc_depth_1_0", "src/pygmm/abrahamson_silva_kamai_2014.py:calc_depth_1_0"]}
{"id": "C59", "title": "BSSA14: responses decrease with distance", "statement": "For magnitudes 3 to 8.5, increasing dist_jb alone strictly lowers every response on rock (v_s30 >= 760) and PGA on every site (v_s30 >= 150): at any distance in the regions without extra attenuation terms, up to 230 km elsewhere. On soil from 180 m/s every response is lowered as well, up to 300 km in the regions without extra attenuation terms and up to 230 km elsewhere.", "quantifier": "all scenarios and pairs of distances", "why_tests_cant": "Magnitudes, distances and velocities are continuous; a test samples finitely many scenarios.", "anchors": ["src/pygmm/boore_stewart_seyhan_atkinson_2014.py:_calc_ln_resp"]}
{"id": "C60", "title": "BSSA14: in Turkey the 10 s response grows with distance (violation)", "statement": "Expected: decay with distance within the recommended limits (dist_jb <= 300 km, mag <= 8.5). For region 'turkey', mag 8.5 and any v_s30 >= 760, the last spectral acceleration at 300 km exceeds the one at 240 km.", "quantifier": "all sites v_s30 >= 760, all other inputs", "why_tests_cant": "Magnitudes, distances and velocities are continuous; a test samples finitely many scenarios.", "anchors": ["src/pygmm/boore_stewart_seyhan_atkinson_2014.py:_calc_ln_resp"]}
{"id": "C61", "title": "CB14: responses decrease with rupture distance", "statement": "For sites with dist_x < 0, magnitudes 3.3 to 8.5 and dip in (0, 90], increasing dist_rup alone strictly lowers every response on rock (v_s30 > 1086) and PGA on every site (v_s30 >= 150), in every region; on soil from 300 m/s every response is lowered too, up to 300 km. On very soft soil it is not: for strike slip, magnitude 6.5, a shallow hypocentre and 150 to 155 m/s the spectral acceleration at 0.2 s is more than 3 % larger at dist_rup 6 km than at 0 km.", "quantifier": "all scenarios and pairs of distances", "why_tests_cant": "Magnitudes, distances and velocities are continuous; a test samples finitely many scenarios.", "anchors": ["src/pygmm/campbell_bozorgnia_2014.py:_calc_ln_resp"]}
{"id": "C62", "title": "CB14: the Japanese site term jumps at v_s30 = 200 m/s (violation)", "statement": "Expected: the response is continuous in v_s30. For region 'japan' with a given depth_2_5, going from 200 to any v_s30 in (200, 200.1] m/s raises the 0.15 s response by more than 18 % and lowers the 3 s response by more than a factor 1.28.", "quantifier": "all scenarios in Japan", "why_tests_cant": "Magnitudes, distances and velocities are continuous; a test samples finitely many scenarios.", "anchors": ["src/pygmm/campbell_bozorgnia_2014.py:_calc_site_term"]}
{"id": "C63", "title": "CB14: depth_1_0 is ignored and unknown mechanisms are treated as strike slip", "statement": "Changing depth_1_0 never changes any output; any mechanism string other than SS, NS, RS gives exactly the outputs of SS.", "quantifier": "all scenarios, all strings", "why_tests_cant": "Magnitudes, distances and velocities are continuous; a test samples finitely many scenarios.", "anchors": ["src/pygmm/campbell_bozorgnia_2014.py:_check_inputs", "src/pygmm/campbell_bozorgnia_2014.py:_calc_ln_resp"]}
{"id": "C64", "title": "ASK14: on the hanging wall without dist_x construction fails with TypeError (violation)", "statement": "Expected: optional parameters can be omitted. Every scenario with on_hanging_wall=True and no dist_x raises TypeError.", "quantifier": "all scenarios", "why_tests_cant": "Magnitudes, distances and velocities are continuous; a test samples finitely many scenarios.", "anchors": ["src/pygmm/abrahamson_silva_kamai_2014.py:_calc_f4"]}
{"id": "C65", "title": "ASK14: every response decreases strictly with rupture distance", "statement": "Off the hanging wall, for mag <= 8.5, v_s30 >= 180 and non-negative basin depth, increasing dist_rup alone strictly lowers every response in every region, including through the non-linear site term.", "quantifier": "all scenarios and pairs of distances", "why_tests_cant": "Magnitudes, distances and velocities are continuous; a test samples finitely many scenarios.", "anchors": ["src/pygmm/abrahamson_silva_kamai_2014.py:_calc_f1", "src/pygmm/abrahamson_silva_kamai_2014.py:calc_site_term"]}
{"id": "C66", "title": "ASK14: 'global', 'california' and 'italy' give the same outputs", "statement": "All accessors agree for these regions, for every scenario.", "quantifier": "all scenarios", "why_tests_cant": "Magnitudes, distances and velocities are continuous; a test samples finitely many scenarios.", "anchors": ["src/pygmm/abrahamson_silva_kamai_2014.py:_calc_ln_resp"]}
{"id": "C67", "title": "ASK14: outputs independent of v_s30 from 1500 m/s without a basin depth", "statement": "Without depth_1_0, all outputs are equal for all v_s30 >= 1500, in every region.", "quantifier": "all scenarios", "why_tests_cant": "Magnitudes, distances and velocities are continuous; a test samples finitely many scenarios.", "anchors": ["src/pygmm/abrahamson_silva_kamai_2014.py:calc_site_term"]}
{"id": "C68", "title": "ASK14: the basin term is dropped at exactly v_s30 = 1180 m/s (violation)", "statement": "Expected: the response is continuous in v_s30. With a given depth_1_0 >= 0.5 km (region 'global'), the 1.5 s response at any v_s30 >= 1100 other than 1180 exceeds the one at 1180 by more than 75 %.", "quantifier": "all scenarios, all velocities", "why_tests_cant": "Magnitudes, distances and velocities are continuous; a test samples finitely many scenarios.", "anchors": ["src/pygmm/abrahamson_silva_kamai_2014.py:calc_site_term"]}
{"id": "C69", "title": "ASK14: is_aftershock has no effect unless dist_crjb < 15 km is given", "statement": "With dist_crjb absent or >= 15 all outputs are the same whether is_aftershock is true, false or absent.", "quantifier": "all scenarios", "why_tests_cant": "Magnitudes, distances and velocities are continuous; a test samples finitely many scenarios.", "anchors": ["src/pygmm/abrahamson_silva_kamai_2014.py:_calc_ln_resp"]}
{"id": "C70", "title": "ASB14: finite, positive, bounded sigma, decaying with the chosen distance", "statement": "With at least one metric given and v_s30 > 0 every response is finite and positive and every standard deviation lies in [0.68, 0.84], being the published total sigma of the table of the metric in use; for magnitudes up to 8 every response (PGA, PGV and all periods) is strictly decreasing in the metric in use, on every site.", "quantifier": "all scenarios", "why_tests_cant": "Magnitudes, distances and velocities are continuous; a test samples finitely many scenarios.", "anchors": ["src/pygmm/akkar_sandikkaya_bommer_2014.py"]}
{"id": "C71", "title": "AGA16: finite, positive, one sigma, decay with distance", "statement": "For every complete scenario with distance >= 0 and v_s30 > 0 all responses are finite and positive and every standard deviation is sqrt(0.6^2+0.43^2). For magnitudes up to 8.5 and v_s30 >= 150, PGA decreases strictly with the distance in use (except intraslab back-arc), and every response does for v_s30 >= 1086.", "quantifier": "all scenarios and adjustments", "why_tests_cant": "Magnitudes, distances and velocities are continuous; a test samples finitely many scenarios.", "anchors": ["src/pygmm/abrahamson_gregor_addo_2016.py"]}
{"id": "C72", "title": "AGA16: which distance is used and which scenarios are rejected", "statement": "Intraslab events use dist_hyp and depth_hyp, all others dist_rup; the other metrics have no influence. A missing metric or (intraslab) depth raises TypeError, an unknown event type with back-arc NotImplementedError, a wrong number of adjustments ValueError.", "quantifier": "all scenarios", "why_tests_cant": "Ranges over all combinations.", "anchors": ["src/pygmm/abrahamson_gregor_addo_2016.py"]}
{"id": "C73", "title": "Coppersmith & Bommer (2014): published median, finite, continuous, decaying", "statement": "The responses are the published formula; finite and positive for dist_rup >= 0 and v_s30 > 0; continuous in magnitude and in v_s30 except at v_lin > 1000; PGA decays with distance for magnitudes up to 8.5 and v_s30 >= 150; a missing distance raises TypeError.", "quantifier": "all scenarios", "why_tests_cant": "Magnitudes, distances and velocities are continuous; a test samples finitely many scenarios.", "anchors": ["src/pygmm/coppersmith_bommer_2014.py"]}
{"id": "C74", "title": "GA11: published V/H ratio and standard deviation", "statement": "For every complete scenario with v_s30 > 0 and pga_ref >= 0, ratio is the published V/H relation row by row (an unknown mechanism counts as strike-slip) and ln_std the published sigma, between 0.36 and 0.87. A larger pga_ref never lowers a ratio.", "quantifier": "all scenarios", "why_tests_cant": "Magnitudes, distances and velocities are continuous; a test samples finitely many scenarios.", "anchors": ["src/pygmm/gulerce_abrahamson_2011.py"]}
{"id": "C75", "title": "GA11: interpolated ratios agree with the tabulated ones", "statement": "interp_ratio at a tabulated period returns the tabulated ratio; at any positive period (outside the table too) a log-average of two tabulated ratios.", "quantifier": "all scenarios and periods", "why_tests_cant": "Magnitudes, distances and velocities are continuous; a test samples finitely many scenarios.", "anchors": ["src/pygmm/gulerce_abrahamson_2011.py:interp_ratio"]}
{"id": "C76", "title": "GA11: interp_ln_std returns the exponential of the standard deviation (violation)", "statement": "Expected: interp_ln_std interpolates ln_std. Violated for every scenario and period: the result lies in [1.43, 2.39] while every ln_std is below 0.87.", "quantifier": "all scenarios and periods", "why_tests_cant": "Magnitudes, distances and velocities are continuous; a test samples finitely many scenarios.", "anchors": ["src/pygmm/gulerce_abrahamson_2011.py:interp_ln_std"]}
{"id": "C77", "title": "DBC14: the published neural network", "statement": "Spectral accelerations, PGA and PGV are 10 to the published two-layer network output (tanh hidden layer, linear output, inputs scaled to [-1, 1]), converted from m/s2 to g and from m/s to cm/s; log standard deviations are the tabulated total sigma times ln 10.", "quantifier": "all complete scenarios with dist_jb > 0, v_s30 > 0, all 64 rows", "why_tests_cant": "Magnitudes, distances and velocities are continuous; a test samples finitely many scenarios.", "anchors": ["src/pygmm/derras_bard_cotton_2014.py:DerrasBardCotton2014.__init__"]}
{"id": "C78", "title": "DBC14: shaking decays with distance inside the recommended limits", "statement": "For dist_jb 5-200 km, magnitude 4-7, v_s30 200-800 m/s, depth 0-25 km and each mechanism, every spectral acceleration, PGA and PGV strictly decreases with distance, although a neural network does not guarantee this by construction.", "quantifier": "all pairs of distances and all scenarios inside the recommended limits, all 64 rows", "why_tests_cant": "Magnitudes, distances and velocities are continuous; a test samples finitely many scenarios.", "anchors": ["src/pygmm/derras_bard_cotton_2014.py", "src/pygmm/data/derras_bard_cotton_2014.json"]}
{"id": "C79", "title": "AS96: published duration; longer for larger, farther and softer-site events", "statement": "The duration is (source + 0.805 s on soil + 0.063 s per km beyond 10 km) times the 75% increment, with standard error 0.55; it never decreases with magnitude, distance or from rock to soil, and strictly increases with magnitude, with distance beyond 10 km and from rock to soil; with stds the interpolated duration strictly increases with the number of standard deviations.", "quantifier": "all scenarios (any site condition string), all ratios and deviations", "why_tests_cant": "Magnitudes, distances and velocities are continuous; a test samples finitely many scenarios.", "anchors": ["src/pygmm/abrahamson_silva_1996.py:AbrahamsonSilva1996"]}
{"id": "C80", "title": "AS96: interp(0.75) is not the duration (violation)", "statement": "Expected: interp at the ratio 0.75 returns duration. The 75% increment is already contained in the stored value and is added again: interp(0.75) exceeds duration by 0.85-0.87 percent for every scenario, and every interpolated value is inflated by that factor.", "quantifier": "all scenarios", "why_tests_cant": "Magnitudes, distances and velocities are continuous; a test samples finitely many scenarios.", "anchors": ["src/pygmm/abrahamson_silva_1996.py:interp"]}
{"id": "C81", "title": "KS06: durations grow with magnitude and distance and shrink with velocity", "statement": "Whenever a duration is positive, a scenario with magnitude and distance not smaller and velocity not larger, and at least one of them different, has a strictly longer one, for all four measures.", "quantifier": "all pairs of scenarios", "why_tests_cant": "Magnitudes, distances and velocities are continuous; a test samples finitely many scenarios.", "anchors": ["src/pygmm/kempton_stewart_2006.py"]}
{"id": "C82", "title": "AS16: effects of distance, velocity and magnitude", "statement": "All three durations strictly increase with distance; without basin depth they strictly decrease with v_s30 up to 600 m/s and are constant above; they do not depend on magnitude up to 5.2 and strictly increase with it above 5.35.", "quantifier": "all pairs of scenarios with distance >= 0, v_s30 > 0", "why_tests_cant": "Magnitudes, distances and velocities are continuous; a test samples finitely many scenarios.", "anchors": ["src/pygmm/afshari_stewart_2016.py"]}
{"id": "C83", "title": "AS16: continuity at the lower magnitude hinge, violated for reverse D_20t80", "statement": "Expected: durations are (nearly) continuous where the constant source duration ends. They are within -0.1%..+0.5% over 0.004 magnitude units, for every mechanism and measure except D_20t80 of reverse events, which jumps by more than 7% (closer than 10 km) at magnitude 5.2: its b_1 equals the strike-slip value, so above 5.2 reverse and strike-slip D_20t80 coincide.", "quantifier": "all scenarios", "why_tests_cant": "Magnitudes, distances and velocities are continuous; a test samples finitely many scenarios.", "anchors": ["src/pygmm/afshari_stewart_2016.py:__init__"]}
{"id": "C84", "title": "AS16: basin depth has practically no effect (violation)", "statement": "Expected: a deeper basin lengthens shaking noticeably. depth_1_0 is documented in km but used against a coefficient and limit in metres: changing depth_1_0 anywhere in 0-1 km changes every duration by at most 0.1%.", "quantifier": "all scenarios, all depths in [0, 1] km", "why_tests_cant": "Magnitudes, distances and velocities are continuous; a test samples finitely many scenarios.", "anchors": ["src/pygmm/afshari_stewart_2016.py:__init__", "src/pygmm/afshari_stewart_2016.py:calc_depth_1_0"]}
{"id": "C85", "title": "Baker & Jayaram: correlations are continuous in the period", "statement": "At every conditioning period between 0.0099 s and 300 s, hinges 0.109 s and 0.2 s included, the correlations with any list of periods change continuously.", "quantifier": "all conditioning periods and lists of periods", "why_tests_cant": "Magnitudes, distances and velocities are continuous; a test samples finitely many scenarios.", "anchors": ["src/pygmm/baker_jayaram_2008.py:calc_correls"]}
{"id": "C86", "title": "Baker & Jayaram: correlations decay with the separation of periods", "statement": "Moving a period farther from the conditioning period lowers the correlation as long as the ratio of the two stays below 73; beyond it the correlation rises again (9 s against 10 s for 0.12 s: violation).", "quantifier": "all period triples", "why_tests_cant": "Magnitudes, distances and velocities are continuous; a test samples finitely many scenarios.", "anchors": ["src/pygmm/baker_jayaram_2008.py:calc_correls"]}
{"id": "C87", "title": "Baker & Jayaram CMS: response to the target", "statement": "A target equal to the median gives the median spectrum back; a higher target never lowers the conditional mean at any period and leaves the standard deviations alone.", "quantifier": "all spectra, periods and pairs of targets", "why_tests_cant": "Magnitudes, distances and velocities are continuous; a test samples finitely many scenarios.", "anchors": ["src/pygmm/baker_jayaram_2008.py:calc_cond_mean_spectrum"]}
{"id": "C88", "title": "Kishida: the result is the conditional normal distribution", "statement": "The mean is the best linear prediction (weights solving the normal equations of the conditioned covariances) and the variance the unconditional one minus the explained part; it raises exactly when those equations are singular; adding conditions at values the result already has changes no mean.", "quantifier": "all spectra, masks and targets", "why_tests_cant": "Magnitudes, distances and velocities are continuous; a test samples finitely many scenarios.", "anchors": ["src/pygmm/kishida_2017.py:calc_cond_mean_spectrum_vector"]}
{"id": "C89", "title": "BA18: correlation decays with the ratio of the frequencies", "statement": "For a fixed lower frequency, a higher second frequency always has a lower correlation.", "quantifier": "all frequency lists", "why_tests_cant": "Magnitudes, distances and velocities are continuous; a test samples finitely many scenarios.", "anchors": ["src/pygmm/bayless_abrahamson_2018.py:BaylessAbrahamson2018.corr"]}
{"id": "C90", "title": "BA18: a frequency listed twice (violation)", "statement": "Expected: the same frequency in two positions is fully correlated. The matrix has 1 only on its diagonal: two equal frequencies get a value between 0.95 and 0.9987, so refining a frequency grid never approaches 1.", "quantifier": "all frequency lists with a repetition", "why_tests_cant": "Magnitudes, distances and velocities are continuous; a test samples finitely many scenarios.", "anchors": ["src/pygmm/bayless_abrahamson_2018.py:BaylessAbrahamson2018.corr"]}
{"id": "C91", "title": "HKR14: the result is that of a nearest database event", "statement": "pga, pgv, spec_accels and the standard deviations are those stored for a database event at minimal distance from the scenario (default depth 15 km). The distance adds km, m/s and magnitude units unscaled: if the database has an event that differs only by 4 magnitude units, no event more than 4 m/s away in v_s30 can be used.", "quantifier": "all databases and scenarios", "why_tests_cant": "Magnitudes, distances and velocities are continuous; a test samples finitely many scenarios.", "anchors": ["src/pygmm/hermkes_kuehn_riggelsen_2014.py:HermkesKuehnRiggelsen2014.__init__"]}
{"id": "C92", "title": "HKR14: database events are reproduced", "statement": "A scenario equal to an event of the database (without repetitions) returns exactly the values stored with it.", "quantifier": "all databases and their events", "why_tests_cant": "Magnitudes, distances and velocities are continuous; a test samples finitely many scenarios.", "anchors": ["src/pygmm/hermkes_kuehn_riggelsen_2014.py:HermkesKuehnRiggelsen2014.__init__"]}
{"id": "C93", "title": "HKR14: leaving out the optional distance raises TypeError (violation)", "statement": "dist_jb is declared optional but has no default; every scenario without it raises TypeError.", "quantifier": "all such scenarios", "why_tests_cant": "Magnitudes, distances and velocities are continuous; a test samples finitely many scenarios.", "anchors": ["src/pygmm/hermkes_kuehn_riggelsen_2014.py:HermkesKuehnRiggelsen2014.PARAMS"]}
{"id": "C94", "title": "BA19: exponential decay above 24 Hz, faster on softer sites", "statement": "At the frequencies above 24 Hz ln_eas strictly decreases, by pi*kappa per Hz, and kappa strictly decreases with v_s30.", "quantifier": "all scenarios and pairs of frequencies", "why_tests_cant": "Magnitudes, distances and velocities are continuous; a test samples finitely many scenarios.", "anchors": ["src/pygmm/bayless_abrahamson_2019.py:_calc_ln_eas"]}
{"id": "C95", "title": "BA19: on rock, growth with magnitude and decay with distance at every frequency", "statement": "For v_s30 >= 760 m/s all 301 values of ln_eas strictly increase with magnitude (any two magnitudes) and strictly decrease with distance (magnitudes up to 8.5).", "quantifier": "all pairs of scenarios", "why_tests_cant": "Magnitudes, distances and velocities are continuous; a test samples finitely many scenarios.", "anchors": ["src/pygmm/bayless_abrahamson_2019.py:_calc_ln_eas"]}
{"id": "C96", "title": "BA19: only the normal mechanism matters", "statement": "Reverse, strike-slip, unrecognised and absent mechanisms give identical spectra and standard deviations; on rock a normal mechanism lowers every value of ln_eas by exactly 0.2.", "quantifier": "all scenarios and mechanism strings", "why_tests_cant": "Magnitudes, distances and velocities are continuous; a test samples finitely many scenarios.", "anchors": ["src/pygmm/bayless_abrahamson_2019.py:_calc_ln_eas"]}
{"id": "C97", "title": "BA19: an absent depth to 1 km/s rock means the default depth", "statement": "Omitting depth_1_0 gives the same object as passing the default depth for the velocity; that default is positive, below 0.51 km and strictly decreases with velocity.", "quantifier": "all scenarios", "why_tests_cant": "Magnitudes, distances and velocities are continuous; a test samples finitely many scenarios.", "anchors": ["src/pygmm/bayless_abrahamson_2019.py:_check_inputs", "src/pygmm/bayless_abrahamson_2019.py:calc_depth_1_0"]}
{"id": "C98", "title": "PR23: duration_for_energy uses the nearest tabulated ratio", "statement": "Ratios outside [0.10, 0.95] raise ValueError and all others return; a ratio np.isclose to 0.75 returns the stored durations; any other ratio returns median and percentiles of the nearest tabulated ratio by the published conditional model, the minus value being NaN exactly when the standard deviation exceeds the transformed median.", "quantifier": "all scenarios and ratios", "why_tests_cant": "Magnitudes, distances and velocities are continuous; a test samples finitely many scenarios.", "anchors": ["src/pygmm/pinilla_ramos_et_al_2023.py:duration_for_energy"]}
{"id": "C99", "title": "PR23: percentiles are ordered for other energy ratios", "statement": "For every in-limit scenario and every ratio above 0.125, 0 < minus < median < plus. Violated for ratios nearest 0.10: near, small events on soft sites (magnitude up to 4.1, distance up to 1 km, velocity up to 155 m/s) return NaN as the minus value.", "quantifier": "all in-limit scenarios and ratios", "why_tests_cant": "Magnitudes, distances and velocities are continuous; a test samples finitely many scenarios.", "anchors": ["src/pygmm/pinilla_ramos_et_al_2023.py:duration_for_energy"]}
{"id": "C100", "title": "Stafford 2017: between-event correlation", "statement": "Within (0, 1) for different frequencies, 1 for equal ones, independent of the order, falling with the separation. Violated: the decay rate is evaluated at the frequency divided twice by the corner frequency, so the value is too large above magnitude 4.4 and too small below.", "quantifier": "all positive frequencies up to 1e6 Hz and magnitudes up to 10", "why_tests_cant": "Magnitudes, distances and velocities are continuous; a test samples finitely many scenarios.", "anchors": ["src/pygmm/stafford_2017.py:between_event_correlation", "src/pygmm/stafford_2017.py:compute_gamma_E"]}
{"id": "C101", "title": "Stafford 2017: between-site correlation", "statement": "Follows the published formula and lies in (0, 1] (below 1 unless np.isclose) when the smaller frequency is at most 70 Hz. Violated expectation: it does not tend to 1 as the frequencies approach each other; within 0.05 percent, but not isclose, it is below 0.025.", "quantifier": "all positive frequencies", "why_tests_cant": "Magnitudes, distances and velocities are continuous; a test samples finitely many scenarios.", "anchors": ["src/pygmm/stafford_2017.py:between_site_correlation"]}
{"id": "C102", "title": "Stafford 2017: within-event correlation is not a correlation (violation)", "statement": "Expected: values in [-1, 1]. Violated: for a smaller frequency from 0.001 to 10 Hz and every other frequency at least five times as large the value exceeds 1, and it grows with the separation.", "quantifier": "all positive frequencies", "why_tests_cant": "Magnitudes, distances and velocities are continuous; a test samples finitely many scenarios.", "anchors": ["src/pygmm/stafford_2017.py:within_event_correlation"]}
{"id": "C103", "title": "PR24: D5-75 follows the published form", "statement": "For supported scenarios within the limits the stored duration, percentiles, d575_median and d575_sigma are the published formulas; 0 < minus < median < plus; sigma between 0.05 and 0.26; the duration strictly grows with magnitude and distance, is longer on softer sites, and is continuous in magnitude and distance, also at magnitude 6 and 250 km.", "quantifier": "all supported pairs, magnitudes, distances, velocities", "why_tests_cant": "Magnitudes, distances and velocities are continuous; a test samples finitely many scenarios.", "anchors": ["src/pygmm/pinilla_ramos_et_al_2024.py:PinillaRamosEtAl2024._calc_d575_median,_calc_d575_sigma"]}
{"id": "C104", "title": "PR24: other energy thresholds", "statement": "duration_for_energy raises ValueError outside [0.10, 0.95]; inside it returns the values of the nearest of the thresholds 0.10, 0.15, ..., 0.95 by the published ratio and first-order uncertainty; 0 < minus < median < plus (never NaN); near 0.75 it returns the stored durations; a higher energy never gives a shorter duration and gives a strictly longer one for different thresholds.", "quantifier": "all supported scenarios within the limits, all energies", "why_tests_cant": "Magnitudes, distances and velocities are continuous; a test samples finitely many scenarios.", "anchors": ["src/pygmm/pinilla_ramos_et_al_2024.py:PinillaRamosEtAl2024.duration_for_energy,_calc_duration,_get_energy_coefficients"]}
{"id": "C105", "title": "PR24: durations by name", "statement": "d5x_median scales the D5-75 median by a fixed factor for the twelve names and raises ValueError otherwise; d5x_sigma ignores the name. Expected: the same value as duration_for_energy. Violated: from D5-10 to D5-70 the named duration is longer in every scenario, for D5-10 more than four times.", "quantifier": "all supported scenarios within the limits, all names", "why_tests_cant": "Magnitudes, distances and velocities are continuous; a test samples finitely many scenarios.", "anchors": ["src/pygmm/pinilla_ramos_et_al_2024.py:PinillaRamosEtAl2024.d5x_median,d5x_sigma"]}
{"id": "C106", "title": "PR24: duration_model on arrays", "statement": "duration_model agrees with the class on the first elements of its arrays and raises IndexError for an empty one. Expected: one result per scenario. Violated: elements after the first are ignored and every result has length one.", "quantifier": "all arrays, regions, types and energies", "why_tests_cant": "Magnitudes, distances and velocities are continuous; a test samples finitely many scenarios.", "anchors": ["src/pygmm/pinilla_ramos_et_al_2024.py:duration_model"]}
{"id": "C107", "title": "C03: outputs are the published Campbell (2003) equations", "statement": "For every magnitude and every non-negative rupture distance, the period array, spectral accelerations and log standard deviations of Campbell2003 are, row by row of the coefficient table, the published closed forms (three-segment attenuation, magnitude-saturating near-source term, magnitude-dependent sigma with its break at 7.16).", "quantifier": "all magnitudes, all distances >= 0, all periods", "why_tests_cant": "Magnitudes, distances and velocities are continuous; a test samples finitely many scenarios.", "anchors": ["src/pygmm/campbell_2003.py:Campbell2003"]}
{"id": "C108", "title": "TP05: outputs are the published Tavakoli & Pezeshk (2005) equations", "statement": "For every magnitude up to 8.5 and non-negative distance, PGA, spectral accelerations and standard deviations of TavakoliPezeshk05 are the published closed forms; PGA is the period-0 row of the table and is not part of the spectrum.", "quantifier": "all magnitudes <= 8.5, all distances >= 0, all periods", "why_tests_cant": "Magnitudes, distances and velocities are continuous; a test samples finitely many scenarios.", "anchors": ["src/pygmm/tavakoli_pezeshk_2005.py:TavakoliPezeshk05"]}
{"id": "C109", "title": "PZT11: outputs are the published Pezeshk et al. (2011) equations", "statement": "For every magnitude and distance, PGA, spectral accelerations and standard deviations of PezeshkZandiehTavakoli2011 are the published closed forms in base-10 logarithms, with hinge distances 70 and 140 km and the sigma break at magnitude 7.", "quantifier": "all magnitudes and distances, all periods", "why_tests_cant": "Magnitudes, distances and velocities are continuous; a test samples finitely many scenarios.", "anchors": ["src/pygmm/pezeshk_et_al_2011.py:PezeshkZandiehTavakoli2011"]}
{"id": "C110", "title": "I14: outputs are the published Idriss (2014) equations", "statement": "For every magnitude, non-negative distance, positive v_s30 and mechanism SS or RS, PGA, spectral accelerations and standard deviations of Idriss2014 are the published closed forms with the coefficient table chosen at magnitude 6.75 (inclusive) and the period and magnitude clips of sigma.", "quantifier": "all magnitudes, distances >= 0, v_s30 > 0, both mechanisms, all periods", "why_tests_cant": "Magnitudes, distances and velocities are continuous; a test samples finitely many scenarios.", "anchors": ["src/pygmm/idriss_2014.py:Idriss2014"]}
{"id": "C111", "title": "AB06: outputs follow the Atkinson & Boore (2006) equations", "statement": "For every magnitude and positive distance, each of PGA, PGV, PGD and the spectral accelerations of AtkinsonBoore2006 is 10^(hard-rock or B/C equation + stress adjustment + site term)/980.665 of its own table row, the stress adjustment and the site term being linear interpolations over period of their tables, the site term driven by the B/C PGA in cm/s2; v_s30 = 0 selects the hard-rock table without site term; sigma is 0.30 at all periods.", "quantifier": "all magnitudes, distances > 0, v_s30 >= 0, all periods", "why_tests_cant": "Magnitudes, distances and velocities are continuous; a test samples finitely many scenarios.", "anchors": ["src/pygmm/atkinson_boore_2006.py:AtkinsonBoore2006"]}
{"id": "C112", "title": "CY14: outputs follow the Chiou & Youngs (2014) equations", "statement": "For every scenario with a non-negative rupture distance and positive v_s30, the spectral accelerations, PGA, PGV and their standard deviations reported by ChiouYoungs2014 are the published functional form (style of faulting, Z_TOR, dip, magnitude, geometric and anelastic attenuation with regional factors, directivity, hanging wall, nonlinear site response, basin term, heteroscedastic sigma) with the coefficients of its own table row, omitted inputs replaced by the published centering relations.", "quantifier": "all scenarios, all 24 periods, PGA and PGV, all regions, mechanisms and subsets of omitted optional inputs", "why_tests_cant": "Magnitudes, distances and velocities are continuous; a test samples finitely many scenarios.", "anchors": ["src/pygmm/chiou_youngs_2014.py:ChiouYoungs2014"]}
{"id": "C113", "title": "BSSA14: outputs follow the Boore et al. (2014) equations on every soil", "statement": "For every scenario with positive v_s30, the spectral accelerations, PGA, PGV and their standard deviations reported by BooreStewartSeyhanAtkinson2014 are event + path + linear site + nonlinear site (driven by the model's own rock PGA) + basin term of their own table row; the sigma is the root of tau^2+phi^2.", "quantifier": "all scenarios, all 105 periods, PGA and PGV", "why_tests_cant": "Magnitudes, distances and velocities are continuous; a test samples finitely many scenarios.", "anchors": ["src/pygmm/boore_stewart_seyhan_atkinson_2014.py:BooreStewartSeyhanAtkinson2014"]}
{"id": "C114", "title": "CB14: outputs follow the Campbell & Bozorgnia (2014) equations", "statement": "For every scenario with 0 < dip <= 90, positive v_s30 and (when no hypocentral depth is given) a rupture bottom below its top, the outputs of CampbellBozorgnia2014 are the magnitude, distance, faulting, hanging-wall, site, basin, hypocentral-depth, dip and anelastic terms of their own table row, the site term driven by the rock PGA at 1100 m/s; omitted geometry is estimated from magnitude, dip and mechanism; sigma contains the correlated nonlinear-site contribution. (The Japanese site term and the attenuation in China are as coded: C62, C23.)", "quantifier": "all scenarios, all 21 periods, PGA and PGV, all subsets of omitted optional inputs", "why_tests_cant": "Magnitudes, distances and velocities are continuous; a test samples finitely many scenarios.", "anchors": ["src/pygmm/campbell_bozorgnia_2014.py:CampbellBozorgnia2014"]}
{"id": "C115", "title": "ASK14: outputs follow the Abrahamson, Silva & Kamai (2014) equations", "statement": "For every scenario with positive v_s30, a non-negative Z1.0 if given and (for a site declared on the hanging wall) a non-negative dist_x and a dip in (0, 90], the outputs of AbrahamsonSilvaKamai2014 are f1 + f4 + f6 + f7/f8 + f11 + regional + f5 + f10 of their own table row, f5 driven by the response of the same row at 1180 m/s; width and Z_TOR are estimated when omitted; the sigma has the nonlinear-site correction of tau and phi.", "quantifier": "all scenarios, all 22 periods, PGA and PGV, all subsets of omitted optional inputs", "why_tests_cant": "Magnitudes, distances and velocities are continuous; a test samples finitely many scenarios.", "anchors": ["src/pygmm/abrahamson_silva_kamai_2014.py:AbrahamsonSilvaKamai2014"]}
{"id": "C116", "title": "Boore et al. (2014): larger earthquakes shake harder, except on soft soil beside the fault", "statement": "With everything else unchanged, raising the magnitude raises every spectral acceleration, PGA and PGV that BooreStewartSeyhanAtkinson2014 predicts for a site of 300 m/s or more, and raises PGA on every site of 150 m/s or more, at every distance, mechanism and region. On soft soil (150 to 200 m/s) within 1 km of the rupture the expectation fails at short periods: the spectral acceleration at 0.15 s of a magnitude 8 is more than one percent below that of a magnitude 7.", "quantifier": "all magnitudes m1 < m2 (m1 >= 0), distances >= 0, mechanisms, regions, basin depths and stated site velocities", "why_tests_cant": "Magnitudes, distances and velocities are continuous; a test samples finitely many scenarios.", "anchors": ["src/pygmm/boore_stewart_seyhan_atkinson_2014.py:BooreStewartSeyhanAtkinson2014"]}
{"id": "C117", "title": "Campbell & Bozorgnia (2014): larger earthquakes shake harder, unless they are deep or the soil is very soft", "statement": "Off the hanging wall, with the hypocentre given at 12 km or shallower, raising the magnitude raises PGA on every site of 150 m/s or more, provided the rupture is at least 3 km away or the larger magnitude is at most 6.5, and every response CampbellBozorgnia2014 predicts on sites of 400 m/s or more at 3 km or more, or of 300 m/s or more at any distance when the larger magnitude is at most 6.5. On very soft soil (150 to 155 m/s) within 2 km of a shallow strike-slip rupture the spectral acceleration at 0.3 s falls by more than 5 % from magnitude 5.5 to 6.5. With a hypocentre at 20 km or deeper and a rupture within 10 km the opposite happens: PGA for magnitude 6.5 is below PGA for magnitude 5.5.", "quantifier": "all magnitudes, distances, dips, mechanisms, regions and site velocities in the stated ranges", "why_tests_cant": "Magnitudes, distances and velocities are continuous; a test samples finitely many scenarios.", "anchors": ["src/pygmm/campbell_bozorgnia_2014.py:CampbellBozorgnia2014"]}
{"id": "C118", "title": "Chiou & Youngs (2014): larger earthquakes shake harder, except across the regional attenuation bracket", "statement": "Off the hanging wall and without a directivity term, with the depth to the top of rupture left to the model, raising the magnitude (to at most 10) raises every response ChiouYoungs2014 predicts on every site of 180 m/s or more, in California and China at all magnitudes and elsewhere whenever the two magnitudes are on the same side of the 6 to 6.9 attenuation bracket. Across the edge of that bracket it fails: in Japan and Italy, at 100 km or more, PGA for magnitude 6.3 is below PGA for magnitude 6.", "quantifier": "all magnitudes, distances, dips, mechanisms, site velocities >= 180 m/s", "why_tests_cant": "Magnitudes, distances and velocities are continuous; a test samples finitely many scenarios.", "anchors": ["src/pygmm/chiou_youngs_2014.py:ChiouYoungs2014"]}
{"id": "C119", "title": "Abrahamson et al. (2014): larger earthquakes shake harder, except very close to the rupture", "statement": "Off the hanging wall, raising the magnitude (to at most 8.5) raises every response AbrahamsonSilvaKamai2014 predicts on every site of 180 m/s or more, from 2 km on when the depth to the top of rupture is given and from 8 km on when it is left to the model. Closer it fails: within 5 km, with that depth left to the model, PGA for magnitude 7.2 is below PGA for magnitude 7; within 500 m PGA for magnitude 4.2 is below PGA for magnitude 4.", "quantifier": "all magnitudes, distances, mechanisms, regions, aftershock flags, basin depths and site velocities in the stated ranges", "why_tests_cant": "Magnitudes, distances and velocities are continuous; a test samples finitely many scenarios.", "anchors": ["src/pygmm/abrahamson_silva_kamai_2014.py:AbrahamsonSilvaKamai2014"]}
{"id": "C120", "title": "A matrix of Baker-Jayaram correlations is a correlation matrix", "statement": "For any list of periods, all longer than 0.109 s and no two further apart than a factor of 73, the square matrix whose row for each period is `calc_correls(periods, period)` contains only numbers and is positive semidefinite: the weighted sum over all pairs is never negative, whatever the weights. If no period is repeated the matrix is positive definite, so it can be inverted and Cholesky-factored.", "quantifier": "all lists of such periods (any length), all weights", "why_tests_cant": "Magnitudes, distances and velocities are continuous; a test samples finitely many scenarios.", "anchors": ["src/pygmm/baker_jayaram_2008.py: calc_correls"]}
{"id": "C121", "title": "Conditioning on any number of periods above 0.109 s", "statement": "`calc_cond_mean_spectrum_vector` never raises when the periods with targets are all longer than 0.109 s, no two further apart than a factor of 73, and their standard deviations are positive - however many targets there are. At every period that also lies in that range the conditional standard deviation is a number between zero and the unconditioned one, and positive where there is no target. Adding targets at further periods never raises the standard deviation at any of those periods, whatever the target values.", "quantifier": "all spectra with increasing periods, all sets of targets of any size, all target values", "why_tests_cant": "Magnitudes, distances and velocities are continuous; a test samples finitely many scenarios.", "anchors": ["src/pygmm/kishida_2017.py: calc_cond_mean_spectrum_vector"]}
{"id": "C122", "title": "Printing a scenario", "statement": "`repr(scenario)` shows the magnitude and the Joyner-Boore distance, and works exactly for scenarios that hold both; otherwise it raises KeyError naming the first missing one. So `repr(model.scenario)` never works for the fifteen shipped models that do not declare dist_jb - not even when the scenario the model was built from has it - and always works for the other seven.", "quantifier": "all scenarios; all shipped models and all mappings they accept", "why_tests_cant": "Magnitudes, distances and velocities are continuous; a test samples finitely many scenarios.", "anchors": ["src/pygmm/model.py:Scenario.__repr__"]}
{"id": "C123", "title": "Asking a scenario for a name it does not hold", "statement": "A missing attribute raises KeyError, not AttributeError. Therefore `hasattr(scenario, name)` never answers False and `getattr(scenario, name, default)` never gives the default: both raise KeyError for every name that is not a recognised key, a member of the class or assigned, on every scenario any program obtains. `copy.deepcopy(scenario)` always raises KeyError, and unpickling a pickled scenario exhausts the stack at every recursion limit.", "quantifier": "all histories of construction, copying, assignment and model construction; all names; all recursion limits", "why_tests_cant": "Magnitudes, distances and velocities are continuous; a test samples finitely many scenarios.", "anchors": ["src/pygmm/model.py:Scenario.__getattr__"]}
{"id": "C124", "title": "Merging entries into a scenario", "statement": "`scenario | mapping` and `mapping | scenario` always raise TypeError. `scenario |= mapping` and `scenario.update(mapping)` install every entry without the recognised-key check that construction and `copy_with` make; such entries survive `copy_with` but no shipped model sees them.", "quantifier": "all scenarios, mappings and keywords; all shipped models", "why_tests_cant": "Magnitudes, distances and velocities are continuous; a test samples finitely many scenarios.", "anchors": ["src/pygmm/model.py:Scenario.__init__"]}
{"id": "C125", "title": "Atkinson & Boore (2006): zero distance", "statement": "Zero dist_rup is accepted without a warning, but gives no prediction: with a plain Python number the constructor raises ZeroDivisionError for every magnitude and velocity, and with a numpy scalar it returns a model none of whose responses is a positive number. At every other distance Python numbers and numpy scalars give the same model.", "quantifier": "all magnitudes and velocities", "why_tests_cant": "Magnitudes, distances and velocities are continuous; a test samples finitely many scenarios.", "anchors": ["src/pygmm/atkinson_boore_2006.py:AtkinsonBoore2006"]}
{"id": "C126", "title": "Constructing a model with keywords", "statement": "A model whose constructor passes its arguments on (GulerceAbrahamson2011, and the base class) can be built from recognised keywords alone, with the same result as from a scenario of them; an unrecognised keyword raises Warning. Expected: keywords given beside a scenario override it or are refused. Violated: they are ignored, recognised or not, and when two positional arguments are given both are ignored.", "quantifier": "all parameter lists, scenarios and keywords", "why_tests_cant": "Magnitudes, distances and velocities are continuous; a test samples finitely many scenarios.", "anchors": ["src/pygmm/model.py:Model.__init__; src/pygmm/gulerce_abrahamson_2011.py:GulerceAbrahamson2011.__init__"]}
{"id": "C127", "title": "BSSA14's outputs move continuously with magnitude, distance and site velocity", "statement": "Along any continuous change of magnitude, distances and site velocity (velocity positive at the point considered), every reported median (PGA, PGV, every spectral ordinate, compared in log) and every reported standard deviation of BSSA14 changes continuously: no output jumps where the equations change branch (hinge magnitude of each row, magnitude and distance brackets of the standard deviation, limits of the site velocity).", "quantifier": "every scenario, every continuous path of (magnitude, dist_rup, dist_jb, v_s30) and every point of it, every output", "why_tests_cant": "Magnitudes, distances and velocities are continuous; a test samples finitely many scenarios.", "anchors": ["src/pygmm/boore_stewart_seyhan_atkinson_2014.py: _calc_ln_resp, _calc_ln_std"]}
{"id": "C128", "title": "CB14's outputs move continuously, except in Japan at 200 m/s", "statement": "Along any continuous change of magnitude, distances and site velocity every median and standard deviation of CB14 changes continuously. The one exception is the Japanese site term: for region japan with a given basin depth the PGA jumps by more than 10 percent when v_s30 passes 200 m/s, because the extra soil term is switched on by v_s30 <= 200 and is not zero there.", "quantifier": "every scenario with a defined geometry, every continuous path of (magnitude, dist_rup, dist_jb, v_s30); every Japanese scenario at 200 m/s for the jump", "why_tests_cant": "Magnitudes, distances and velocities are continuous; a test samples finitely many scenarios.", "anchors": ["src/pygmm/campbell_bozorgnia_2014.py: _calc_ln_resp, _calc_ln_std"]}
{"id": "C129", "title": "CY14's outputs move continuously, except in Japan and Italy at magnitudes 6 and 6.9", "statement": "Along any continuous change of magnitude, distances and site velocity every median and standard deviation of CY14 changes continuously outside the regions japan and italy, and also inside them away from magnitudes 6 and 6.9. In Italy the outputs jump at magnitude 6, whatever the distance: the anelastic attenuation is scaled by a regional factor only for 6 < M < 6.9.", "quantifier": "every scenario, every continuous path of (magnitude, dist_rup, dist_jb, v_s30); every rock-site scenario in Italy for the jump", "why_tests_cant": "Magnitudes, distances and velocities are continuous; a test samples finitely many scenarios.", "anchors": ["src/pygmm/chiou_youngs_2014.py: _calc_ln_resp_ref, _calc_ln_resp_site, _calc_ln_std"]}
{"id": "C130", "title": "ASK14's outputs move continuously, except at 1180 m/s when a basin depth is given", "statement": "Along any continuous change of magnitude, distances and site velocity every median and standard deviation of ASK14 changes continuously (aftershock, hanging-wall and regional terms included); with a given depth_1_0 the velocity 1180 m/s is excepted. There the outputs do jump: for depth_1_0 of at least 0.5 km some ordinate changes by 75 percent between 1180 m/s and any larger velocity.", "quantifier": "every scenario, every continuous path of (magnitude, dist_rup, dist_jb, v_s30); every global scenario with depth_1_0 >= 0.5 km for the jump", "why_tests_cant": "Magnitudes, distances and velocities are continuous; a test samples finitely many scenarios.", "anchors": ["src/pygmm/abrahamson_silva_kamai_2014.py: _calc_ln_resp, _calc_ln_std"]}
{"id": "C131", "title": "HKR14: constructions in several threads give the result of a lone construction", "statement": "Constructing HKR14 models from several threads, with any interleaving of their steps, gives every thread exactly the result it would get alone, as long as the data file does not change or the data have already been loaded; every thread finishes after at most five steps of its own, whatever the others do. If the file is replaced while two first constructions overlap, they can end up with different data sets, which constructions one after the other never do (C36).", "quantifier": "any number of threads and scenarios, every interleaving, every content of the data file at every moment", "why_tests_cant": "All schedules; races show up only under particular interleavings.", "anchors": ["src/pygmm/hermkes_kuehn_riggelsen_2014.py:INTERPOLATOR"]}
{"id": "C132", "title": "HKR14 refuses infinite and NaN inputs", "statement": "A scenario whose magnitude, depth, distance or velocity is infinite or NaN passes the parameter check but raises ValueError from the interpolator, and this happens exactly for those scenarios; the data file has then been loaded all the same, so later constructions are not affected.", "quantifier": "all values of the four numbers, infinities and NaN included, all mechanisms and data sets", "why_tests_cant": "Magnitudes, distances and velocities are continuous; a test samples finitely many scenarios.", "anchors": ["src/pygmm/hermkes_kuehn_riggelsen_2014.py:HermkesKuehnRiggelsen2014.__init__"]}
{"id": "C133", "title": "CB14: short-period spectral accelerations fall below PGA (violation)", "statement": "The publication sets the spectral acceleration at periods below 0.25 s to PGA where the equation gives less; the library does not. For global strike-slip events of magnitude 8 to 8.5 on vertical faults, 270 to 300 km away on rock of 1100 to 1500 m/s, the reported acceleration at 0.15 s is more than 10 percent below the reported PGA.", "quantifier": "all scenarios in these ranges", "why_tests_cant": "Magnitudes, distances and velocities are continuous; a test samples finitely many scenarios.", "anchors": ["src/pygmm/campbell_bozorgnia_2014.py:CampbellBozorgnia2014.__init__"]}
{"id": "C134", "title": "The hanging wall does not lower the shaking", "statement": "For ASK14 (180 m/s and more), saying that the site is on the hanging wall lowers no ordinate, and raises PGA strictly above a dipping rupture; for CB14 a positive dist_x instead of a negative one lowers no PGA, and on rock (above 1086 m/s) no ordinate at all. For CY14 the same holds as long as sqrt(dist_jb^2 + depth_tor^2) does not exceed dist_rup + 1 km; beyond that - which happens with the model's own default depth_tor for small magnitudes - the hanging wall lowers PGA.", "quantifier": "all scenarios with valid geometry, all ordinates", "why_tests_cant": "Magnitudes, distances and velocities are continuous; a test samples finitely many scenarios.", "anchors": ["src/pygmm/abrahamson_silva_kamai_2014.py:AbrahamsonSilvaKamai2014._calc_f4; src/pygmm/chiou_youngs_2014.py:ChiouYoungs2014._calc_ln_resp_ref; src/pygmm/campbell_bozorgnia_2014.py:CampbellBozorgnia2014._calc_ln_resp"]}
{"id": "C135", "title": "Style of faulting", "statement": "A normal-faulting rupture shakes strictly less than the same strike-slip one in BSSA14 at every ordinate (sites of 180 m/s and more) and in ASK14 (above magnitude 4); not more in CB14 (PGA everywhere, every ordinate on rock, depth_tor given) and in CY14 (off the hanging wall, depth_tor omitted). Reverse and strike-slip ruptures give identical medians and standard deviations in ASK14 and, with depth_tor given, in CB14; in CY14 with depth_tor omitted the reverse rupture never shakes less.", "quantifier": "all scenarios with valid geometry, all ordinates", "why_tests_cant": "Magnitudes, distances and velocities are continuous; a test samples finitely many scenarios.", "anchors": ["src/pygmm/boore_stewart_seyhan_atkinson_2014.py:BooreStewartSeyhanAtkinson2014; src/pygmm/abrahamson_silva_kamai_2014.py:AbrahamsonSilvaKamai2014; src/pygmm/campbell_bozorgnia_2014.py:CampbellBozorgnia2014; src/pygmm/chiou_youngs_2014.py:ChiouYoungs2014"]}
{"id": "C136", "title": "Interpolation over period: every kind", "statement": "interp_ln_spec_accels, interp_spec_accels and interp_ln_stds accept the kinds linear, slinear, previous, zero, next, nearest, nearest-up, quadratic and cubic of scipy (splines need 3 and 4 periods) and raise NotImplementedError for any other. Every kind returns the tabulated value at a tabulated period and NaN outside the tabulated periods. Between two neighbours previous and zero give the value of the shorter period, next that of the longer, nearest that of the one closer in log period (the shorter one at the geometric mean, nearest-up the longer), linear and slinear the line in log period. The periods of all fourteen ground motion models of the library are positive and strictly increasing, as all this requires.", "quantifier": "all models, tabulated values, kinds and lists of non-negative periods", "why_tests_cant": "Magnitudes, distances and velocities are continuous; a test samples finitely many scenarios.", "anchors": ["src/pygmm/model.py:GroundMotionModel.interp_ln_spec_accels, interp_spec_accels, interp_ln_stds"]}
{"id": "C137", "title": "Basin depth moves the NGA-West2 medians as published", "statement": "Raising depth_1_0 and changing nothing else: BSSA14 never predicts less at any period, changes nothing below 0.65 s, in PGA and in PGV, and from 1.2 km down no longer changes at all; CY14 outside Japan changes nothing up to 0.25 s and in PGA and predicts more above 0.25 s and in PGV, in Japan it predicts more everywhere; ASK14 predicts more everywhere below 400 m/s, but above 400 m/s (other than 1180 m/s) it predicts less PGA and less at periods up to 0.2 s, and more above 0.25 s and in PGV, and at exactly 1180 m/s the depth has no effect. Raising depth_2_5: CB14 does not change between 1 and 3 km, predicts more everywhere beyond 3 km, and below 1 km predicts less PGA and short-period motion (up to 0.1 s, in Japan 0.25 s) and more long-period motion (from 0.15 s, in Japan 0.3 s) and PGV.", "quantifier": "all scenarios the models accept with the stated site conditions and all pairs of depths", "why_tests_cant": "Magnitudes, distances and velocities are continuous; a test samples finitely many scenarios.", "anchors": ["src/pygmm/boore_stewart_seyhan_atkinson_2014.py, src/pygmm/chiou_youngs_2014.py, src/pygmm/abrahamson_silva_kamai_2014.py, src/pygmm/campbell_bozorgnia_2014.py"]}
{"id": "C138", "title": "Writing into an array a model returned changes nothing, except for freqs, ln_eas and ln_std", "statement": "In any program that constructs models, reads their array properties and writes into the arrays it got, writes into arrays obtained from periods, spec_accels, ln_stds, ratio, eas, the peak values or the interpolations change nothing the program ever sees, in the same model or any other. Violated for freqs and ln_eas of BaylessAbrahamson2019 and ln_std of BaylessAbrahamson2019 and GulerceAbrahamson2011: these hand out the model's own array, so a write changes what the model reports from then on (eas follows ln_eas), and freqs is one array for the whole class, so `f = m.freqs; f *= 2 * pi` changes the frequencies of every model and lowers the prediction of every model constructed later at all frequencies above 24 Hz.", "quantifier": "all programs over any library of model classes, of any length, and all values written", "why_tests_cant": "Magnitudes, distances and velocities are continuous; a test samples finitely many scenarios.", "anchors": ["src/pygmm/model.py GroundMotionModel, src/pygmm/bayless_abrahamson_2019.py, src/pygmm/gulerce_abrahamson_2011.py"]}
{"id": "C139", "title": "Warnings a session shows", "statement": "Over a session of model constructions and warning-filter changes: with the interpreter's default filter every warning text that some construction emits is shown exactly once in the whole process, so constructing again shows nothing, and another model whose limits the same number also violates shows nothing (the text names neither the model nor the limit); the text that a default is used is shown once for each parameter name. An out-of-range construction is therefore not always reported. Under 'always' every emitted text is shown, under 'ignore' none, and in neither case, nor by default, does the filter change what the construction returns or raises; under 'error' a model is constructed exactly when every number lies within its limits and every choice is one of the options, and otherwise the first warning is raised.", "quantifier": "every finite sequence of constructions (all parameter lists and inputs) and filter changes", "why_tests_cant": "What is shown depends on the whole history of the process; a test runs a few short histories, usually under a filter that pytest resets.", "anchors": ["src/pygmm/model.py: NumericParameter.check, CategoricalParameter.check, Model._check_inputs; warnings.warn registry semantics"]}
{"id": "C140", "title": "Standard deviation and magnitude in the NGA-West2 models", "statement": "A larger earthquake is expected to be no more variable than a smaller one with everything else equal. BooreStewartSeyhanAtkinson2014 gives the larger magnitude a standard deviation no larger, at every period up to 5 s and for PGA and PGV, at every site and distance, and a smaller one when some of the interval lies between magnitudes 4.5 and 5.5; for a magnitude up to 4.5 against one from 5.5 on this holds at every period, but from 6.5 to 8 s magnitude 5.5 gets a larger deviation than 5.4 (violation). ChiouYoungs2014 falls likewise (strictly when some of the interval lies between 5 and 6.5) on all soils from 180 m/s, outside Japan at every period and in Japan except at 0.12 s and from 0.75 to 4 s; on rock in Japan magnitude 6.5 gets a larger deviation than 6.3 at 1.5 and 2 s (violation). AbrahamsonSilvaKamai2014 on rock falls in Japan, and elsewhere up to 0.75 s, but from 1 s on magnitude 5 gets a larger deviation than 4 (violation). CampbellBozorgnia2014 on rock falls up to 5 s; at 10 s the larger event between 4.5 and 5.5 gets the larger deviation (violation).", "quantifier": "all scenarios the models accept with the stated site conditions and all pairs of magnitudes", "why_tests_cant": "Magnitudes, distances and velocities are continuous; a test samples finitely many scenarios.", "anchors": ["src/pygmm/boore_stewart_seyhan_atkinson_2014.py _calc_ln_std, src/pygmm/chiou_youngs_2014.py _calc_ln_std, src/pygmm/abrahamson_silva_kamai_2014.py _calc_ln_std, src/pygmm/campbell_bozorgnia_2014.py _calc_ln_std"]}
{"id": "C141", "title": "Softer sites shake harder, except under strong shaking at short periods", "statement": "For the four NGA-West2 models, with every other input equal and no depth_1_0 given, going from v_s30 = v1 to a larger v2 does not raise, and below a stated velocity lowers, the PGA, the PGV and the spectral acceleration at every period as long as the same scenario on rock is weak: BSSA14, PGA at 760 m/s at most 0.08 g (at most 1 g from 1.5 s, 1000 g from 2 s; strictly lower if v1 < 760); CY14, response at 1130 m/s at the same period at most 0.08 g, PGV at most 10 cm/s (at most 10 g from 2 s, any from 5 s; strictly if v1 < 1130); ASK14 outside Japan with v1 >= 180, response at 1180 m/s at most 0.07 g, PGV at most 250 cm/s (any from 3 s; strictly if v1 < 800); CB14 outside Japan with v1 >= 180, PGA at 1100 m/s at most 0.02 g (any from 2 s), with depth_2_5 given or from 0.15 s. Under strong rock shaking the order of the PGAs is reversed between 180 and 360 m/s: BSSA14 from 0.45 g, CY14 outside Japan from 0.35 g, ASK14 outside Japan from 0.4 g, CB14 outside Japan with depth_2_5 given from 0.2 g.", "quantifier": "all pairs of velocities, all scenarios meeting the geometric preconditions of the models, all reported periods", "why_tests_cant": "Magnitudes, distances and velocities are continuous; a test samples finitely many scenarios.", "anchors": ["src/pygmm/boore_stewart_seyhan_atkinson_2014.py:_calc_ln_resp; src/pygmm/chiou_youngs_2014.py:_calc_ln_resp_site; src/pygmm/abrahamson_silva_kamai_2014.py:_calc_ln_resp; src/pygmm/campbell_bozorgnia_2014.py:_calc_ln_resp"]}
{"id": "C142", "title": "What each ground motion model offers, whatever the scenario", "statement": "For thirteen ground motion models (all but HKR14), every construction that succeeds, with any scenario inside or outside the limits (and any adjust_c1 / scale_atten for the two subduction models), reports the same list of periods, with as many spectral accelerations and standard deviations: C03 16, TP05 13, PZT11 22, I14 22, AB06 24, CY14 24, BSSA14 105, CB14 21, ASK14 22, ASB14 62, AGA16 22, COP14 14, DBC14 62. PGA and its standard deviation can be read from all but C03, PGV from AB06, ASB14, ASK14, BSSA14, CB14, CY14 and DBC14, PGD from AB06 only; everything else raises NotImplementedError, never an IndexError. The PGA of I14 and COP14 is the first entry of the spectrum. ABBREV identifies the model except that Campbell & Bozorgnia (2014) and Coppersmith & Bommer (2014) share CB14.", "quantifier": "all scenarios, all values of the constructor options, every instance", "why_tests_cant": "Magnitudes, distances and velocities are continuous; a test samples finitely many scenarios.", "anchors": ["src/pygmm/model.py:GroundMotionModel; src/pygmm/abrahamson_gregor_addo_2016.py; src/pygmm/coppersmith_bommer_2014.py:ABBREV; src/pygmm/campbell_bozorgnia_2014.py:ABBREV"]}
{"id": "C143", "title": "Larger earthquakes shake harder in the stable-continent, European and subduction models", "statement": "With everything but the magnitude fixed, a larger magnitude gives strictly larger accelerations: Campbell (2003) at every distance up to magnitude 8.1; Tavakoli & Pezeshk (2005) from magnitude 5 to 7.1 at every distance and to 8.2 from 20 km; Pezeshk et al. (2011) to magnitude 6.6 at every distance and to 8 from 15 km; ASB14 (PGA, PGV and all periods) for magnitude 4-8, every distance metric, mechanism and site; AGA16 and Coppersmith & Bommer (2014) from magnitude 3 to the break magnitude at every distance and to 8.5 from 20 km: PGA on every site from 150 m/s, all periods on rock (>= 1086 m/s). Expected without those limits; violated near the source for the largest events: Campbell's 0.15 s response falls from 8.15 to 8.2 at 0 km, Tavakoli & Pezeshk's PGA from 7.5 to 8.2 and Pezeshk's from 7 to 8 at 1 km, AGA16's interface PGA from 8.1 to 8.5 at 1 km.", "quantifier": "every pair of magnitudes, every distance, site, mechanism, event type and break-magnitude shift in the stated ranges", "why_tests_cant": "Magnitudes, distances and velocities are continuous; a test samples finitely many scenarios.", "anchors": ["src/pygmm/campbell_2003.py:_calc_ln_resp", "src/pygmm/tavakoli_pezeshk_2005.py:_calc_ln_resp", "src/pygmm/pezeshk_zandieh_tavakoli_2011.py:_calc_ln_resp", "src/pygmm/akkar_sandikkaya_bommer_2014.py:_calc_ln_resp", "src/pygmm/abrahamson_gregor_addo_2016.py:_calc_ln_resp", "src/pygmm/coppersmith_bommer_2014.py:_calc_ln_resp"]}
{"id": "C144", "title": "What each model asks of a scenario", "statement": "For each of the 21 constructors C03, TP05, PZT11, AB06, I14, ASB14, DBC14, AGA16, COP14, BSSA14, CY14, CB14, ASK14, HKR14, the durations AS96, AS16, KS06, PR23, PR24, BA19 and GA11 a table gives, per input, its name, whether it must be given, its recommended limits or options and its default, and the constructor follows the table: without a needed value (missing or None) it raises; leaving out an optional value that has a default, or giving None, gives the same object, exceptions and warnings as giving the default; when an object is built from a number given for an input, the 'less than the recommended limit' warning for that name and number is emitted exactly when the number is below the table's lower limit and the 'greater than' warning exactly when it is above the upper limit (and not below the lower one); when a text is given for a choice, 'Using default value' is emitted exactly when the text is not among the options and then (when there is a default) the outcome is that of giving the default; a given boolean never draws that warning. The outcome and the warnings depend on no other key of the mapping.", "quantifier": "all 21 constructors, every source mapping, every real value or text given for an input, all options of the subduction constructors, every content of the HKR14 data file and any interpolator", "why_tests_cant": "Magnitudes, distances and velocities are continuous; a test samples finitely many scenarios.", "anchors": ["src/pygmm/model.py:NumericParameter.check", "src/pygmm/model.py:CategoricalParameter.check", "src/pygmm/model.py:Model.__init__", "src/pygmm/*.py:PARAMS"]}
{"id": "C145", "title": "Magnitude limits that depend on the style of faulting", "statement": "When BSSA14, CY14 or CB14 is built from a scenario with a given magnitude and a recognised mechanism, besides the warnings of C144 exactly the following text about the magnitude is emitted, and no other: BSSA14 - 'Magnitude (m) exceeds recommended bounds (3 to 8.5) for a strike-slip earthquake!' for SS outside [3, 8.5] and the same with 3 to 7 and 'normal-slip' for NS outside [3, 7], nothing for RS and U; CY14 - 'Magnitude (m) exceeds recommended bounds (lo to hi) for a t earthquake!' exactly outside [3.5, 8] for RS and NS and outside [3.5, 8.5] for SS and U; CB14 - 'Magnitude of m is greater than the recommended limit of L for t style faults' exactly above L = 8.5 (SS), 8 (RS), 7.5 (NS).", "quantifier": "every source mapping giving a real magnitude and a recognised mechanism for which the object is built", "why_tests_cant": "Magnitudes, distances and velocities are continuous; a test samples finitely many scenarios.", "anchors": ["src/pygmm/boore_stewart_seyhan_atkinson_2014.py:_check_inputs", "src/pygmm/chiou_youngs_2014.py:_check_inputs", "src/pygmm/campbell_bozorgnia_2014.py:_check_inputs"]}
{"id": "C146", "title": "The eastern North American models move continuously with magnitude and distance", "statement": "When magnitude and distance move along continuous curves, the medians of Campbell (2003), Tavakoli and Pezeshk (2005, magnitude up to 8.5) and Pezeshk et al. (2011), and those of Idriss (2014) on either side of magnitude 6.75 (there with velocity moving too), move continuously (in the logarithm). So do their standard deviations, except at one magnitude each: Campbell (2003) steps by at most 0.0011 at 7.16, and does step there; Tavakoli and Pezeshk (2005) by at most 0.0067 at 7.2 outside the 0.5 s period, which jumps by 0.47 (C55); Pezeshk et al. (2011) by at most 0.0001 at 7; Idriss (2014) not at all.", "quantifier": "all continuous curves of magnitude, distance and velocity within the stated domain, all points of them, all periods and both mechanisms", "why_tests_cant": "Magnitudes, distances and velocities are continuous; a test samples finitely many scenarios.", "anchors": ["src/pygmm/campbell_2003.py:_calc_ln_resp", "src/pygmm/campbell_2003.py:_calc_ln_std", "src/pygmm/tavakoli_pezeshk_2005.py:_calc_ln_resp", "src/pygmm/tavakoli_pezeshk_2005.py:_calc_ln_std", "src/pygmm/pezeshk_zandieh_tavakoli_2011.py:_calc_ln_resp", "src/pygmm/pezeshk_zandieh_tavakoli_2011.py:_calc_ln_std", "src/pygmm/idriss_2014.py:_calc_ln_resp", "src/pygmm/idriss_2014.py:_calc_ln_std"]}
{"id": "C147", "title": "The European and subduction models move continuously when everything moves at once", "statement": "When magnitude, the distance in use, hypocentral depth and velocity move together along continuous curves (distance not negative, velocity positive), all responses of ASB14 move continuously (in the logarithm), with every distance metric; those of AGA16 and of Coppersmith and Bommer (2014) do so except where the velocity crosses one of the few reference velocities above 1000 m/s, where they jump (C38). Their standard deviations do not depend on any of these (C70, C71).", "quantifier": "all continuous curves, all points of them, all mechanisms, event types, regions and adjust_c1 arguments", "why_tests_cant": "Magnitudes, distances and velocities are continuous; a test samples finitely many scenarios.", "anchors": ["src/pygmm/akkar_sandikkaya_bommer_2014.py:_calc_ln_resp", "src/pygmm/abrahamson_gregor_addo_2016.py:_calc_ln_resp", "src/pygmm/coppersmith_bommer_2014.py:_calc_ln_resp"]}
{"id": "C148", "title": "Softer sites shake harder in ASB14, AGA16 and COP14, except under strong shaking", "statement": "For velocities from 180 to 1000 m/s, two scenarios differing only in velocity: with ASB14, every response is larger at the softer site when the PGA predicted at 750 m/s is at most 0.008 g, PGV and the spectral accelerations at periods of at least 0.65 s always are, but when both sites are at most 360 m/s and that PGA is at least 0.25 g the PGA is smaller at the softer site. With AGA16 and Coppersmith and Bommer (2014), every response is larger at the softer site when the PGA predicted at 1000 m/s is at most 0.035 g, the spectral accelerations at periods of at least 2 s always are, but when both sites are at most 360 m/s and that PGA is at least 0.3 g the PGA is smaller at the softer site.", "quantifier": "all pairs of velocities in 180..1000 m/s, all magnitudes, distances, mechanisms, event types, regions and adjust_c1 arguments", "why_tests_cant": "Magnitudes, distances and velocities are continuous; a test samples finitely many scenarios.", "anchors": ["src/pygmm/akkar_sandikkaya_bommer_2014.py:_calc_ln_resp", "src/pygmm/abrahamson_gregor_addo_2016.py:_calc_ln_resp", "src/pygmm/coppersmith_bommer_2014.py:_calc_ln_resp"]}
{"id": "C149", "title": "Durations move continuously when everything moves at once", "statement": "When magnitude, distance, velocity and basin depth move together along continuous curves, the durations move continuously: AS96 always; every KS06 measure wherever it is positive; the AS16 measures (distance not negative, velocity positive) except when the magnitude is at the lower hinge of the measure (5.35 for D5-75, 5.2 for D5-95 and D20-80, where they jump, C83), and their standard errors everywhere; the median and both percentiles of PR23 and PR24 within the declared limits.", "quantifier": "all continuous curves, all points of them, all mechanisms, site conditions, event types and regions", "why_tests_cant": "Magnitudes, distances and velocities are continuous; a test samples finitely many scenarios.", "anchors": ["src/pygmm/abrahamson_silva_1996.py:AbrahamsonSilva1996", "src/pygmm/kempton_stewart_2006.py:KemptonStewart2006", "src/pygmm/afshari_stewart_2016.py:AfshariStewart2016", "src/pygmm/pinilla_ramos_et_al_2023.py:_calc_duration", "src/pygmm/pinilla_ramos_et_al_2024.py:_calc_duration"]}
{"id": "C150", "title": "DBC14, GA11, Idriss (2014) and BA19 on rock move continuously when everything moves at once", "statement": "When all numeric inputs move together along continuous curves: every spectral acceleration, PGA, PGV and standard deviation of DBC14 (distance and velocity positive, any accepted mechanism); the ratios and standard deviations of GA11 (velocity positive, rock PGA not negative); the responses and standard deviations of Idriss (2014) except at magnitude 6.75, where its two tables meet (C19); and the Fourier amplitudes of BA19 on sites of 760 m/s or more, with the basin depth given or defaulted, move continuously.", "quantifier": "all continuous curves, all points of them, all mechanisms", "why_tests_cant": "Magnitudes, distances and velocities are continuous; a test samples finitely many scenarios.", "anchors": ["src/pygmm/derras_bard_cotton_2014.py:DerrasBardCotton2014", "src/pygmm/gulerce_abrahamson_2011.py:GulerceAbrahamson2011", "src/pygmm/idriss_2014.py:Idriss2014", "src/pygmm/bayless_abrahamson_2019.py:BaylessAbrahamson2019"]}
{"id": "C151", "title": "Taking entries out of a scenario; names of methods", "statement": "`scenario.pop(key)` of a held entry gives its value and removes exactly that entry; of anything else it raises KeyError with the name. Afterwards every model that does not use the entry is constructed as before, every model that needs it can no longer be constructed, and every model that has a default uses it. `popitem` takes the entry put in first (a plain dict takes the last) and fails only on an empty scenario; `clear` ends with no entry; `setdefault` never changes a held value and installs any name without the recognised-key check. The public members of a mapping always answer to their names, so an entry under such a name is reached by item access only; no recognised key is such a name.", "quantifier": "all scenarios, keys and values; all shipped models", "why_tests_cant": "Magnitudes, distances and velocities are continuous; a test samples finitely many scenarios.", "anchors": ["src/pygmm/model.py:Scenario"]}
{"id": "C152", "title": "ASK14: what is_aftershock does", "statement": "With dist_crjb below 15 km, setting is_aftershock lowers every ordinate at periods up to 0.5 s and PGA, and raises every ordinate at periods from 0.75 s and PGV (sites of 180 m/s and more). Between 15 and 5 km a smaller dist_crjb makes both effects stronger; below 5 km it makes no difference.", "quantifier": "all scenarios with valid geometry, all ordinates", "why_tests_cant": "Magnitudes, distances and velocities are continuous; a test samples finitely many scenarios.", "anchors": ["src/pygmm/abrahamson_silva_kamai_2014.py:AbrahamsonSilvaKamai2014._calc_ln_resp"]}
{"id": "C153", "title": "AGA16: what back-arc sites do", "statement": "For AbrahamsonGregorAddo2016 with V_s30 of at least 150 m/s, giving tectonic_region = 'backarc' instead of 'forearc', 'unknown' or nothing, all else equal, raises the PGA of an interface event within 100 km and lowers it from 120 km, and raises the PGA of an intraslab event within 85 km (hypocentral) and lowers it from 120 km. From 1086 m/s the ordinates follow: for interface events within 100 km all of them rise; from 120 km those up to 0.5 s fall and those from 1.5 s rise; for intraslab events those up to 0.25 s rise within 85 km, those from 0.3 s fall up to 120 km, and from 120 km all those up to 1.5 s fall.", "quantifier": "every magnitude, every pair of scenarios differing in the region only, every distance in the stated range, every accepted magnitude adjustment and anelastic scale, every velocity from the stated bound", "why_tests_cant": "Magnitudes, distances and velocities are continuous; a test samples finitely many scenarios.", "anchors": ["src/pygmm/abrahamson_gregor_addo_2016.py:AbrahamsonGregorAddo2016._calc_ln_resp", "src/pygmm/abrahamson_gregor_addo_2016.py:AbrahamsonGregorAddo2016._calc_f_faba"]}
{"id": "C154", "title": "Deeper earthquakes", "statement": "Depth acts as published, all else equal. ASK14, off the hanging wall, v_s30 from 180 m/s: a deeper top of rupture (0 to 20 km) raises PGA, PGV and the ordinates up to 4 s and lowers those from 5 s; below 20 km the depth makes no difference. CB14: a deeper hypocentre between 7 and 20 km raises PGA on any soil from 150 m/s, and on rock (v_s30 above 1086 m/s) also PGV, the ordinates up to 0.5 s and, from magnitude 6.5, all of them, but lowers those from 0.75 to 7.5 s up to magnitude 5.5; above 7 km and below 20 km it makes no difference. CY14, off the hanging wall, v_s30 from 180 m/s: a deeper top of rupture raises PGA, PGV, the ordinates up to 0.5 s and, from magnitude 7.2, all of them, but lowers those from 0.75 s up to magnitude 4.5. AGA16: a deeper intraslab hypocentre, down to 120 km, raises PGA (v_s30 from 150 m/s) and the ordinates up to 5 s (from 1086 m/s) and lowers those from 6 s.", "quantifier": "every pair of scenarios differing in depth_tor (ASK14, CY14) or depth_hyp (CB14, AGA16) only, in the stated ranges; every magnitude, distance, region and adjustment", "why_tests_cant": "Magnitudes, distances and velocities are continuous; a test samples finitely many scenarios.", "anchors": ["src/pygmm/abrahamson_silva_kamai_2014.py:AbrahamsonSilvaKamai2014._calc_ln_resp", "src/pygmm/campbell_bozorgnia_2014.py:CampbellBozorgnia2014._calc_ln_resp", "src/pygmm/chiou_youngs_2014.py:ChiouYoungs2014._calc_ln_resp_ref", "src/pygmm/abrahamson_gregor_addo_2016.py:AbrahamsonGregorAddo2016._calc_f_depth"]}
{"id": "C155", "title": "Regions attenuate differently", "statement": "The region acts on attenuation as published, all else equal. BSSA14, v_s30 from 760 m/s: region china or turkey instead of none, global or california raises PGA, PGV and every ordinate; italy or japan lowers PGA, PGV and the ordinates up to 6.5 s and raises those from 7 s. CB14: italy instead of none or california makes no difference within 80 km, on any soil; beyond 80 km, on rock (v_s30 above 1086 m/s), it lowers PGA, PGV and the ordinates up to 2 s and leaves those from 3 s as they are. CY14, v_s30 from 180 m/s and a positive rupture distance: china instead of none or california raises PGA, PGV and every ordinate; italy, between magnitudes 6 and 6.9, lowers them. ASK14, v_s30 from 180 m/s and a positive rupture distance: china instead of none, global, california or italy raises PGA, PGV and the ordinates up to 2 s and leaves those from 3 s as they are.", "quantifier": "every pair of scenarios differing in region only, in the stated ranges; every magnitude, distance and mechanism", "why_tests_cant": "Magnitudes, distances and velocities are continuous; a test samples finitely many scenarios.", "anchors": ["src/pygmm/boore_stewart_seyhan_atkinson_2014.py:BooreStewartSeyhanAtkinson2014._calc_ln_resp", "src/pygmm/campbell_bozorgnia_2014.py:CampbellBozorgnia2014._calc_ln_resp", "src/pygmm/chiou_youngs_2014.py:ChiouYoungs2014._calc_ln_resp_ref", "src/pygmm/abrahamson_silva_kamai_2014.py:AbrahamsonSilvaKamai2014._calc_ln_resp"]}
{"id": "C156", "title": "Atkinson & Boore (2006): larger earthquakes shake harder, except close to the largest", "statement": "Between magnitudes 3 and 8 and from 20 km, the larger earthquake gives larger PGA on every site, and on sites of v_s30 from 760 m/s also larger PGV, PGD and spectral accelerations at every period. Expected at every distance; violated close to the rupture: at 1 km and v_s30 from 760 m/s, magnitude 8.5 gives a smaller PGA, and smaller ordinates from 0.063 to 2.5 s, than magnitude 7.5.", "quantifier": "every pair of scenarios differing in magnitude only, in the stated ranges; every distance and velocity in them", "why_tests_cant": "Magnitudes, distances and velocities are continuous; a test samples finitely many scenarios.", "anchors": ["src/pygmm/atkinson_boore_2006.py:AtkinsonBoore2006._calc_ln_resp", "src/pygmm/atkinson_boore_2006.py:AtkinsonBoore2006._calc_stress_factor", "src/pygmm/atkinson_boore_2006.py:AtkinsonBoore2006._calc_log10_site"]}
{"id": "C157", "title": "ASK14 on firm sites in Taiwan and Japan", "statement": "ASK14, all else equal. On sites of v_s30 from 960 m/s and at a positive rupture distance, region taiwan instead of none, global, california or italy lowers PGA, PGV and the ordinates up to 0.1 s and from 1.5 s. On sites above 1150 m/s without depth_1_0, region japan lowers PGA, PGV and every ordinate from 180 km.", "quantifier": "every pair of scenarios differing in region only, in the stated ranges; every magnitude, mechanism and geometry", "why_tests_cant": "Magnitudes, distances and velocities are continuous; a test samples finitely many scenarios.", "anchors": ["src/pygmm/abrahamson_silva_kamai_2014.py:AbrahamsonSilvaKamai2014._calc_ln_resp"]}
