{"claims": [
 {"property": "C01", "status": "proved", "theorems": ["C01_unit_pairs_mutually_inverse", "C01_units_match_definitions"], "note": ""},
 {"property": "C02", "status": "proved", "theorems": ["C02_knots_round_trip_drift", "C02_kgm2_round_trip_drift", "C02_knots_exact_inverse_refuted"], "note": "The knots pair is not an exact inverse (C02_knots_exact_inverse_refuted shows the drift is real); the drift bounds are proved."},
 {"property": "C03", "status": "proved", "theorems": ["C03_temperature_scales", "C03_temperature_paths_agree"], "note": ""},
 {"property": "C04", "status": "proved", "theorems": ["C04_batch_is_pointwise", "C04_airspeed_arrays", "C04_airspeed_many_altitudes_refuted", "C04_vsound_kts_many_refuted"], "note": "Holds for temperature, pressure, density, speed of sound (m/s) and dynamic pressure for every atmosphere. Violated by the code for eas2tas with two or more altitudes and for vsound_kts with two or more altitudes (refuted theorems)."},
 {"property": "C05", "status": "proved", "theorems": ["C05_altitudes_inverse", "C05_geopotential_relation", "C05_altitudes_increasing", "C05_geopotential_not_above"], "note": ""},
 {"property": "C06", "status": "proved", "theorems": ["C06_isa_temperature", "C06_standard_temperature_continuous"], "note": ""},
 {"property": "C07", "status": "proved", "theorems": ["C07_strictly_decreasing_refuted", "C07_decreasing_in_layer", "C07_decreasing_10cm", "C07_matches_hydrostatic_standard"], "note": "Strict monotonicity across layer joints is false of the code (rounded coefficients): refuted with witnesses. Proved: strict decrease in each layer and between altitudes 10 cm or more apart, positivity, agreement with the hydrostatic standard to 1e-5."},
 {"property": "C08", "status": "proved", "theorems": ["C08_ideal_gas_law", "C08_offset_effect"], "note": ""},
 {"property": "C09", "status": "proved", "theorems": ["C09_pressure_altitude", "C09_pressure_at_pressure_altitude", "C09_nonpositive_pressure"], "note": ""},
 {"property": "C10", "status": "proved", "theorems": ["C10_density_altitude_single", "C10_density_altitude_list_refuted"], "note": "Holds for one density; for lists of two or more the code raises (refuted)."},
 {"property": "C11", "status": "proved", "theorems": ["C11_clipping_refuted", "C11_profile_clipping_refuted", "C11_admissible_altitudes_unaltered"], "note": "The code raises TypeError instead of limiting the altitude (refuted); admissible altitudes are unaltered (proved)."},
 {"property": "C12", "status": "proved", "theorems": ["C12_mach_times_sound", "C12_mach_arrays", "C12_negative_airspeed_refuted"], "note": "Consistency proved; a negative airspeed is not rejected and gives a negative Mach number (refuted part)."},
 {"property": "C13", "status": "proved", "theorems": ["C13_eas_tas_inverse", "C13_eas_tas_inverse_any", "C13_sea_level_identity", "C13_tas_above_eas", "C13_units_eas_tas_inverse"], "note": ""},
 {"property": "C14", "status": "proved", "theorems": ["C14_cas_not_below_eas", "C14_kcas_not_below_keas"], "note": ""},
 {"property": "C15", "status": "proved", "theorems": ["C15_components", "C15_components_elementwise", "C15_full_turn", "C15_reversed", "C15_sign_immaterial", "C15_axes", "C15_mismatched_lists_raise", "C15_several_speeds_refuted"], "note": "Proved for scalars and equally long lists; a scalar direction with several speeds resolves only the first (refuted part)."},
 {"property": "C16", "status": "proved", "theorems": ["C16_nth_runway_of_airport", "C16_number_too_large_raises", "C16_unknown_airport_raises", "C16_attributes_from_columns", "C16_usable_rows", "C16_negative_number_refuted", "C16_scattered_rows_refuted"], "note": "Proved for databases whose rows are contiguous per airport (the shipped file is) and n >= 0; negative numbers and scattered rows yield another airport's runway (refuted parts)."},
 {"property": "C17", "status": "proved", "theorems": ["C17_reciprocal_heading", "C17_heading_zero_refuted"], "note": "Proved on (0,360]; heading 0 is not restored (extra refutation)."},
 {"property": "C18", "status": "proved", "theorems": ["C18_profile_from_density", "C18_profile_from_pressure", "C18_single_pressure_refuted", "C18_interpolation_at_observation", "C18_interpolation_between", "C18_no_extrapolation"], "note": "Proved; a single observation given by pressure cannot be constructed (refuted part)."},
 {"property": "C19", "status": "proved", "theorems": ["C19_turbofan_highbpr_continuous", "C19_turbofan_lowbpr_continuous", "C19_turbojet_dry_continuous", "C19_turbojet_wet_continuous", "C19_turboprop_continuous", "C19_turbofan_laws", "C19_turbojet_laws", "C19_turboprop_laws", "C19_bounded_below_break", "C19_afterburner_bound_refuted", "C19_turboprop_bounded_refuted"], "note": "Continuity and bounds up to the break proved; the afterburning turbojet exceeds the pressure ratio on cold days and the turboprop factor is unbounded below (refuted parts)."},
 {"property": "C20", "status": "proved", "theorems": ["C20_piston_affine"], "note": ""},
 {"property": "C21", "status": "proved", "theorems": ["C21_polyblend_c1_ramp", "C21_polyblend_zero_duration"], "note": ""},
 {"property": "C22", "status": "proved", "theorems": ["C22_rotation_inverse", "C22_rotation_norm", "C22_rotation_composes", "C22_rotation_values", "C22_short_column_raises"], "note": ""},
 {"property": "C23", "status": "proved", "theorems": ["C23_plain_entries", "C23_sub_entries", "C23_wing_shape", "C23_construction_succeeds", "C23_dictionary_for_number_raises"], "note": "Proved for all dictionaries the constructor accepts; acceptance proved for all well-formed dictionaries. The quarter-chord sweep default is C26."},
 {"property": "C24", "status": "proved", "theorems": ["C24_reuse", "C24_any_history", "C24_design_space_refuted", "C24_default_flags_refuted"], "note": "The concept (all attributes used by the methods) is the same for any history of successful constructions; the design space and the two default flags of a second concept differ (refuted parts)."},
 {"property": "C25", "status": "proved", "theorems": ["C25_mean_is_used", "C25_range_retained", "C25_sweep_range_refuted"], "note": "Proved; a range given only for the leading edge or maximum thickness sweep raises TypeError (refuted part)."},
 {"property": "C26", "status": "proved", "theorems": ["C26_sweep25_refuted"], "note": "The code violates the documented default by 12/7 of the leading edge sweep (operator precedence); refuted for every non-zero leading edge sweep."},
 {"property": "C27", "status": "proved", "theorems": ["C27_published_estimates", "C27_ranges", "C27_factor_positive", "C27_methods13_refuted"], "note": "Methods 2 and 4 are in range for every regular wing and give a positive factor 1/(pi AR e). False of methods 1 and 3: from aspect ratio 64 (method 1) and 27 (method 3) on they give negative induced drag (refuted)."},
 {"property": "C28", "status": "proved", "theorems": ["C28_digits_select", "C28_negative_selector_raises", "C28_unnamed_rejected_refuted"], "note": "The digits select the methods; negative integers raise ValueError. Selectors naming no method are not rejected but silently mean 24 at Mach 0.3 (refuted)."},
 {"property": "C29", "status": "proved", "theorems": ["C29_angle_affine", "C29_straight_edges_partial", "C29_straight_edges_refuted", "C29_raises_exactly_outside"], "note": "The angle is affine along the chord; this is the straight-edge value at the leading edge, the quarter chord and for equal sweeps only (refuted elsewhere). ValueError exactly outside [0,1]."},
 {"property": "C30", "status": "proved", "theorems": ["C30_weighted_mean", "C30_transonic_points", "C30_subsonic_slopes_positive", "C30_continuous_partial", "C30_continuous_refuted"], "note": "Weights and continuity for every Mach number above 0, given that scipy's cubic interpolant is continuous (which C90 proves). At the Mach number where a swept leading edge becomes sonic the slope jumps when that Mach number exceeds 1.4 (refuted there)."},
 {"property": "C31", "status": "proved", "theorems": ["C31_takeoff_balance", "C31_pointwise", "C31_missing_groundrun_raises"], "note": ""},
 {"property": "C32", "status": "proved", "theorems": ["C32_turn_balance_partial", "C32_climb_fraction_refuted"], "note": "Holds when the climb weight fraction is 1 (partial theorem, which also gives the CL marking); with a climb weight fraction below 1 the code asks for less thrust than the turn needs (refuted). The value for every climb fraction is C33_turn_general."},
 {"property": "C33", "status": "proved", "theorems": ["C33_only_turn_fraction_refuted", "C33_turn_general"], "note": "Violated: the climb weight fraction enters the turn constraint (refuted: reported CL always differs). The turn constraint's exact value for all fractions is proved."},
 {"property": "C34", "status": "proved", "theorems": ["C34_climb_balance", "C34_cruise_balance", "C34_ceiling_balance_partial", "C34_ceiling_balance_refuted"], "note": "Climb and cruise hold. The ceiling constraint takes lift = weight, so it exceeds the balance by k x/q sin^2 (partial theorem gives the exact deviation, refuted theorem shows it is never the balance)."},
 {"property": "C35", "status": "proved", "theorems": ["C35_combined_is_envelope", "C35_entries_are_the_constraints"], "note": ""},
 {"property": "C36", "status": "proved", "theorems": ["C36_missing_items_raise", "C36_never_defaulted", "C36_complete_brief_succeeds", "C36_complete_brief_power"], "note": ""},
 {"property": "C37", "status": "proved", "theorems": ["C37_power_is_thrust_times_speed", "C37_combined_is_envelope"], "note": ""},
 {"property": "C38", "status": "proved", "theorems": ["C38_sea_level_power_refuted"], "note": "Violated: for every generic engine, piston included, powerrequired is the same with and without map2sl (refuted)."},
 {"property": "C39", "status": "proved", "theorems": ["C39_round_trip", "C39_standard_day_partial", "C39_hot_day_refuted", "C39_stall_speed_equation", "C39_lower_loading_lower_speed"], "note": "Round trip exact up to the ratio of design-atmosphere to standard sea level density, minimum area and monotonicity proved. Standard day: 1e-7 (the knots conversion pair is not exact). Off-standard day: stall speed differs (refuted)."},
 {"property": "C40", "status": "proved", "theorems": ["C40_stall_of_list_refuted"], "note": "Violated: several wing loadings raise TypeError (refuted)."},
 {"property": "C41", "status": "proved", "theorems": ["C41_inapplicable_is_one", "C41_range", "C41_increasing"], "note": ""},
 {"property": "C42", "status": "proved", "theorems": ["C42_factor", "C42_increasing"], "note": ""},
 {"property": "C43", "status": "proved", "theorems": ["C43_shares", "C43_effects", "C43_reported_iff", "C43_effect_reported_refuted", "C43_at_most_24_parameters", "C43_total", "C43_single_wing_loading_refuted"], "note": "Proved: shares positive, sum to one, proportional to the effects; a parameter is reported exactly if it makes a difference at every wing loading; at most 24 parameters; totality. Violated by the code: an effect at some wing loadings only is dropped (.all() where the comment says 'at any point'), and a single wing loading raises TypeError (refuted theorems)."},
 {"property": "C44", "status": "proved", "theorems": ["C44_gust_velocities"], "note": ""},
 {"property": "C45", "status": "proved", "theorems": ["C45_design_speeds", "C45_manoeuvring_below_cruise_refuted", "C45_manoeuvring_below_cruise_partial"], "note": "Minimum speeds, coefficients and VD >= 1.25 VC proved. VA <= VC is violated for aerobatic aircraft with moderate CLmax (refuted with a witness), proved for normal and commuter aircraft with 1.69 wf <= rho0 CLmax. VA, VB are characterised by their balances."},
 {"property": "C46", "status": "proved", "theorems": ["C46_limit_load_factors_partial", "C46_negative_factors_refuted", "C46_factor_monotone"], "note": "Positive factors and the negative ones of normal and commuter aircraft proved; for utility and aerobatic aircraft the code takes the fraction of the normal category's positive factor (refuted for every weight)."},
 {"property": "C47", "status": "proved", "theorems": ["C47_gust_load_factors"], "note": ""},
 {"property": "C48", "status": "proved", "theorems": ["C48_points", "C48_unknown_category"], "note": "All seven points. Equalities through the two knot conversions hold to 2e-7 relative (their product is not 1)."},
 {"property": "C49", "status": "proved", "theorems": ["C49_mean_chords", "C49_scaling"], "note": ""},
 {"property": "C50", "status": "proved", "theorems": ["C50_unknown_engine_refuted", "C50_name_error_unreachable", "C50_empty_deck"], "note": "Violated: an empty deck is built for every unknown engine (refuted); the NameError is unreachable."},
 {"property": "C51", "status": "proved", "theorems": ["C51_jet_contents", "C51_turboprop_contents", "C51_piston_contents", "C51_electric_contents", "C51_other_engine_refuted", "C51_part_of_a_name_refuted", "C51_shipped_partial"], "note": "Violated: substring match (refuted, two witnesses). Exact contents of every deck proved; holds for the shipped directories."},
 {"property": "C52", "status": "proved", "theorems": ["C52_polynomials", "C52_jet_table", "C52_turboprop_table", "C52_turboprop_error"], "note": "scipy's griddata is an argument assumed not to extrapolate, as documented; polynomial guards proved outright."},
 {"property": "C53", "status": "proved", "theorems": ["C53_half_power_refuted", "C53_arrays", "C53_table", "C53_bsec"], "note": "Violated: shaftpower uses pi for 2 pi and gives half the power (refuted for all inputs); the table built on loading is right."},
 {"property": "C54", "status": "proved", "theorems": ["C54_total", "C54_passes", "C54_agreement", "C54_bounded_partial", "C54_above_one_refuted", "C54_cycle_refuted"], "note": "Termination, the iteration bound and the stopping rule proved. Bounded by 1 only for lightly loaded propellers; above 1 and cyclic cases refuted with witnesses."},
 {"property": "C55", "status": "proved", "theorems": ["C55_equals_terminated", "C55_newline_terminated", "C55_missing_file", "C55_unterminated_last_refuted", "C55_mixed_terminators_refuted", "C55_empty_file_refuted"], "note": "Proved for uniformly terminated files; an unterminated last line, mixed terminators and the empty file violate it (refuted parts)."},
 {"property": "C56", "status": "proved", "theorems": ["C56_turn_radius", "C56_decreasing"], "note": ""},
 {"property": "C57", "status": "proved", "theorems": ["C57_profiles_of_table", "C57_selectors_distinguished", "C57_wrong_columns_raise", "C57_untabulated_raises_refuted"], "note": "Proved for tabulated combinations; the code returns (None, None) instead of raising for the others (refuted part). One-line tables are outside the model."},
 {"property": "C58", "status": "proved", "theorems": ["C58_custom_runway", "C58_metric_attributes"], "note": ""},
 {"property": "C59", "status": "proved", "theorems": ["C59_decodable_untouched", "C59_only_day_replaced", "C59_typed_report_refuted"], "note": "Proved for reports starting with the four-character station; reports starting with METAR or SPECI are mangled (refuted part)."},
 {"property": "C60", "status": "proved", "theorems": ["C60_derived_queries", "C60_derived_isa"], "note": ""},
 {"property": "C61", "status": "proved", "theorems": ["C61_generic_engines", "C61_decks", "C61_unknown_code_raises", "C61_jet_with_negative_bypass_raises"], "note": "Piston deck uses the largest RPM of the deck at the queried altitude. A concept called 'jet' with negative bypass ratio raises."},
 {"property": "C62", "status": "proved", "theorems": ["C62_subsonic", "C62_transonic", "C62_supersonic_leading_edge", "C62_positive_near_design_point"], "note": ""},
 {"property": "C63", "status": "proved", "theorems": ["C63_nominal_partial", "C63_default_engine_refuted"], "note": "Proved for concepts with an engine; with the default engine (propulsion False) the rebuilt concepts lose the sea-level mapping (refuted with a witness)."},
 {"property": "C64", "status": "proved", "theorems": ["C64_stall_speed", "C64_missing_weight_or_area", "C64_missing_lift_coefficient"], "note": ""},
 {"property": "C65", "status": "proved", "theorems": ["C65_outline_partial", "C65_negative_limit_refuted"], "note": "Upper outline, CD, EF and FS proved; point F of normal/commuter aircraft takes the dive-speed limit 0 instead of the limit at VC (refuted with a witness)."},
 {"property": "C66", "status": "proved", "theorems": ["C66_outline_joins_partial", "C66_gap_refuted"], "note": "All joints but F proved; EF ends at F and FS starts below it (refuted, same hypotheses as C65)."},
 {"property": "C67", "status": "proved", "theorems": ["C67_values", "C67_engine_dropped_refuted", "C67_succeeds"], "note": "Everything but the engine, which is never passed on (refuted)."},
 {"property": "C68", "status": "proved", "theorems": ["C68_weight_fraction_refuted"], "note": "Violated: the increment is divided by the weight fraction twice; it agrees exactly when the fraction is 1 (refuted)."},
 {"property": "C69", "status": "proved", "theorems": ["C69_stall_lines"], "note": ""},
 {"property": "C70", "status": "proved", "theorems": ["C70_catalogue", "C70_unknown_type"], "note": ""},
 {"property": "C71", "status": "proved", "theorems": ["C71_jet_order_partial", "C71_turboprop_order_partial", "C71_piston_order_partial", "C71_electric_order_partial", "C71_shipped_partial", "C71_io540_refuted"], "note": "Violated for the shipped IO-540 (refuted); proved when no two files serve the same purpose, and for all other shipped engines."},
 {"property": "C72", "status": "proved", "theorems": ["C72_polynomial_file"], "note": ""},
 {"property": "C73", "status": "proved", "theorems": ["C73_unity_refuted", "C73_one_power_refuted", "C73_repeatable"], "note": "Equal lengths: C54_total. The documented unity lengths fail (refuted)."},
 {"property": "C74", "status": "proved", "theorems": ["C74_turboprop", "C74_turboprop_total", "C74_piston", "C74_electric"], "note": ""},
 {"property": "C75", "status": "proved", "theorems": ["C75_turboprop_partial", "C75_turboprop_total_refuted", "C75_piston_refuted"], "note": "Holds for the propeller thrust of turboprops; violated for their total thrust and for every piston engine (refuted)."},
 {"property": "C76", "status": "proved", "theorems": ["C76_jet", "C76_turboprop", "C76_piston", "C76_at_data_points", "C76_sea_level_refuted"], "note": "The reference is the largest table value, not the sea-level static one (refuted with a witness); everything else proved."},
 {"property": "C77", "status": "proved", "theorems": ["C77_ansatz", "C77_tip_speed_refuted"], "note": "Everything but the tip Mach number, whose limit is applied at half the radius (refuted)."},
 {"property": "C78", "status": "proved", "theorems": ["C78_window", "C78_limit_given", "C78_limits", "C78_curves"], "note": ""},
 {"property": "C79", "status": "proved", "theorems": ["C79_turn_line", "C79_defined_iff", "C79_stall_line"], "note": ""},
 {"property": "C80", "status": "proved", "theorems": ["C80_shading_partial", "C80_last_feasible_shaded", "C80_last_feasible_refuted", "C80_descending", "C80_descending_refuted", "C80_front"], "note": "Holds up to the last wing loading with a defined front, which is shaded too (refuted with a witness, and in general); for descending wing loadings the wrong side is shaded (refuted)."},
 {"property": "C81", "status": "proved", "theorems": ["C81_masks", "C81_dominating", "C81_dominating_refuted"], "note": "Exact masks proved; a constraint that is nowhere below the front makes masking raise ValueError (refuted)."},
 {"property": "C82", "status": "proved", "theorems": ["C82_show_all", "C82_show_other", "C82_drawn", "C82_single_loading_refuted", "C82_parts"], "note": "Totality for two or more different wing loadings; a single one fails (refuted)."},
 {"property": "C83", "status": "proved", "theorems": ["C83_rows", "C83_panels", "C83_accepted"], "note": ""},
 {"property": "C84", "status": "proved", "theorems": ["C84_shared_y", "C84_shared_y_accepted", "C84_several_series", "C84_one_series", "C84_shared_x_accepted", "C84_plain_list_refuted", "C84_text_label_refuted"], "note": "Contents and exact acceptance conditions proved; a plain list of numbers as a series always fails, and a text label over a list of series is cut to its first letter (both refuted)."},
 {"property": "C85", "status": "proved", "theorems": ["C85_turboprop", "C85_piston", "C85_electric", "C85_jet", "C85_warns", "C85_warns_refuted"], "note": "Grid, values and labels of all nine plots proved; without data the turboprop plots, the piston shaft power and the jet TSFC against altitude raise AttributeError instead of warning (refuted)."},
 {"property": "C86", "status": "proved", "theorems": ["C86_operations", "C86_literals", "C86_conversions", "C86_temperatures", "C86_rising", "C86_round_trips", "C86_temperature_round_trips", "C86_drift", "C86_exact_inverse_refuted", "C86_paths", "C86_paths_back_refuted", "C86_square_root", "C86_airspeeds", "C86_airspeed_round_trips"], "note": "Against the standard library's executable IEEE 754 specification, with ** 0.5 as any root within one unit in the last place; that no pair of conversions is an exact inverse, and that Rankine to Celsius depends on the path, is proved by refutation."},
 {"property": "C87", "status": "proved", "theorems": ["C87_comparison", "C87_altitudes", "C87_altitudes_inverse_refuted", "C87_altitude_order", "C87_altitude_order_refuted", "C87_temperature", "C87_temperature_order", "C87_tropopause_refuted", "C87_gas_law", "C87_density_order", "C87_speed_of_sound"], "note": "math.sqrt is the root of IEEE 754; exact inversion of the altitude conversions, the order of neighbouring geometric altitudes and a temperature that never rises across the tropopause are refuted with witnesses."},
 {"property": "C88", "status": "proved", "theorems": ["C88_returned", "C88_errors", "C88_gust_lines", "C88_notes", "C88_lines", "C88_markers", "C88_presentation", "C88_frame_partial", "C88_frame_refuted", "C88_warnings"], "note": "That every airspeed drawn lies within the horizontal axis is refuted (point A of an aerobatic aircraft); it is proved when the stall and manoeuvring speeds do. Values of show other than truth values and lists are not modelled."},
 {"property": "C89", "status": "proved", "theorems": ["C89_table", "C89_spline", "C89_splines_exist", "C89_outside", "C89_positive", "C89_at_most_static_refuted", "C89_falls_with_mach_partial", "C89_falls_with_mach_refuted", "C89_rises_with_density_partial", "C89_static_rises_with_density", "C89_rises_with_density_refuted", "C89_lapse"], "note": "That the factor never exceeds the static sea-level thrust, that it falls with the Mach number from Mach 0 on and that it rises with the density ratio are refuted with witnesses; the last two are proved from Mach 0.15 and up to a density ratio of 0.581 (static thrust: up to sea level). scipy's spline is modelled in exact arithmetic."},
 {"property": "C90", "status": "proved", "theorems": ["C90_spline_exists", "C90_spline_unique", "C90_any_spline", "C90_reproduces_cubics", "C90_raises", "C90_nan", "C90_table_distinct", "C90_table_in_order", "C90_lift_slope", "C90_lift_slope_continuous", "C90_beside_the_peak", "C90_constraints_evaluate"], "note": "scipy's spline is modelled in exact arithmetic and in a different basis; uniqueness shows it is the same function. Closes the hypothesis on the interpolator in C30, C36 and C62."},
 {"property": "C91", "status": "proved", "theorems": ["C91_outcomes", "C91_span_efficiency", "C91_mach_range", "C91_mach_range_refuted", "C91_drag_factor", "C91_drag_factor_default", "C91_lift_slope", "C91_leading_edge_suction", "C91_propulsion", "C91_thrust", "C91_power", "C91_missing_map_refuted", "C91_deprecated_refuted", "C91_axes", "C91_options_once", "C91_labels", "C91_limit", "C91_figure_size", "C91_text_size", "C91_unsupported_is_default", "C91_supported_as_given", "C91_options_refuted"], "note": "Refuted with witnesses: the Mach number is also blamed for a wing swept far forward; the missing-mapping warnings are never given, nor is the deprecation warning for a bypass ratio that stands for a system; limits such as [] and tuples of any length as figure size are kept silently. The filters of the module warnings and the texts are not modelled."},
 {"property": "C92", "status": "proved", "theorems": ["C92_outcomes", "C92_queries", "C92_bsfc_named_refuted", "C92_success", "C92_missing_data", "C92_missing_consumption", "C92_no_other", "C92_polynomials", "C92_polynomials_missing"], "note": "Refuted: TurbopropDeck.bsfc without data says that TSFC data are missing. The refuted theorem states what the message is. Polynomials with two limits, one Mach number at a time."},
 {"property": "C93", "status": "proved", "theorems": ["C93_iterable", "C93_argument_partial", "C93_argument_other", "C93_lone_engine_refuted", "C93_lone_engine_matters_refuted", "C93_constructed", "C93_decks_as_functions", "C93_jet_lapse", "C93_turboprop_power", "C93_missing_table", "C93_other_object", "C93_nan_speed", "C93_piston_speed", "C93_best_power_refuted", "C93_one_speed_refuted"], "note": "Refuted: a tuple with an engine only, documented as allowed, is dropped without a message; a piston engine is taken at its largest tabulated speed (less up to one rpm) instead of that of greatest power; a piston table for one speed raises. C93_argument_partial leaves out the one-tuple, for which the statement is false (C93_lone_engine_refuted)."},
 {"property": "C94", "status": "proved", "theorems": ["C94_printed", "C94_pages_unique", "C94_same_result", "C94_silent", "C94_unknown_category", "C94_bad_row", "C94_listed_is_loaded_partial", "C94_take_off_refuted", "C94_best_power_refuted", "C94_lower_case_refuted"], "note": "Refuted: the take-off thrust data that a jet's page lists are never loaded (C94_take_off_refuted); the best power consumption of a piston engine and files named in lower case are loaded and not listed. C94_listed_is_loaded_partial leaves out the take-off data, for which the statement is false."},
 {"property": "C95", "status": "proved", "theorems": ["C95_attributes", "C95_no_dictionary", "C95_unknown_keys", "C95_no_diameter"], "note": "The dictionary holds numbers; the two solver settings are integers."},
 {"property": "C96", "status": "proved", "theorems": ["C96_float", "C96_columns", "C96_thrust", "C96_take_off", "C96_others", "C96_falls", "C96_take_off_falls", "C96_falls_refuted", "C96_take_off_above", "C96_fits", "C96_static_take_off_refuted"], "note": "Holds for the nine thrust and three take-off polynomials, for every Mach number; refuted: thrust of J52, J60 and F404-400 rises somewhere, static take-off thrust of the JT8D-9 is missing."},
 {"property": "C97", "status": "proved", "theorems": ["C97_loads", "C97_loads_refuted", "C97_jet_numbers", "C97_tsfc_numbers", "C97_tsfc_numbers_refuted", "C97_turboprop_numbers", "C97_piston_numbers", "C97_electric_numbers", "C97_largest", "C97_largest_refuted", "C97_sea_level_refuted", "C97_static_refuted", "C97_slow_tsfc_refuted"], "note": "Decided for every shipped engine; refuted for the engines named in the refuted theorems."},
 {"property": "C98", "status": "proved", "theorems": ["C98_density", "C98_pressure", "C98_stagnation", "C98_recovery", "C98_range", "C98_rises", "C98_ratios"], "note": "Proved for all reals; temperature zero is excluded where it divides."},
 {"property": "C99", "status": "proved", "theorems": ["C99_best_climb", "C99_no_drag"], "note": "Propeller power is taken as independent of speed, as in the cited formula: least power needed is then best rate of climb. The density is any positive answer of the design atmosphere."},
 {"property": "C100", "status": "proved", "theorems": ["C100_number", "C100_table", "C100_loads", "C100_others", "C100_decimal_altitude_refuted", "C100_range", "C100_density", "C100_temperature", "C100_temperature_refuted", "C100_density_falls", "C100_pressure_falls", "C100_falls_refuted", "C100_extreme", "C100_extreme_refuted", "C100_exists"], "note": "Decided for all 24 shipped profiles; the refuted theorems name the profiles and altitudes where a misprint in the data breaks the property."},
 {"property": "C101", "status": "proved", "theorems": ["C101_nth_runway", "C101_own_runway", "C101_negative_refuted", "C101_numbers", "C101_opposite_refuted", "C101_heading_refuted", "C101_width_refuted", "C101_rows", "C101_airports", "C101_usable_refuted", "C101_heathrow", "C101_denver"], "note": "All rows of the shipped file are covered. The file is data: RunwayText.v (written by tools/runways.py) holds the airport and the six required numbers of each row as text; csv.reader itself is not modelled. Violations are stated as refuted theorems."},
 {"property": "C102", "status": "proved", "theorems": ["C102_altitudes", "C102_jet", "C102_turboprop", "C102_piston", "C102_take_off_refuted"], "note": "the combined requirement is nan at every wing loading when an altitude of the brief lies outside the engine's table; take-off at sea level refuted for two engines"},
 {"property": "C103", "status": "proved", "theorems": ["C103_takeoff", "C103_hot_high", "C103_cruise", "C103_climb", "C103_ceiling", "C103_turn", "C103_climb_rate"], "note": "Take-off trends are for map2sl=False; the turn bound is for climb weight fraction 1 (see C32_climb_fraction_refuted otherwise); the climb trend assumes k CL <= 1/2."},
 {"property": "C104", "status": "proved", "theorems": ["C104_constructible", "C104_range", "C104_lowest_and_highest", "C104_between", "C104_any_order", "C104_falls", "C104_gas_law_error", "C104_gas_law_refuted", "C104_two_speeds_of_sound_refuted", "C104_airspeeds_refuted", "C104_by_pressure", "C104_one_pressure_refuted"], "note": "Readings of temperature and density with distinct altitudes; interp1d is modelled exactly (real arithmetic)."},
 {"property": "C105", "status": "proved", "theorems": ["C105_gusts", "C105_design_speeds", "C105_aerobatic_dive", "C105_dive_speed_refuted", "C105_stall_speed", "C105_limit_load"], "note": "The aerobatic design dive speed refutes the last claim; everything else is proved for all described aeroplanes."},
 {"property": "C106", "status": "proved", "theorems": ["C106_readings", "C106_handbook", "C106_standard", "C106_take_off", "C106_turn", "C106_climb", "C106_cruise", "C106_ceiling", "C106_combined", "C106_power", "C106_brief_covered_refuted", "C106_low_runway_refuted", "C106_stall", "C106_envelope", "C106_gusts"], "note": "Complete briefs with a generic engine or a jet or turboprop deck; the one handbook profile with a zero temperature is excluded."},
 {"property": "C107", "status": "proved", "theorems": ["C107_pressure", "C107_density", "C107_order", "C107_order_refuted", "C107_gas_law"], "note": "numpy.power and math.exp are arguments of bounded relative error. That the values fall between any two altitudes is refuted at 47 km."}
]}
