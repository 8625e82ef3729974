# Formal model of sobester/ADRpy in Rocq (Coq 8.16.1)

## Approach

The model is a shallow embedding: every modelled Python function becomes a total Gallina function
that mirrors the original branch by branch.

* Exceptions are values (`Base.res`: `Ok v | Err e`), warnings are a list returned next to the value.
* Python/numpy floats are idealised as mathematical reals (Coq's `R`).  Non-finite results (NaN, inf)
  are represented by `NonFin` in the type `num`; division by zero, roots of negative numbers and
  powers of negative bases are *not* totalised to an arbitrary real but give `NonFin` (numpy) or an
  error value (Python).  Rounding of finite results is not modelled unless a file says so.
* Dictionaries are association lists with string keys; the objects a constructor mutates are part of
  the returned state, so aliasing effects on the caller's dictionaries are visible.
* External machinery (scipy interpolation, splines, file system contents, the runway database)
  is an argument of the model (section variable closed at the end of the section), never an axiom.

## Layout (rocq/theories)

* `Base.v`            numbers, errors, lists
* `*Model.v`          the model, definitions only, each citing file:lines of /repo
* `*Spec.v`           small independent specifications
* `*Proofs.v`         lemmas
* `Properties*.v`     the property theorems, closed by `exact`, with `Print Assumptions`, plus
                      non-vacuity examples

## Plan per property

* **C01** Unit conversion pairs are mutually inverse. `UnitsModel.v`: each conversion as a function R -> R. Field identities.
* **C02** Knots and kg/m2 round trips drift by a bounded factor only. Same model; relative error bound by linear arithmetic on the rounded constants.
* **C03** Temperature conversions agree along every path. Same model.
* **C04** Scalar in, scalar out; array in, array out, elementwise. `AtmosModel.v`: recast / map / revert-to-scalar pipeline on a `pyval` (number or list); theorem by induction over the list.
* **C05** Geometric and geopotential altitude are inverse, monotone maps. Field identities and inequalities.
* **C06** ISA temperature profile is the piecewise-linear standard, continuous across layers. Layer function as nested conditionals; spec = lapse-rate table integrated from sea level.
* **C07** Pressure and density fall strictly with altitude and stay positive. Rpower/exp monotonicity per layer, joint inequalities by enclosures of ln proved in `AnalysisFacts.v`.
* **C08** Standard atmosphere obeys the ideal gas law to table accuracy. Relative bound by interval arithmetic / calculus per layer.
* **C09** Pressure altitude inverts pressure. Exact per-layer algebraic inverse up to the rounding of the published constants; bounds by intervals.
* **C10** Density altitude inverts density for a list of densities. Array version is modelled with the numpy broadcasting the code performs; refuted for lists, proved for singletons.
* **C11** Altitudes above the validity limit are clipped with a warning. Modelled including the list-vs-number comparison; expected refuted.
* **C12** Speed of sound and Mach number are consistent. Algebra; the `.any() < 0` test is modelled as written.
* **C13** EAS and TAS conversions are inverse and ordered. Algebra with sqrt.
* **C14** CAS is never below EAS. Monotonicity argument on the compressible pitot formula.
* **C15** Wind decomposition conserves the wind vector. Trigonometric identities of the stdlib.
* **C16** Runway lookup returns the requested airport's runway or an error. Database as a list of rows; list induction; refutation for negative indices and non-contiguous databases.
* **C17** Reciprocal heading. Case analysis.
* **C18** Observation profiles satisfy the ideal gas law and interpolate between observations. Interpolation oracle replaced by a modelled piecewise-linear interpolation.
* **C19** Thrust lapse factors are continuous and bounded. Algebra at the break, limits via inequalities.
* **C20** Piston power lapse. Algebra.
* **C21** Polynomial blending is a monotone C1 ramp. Polynomial inequalities and derivatives.
* **C22** Coordinate transformation preserves lengths and inverts. Trigonometry.
* **C23** Constructing an aircraft concept keeps every user value and defaults the rest. Dictionaries as association lists; induction over the key list.
* **C24** Constructor does not corrupt the caller's dictionaries. State-returning constructor; two runs.
* **C25** A range of values is stored as design space and its mean is used. List induction.
* **C26** Documented quarter-chord sweep default. Modelled as written; expected refuted.
* **C27** Span efficiency estimates are in range. Inequalities.
* **C28** Method selection of the induced drag factor. Digits of the selector as a list; induction.
* **C29** Chord-sweep interpolation. Algebra with tan/atan.
* **C30** Lift slope blending. Weights as piecewise functions; continuity at joints.
* **C31** Take-off constraint equals the closed-form ground-roll balance. Algebra, lists.
* **C32** Sustained turn constraint. Algebra, lists.
* **C33** Turn weight fraction is applied once and no other fraction interferes. Two-run property; expected refuted.
* **C34** Climb, cruise and ceiling constraints equal their force balance. Algebra, lists.
* **C35** Combined requirement is the envelope of the individual ones. Max over an option-real list.
* **C36** Missing design brief items are reported, never silently defaulted. Case analysis over missing keys.
* **C37** Power requirement is thrust requirement times speed over efficiency. Algebra, lists.
* **C38** Mapping to sea level affects power for every lapsing engine. Two-run property; expected refuted.
* **C39** Stall constraint round trip. Algebra with sqrt.
* **C40** Stall speeds for a list of wing loadings. Modelled as written; expected refuted for length <> 1.
* **C41** Static-thrust mapping factor. Inequalities.
* **C42** Wing-in-ground-effect factor. Inequalities, monotonicity.
* **C43** Sensitivity shares. Sum over a list of parameters; expected partly refuted.
* **C44** CS-23.333/341 gust velocities. Piecewise linear function; inequalities.
* **C45** CS-23.335 design speeds. Same.
* **C46** CS-23.337 limit manoeuvring load factors. Modelled as written; expected refuted for utility/aerobatic.
* **C47** CS-23.341 gust load factors. Algebra.
* **C48** Flight envelope points are consistent. Branch-by-branch model with record of points.
* **C49** Mean chords. Algebra.
* **C50** Engine deck lookup fails loudly for unknown engines. Directory listing as list of strings; refuted for every unknown engine.
* **C51** Engine deck data belongs to the named engine only. Same; expected refuted.
* **C52** Deck interpolation never extrapolates. Polynomial guards; `griddata` is an argument with scipy's documented contract.
* **C53** Electric motor power accounting. Expected refuted.
* **C54** Propeller efficiency iteration terminates and is bounded. The loop bound is the code's; a separate recurrence states the passes; invariant for light loading; two witnesses for the failures.
* **C55** METAR history decoding keeps every report intact. Strings as lists of characters; expected refuted on last line.
* **C56** Turn radius and load factor. Algebra.
* **C57** MIL-HDBK-310 profile lookup. Finite case analysis.
* **C58** Custom runways. Case analysis, string of tens of degrees.
* **C59** METAR decoding changes at most the day. Strings; the METAR parser is an argument.
* **C60** Queries in other units and dynamic pressure. Elementwise, for every atmosphere.
* **C61** Sea level correction of the engine. Case analysis over engine kinds, decks are arguments.
* **C62** Induced drag factor by leading edge suction. Algebra per regime; the polynomial fit as its defining equations.
* **C63** The sensitivity analysis analyses the aircraft it is called on. Two-run property; expected refuted for the default engine.
* **C64** Stall speed with load factor. Algebra with sqrt; errors by cases.
* **C65** The flight envelope covers the manoeuvring limits. Bounds on the curves; expected refuted at point F.
* **C66** The outline of the flight envelope is closed. First and last points of the curves; expected refuted at F.
* **C67** Construction of CertificationSpecifications. Dictionary lemmas; expected refuted for the engine.
* **C68** Gust loads refer to the carried weight once. Algebra; expected refuted.
* **C69** The outline stays between the stall lines. Convexity of the stall line against the gust line.
* **C70** The engine catalogue. Induction over the metadata rows.
* **C71** Decks do not depend on the directory order. Slots characterised by the last file that serves; permutations; refuted for the IO-540.
* **C72** Polynomial files. Splitting inverts joining, by induction.
* **C73** Shapes of propeller arguments. Induction over the powers; unity lengths refuted.
* **C74** Thrust of propeller engines. Point-wise algebra over arrays.
* **C75** Fuel flow of propeller engines. Same; piston engines refuted through the convex hull.
* **C76** Sea-level normalised decks. Maximum of a list; refuted with a two-point table.
* **C77** The propeller sized by default. Real powers; tip limit refuted.
* **C78** The window and curves of the combined sensitivity diagram. `SensitivityPlotModel.v`: the data handed to matplotlib; maxima and minima of lists.
* **C79** Stall lines. Last index with a finite front; case analysis against `stall_position`.
* **C80** The region of infeasible lift coefficients. Set difference as a filter; expected refuted at the last feasible loading and for descending loadings.
* **C81** Focus masks. Induction over the splitting into consecutive runs; refuted for a constraint that is never below the front.
* **C82** Which diagrams are drawn, and of what. Case analysis and totality; refuted for a single wing loading.
* **C83** The flight-data plot: rows kept, panels, markers, accepted inputs. `PanelModel.v`: the frame and the data handed to matplotlib; induction over rows and panels.
* **C84** The two shared-axis diagrams: contents and accepted inputs; refuted for a plain list as a series and for a text label over a list.
* **C85** The demonstration plots: grid, values, labels, failures. `DemoModel.v`: the arrays handed to matplotlib; induction over the columns and the rows of the grid. Refuted for the missing-data warning of five plots.
* **C86** The unit conversions in double precision. `FloatModel.v`: the same operations in `SpecFloat`; correct rounding of the four operations proved from the bit-level definitions, then relative errors, monotone rounding and round trips. Exact inversion refuted.
* **C87** The standard atmosphere in double precision. `FloatAtmosModel.v`: altitude conversions, gas law, ISA temperature, speed of sound in `SpecFloat`; exact comparisons, relative and absolute error bounds, monotone rounding layer by layer with equal values at the joints 20, 32 and 47 km. The tropopause step and two orders are refuted.
* **C88** The V-n diagram. `EnvelopePlotModel.v`: what flightenvelope hands to matplotlib as a record (gust lines, notes, the two lines, markers, limits of the axes, sizes) and the warnings. Closed form from the envelope of C48, then the curves are bounded piece by piece against the limits of the axes. The claim that all airspeeds lie in the frame is false: point A is outside for an aerobatic aircraft with clmax 0.65 (refuted); it holds when the stall and manoeuvring speeds are in the frame (`_partial`).
* **C89** The turboprop thrust factor. `TurbopropModel.v`: the table, and what scipy's RectBivariateSpline(kx=2, ky=2) does with it in exact arithmetic (knots, B-spline weights, interpolation equations solved by elimination, tensor product, clamping). `TurbopropSpec.v` says what a quadratic spline through points is without B-splines; the model is proved to be the only one. Elimination is correct and stable for diagonally dominant rows (induction over the rows); a stability bound turns ten-decimal approximations into signs of the coefficients and of their differences, from which bounds and monotonicity follow for all arguments. False claims are refuted: more than the static thrust near Mach 0 at sea level; less thrust in denser air at Mach 0.6.
* **C90** The cubic interpolation of the transonic lift slope. `CubicModel.v`: scipy's interp1d(kind='cubic') for tables of any length (sorting, the three ValueErrors, the not-a-knot spline found by shooting from the left instead of with B-splines and LAPACK). `CubicSpec.v` says what a not-a-knot cubic spline through points is. Induction over the points: the miss at the last point is an affine function of the one free coefficient, whose factor cannot vanish because slope and curvature errors keep a common sign from knot to knot; so the spline exists and is unique. The Mach number of the peak is bounded over the whole fitted grid (0.05^(2/3) to five digits), which orders the six points for every aspect ratio. Then C30's continuity and C36's success hold for the repository's own interpolators.
* **C91** The warnings of the constraint analysis. `WarningsModel.v`: the methods of `MethodsModel.v` again, in a monad that records the calls of warnings.warn in order, and the options of the sensitivity plots. `WarningsSpec.v` says which warnings a propulsion system gives. Erasing the log gives the methods of C27 to C37 (by structural lemmas); the logs follow by induction over the arrays. Numeric bounds on x^10.82 place the Mach limit between 0.84 and 0.85. Refuted where a warning is unreachable or blames the wrong argument.
* **C92** The warnings of the engine decks. `EngineWarnModel.v`: the methods of `PropulsionModel.v` in a monad that records warnings; `EngineWarnSpec.v`: what it means for a look-up to answer. Erasure gives the methods of C50 to C77; the logs follow by case analysis. Refuted for one message that names the wrong quantity.
* **C93** The propulsion argument and the decks behind it. `EngineObjectModel.v`: the argument, `iterable`, and `_propulsion_slcorr` with the decks of `PropulsionModel.v` in place of the functions that stand for them in `MethodsModel.v`; `EngineObjectSpec.v`: what an argument means. Refinement: both give the same corrections, so C31 to C61 hold for decks. Refuted for the one-tuple and the piston speed.
* **C94** The printed catalogue. `CatalogueModel.v`: the loop of `local_data` with the text of its `print` calls; `CatalogueSpec.v`: a page as lines of text, and pages one after the other (a relation, proved to have one solution). Induction over the metadata; the result is that of C70 whatever is printed. What a page lists against what a deck loads comes from C51; refuted in both directions.
* **C95** The constructor of a propeller. `CatalogueModel.v` (`propeller_init`): case analysis over the argument; nan propagates through the efficiency iteration by induction over its passes.
* **C96** The text of the engine files is generated into ShippedText.v by tools/shipped.py; ShippedModel.v models the reading of decimal numbers and tables, and its reader is proved against the specification of decimal numbers (C96_float) and of comma separated tables (C96_columns). A polynomial is bounded on the whole Mach interval by a bisection on integer coefficients whose soundness is proved in ShippedProofs.v; monotonicity is positivity of the negated derivative and the mean value theorem. Numbers have their exact decimal values.
* **C97** The tables are read as rationals and checked by computation; the checkers are proved sound (ShippedDecks.v), and C51 and the uniqueness of the serving file carry the facts over to the deck for every order of the listing. Queries outside a table are nan by the specification of griddata (no_extrapolation) and a half-plane argument on the hull.
* **C98** idealgasdens_kgm3, idealgaspress_pa and tatbysat against the gas law and the stagnation ratio written out in GasClimbSpec.v; tempratio and pressratio through their closed forms (AtmosProofs3.v).
* **C99** The power of level flight with a parabolic polar is written out in GasClimbSpec.v. With V the returned speed, the difference of two powers is a positive factor times (V'-V)^2, so V is the only minimiser; the division by a missing drag coefficient is [NonFin].
* **C100** The text of the handbook files is generated into HandbookText.v by tools/handbook.py; HandbookModel.v models float() of numbers with an exponent and np.loadtxt, both proved against a specification (C100_number, C100_table). The columns are checked as rationals by computation; HandbookProofs.v proves that linear interpolation of a falling (bounded) column falls (is bounded), so the facts hold at every altitude. Numbers have their exact value: 263e-650 is positive here and 0.0 in double precision.
- **C101** (shipped runway database). `RunwayText.v`, written by `tools/runways.py`, holds for
  each row of runways.csv the airport and the text of the six numbers that must be readable.
  `shipped_database` says that a database has these rows and leaves the other columns free. That
  the rows of an airport are consecutive follows from the codes being in ascending order; the
  numbers are surveyed by computation (`RunwayDbFacts.v`) and the survey is proved to mean what
  the theorems say for every lookup (`RunwayDbProofs*.v`).
- **C102 Constraint analyses with the shipped engines.** The thrust and power tables of the shipped engines (C96, C97) are put into `twrequired` and `powerrequired`: outside the altitudes of the table the convex hull of its points is left, the correction is nan, and nan passes through the division and through `np.max`. Proved for every concept and every wing loading by following the value through each requirement; the altitude range of each table is computed from the file. The interpolator is only assumed not to extrapolate.
- **C103 Trends and lower bounds of the thrust to weight constraints.** Consequences of C31 to C34 that compare two aircraft or bound a requirement over all wing loadings. The take-off constraint is compared between two concepts (density, wing loading, lift coefficient, ground run); the ISA gives the density trend with temperature offset and altitude below the tropopause. The inequality between arithmetic and geometric mean gives the least drag bounds. The climb trend needs k CL <= 1/2, which keeps the induced drag saved by the steeper path below the weight component gained. The take-off trend is stated for the installed thrust (`map2sl=False`): with an engine deck the sea level figure depends on the deck.
- **C104 Atmospheres made from the readings of an ascent.** `Obsprofile` and the queries of an `Atmosphere` with a profile, for every list of readings. The specification (`ObservedSpec.v`) speaks of neighbouring readings and of the fraction of the way between them; each column of the model is shown to agree with it by the uniqueness of the neighbours. The error of the gas law, the concavity of the square root and the trend of a column are then algebra. Profiles given by pressure instead of density are in C18 only.
- **C105 Weight trends of the certification quantities.** `CertTrendSpec.v` defines the same object at another weight (`weighing`) and what milder gust loads are; the theorems compare the results of the model's own paragraphs 335, 337 and 341 and of `vs_keas` for the two objects. The proofs use the meaning of those functions (C45, C46, C47, C64). Speeds: the coefficients fall linearly with wing loading while the root grows, so each product is shown increasing on the three pieces of the coefficient and glued. The aerobatic dive speed is a product of two falling coefficients and fails near 100 lb/ft2.
- **C106 Analyses in atmospheres that answer at some altitudes only.** `SoundingSpec.v` states where an atmosphere answers (`answers_on`), what a complete brief is without reference to air, and that a computation succeeds exactly if given altitudes are answered (`needs`). The constraints of `MethodsModel.v` are followed query by query; atmospheres from readings (C104), the shipped handbook (C100) and the standard one (C06, C07) are shown to be instances.
- **C107 ISA pressures and densities in double precision.** `FloatPressModel.v` evaluates the layer formulae in `SpecFloat`; power and exponential are arguments, constrained only by the error bounds of `FloatPressSpec.v`, which functions of error 2 are shown to meet. The rounding errors of literals, linear parts, exponents and the correction for the offset are followed through the perturbation of logarithm and exponential; order follows from the slopes of C07.

## Trusted base

* Coq's kernel (8.16.1).  The standard library's axioms for the classical reals; no axiom is added.
* The reading of the Python sources and of the documented behaviour of numpy/scipy.

### Axioms, by theorem

What `Print Assumptions` lists: `S` = ClassicalDedekindReals.sig_forall_dec, `N` = ClassicalDedekindReals.sig_not_dec,
`F` = FunctionalExtensionality.functional_extensionality_dep, `C` = Classical_Prop.classic, `-` = closed under the
global context.  (Written by tools/assumptions.py.)

<!-- assumptions -->

`-` (47 theorems): C94_pages_unique, C94_same_result, C94_silent, C94_unknown_category, C95_attributes, C95_no_dictionary, C95_unknown_keys, C93_iterable, C93_argument_partial, C93_argument_other, C92_queries, C92_bsfc_named_refuted, C86_paths, C84_shared_y, C84_shared_y_accepted, C84_several_series, C84_one_series, C84_shared_x_accepted, C84_plain_list_refuted, C84_text_label_refuted, C50_name_error_unreachable, C51_jet_contents, C51_turboprop_contents, C51_piston_contents, C51_shipped_partial, C70_catalogue, C70_unknown_type, C71_jet_order_partial, C71_turboprop_order_partial, C71_piston_order_partial, C72_polynomial_file, C16_nth_runway_of_airport, C16_number_too_large_raises, C16_unknown_airport_raises, C16_attributes_from_columns, C16_usable_rows, C55_equals_terminated, C55_newline_terminated, C55_missing_file, C55_unterminated_last_refuted, C55_mixed_terminators_refuted, C55_empty_file_refuted, C57_selectors_distinguished, C59_decodable_untouched, C59_only_day_replaced, C59_typed_report_refuted, C101_airports.

`F` (5 theorems): C94_printed, C94_bad_row, C94_take_off_refuted, C94_best_power_refuted, C94_lower_case_refuted.

`S` (7 theorems): C18_single_pressure_refuted, C51_other_engine_refuted, C51_part_of_a_name_refuted, C52_jet_table, C71_io540_refuted, C16_negative_number_refuted, C16_scattered_rows_refuted.

`SF` (134 theorems): C44_gust_velocities, C46_limit_load_factors_partial, C46_negative_factors_refuted, C46_factor_monotone, C05_altitudes_inverse, C05_geopotential_relation, C05_altitudes_increasing, C05_geopotential_not_above, C06_isa_temperature, C06_standard_temperature_continuous, C11_profile_clipping_refuted, C11_admissible_altitudes_unaltered, C17_reciprocal_heading, C17_heading_zero_refuted, C18_interpolation_at_observation, C18_interpolation_between, C18_no_extrapolation, C20_piston_affine, C21_polyblend_c1_ramp, C21_polyblend_zero_duration, C41_inapplicable_is_one, C41_range, C41_increasing, C42_factor, C42_increasing, C90_spline_exists, C90_spline_unique, C90_any_spline, C90_reproduces_cubics, C90_raises, C90_nan, C85_warns, C85_warns_refuted, C92_polynomials, C92_polynomials_missing, C86_operations, C86_literals, C86_conversions, C86_temperatures, C86_rising, C86_round_trips, C86_temperature_round_trips, C86_drift, C86_exact_inverse_refuted, C86_paths_back_refuted, C87_comparison, C87_altitudes, C87_altitudes_inverse_refuted, C87_altitude_order, C87_altitude_order_refuted, C87_temperature, C87_temperature_order, C87_tropopause_refuted, C87_gas_law, C87_density_order, C98_density, C98_pressure, C98_stagnation, C98_recovery, C98_range, C98_rises, C100_number, C100_table, C100_others, C83_rows, C83_panels, C83_accepted, C52_polynomials, C53_bsec, C54_agreement, C76_jet, C76_turboprop, C76_piston, C76_at_data_points, C76_sea_level_refuted, C58_custom_runway, C58_metric_attributes, C101_nth_runway, C101_own_runway, C101_negative_refuted, C101_numbers, C101_opposite_refuted, C101_heading_refuted, C101_width_refuted, C101_rows, C101_usable_refuted, C101_heathrow, C101_denver, C96_float, C96_columns, C96_thrust, C96_take_off, C96_others, C96_falls_refuted, C96_take_off_above, C96_fits, C96_static_take_off_refuted, C97_loads_refuted, C97_jet_numbers, C97_tsfc_numbers, C97_tsfc_numbers_refuted, C97_turboprop_numbers, C97_piston_numbers, C97_largest, C97_largest_refuted, C97_sea_level_refuted, C97_static_refuted, C97_slow_tsfc_refuted, C102_altitudes, C89_table, C89_spline, C89_splines_exist, C89_outside, C89_positive, C89_at_most_static_refuted, C89_falls_with_mach_partial, C89_falls_with_mach_refuted, C89_rises_with_density_partial, C89_static_rises_with_density, C89_rises_with_density_refuted, C01_unit_pairs_mutually_inverse, C01_units_match_definitions, C02_knots_round_trip_drift, C02_kgm2_round_trip_drift, C02_knots_exact_inverse_refuted, C03_temperature_scales, C03_temperature_paths_agree, C91_axes, C91_options_once, C91_labels, C91_limit, C91_figure_size, C91_text_size, C91_options_refuted.

`SFC` (4 theorems): C85_turboprop, C85_piston, C85_electric, C85_jet.

`SNF` (67 theorems): C49_scaling, C04_vsound_kts_many_refuted, C12_mach_times_sound, C12_mach_arrays, C12_negative_airspeed_refuted, C18_profile_from_density, C18_profile_from_pressure, C22_rotation_inverse, C22_rotation_norm, C22_rotation_composes, C22_rotation_values, C22_short_column_raises, C94_listed_is_loaded_partial, C23_plain_entries, C23_sub_entries, C23_wing_shape, C23_construction_succeeds, C23_dictionary_for_number_raises, C24_reuse, C24_any_history, C24_design_space_refuted, C24_default_flags_refuted, C25_mean_is_used, C25_range_retained, C25_sweep_range_refuted, C26_sweep25_refuted, C56_turn_radius, C93_missing_table, C93_other_object, C93_nan_speed, C93_piston_speed, C93_best_power_refuted, C93_one_speed_refuted, C86_square_root, C86_airspeeds, C86_airspeed_round_trips, C87_speed_of_sound, C100_loads, C100_decimal_altitude_refuted, C100_exists, C104_constructible, C104_lowest_and_highest, C104_by_pressure, C104_one_pressure_refuted, C50_unknown_engine_refuted, C51_electric_contents, C53_half_power_refuted, C53_arrays, C53_table, C71_electric_order_partial, C71_shipped_partial, C15_components, C15_components_elementwise, C15_full_turn, C15_reversed, C15_sign_immaterial, C15_axes, C15_mismatched_lists_raise, C15_several_speeds_refuted, C57_profiles_of_table, C57_wrong_columns_raise, C57_untabulated_raises_refuted, C97_loads, C97_electric_numbers, C29_angle_affine, C29_straight_edges_partial, C29_raises_exactly_outside.

`SNFC` (255 theorems): C45_design_speeds, C45_manoeuvring_below_cruise_refuted, C45_manoeuvring_below_cruise_partial, C47_gust_load_factors, C68_weight_fraction_refuted, C48_points, C48_unknown_category, C49_mean_chords, C64_stall_speed, C64_missing_weight_or_area, C64_missing_lift_coefficient, C65_outline_partial, C65_negative_limit_refuted, C66_outline_joins_partial, C66_gap_refuted, C67_values, C67_engine_dropped_refuted, C67_succeeds, C69_stall_lines, C04_batch_is_pointwise, C04_airspeed_arrays, C04_airspeed_many_altitudes_refuted, C07_strictly_decreasing_refuted, C07_decreasing_in_layer, C07_decreasing_10cm, C07_matches_hydrostatic_standard, C08_ideal_gas_law, C08_offset_effect, C09_pressure_altitude, C09_pressure_at_pressure_altitude, C09_nonpositive_pressure, C10_density_altitude_single, C10_density_altitude_list_refuted, C11_clipping_refuted, C13_eas_tas_inverse, C13_eas_tas_inverse_any, C13_sea_level_identity, C13_tas_above_eas, C14_cas_not_below_eas, C14_kcas_not_below_keas, C19_turbofan_highbpr_continuous, C19_turbofan_lowbpr_continuous, C19_turbojet_dry_continuous, C19_turbojet_wet_continuous, C19_turboprop_continuous, C19_turbofan_laws, C19_turbojet_laws, C19_turboprop_laws, C19_bounded_below_break, C19_afterburner_bound_refuted, C19_turboprop_bounded_refuted, C60_derived_queries, C60_derived_isa, C95_no_diameter, C105_gusts, C105_design_speeds, C105_aerobatic_dive, C105_dive_speed_refuted, C105_stall_speed, C105_limit_load, C31_takeoff_balance, C31_pointwise, C31_missing_groundrun_raises, C32_turn_balance_partial, C32_climb_fraction_refuted, C33_only_turn_fraction_refuted, C33_turn_general, C34_climb_balance, C34_cruise_balance, C34_ceiling_balance_partial, C34_ceiling_balance_refuted, C35_combined_is_envelope, C35_entries_are_the_constraints, C36_missing_items_raise, C36_never_defaulted, C36_complete_brief_succeeds, C36_complete_brief_power, C37_power_is_thrust_times_speed, C37_combined_is_envelope, C38_sea_level_power_refuted, C39_round_trip, C39_standard_day_partial, C39_hot_day_refuted, C39_stall_speed_equation, C39_lower_loading_lower_speed, C40_stall_of_list_refuted, C56_decreasing, C61_generic_engines, C61_decks, C61_unknown_code_raises, C61_jet_with_negative_bypass_raises, C62_subsonic, C62_transonic, C62_supersonic_leading_edge, C62_positive_near_design_point, C90_table_distinct, C90_table_in_order, C90_lift_slope, C90_lift_slope_continuous, C90_beside_the_peak, C90_constraints_evaluate, C93_lone_engine_refuted, C93_lone_engine_matters_refuted, C93_constructed, C93_decks_as_functions, C93_jet_lapse, C93_turboprop_power, C92_outcomes, C92_success, C92_missing_data, C92_missing_consumption, C92_no_other, C88_returned, C88_errors, C88_gust_lines, C88_notes, C88_lines, C88_markers, C88_presentation, C88_frame_partial, C88_frame_refuted, C88_warnings, C107_pressure, C107_density, C107_order, C107_order_refuted, C107_gas_law, C98_ratios, C99_best_climb, C99_no_drag, C100_range, C100_density, C100_temperature, C100_temperature_refuted, C100_density_falls, C100_pressure_falls, C100_falls_refuted, C100_extreme, C100_extreme_refuted, C104_range, C104_between, C104_any_order, C104_falls, C104_gas_law_error, C104_gas_law_refuted, C104_two_speeds_of_sound_refuted, C104_airspeeds_refuted, C50_empty_deck, C52_turboprop_table, C52_turboprop_error, C54_total, C54_passes, C54_bounded_partial, C54_above_one_refuted, C54_cycle_refuted, C73_unity_refuted, C73_one_power_refuted, C73_repeatable, C74_turboprop, C74_turboprop_total, C74_piston, C74_electric, C75_turboprop_partial, C75_turboprop_total_refuted, C75_piston_refuted, C77_ansatz, C77_tip_speed_refuted, C43_shares, C43_effects, C43_reported_iff, C43_effect_reported_refuted, C43_at_most_24_parameters, C43_total, C43_single_wing_loading_refuted, C63_nominal_partial, C63_default_engine_refuted, C78_window, C78_limit_given, C78_limits, C78_curves, C79_turn_line, C79_defined_iff, C79_stall_line, C80_shading_partial, C80_last_feasible_shaded, C80_last_feasible_refuted, C80_descending, C80_descending_refuted, C80_front, C81_masks, C81_dominating, C81_dominating_refuted, C82_show_all, C82_show_other, C82_drawn, C82_single_loading_refuted, C82_parts, C96_falls, C96_take_off_falls, C102_jet, C102_turboprop, C102_piston, C102_take_off_refuted, C106_readings, C106_handbook, C106_standard, C106_take_off, C106_turn, C106_climb, C106_cruise, C106_ceiling, C106_combined, C106_power, C106_brief_covered_refuted, C106_low_runway_refuted, C106_stall, C106_envelope, C106_gusts, C103_takeoff, C103_hot_high, C103_cruise, C103_climb, C103_ceiling, C103_turn, C103_climb_rate, C89_lapse, C13_units_eas_tas_inverse, C91_outcomes, C91_span_efficiency, C91_mach_range, C91_mach_range_refuted, C91_drag_factor, C91_drag_factor_default, C91_lift_slope, C91_leading_edge_suction, C91_propulsion, C91_thrust, C91_power, C91_missing_map_refuted, C91_deprecated_refuted, C91_unsupported_is_default, C91_supported_as_given, C27_published_estimates, C27_ranges, C27_factor_positive, C27_methods13_refuted, C28_digits_select, C28_negative_selector_raises, C28_unnamed_rejected_refuted, C29_straight_edges_refuted, C30_weighted_mean, C30_transonic_points, C30_subsonic_slopes_positive, C30_continuous_partial, C30_continuous_refuted.

<!-- end -->

### What is modelled, and what is not

| source | modelled | not modelled |
|---|---|---|
| unitconversions.py | every conversion in real numbers (`UnitsModel.v`), and in IEEE 754 double precision (`FloatModel.v`) | the C library's `pow` (`** 0.5` in double precision is an argument); magnitudes outside 2^-800 .. 2^800 in the theorems of C86 |
| atmospheres.py | `Atmosphere` (standard, off-standard, observations, profiles): all queries and conversions, pressure / density altitude, thrust and power lapse models (`AtmosModel.v`); altitude conversions, gas law, ISA temperature and speed of sound also in double precision (`FloatAtmosModel.v`), pressures and densities too, with `pow` and `exp` as arguments (`FloatPressModel.v`); `turbopropthrustfactor` with its table and spline (`TurbopropModel.v`); `Runway`, MIL-HDBK-310 profile selection (`RunwayModel.v`) and its shipped files (`HandbookModel.v`) | the C library's `pow` and `exp` themselves; IEEE rounding in pressure and density altitudes; csv.reader (the rows of runways.csv are arguments; the numbers in them are `RunwayText.v`); FITPACK's rounding and its clamping of infinite arguments |
| mtools4acdc.py | recasting, coordinate transformation, blending (`UnitsModel.v`, `AtmosModel.v`); the data of the multi-panel diagrams and the trimmed frame of `fdrplot` (`PanelModel.v`) | matplotlib, reading the CSV file, fonts and colours of the axes |
| weathertools.py | `readmethistfile`, `decodemetar` on character lists; the METAR parser is an argument | the METAR parser itself |
| constraintanalysis.py | the constructor with its dictionaries, every wing / drag / lift method (`ConceptModel.v`, `MethodsModel.v`), every constraint, `twrequired`, `powerrequired`, stall methods, `_propulsion_slcorr`; scipy's cubic interp1d (`CubicModel.v`, exact arithmetic); the numbers of `propulsionsensitivity_monothetic` (`SensitivityModel.v`) and the data of its diagrams (`SensitivityPlotModel.v`); all its warnings and the options they replace (`WarningsModel.v`) | plots and printed tables; numpy's least-squares solver (replaced by its defining equations); engine decks' interpolants are arguments of a concept |
| airworthiness.py | `CertificationSpecifications`: constructor, `vs_keas`, `_meanchord_m`, paragraphs 333, 335, 337, 341 and the points and curves of `flightenvelope` (`AirworthinessModel.v`); what `flightenvelope` draws and its warnings (`EnvelopePlotModel.v`) | line styles, the window, texts made of numbers (the rounded numbers are modelled) |
| propulsion.py | `local_data`, `_setup` on directory listings, polynomial files, the four decks with all queries, `PropellerDeck` (`ansatzprop`, `efficiency`) (`PropulsionModel.v`); the data of the demonstration plots (`DemoModel.v`, grids in exact arithmetic); warnings of the decks (`EngineWarnModel.v`); the printed catalogue and the propeller constructor (`CatalogueModel.v`); the shipped engine files (`ShippedText.v`, generated, and their reader `ShippedModel.v`) | pandas' CSV parser beyond plain decimal tables, and scipy's `griddata` (arguments); matplotlib and the notebook helpers; the arctan of an infinity where the swirl efficiency is 0 |

Idealisations: floats are reals (no rounding, no overflow) except in `FloatModel.v` and `FloatAtmosModel.v`, which use the standard library's
executable IEEE 754 operations (`Coq.Floats.SpecFloat`, proved correctly rounded in `FloatArith.v`; scalars of type float,
not numpy arrays of other types); numpy warnings are not recorded; a NaN or infinity of any
kind is the one value `NonFin`.
