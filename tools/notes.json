{
 "C02": {
  "note": "The knots pair is not an exact inverse (C02_knots_exact_inverse_refuted shows the drift is real); the drift bounds are proved."
 },
 "C04": {
  "note": "Holds for temperature, pressure, density, speed of sound (m/s) and dynamic pressure for every atmosphere. Violated by the code for eas2tas with two or more altitudes and for vsound_kts with two or more altitudes (refuted theorems)."
 },
 "C07": {
  "note": "Strict monotonicity across layer joints is false of the code (rounded coefficients): refuted with witnesses. Proved: strict decrease in each layer and between altitudes 10 cm or more apart, positivity, agreement with the hydrostatic standard to 1e-5."
 },
 "C10": {
  "note": "Holds for one density; for lists of two or more the code raises (refuted)."
 },
 "C11": {
  "note": "The code raises TypeError instead of limiting the altitude (refuted); admissible altitudes are unaltered (proved)."
 },
 "C12": {
  "note": "Consistency proved; a negative airspeed is not rejected and gives a negative Mach number (refuted part)."
 },
 "C15": {
  "note": "Proved for scalars and equally long lists; a scalar direction with several speeds resolves only the first (refuted part)."
 },
 "C16": {
  "note": "Proved for databases whose rows are contiguous per airport (the shipped file is) and n >= 0; negative numbers and scattered rows yield another airport's runway (refuted parts)."
 },
 "C17": {
  "note": "Proved on (0,360]; heading 0 is not restored (extra refutation)."
 },
 "C18": {
  "note": "Proved; a single observation given by pressure cannot be constructed (refuted part)."
 },
 "C19": {
  "note": "Continuity and bounds up to the break proved; the afterburning turbojet exceeds the pressure ratio on cold days and the turboprop factor is unbounded below (refuted parts)."
 },
 "C55": {
  "note": "Proved for uniformly terminated files; an unterminated last line, mixed terminators and the empty file violate it (refuted parts)."
 },
 "C57": {
  "note": "Proved for tabulated combinations; the code returns (None, None) instead of raising for the others (refuted part). One-line tables are outside the model."
 },
 "C59": {
  "note": "Proved for reports starting with the four-character station; reports starting with METAR or SPECI are mangled (refuted part)."
 },
 "C23": {
  "note": "Proved for all dictionaries the constructor accepts; acceptance proved for all well-formed dictionaries. The quarter-chord sweep default is C26."
 },
 "C24": {
  "note": "The concept (all attributes used by the methods) is the same for any history of successful constructions; the design space and the two default flags of a second concept differ (refuted parts)."
 },
 "C25": {
  "note": "Proved; a range given only for the leading edge or maximum thickness sweep raises TypeError (refuted part)."
 },
 "C26": {
  "note": "The code violates the documented default by 12/7 of the leading edge sweep (operator precedence); refuted for every non-zero leading edge sweep."
 },
 "C27": {
  "note": "Methods 2 and 4 are in range for every regular wing and give a positive factor 1/(pi AR e). False of methods 1 and 3: from aspect ratio 64 (method 1) and 27 (method 3) on they give negative induced drag (refuted)."
 },
 "C28": {
  "note": "The digits select the methods; negative integers raise ValueError. Selectors naming no method are not rejected but silently mean 24 at Mach 0.3 (refuted)."
 },
 "C29": {
  "note": "The angle is affine along the chord; this is the straight-edge value at the leading edge, the quarter chord and for equal sweeps only (refuted elsewhere). ValueError exactly outside [0,1]."
 },
 "C30": {
  "note": "Weights and continuity for every Mach number above 0, given that scipy's cubic interpolant is continuous (which C90 proves). At the Mach number where a swept leading edge becomes sonic the slope jumps when that Mach number exceeds 1.4 (refuted there)."
 },
 "C32": {
  "note": "Holds when the climb weight fraction is 1 (partial theorem, which also gives the CL marking); with a climb weight fraction below 1 the code asks for less thrust than the turn needs (refuted). The value for every climb fraction is C33_turn_general."
 },
 "C33": {
  "note": "Violated: the climb weight fraction enters the turn constraint (refuted: reported CL always differs). The turn constraint's exact value for all fractions is proved."
 },
 "C34": {
  "note": "Climb and cruise hold. The ceiling constraint takes lift = weight, so it exceeds the balance by k x/q sin^2 (partial theorem gives the exact deviation, refuted theorem shows it is never the balance)."
 },
 "C38": {
  "note": "Violated: for every generic engine, piston included, powerrequired is the same with and without map2sl (refuted)."
 },
 "C39": {
  "note": "Round trip exact up to the ratio of design-atmosphere to standard sea level density, minimum area and monotonicity proved. Standard day: 1e-7 (the knots conversion pair is not exact). Off-standard day: stall speed differs (refuted)."
 },
 "C40": {
  "note": "Violated: several wing loadings raise TypeError (refuted)."
 },
 "C61": {
  "note": "Piston deck uses the largest RPM of the deck at the queried altitude. A concept called 'jet' with negative bypass ratio raises."
 },
 "C43": {
  "note": "Proved: shares positive, sum to one, proportional to the effects; a parameter is reported exactly if it makes a difference at every wing loading; at most 24 parameters; totality. Violated by the code: an effect at some wing loadings only is dropped (.all() where the comment says 'at any point'), and a single wing loading raises TypeError (refuted theorems)."
 },
 "C63": {
  "note": "Proved for concepts with an engine; with the default engine (propulsion False) the rebuilt concepts lose the sea-level mapping (refuted with a witness)."
 },
 "C45": {
  "note": "Minimum speeds, coefficients and VD >= 1.25 VC proved. VA <= VC is violated for aerobatic aircraft with moderate CLmax (refuted with a witness), proved for normal and commuter aircraft with 1.69 wf <= rho0 CLmax. VA, VB are characterised by their balances."
 },
 "C46": {
  "note": "Positive factors and the negative ones of normal and commuter aircraft proved; for utility and aerobatic aircraft the code takes the fraction of the normal category's positive factor (refuted for every weight)."
 },
 "C48": {
  "note": "All seven points. Equalities through the two knot conversions hold to 2e-7 relative (their product is not 1)."
 },
 "C65": {
  "note": "Upper outline, CD, EF and FS proved; point F of normal/commuter aircraft takes the dive-speed limit 0 instead of the limit at VC (refuted with a witness)."
 },
 "C66": {
  "note": "All joints but F proved; EF ends at F and FS starts below it (refuted, same hypotheses as C65)."
 },
 "C67": {
  "note": "Everything but the engine, which is never passed on (refuted)."
 },
 "C68": {
  "note": "Violated: the increment is divided by the weight fraction twice; it agrees exactly when the fraction is 1 (refuted)."
 },
 "C50": {
  "note": "Violated: an empty deck is built for every unknown engine (refuted); the NameError is unreachable."
 },
 "C51": {
  "note": "Violated: substring match (refuted, two witnesses). Exact contents of every deck proved; holds for the shipped directories."
 },
 "C52": {
  "note": "scipy's griddata is an argument assumed not to extrapolate, as documented; polynomial guards proved outright."
 },
 "C53": {
  "note": "Violated: shaftpower uses pi for 2 pi and gives half the power (refuted for all inputs); the table built on loading is right."
 },
 "C54": {
  "note": "Termination, the iteration bound and the stopping rule proved. Bounded by 1 only for lightly loaded propellers; above 1 and cyclic cases refuted with witnesses."
 },
 "C71": {
  "note": "Violated for the shipped IO-540 (refuted); proved when no two files serve the same purpose, and for all other shipped engines."
 },
 "C73": {
  "note": "Equal lengths: C54_total. The documented unity lengths fail (refuted)."
 },
 "C75": {
  "note": "Holds for the propeller thrust of turboprops; violated for their total thrust and for every piston engine (refuted)."
 },
 "C76": {
  "note": "The reference is the largest table value, not the sea-level static one (refuted with a witness); everything else proved."
 },
 "C77": {
  "note": "Everything but the tip Mach number, whose limit is applied at half the radius (refuted)."
 },
 "C80": {
  "note": "Holds up to the last wing loading with a defined front, which is shaded too (refuted with a witness, and in general); for descending wing loadings the wrong side is shaded (refuted)."
 },
 "C81": {
  "note": "Exact masks proved; a constraint that is nowhere below the front makes masking raise ValueError (refuted)."
 },
 "C82": {
  "note": "Totality for two or more different wing loadings; a single one fails (refuted)."
 },
 "C84": {
  "note": "Contents and exact acceptance conditions proved; a plain list of numbers as a series always fails, and a text label over a list of series is cut to its first letter (both refuted)."
 },
 "C85": {
  "note": "Grid, values and labels of all nine plots proved; without data the turboprop plots, the piston shaft power and the jet TSFC against altitude raise AttributeError instead of warning (refuted)."
 },
 "C86": {
  "note": "Against the standard library's executable IEEE 754 specification, with ** 0.5 as any root within one unit in the last place; that no pair of conversions is an exact inverse, and that Rankine to Celsius depends on the path, is proved by refutation."
 },
 "C87": {
  "note": "math.sqrt is the root of IEEE 754; exact inversion of the altitude conversions, the order of neighbouring geometric altitudes and a temperature that never rises across the tropopause are refuted with witnesses."
 },
 "C88": {
  "note": "That every airspeed drawn lies within the horizontal axis is refuted (point A of an aerobatic aircraft); it is proved when the stall and manoeuvring speeds do. Values of show other than truth values and lists are not modelled."
 },
 "C89": {
  "note": "That the factor never exceeds the static sea-level thrust, that it falls with the Mach number from Mach 0 on and that it rises with the density ratio are refuted with witnesses; the last two are proved from Mach 0.15 and up to a density ratio of 0.581 (static thrust: up to sea level). scipy's spline is modelled in exact arithmetic."
 },
 "C90": {
  "note": "scipy's spline is modelled in exact arithmetic and in a different basis; uniqueness shows it is the same function. Closes the hypothesis on the interpolator in C30, C36 and C62."
 },
 "C91": {
  "note": "Refuted with witnesses: the Mach number is also blamed for a wing swept far forward; the missing-mapping warnings are never given, nor is the deprecation warning for a bypass ratio that stands for a system; limits such as [] and tuples of any length as figure size are kept silently. The filters of the module warnings and the texts are not modelled."
 },
 "C92": {
  "note": "Refuted: TurbopropDeck.bsfc without data says that TSFC data are missing. The refuted theorem states what the message is. Polynomials with two limits, one Mach number at a time."
 },
 "C93": {
  "note": "Refuted: a tuple with an engine only, documented as allowed, is dropped without a message; a piston engine is taken at its largest tabulated speed (less up to one rpm) instead of that of greatest power; a piston table for one speed raises. C93_argument_partial leaves out the one-tuple, for which the statement is false (C93_lone_engine_refuted)."
 },
 "C94": {
  "note": "Refuted: the take-off thrust data that a jet's page lists are never loaded (C94_take_off_refuted); the best power consumption of a piston engine and files named in lower case are loaded and not listed. C94_listed_is_loaded_partial leaves out the take-off data, for which the statement is false."
 },
 "C95": {
  "note": "The dictionary holds numbers; the two solver settings are integers."
 },
 "C96": {
  "note": "Holds for the nine thrust and three take-off polynomials, for every Mach number; refuted: thrust of J52, J60 and F404-400 rises somewhere, static take-off thrust of the JT8D-9 is missing."
 },
 "C97": {
  "note": "Decided for every shipped engine; refuted for the engines named in the refuted theorems."
 },
 "C98": {
  "note": "Proved for all reals; temperature zero is excluded where it divides."
 },
 "C99": {
  "note": "Propeller power is taken as independent of speed, as in the cited formula: least power needed is then best rate of climb. The density is any positive answer of the design atmosphere."
 },
 "C100": {
  "note": "Decided for all 24 shipped profiles; the refuted theorems name the profiles and altitudes where a misprint in the data breaks the property."
 },
 "C101": {
  "note": "All rows of the shipped file are covered. The file is data: RunwayText.v (written by tools/runways.py) holds the airport and the six required numbers of each row as text; csv.reader itself is not modelled. Violations are stated as refuted theorems."
 },
 "C102": {
  "note": "the combined requirement is nan at every wing loading when an altitude of the brief lies outside the engine's table; take-off at sea level refuted for two engines"
 },
 "C103": {
  "note": "Take-off trends are for map2sl=False; the turn bound is for climb weight fraction 1 (see C32_climb_fraction_refuted otherwise); the climb trend assumes k CL <= 1/2."
 },
 "C104": {
  "note": "Readings of temperature and density with distinct altitudes; interp1d is modelled exactly (real arithmetic)."
 },
 "C105": {
  "note": "The aerobatic design dive speed refutes the last claim; everything else is proved for all described aeroplanes."
 },
 "C106": {
  "note": "Complete briefs with a generic engine or a jet or turboprop deck; the one handbook profile with a zero temperature is excluded."
 },
 "C107": {
  "note": "numpy.power and math.exp are arguments of bounded relative error. That the values fall between any two altitudes is refuted at 47 km."
 }
}