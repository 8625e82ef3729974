{"id": "C01", "title": "Unit conversion pairs are mutually inverse", "statement": "Converting a quantity to another unit and back with the matching pair of functions (feet/m, feet2/m2, m/km, C/K, C/R, K/R, Pa/mbar, inHg/mbar, mbar/lbf.ft-2, Pa/lbf.ft-2, kg/N, lbs/kg, lbf/N, kW/hp, kg.m-3/slug.ft-3) returns the quantity that was put in.", "quantifier": "every real value of the quantity and every one of the listed pairs, in both directions", "why_tests_cant": "a unit test samples a handful of values; the claim is about every magnitude and sign", "anchors": ["ADRpy/unitconversions.py:feet2m,m2feet,feet22m2,m22feet2,m2km,km2m,c2k,k2c,c2r,r2c,k2r,r2k,pa2mbar,mbar2pa,inhg2mbar,mbar2inhg,mbar2lbfft2,lbfft22mbar,pa2lbfft2,lbfft22pa,kg2n,n2kg,lbs2kg,kg2lbs,lbf2n,n2lbf,kw2hp,hp2kw,kgm32sft3,sft32kgm3"]}
{"id": "C02", "title": "Knots and kg/m2 round trips drift by a bounded factor only", "statement": "The pairs mps2kts/kts2mps and pa2kgm2/kgm22pa use independently rounded constants, so they are not exact inverses; the relative error of a round trip is nevertheless below 2e-7 resp. 1e-9 for every value, with the sign preserved and zero mapped to zero.", "quantifier": "every real speed / pressure, both directions", "why_tests_cant": "an equality test either fails or uses a tolerance at sample points; the bound is for all values", "anchors": ["ADRpy/unitconversions.py:mps2kts,kts2mps,pa2kgm2,kgm22pa"]}
{"id": "C03", "title": "Temperature conversions agree along every path", "statement": "C->K->R equals C->R, R->K->C equals R->C, the freezing point is 32 F / 273.15 K / 491.67 R, and all temperature conversions are strictly increasing.", "quantifier": "every real temperature", "why_tests_cant": "path independence ranges over all values", "anchors": ["ADRpy/unitconversions.py:c2f,c2k,k2c,c2r,r2c,k2r,r2k"]}
{"id": "C04", "title": "Scalar in, scalar out; array in, array out, elementwise", "statement": "The atmosphere's temperature, pressure, density, speed-of-sound and airspeed conversions applied to a list of altitudes give, at each index, the value the same call gives for that altitude alone; the number of results equals the number of altitudes; a single-number input gives a single number.", "quantifier": "every list length and content, every atmosphere temperature offset", "why_tests_cant": "tests use a few fixed lists; independence of elements ranges over all lists", "anchors": ["ADRpy/atmospheres.py:Atmosphere.airtemp_k,airpress_pa,airdens_kgpm3,vsound_mps,eas2tas,tas2eas,_reverttoscalar", "ADRpy/mtools4acdc.py:recastasnpfloatarray"]}
{"id": "C05", "title": "Geometric and geopotential altitude are inverse, monotone maps", "statement": "geop2geom45m and geom2geop45m are inverse to each other away from the pole of each, fix sea level, are strictly increasing on their physical range, and the geopotential altitude never exceeds the geometric one.", "quantifier": "every altitude above the centre of the Earth (geometric) / below the reference radius (geopotential)", "why_tests_cant": "tests check sample altitudes", "anchors": ["ADRpy/atmospheres.py:geom2geop45m,geop2geom45m"]}
{"id": "C06", "title": "ISA temperature profile is the piecewise-linear standard, continuous across layers", "statement": "For each geopotential altitude from sea level (and below) to 50 km the temperature of a zero-offset atmosphere is the ISA layer formula; the layer formulas agree exactly at 11, 20, 32 and 47 km; with an offset the profile is shifted by exactly that offset at every altitude.", "quantifier": "every altitude up to 50 km and every offset", "why_tests_cant": "continuity and shift are claims about every altitude", "anchors": ["ADRpy/atmospheres.py:Atmosphere._isatemp_k,airtemp_k"]}
{"id": "C07", "title": "Pressure and density fall strictly with altitude and stay positive", "statement": "In the standard atmosphere, a higher altitude inside the 0-50 km envelope always has a strictly lower pressure (and, in each layer, density); both are positive everywhere.", "quantifier": "every pair of altitudes from 0 to 50 km", "why_tests_cant": "monotonicity across layer joints cannot be settled by samples: the published layer constants do not match exactly", "anchors": ["ADRpy/atmospheres.py:Atmosphere._isapress_pa,_isadens_kgpm3"]}
{"id": "C08", "title": "Standard atmosphere obeys the ideal gas law to table accuracy", "statement": "At every altitude up to 50 km, pressure, density and temperature of the zero-offset atmosphere satisfy p = rho R T within a stated relative tolerance; with an offset, density times temperature is unchanged by the offset while pressure is unaffected.", "quantifier": "every altitude and offset", "why_tests_cant": "ranges over a continuum", "anchors": ["ADRpy/atmospheres.py:Atmosphere._isadens_kgpm3,_isapress_pa,_isatemp_k"]}
{"id": "C09", "title": "Pressure altitude inverts pressure", "statement": "The altitude computed from a pressure is the altitude at which the ISA has this pressure: converting an altitude to pressure and back returns the altitude inside each layer, and any discrepancy at the layer joints is bounded.", "quantifier": "every altitude up to 50 km", "why_tests_cant": "joint behaviour at arbitrary altitude", "anchors": ["ADRpy/atmospheres.py:Atmosphere._isapressalt_m,_isapress_pa"]}
{"id": "C10", "title": "Density altitude inverts density for a list of densities", "statement": "The density altitude of each density in a list depends on that density only and is the altitude at which the zero-offset ISA has that density.", "quantifier": "every list of densities in the ISA range", "why_tests_cant": "the defect only appears with several elements in different layers", "anchors": ["ADRpy/atmospheres.py:Atmosphere._isadensalt_m"]}
{"id": "C11", "title": "Altitudes above the validity limit are clipped with a warning", "statement": "Asking a standard atmosphere for a property above 50 km returns the 50 km value and emits a warning, for every altitude, and altitudes below the limit are not altered.", "quantifier": "every altitude list", "why_tests_cant": "clipping of arbitrary lists", "anchors": ["ADRpy/atmospheres.py:Atmosphere._alttest"]}
{"id": "C12", "title": "Speed of sound and Mach number are consistent", "statement": "mach(V,h) times vsound_mps(h) equals V; vsound is the square root of 1.4 R T; a negative airspeed is rejected with a warning.", "quantifier": "every airspeed and altitude", "why_tests_cant": "continuum", "anchors": ["ADRpy/atmospheres.py:Atmosphere.mach,vsound_mps,_vsound_mps"]}
{"id": "C13", "title": "EAS and TAS conversions are inverse and ordered", "statement": "eas2tas and tas2eas at the same altitude are inverse to each other; the ratio squared equals the density ratio to the same atmosphere's sea level; at sea level they are the identity; in the standard atmosphere TAS is never below EAS at positive altitude.", "quantifier": "every speed, altitude, offset", "why_tests_cant": "continuum", "anchors": ["ADRpy/atmospheres.py:Atmosphere.eas2tas,tas2eas", "ADRpy/unitconversions.py:tas2eas,eas2tas"]}
{"id": "C14", "title": "CAS is never below EAS", "statement": "keas2kcas returns a calibrated airspeed that equals the equivalent airspeed at sea level in the standard day and is not below it at altitude for subsonic speeds; zero maps to zero.", "quantifier": "every airspeed and altitude in the stated range", "why_tests_cant": "nonlinear inequality over a continuum", "anchors": ["ADRpy/atmospheres.py:Atmosphere.keas2kcas,mpseas2mpscas"]}
{"id": "C15", "title": "Wind decomposition conserves the wind vector", "statement": "Runway.windcomponents returns a parallel and a normal component whose squares add up to the squared wind speed; adding 360 degrees to the direction changes nothing; reversing the wind negates both; the sign of the given speed is immaterial.", "quantifier": "every speed, direction and runway heading", "why_tests_cant": "trigonometric identities over all reals", "anchors": ["ADRpy/atmospheres.py:Runway.windcomponents"]}
{"id": "C16", "title": "Runway lookup returns the requested airport's runway or an error", "statement": "Runway(ICAO code, n) yields the n-th runway of that airport in the database, or raises; it never yields another airport's runway.", "quantifier": "every database, code and runway number", "why_tests_cant": "depends on the layout of the whole database and on negative numbers", "anchors": ["ADRpy/atmospheres.py:Runway.__init__"]}
{"id": "C17", "title": "Reciprocal heading", "statement": "reciprocalhdg differs from the heading by exactly 180 degrees modulo 360, lies in (0,360], and applying it twice returns the heading.", "quantifier": "every heading in (0,360]", "why_tests_cant": "boundary behaviour over a continuum", "anchors": ["ADRpy/atmospheres.py:reciprocalhdg"]}
{"id": "C18", "title": "Observation profiles satisfy the ideal gas law and interpolate between observations", "statement": "An Obsprofile given two of pressure/density completes the third by the ideal gas law at each level; interpolated values lie between the neighbouring observations and equal the observation at observation altitudes.", "quantifier": "every profile length and observation", "why_tests_cant": "arbitrary profiles", "anchors": ["ADRpy/atmospheres.py:Obsprofile.__init__"]}
{"id": "C19", "title": "Thrust lapse factors are continuous and bounded", "statement": "Turbofan, turbojet and turboprop thrust factors are continuous across the throttle-ratio break (theta0 = TR), at most the pressure ratio up to the break, and non-negative for the stated Mach ranges.", "quantifier": "every temperature/pressure/Mach/throttle ratio combination", "why_tests_cant": "continuity at a break is not testable by samples", "anchors": ["ADRpy/atmospheres.py:Atmosphere.turbofanthrustfactor,turbojetthrustfactor,turbopropthrustfactor_matt"]}
{"id": "C20", "title": "Piston power lapse", "statement": "pistonpowerfactor is an affine function of the density ratio, 1 at the standard sea level density, strictly increasing with density.", "quantifier": "every density", "why_tests_cant": "continuum", "anchors": ["ADRpy/atmospheres.py:pistonpowerfactor"]}
{"id": "C21", "title": "Polynomial blending is a monotone C1 ramp", "statement": "polyblend equals the initial signal before time 0 and at 0, the final one from time_f on, stays between the two, is monotone in time, and is continuous with zero slope at both ends.", "quantifier": "every pair of signals, duration and time", "why_tests_cant": "continuum", "anchors": ["ADRpy/mtools4acdc.py:polyblend"]}
{"id": "C22", "title": "Coordinate transformation preserves lengths and inverts", "statement": "_coordtrans with angle a followed by angle -a is the identity and the Euclidean norm is preserved.", "quantifier": "every vector and angle", "why_tests_cant": "trigonometric identity", "anchors": ["ADRpy/mtools4acdc.py:_coordtrans"]}
{"id": "C23", "title": "Constructing an aircraft concept keeps every user value and defaults the rest", "statement": "After AircraftConcept(brief, design, performance, atmosphere, propulsion), every recognised parameter the user specified holds the user's value (averaged if a list was given), every unspecified one its documented default, whatever subset was specified and in whatever order.", "quantifier": "every subset and order of user-specified keys and every value", "why_tests_cant": "exponentially many subsets", "anchors": ["ADRpy/constraintanalysis.py:AircraftConcept.__init__"]}
{"id": "C24", "title": "Constructor does not corrupt the caller's dictionaries", "statement": "The dictionaries passed to the constructor can be reused: constructing a second concept from the same objects yields the same concept.", "quantifier": "every set of dictionaries; every history of constructions", "why_tests_cant": "history property: tests build fresh dictionaries", "anchors": ["ADRpy/constraintanalysis.py:AircraftConcept.__init__"]}
{"id": "C25", "title": "A range of values is stored as design space and its mean is used", "statement": "If a parameter is given as a list, calculations use its arithmetic mean, which lies between the least and greatest entries, and the entries themselves are retained as a design space.", "quantifier": "every non-empty list", "why_tests_cant": "arbitrary list lengths", "anchors": ["ADRpy/constraintanalysis.py:AircraftConcept.__init__"]}
{"id": "C26", "title": "Documented quarter-chord sweep default", "statement": "If the quarter-chord sweep is not specified it defaults to (2*LE sweep + 5*max-thickness sweep)/7.", "quantifier": "all sweep values", "why_tests_cant": "continuum", "anchors": ["ADRpy/constraintanalysis.py:AircraftConcept.__init__"]}
{"id": "C27", "title": "Span efficiency estimates are in range", "statement": "Each Oswald efficiency estimate is within its documented range: method 2 in (0,1], method 4 at least 0.001, and the induced drag factor is 1/(pi AR e) averaged over the chosen methods, hence positive.", "quantifier": "every aspect ratio, sweep, Mach number and method set", "why_tests_cant": "continuum x subsets", "anchors": ["ADRpy/constraintanalysis.py:AircraftConcept.oswaldspaneff1,oswaldspaneff2,oswaldspaneff3,oswaldspaneff4,induceddragfact"]}
{"id": "C28", "title": "Method selection of the induced drag factor", "statement": "induceddragfact honours exactly the methods named by the digits of the selector and rejects selectors naming no method.", "quantifier": "every selector", "why_tests_cant": "unbounded selector values", "anchors": ["ADRpy/constraintanalysis.py:AircraftConcept.induceddragfact"]}
{"id": "C29", "title": "Chord-sweep interpolation", "statement": "findchordsweep_rad returns the sweep at any chord fraction consistently with straight leading/trailing edges and raises outside [0,1].", "quantifier": "every chord fraction and planform", "why_tests_cant": "continuum", "anchors": ["ADRpy/constraintanalysis.py:AircraftConcept.findchordsweep_rad"]}
{"id": "C30", "title": "Lift slope blending", "statement": "The Mach-blended lift curve slope is a weighted mean of the methods with non-negative weights adding to one at every Mach number, and varies continuously with Mach across the regime boundaries.", "quantifier": "every Mach number", "why_tests_cant": "continuity over a continuum", "anchors": ["ADRpy/constraintanalysis.py:AircraftConcept.liftslope_prad"]}
{"id": "C31", "title": "Take-off constraint equals the closed-form ground-roll balance", "statement": "twrequired_to returns for each wing loading the analytic thrust-to-weight ratio; the lift-off speed is the stall-derived speed whose average (rms) is V_LOF/sqrt 2; the value at index i depends only on wing loading i; a missing brief value raises ValueError.", "quantifier": "every wing loading list, concept and brief", "why_tests_cant": "continuum x list lengths x missing keys", "anchors": ["ADRpy/constraintanalysis.py:AircraftConcept.thrusttoweight_takeoff,twrequired_to"]}
{"id": "C32", "title": "Sustained turn constraint", "statement": "twrequired_trn returns T/W = q*(CDmin/(W/S) + W/S*(n/q)^2*k) at each wing loading, and the CL check marks exactly the wing loadings at which the required CL exceeds CLmaxclean.", "quantifier": "every wing loading list, load factor, speed, altitude", "why_tests_cant": "continuum", "anchors": ["ADRpy/constraintanalysis.py:AircraftConcept.thrusttoweight_sustainedturn,twrequired_trn"]}
{"id": "C33", "title": "Turn weight fraction is applied once and no other fraction interferes", "statement": "The turn constraint depends on the turn weight fraction only, not on the climb weight fraction.", "quantifier": "all weight fractions", "why_tests_cant": "two-run (non-interference) property", "anchors": ["ADRpy/constraintanalysis.py:AircraftConcept.thrusttoweight_sustainedturn,twrequired_trn"]}
{"id": "C34", "title": "Climb, cruise and ceiling constraints equal their force balance", "statement": "twrequired_clm, twrequired_crs and twrequired_sec return the steady-flight force-balance value at each wing loading, positive whenever drag parameters are positive.", "quantifier": "every wing loading list, concept and brief", "why_tests_cant": "continuum", "anchors": ["ADRpy/constraintanalysis.py:AircraftConcept.twrequired_clm,twrequired_crs,twrequired_sec"]}
{"id": "C35", "title": "Combined requirement is the envelope of the individual ones", "statement": "The 'combined' entry of twrequired is, at each wing loading, the largest of the individual requirements (and undefined exactly if one of them is).", "quantifier": "every wing loading list", "why_tests_cant": "all lists, including NaN patterns", "anchors": ["ADRpy/constraintanalysis.py:AircraftConcept.twrequired"]}
{"id": "C36", "title": "Missing design brief items are reported, never silently defaulted", "statement": "Each constraint method raises ValueError when the brief lacks an item it needs, for every combination of missing items, and does not raise this error when all are present.", "quantifier": "every subset of missing items", "why_tests_cant": "exponentially many combinations", "anchors": ["ADRpy/constraintanalysis.py:AircraftConcept.twrequired_to,twrequired_trn,twrequired_clm,twrequired_crs,twrequired_sec"]}
{"id": "C37", "title": "Power requirement is thrust requirement times speed over efficiency", "statement": "powerrequired returns for each constraint P = T/W * W * V / eta and its combined entry is the pointwise maximum.", "quantifier": "every wing loading list and concept", "why_tests_cant": "continuum", "anchors": ["ADRpy/constraintanalysis.py:AircraftConcept.powerrequired,tw2pw"]}
{"id": "C38", "title": "Mapping to sea level affects power for every lapsing engine", "statement": "powerrequired with map2sl=True differs from map2sl=False for piston propulsion at altitude.", "quantifier": "every altitude", "why_tests_cant": "two-run property", "anchors": ["ADRpy/constraintanalysis.py:AircraftConcept.powerrequired,_propulsion_slcorr"]}
{"id": "C39", "title": "Stall constraint round trip", "statement": "wsmaxcleanstall_pa, smincleanstall_m2 and vstall_kias are mutually consistent: at the returned maximum wing loading the stall speed equals the required one, the minimum area carries the weight at exactly that loading, and lower wing loading gives lower stall speed.", "quantifier": "every stall speed, CLmax, weight", "why_tests_cant": "continuum", "anchors": ["ADRpy/constraintanalysis.py:AircraftConcept.wsmaxcleanstall_pa,smincleanstall_m2,vstall_kias"]}
{"id": "C40", "title": "Stall speeds for a list of wing loadings", "statement": "vstall_kias accepts an array of wing loadings as documented and returns the stall speed for each.", "quantifier": "every list of wing loadings", "why_tests_cant": "list lengths other than one", "anchors": ["ADRpy/constraintanalysis.py:AircraftConcept.vstall_kias"]}
{"id": "C41", "title": "Static-thrust mapping factor", "statement": "map2static returns 1 when disabled or inapplicable and a factor in a fixed interval otherwise.", "quantifier": "every bypass ratio", "why_tests_cant": "continuum", "anchors": ["ADRpy/constraintanalysis.py:AircraftConcept.map2static"]}
{"id": "C42", "title": "Wing-in-ground-effect factor", "statement": "The WIG factor lies in [0,1), increases with height, is zero at zero height and the effective induced drag never exceeds the free-air one.", "quantifier": "every height and span", "why_tests_cant": "continuum", "anchors": ["ADRpy/constraintanalysis.py:AircraftConcept.wigfactor,_wig"]}
{"id": "C43", "title": "Sensitivity shares", "statement": "The relative sensitivities of propulsionsensitivity_monothetic are non-negative and add up to one at every wing loading where any parameter has an effect, and every parameter with an effect is reported.", "quantifier": "every design space and wing loading list", "why_tests_cant": "arbitrary parameter sets", "anchors": ["ADRpy/constraintanalysis.py:AircraftConcept.propulsionsensitivity_monothetic"]}
{"id": "C44", "title": "CS-23.333/341 gust velocities", "statement": "Derived gust velocities are 50/25/66 ft/s up to 20000 ft, fall linearly to 25/12.5/38 at 50000 ft and stay constant above: continuous, non-increasing, bounded.", "quantifier": "every altitude", "why_tests_cant": "continuum", "anchors": ["ADRpy/airworthiness.py:CertificationSpecifications._paragraph333"]}
{"id": "C45", "title": "CS-23.335 design speeds", "statement": "The minimum cruise, dive and manoeuvre speeds satisfy VD >= 1.25 VC, VA <= VC, coefficients interpolated between wing loading limits and clamped outside.", "quantifier": "every wing loading and category", "why_tests_cant": "continuum", "anchors": ["ADRpy/airworthiness.py:CertificationSpecifications._paragraph335"]}
{"id": "C46", "title": "CS-23.337 limit manoeuvring load factors", "statement": "For each category the positive limit factor is the regulation's value (2.1+24000/(W+10000) capped at 3.8; 4.4; 6.0) and the negative one is the prescribed fraction (0.4/0.4/0.5) of that category's own positive factor.", "quantifier": "every weight", "why_tests_cant": "continuum", "anchors": ["ADRpy/airworthiness.py:CertificationSpecifications._paragraph337"]}
{"id": "C47", "title": "CS-23.341 gust load factors", "statement": "Positive and negative gust load factors are symmetric about 1, increase linearly with speed and gust velocity, and the alleviation factor lies in [0,0.88).", "quantifier": "every mass ratio, speed, gust", "why_tests_cant": "continuum", "anchors": ["ADRpy/airworthiness.py:CertificationSpecifications._paragraph341"]}
{"id": "C48", "title": "Flight envelope points are consistent", "statement": "The points of interest of flightenvelope lie on the curves they belong to: A on the stall curve at the positive limit factor, D at dive speed, C/E/F at the design speeds; VC used is never below the regulatory minimum; point B is present only if its speed does not exceed VC.", "quantifier": "every concept, wing loading, weight fraction and category", "why_tests_cant": "continuum x branches", "anchors": ["ADRpy/airworthiness.py:CertificationSpecifications.flightenvelope"]}
{"id": "C49", "title": "Mean chords", "statement": "_meanchord_m returns standard and aerodynamic mean chords with MAC >= SMC > 0, both scaling with the square root of area.", "quantifier": "every taper, aspect ratio, area", "why_tests_cant": "continuum", "anchors": ["ADRpy/airworthiness.py:CertificationSpecifications._meanchord_m"]}
{"id": "C50", "title": "Engine deck lookup fails loudly for unknown engines", "statement": "Constructing a deck for an engine with no data raises an error.", "quantifier": "every engine name and data directory", "why_tests_cant": "arbitrary file-system content", "anchors": ["ADRpy/propulsion.py:_setup,local_data"]}
{"id": "C51", "title": "Engine deck data belongs to the named engine only", "statement": "All data files a deck loads belong to the engine that was named.", "quantifier": "every engine name and directory listing", "why_tests_cant": "arbitrary names (substring clashes)", "anchors": ["ADRpy/propulsion.py:_setup"]}
{"id": "C52", "title": "Deck interpolation never extrapolates", "statement": "Polynomial decks return a value only inside the tabulated range and otherwise warn and return none.", "quantifier": "every query point", "why_tests_cant": "continuum", "anchors": ["ADRpy/propulsion.py:_poly,_griddata_interpolate"]}
{"id": "C53", "title": "Electric motor power accounting", "statement": "Shaft power reported by an electric deck equals torque times angular speed.", "quantifier": "every torque and speed", "why_tests_cant": "continuum", "anchors": ["ADRpy/propulsion.py:ElectricDeck.shaftpower"]}
{"id": "C54", "title": "Propeller efficiency iteration terminates and is bounded", "statement": "PropellerDeck.efficiency finishes within its iteration bound for every input and returns an efficiency consistent with the power it was given.", "quantifier": "every speed, power, altitude", "why_tests_cant": "termination for all inputs", "anchors": ["ADRpy/propulsion.py:PropellerDeck.efficiency,ansatzprop"]}
{"id": "C55", "title": "METAR history decoding keeps every report intact", "statement": "readmethistfile returns the reports of the file in order, each without its terminator, and nothing else.", "quantifier": "every file content", "why_tests_cant": "arbitrary text", "anchors": ["ADRpy/weathertools.py:readmethistfile"]}
{"id": "C56", "title": "Turn radius and load factor", "statement": "bank2turnradius equals V^2/(g tan(bank)), positive and decreasing in bank for (0,90).", "quantifier": "every speed and bank", "why_tests_cant": "continuum", "anchors": ["ADRpy/constraintanalysis.py:AircraftConcept.bank2turnradius"]}
{"id": "C57", "title": "MIL-HDBK-310 profile lookup", "statement": "mil_hdbk_310 returns the profile selected by (high/low, temperature/density, probability, altitude) and raises for combinations outside the tabulated set.", "quantifier": "every combination of selectors", "why_tests_cant": "finite but large; includes invalid ones", "anchors": ["ADRpy/atmospheres.py:mil_hdbk_310"]}
{"id": "C58", "title": "Custom runways", "statement": "Runway with elevation, heading, surface, length and width keeps them, puts the reciprocal end at the opposite heading in (0,360], numbers both ends by the tens of degrees and derives each metric attribute from the one in feet.", "quantifier": "every heading in (0,360] and all dimensions", "why_tests_cant": "real-valued heading; off-by-one at the wrap", "anchors": ["ADRpy/atmospheres.py:Runway.__init__"]}
{"id": "C59", "title": "METAR decoding changes at most the day", "statement": "decodemetar decodes a decodable report as it is; otherwise it decodes the same report with the day of month replaced by 28 and nothing else changed.", "quantifier": "every report text and every behaviour of the METAR parser", "why_tests_cant": "arbitrary text; depends on the current date", "anchors": ["ADRpy/weathertools.py:decodemetar"]}
{"id": "C60", "title": "Queries in other units and dynamic pressure", "statement": "airtemp_c, airpress_mbar and vsound_kts are the Kelvin, Pascal and m/s answers in the other unit, and dynamicpressure_pa is half the density times the speed squared, at every altitude of the query.", "quantifier": "every atmosphere (standard, off-standard or obtained by interpolation), altitude list and airspeed", "why_tests_cant": "arbitrary atmospheres and lists", "anchors": ["ADRpy/atmospheres.py:Atmosphere.airtemp_c,airpress_mbar,vsound_kts,dynamicpressure_pa"]}
{"id": "C61", "title": "Sea level correction of the engine", "statement": "The thrust or power correction used by all constraints is the lapse of the engine the concept stands for (generic engine by bypass ratio code or name, or engine deck), evaluated at the flight Mach number and altitude; unknown engine codes are rejected.", "quantifier": "every speed, altitude, bypass ratio, throttle ratio and deck", "why_tests_cant": "continuum times a case split over engine kinds", "anchors": ["ADRpy/constraintanalysis.py:AircraftConcept._propulsion_slcorr"]}
{"id": "C62", "title": "Induced drag factor by leading edge suction", "statement": "The induced drag factor is the blend of full- and zero-suction values by the suction at the lift coefficient flown, continuous choice of regime: subsonic, between Mach 1 and sonic leading edge (a parabola with the stated end conditions), and supersonic leading edge (zero suction).", "quantifier": "every wing, Mach number and lift coefficient", "why_tests_cant": "continuum; three regimes", "anchors": ["ADRpy/constraintanalysis.py:AircraftConcept.induceddragfact_lesm"]}
{"id": "C63", "title": "The sensitivity analysis analyses the aircraft it is called on", "statement": "propulsionsensitivity_monothetic evaluates the requirement of the same concept: with one-element parameter lists its nominal requirement is that of the concept itself.", "quantifier": "every concept and wing loading list", "why_tests_cant": "relates two entry points of the library for all concepts", "anchors": ["ADRpy/constraintanalysis.py:AircraftConcept.propulsionsensitivity_monothetic"]}
{"id": "C64", "title": "Stall speed with load factor", "statement": "vs_keas returns the speed at which the clean maximum (or, for negative load factors, minimum) lift coefficient carries the load factor times the weight at sea level density; missing weight, area or lift coefficient raises ValueError.", "quantifier": "every aircraft, every load factor of either sign", "why_tests_cant": "continuum x sign branches", "anchors": ["ADRpy/airworthiness.py:CertificationSpecifications.vs_keas"]}
{"id": "C65", "title": "The flight envelope covers the manoeuvring limits", "statement": "Every point of the envelope's outline reaches the limit manoeuvring load factors of the category, unless stall prevents it.", "quantifier": "every aircraft, category, weight fraction and point of the outline", "why_tests_cant": "continuum of aircraft x 100-point curves", "anchors": ["ADRpy/airworthiness.py:CertificationSpecifications.flightenvelope"]}
{"id": "C66", "title": "The outline of the flight envelope is closed", "statement": "Each piece of the outline begins where the previous one ends, at the points of interest.", "quantifier": "every aircraft and category", "why_tests_cant": "continuum x branches; tests look at the picture", "anchors": ["ADRpy/airworthiness.py:CertificationSpecifications.flightenvelope"]}
{"id": "C67", "title": "Construction of CertificationSpecifications", "statement": "Values given in csbrief are used, missing ones take the documented defaults and are entered in the caller's dictionary, cruise speed is converted from the design brief's true airspeed, and the propulsion argument reaches the aircraft concept.", "quantifier": "every csbrief, brief, design and performance dictionary", "why_tests_cant": "all dictionaries", "anchors": ["ADRpy/airworthiness.py:CertificationSpecifications.__init__"]}
{"id": "C68", "title": "Gust loads refer to the carried weight once", "statement": "The gust load increments at a weight fraction are those of CS-23.341 for the wing loading carried.", "quantifier": "every weight fraction, speed, gust", "why_tests_cant": "continuum; tests use fraction 1", "anchors": ["ADRpy/airworthiness.py:CertificationSpecifications._paragraph341"]}
{"id": "C69", "title": "The outline stays between the stall lines", "statement": "No point of the upper outline up to VC lies above the upright stall line and no point of the inverted outline lies below the inverted stall line.", "quantifier": "every aircraft, category and point of the outline", "why_tests_cant": "continuum of aircraft x curves", "anchors": ["ADRpy/airworthiness.py:CertificationSpecifications.flightenvelope"]}
{"id": "C70", "title": "The engine catalogue", "statement": "local_data lists, for each engine type, exactly the engines of the metadata file with the notes and reference of their last row and the files that mention them, and rejects unknown types.", "quantifier": "every metadata file, directory listing and type", "why_tests_cant": "arbitrary directories", "anchors": ["ADRpy/propulsion.py:local_data"]}
{"id": "C71", "title": "Decks do not depend on the directory order", "statement": "The deck of an engine is the same for every order in which the directory is listed.", "quantifier": "every engine and permutation of every directory listing", "why_tests_cant": "os.listdir order is platform dependent; tests see one order", "anchors": ["ADRpy/propulsion.py:_setup"]}
{"id": "C72", "title": "Polynomial files", "statement": "Coefficients and limits written as two comma separated lines are read back exactly.", "quantifier": "every file of the documented form, any number of coefficients and trailing blanks", "why_tests_cant": "unbounded files", "anchors": ["ADRpy/propulsion.py:_poly_process,_setup"]}
{"id": "C73", "title": "Shapes of propeller arguments", "statement": "PropellerDeck.efficiency accepts flight conditions and powers of equal or unity length, and calls do not influence later ones.", "quantifier": "every combination of lengths, every propeller", "why_tests_cant": "unbounded shapes and call histories", "anchors": ["ADRpy/propulsion.py:PropellerDeck.efficiency"]}
{"id": "C74", "title": "Thrust of propeller engines", "statement": "Thrust times airspeed equals propeller efficiency times shaft power, for turboprop, piston and electric decks; turboprop thrust adds the jet thrust.", "quantifier": "every table, propeller, flight condition and array length", "why_tests_cant": "continuum x tables", "anchors": ["ADRpy/propulsion.py:TurbopropDeck.coldthrust,thrust", "ADRpy/propulsion.py:PistonDeck.thrust", "ADRpy/propulsion.py:ElectricDeck.thrust"]}
{"id": "C75", "title": "Fuel flow of propeller engines", "statement": "Thrust specific consumption times thrust equals power specific consumption times shaft power.", "quantifier": "every table, propeller, flight condition", "why_tests_cant": "continuum x tables", "anchors": ["ADRpy/propulsion.py:TurbopropDeck.tsfc", "ADRpy/propulsion.py:PistonDeck.tsfc"]}
{"id": "C76", "title": "Sea-level normalised decks", "statement": "The normalised thrust or power is relative to the sea-level static value of the deck and at most 1 at the data points.", "quantifier": "every table and query", "why_tests_cant": "continuum x tables", "anchors": ["ADRpy/propulsion.py:JetDeck.sl_thrustcorr", "ADRpy/propulsion.py:TurbopropDeck.sl_powercorr", "ADRpy/propulsion.py:PistonDeck.sl_powercorr"]}
{"id": "C77", "title": "The propeller sized by default", "statement": "The ansatz propeller has at least two blades, shares its activity factor among them, balances the power at its design lift coefficient, keeps J/cp between 2.4^3 and 3.2^3 unless tip limited, and its helical tip Mach number is at most 0.8.", "quantifier": "every flight condition, speed and power", "why_tests_cant": "continuum", "anchors": ["ADRpy/propulsion.py:PropellerDeck.ansatzprop"]}
{"id": "C78", "title": "Window of the combined diagram", "statement": "Unless the user gives an upper limit, the combined sensitivity diagram extends to 1.05 times the largest requirement of any constraint at any wing loading; the horizontal axis spans the given wing loadings or wing areas; the curves are the combined front and the five constraints.", "quantifier": "every concept, wing loadings, axis variable", "why_tests_cant": "unbounded lists of wing loadings and design spaces", "anchors": ["ADRpy/constraintanalysis.py:AircraftConcept.propulsionsensitivity_monothetic"]}
{"id": "C79", "title": "Stall lines", "statement": "The turn stall line is at the last wing loading at which the front is defined, the clean stall line at the clean stall wing loading (or area), each drawn only strictly inside the axis; the front is defined exactly where the constraints are and the turn's lift coefficient is attainable.", "quantifier": "every concept and list of wing loadings", "why_tests_cant": "unbounded lists", "anchors": ["ADRpy/constraintanalysis.py:AircraftConcept.propulsionsensitivity_monothetic"]}
{"id": "C80", "title": "Region of infeasible lift coefficients", "statement": "The shaded region covers exactly the wing loadings with an undefined front or beyond the clean stall, and the front drawn in bold consists of the others.", "quantifier": "every concept, order of the wing loadings, axis variable", "why_tests_cant": "unbounded lists; boundary cases", "anchors": ["ADRpy/constraintanalysis.py:AircraftConcept.propulsionsensitivity_monothetic"]}
{"id": "C81", "title": "Focus masks", "statement": "In the diagram of a constraint the masks cover exactly the stretches of wing loadings at which the constraint is below the combined front; every diagram can be masked.", "quantifier": "every concept, constraint, list of wing loadings", "why_tests_cant": "unbounded number of stretches", "anchors": ["ADRpy/constraintanalysis.py:AircraftConcept.propulsionsensitivity_monothetic"]}
{"id": "C82", "title": "Choice and contents of the diagrams", "statement": "show=True draws the five constraints' diagrams and the combined one just as they are drawn alone, another string draws nothing; a constraint's diagram consists of the shares of the parameters under the user's labels; the diagrams can be drawn for any list of wing loadings.", "quantifier": "every argument", "why_tests_cant": "unbounded arguments", "anchors": ["ADRpy/constraintanalysis.py:AircraftConcept.propulsionsensitivity_monothetic"]}
{"id": "C83", "title": "Flight data plots", "statement": "fdrplot returns all the columns of the file restricted to exactly the rows whose time is within the closed time frame, in order; each panel shows the named channels against time under their names, labelled by its first entry, with every marker across its whole height in its colour, and the time label on the last panel only; it succeeds exactly when there are two or more labelled panels whose channels, and the time column, are columns of the file, with a colour for every marker and complete figure parameters.", "quantifier": "every data frame with equally long columns, every time frame, list of panels, markers and figure parameters", "why_tests_cant": "unbounded numbers of rows, columns, panels and markers", "anchors": ["ADRpy/mtools4acdc.py:fdrplot", "ADRpy/mtools4acdc.py:panelplot_with_shared_x"]}
{"id": "C84", "title": "Panels with a shared axis", "statement": "The multi-panel diagrams show in panel i the i-th data under the i-th label against the shared axis, with every line across the panel; a panel given a list shows each of its series under its own label; exactly the inputs with two or more panels and matching lengths succeed; a series may be a plain list of numbers; the label given for a panel is displayed.", "quantifier": "every argument", "why_tests_cant": "unbounded numbers of panels, series, lines and data", "anchors": ["ADRpy/mtools4acdc.py:panelplot_with_shared_y", "ADRpy/mtools4acdc.py:panelplot_with_shared_x"]}
{"id": "C85", "title": "Demonstration plots of the engine decks", "statement": "Each demonstration plot shows its quantity, interpolated from the table (for turboprop BSFC and TSFC from its complete points only), on an even 1001 by 1001 grid from the least to the greatest tabulated value of either coordinate, under fixed labels and the engine's name; the TSFC of a jet against altitude is taken at the thrust available there; a coordinate that starts with a nan or does not vary is a ValueError; when the data or the chosen quantity is missing the plot warns and shows nothing.", "quantifier": "every table, engine name and interpolation function", "why_tests_cant": "unbounded tables; the plots are shown in windows", "anchors": ["ADRpy/propulsion.py:_demo_plot", "ADRpy/propulsion.py:TurbopropDeck.demoplot_thrust", "ADRpy/propulsion.py:PistonDeck.demoplot_bsfc", "ADRpy/propulsion.py:ElectricDeck.demoplot_efficiency", "ADRpy/propulsion.py:JetDeck.demoplot_tsfc"]}
{"id": "C86", "title": "Unit conversions in double precision", "statement": "In IEEE 754 double precision every unit conversion stays within a few rounding errors of its formula, for temperatures relative to the result plus the offset; conversions by constants never reverse an order; a conversion and its inverse return to within 2.002 rounding errors (temperatures: of the number plus the offset; knots 1e-7; kg/m2 1e-12); converting Celsius to Rankine directly or via kelvin gives the same bits. True and equivalent airspeed convert within six rounding errors whenever the root is off by at most one unit in the last place, as the correctly rounded root of IEEE 754 is. Exact inversion fails for every pair in both orders.", "quantifier": "every double whose magnitude is zero or between 2^-800 and 2^800", "why_tests_cant": "2^64 doubles; the errors depend on every bit", "anchors": ["ADRpy/unitconversions.py"]}
{"id": "C87", "title": "The standard atmosphere in double precision", "statement": "In IEEE 754 double precision comparisons of altitudes are exact; geometric and geopotential altitudes up to 100 km, densities and pressures of the gas law and the speed of sound are within about three rounding errors of their formulas; altitude and gas-law round trips come back within 6.1 and 4.004 rounding errors. The ISA temperature is within 2e-13 degrees of the standard one; it never rises below the tropopause nor falls above it, but jumps up by one binary digit at 11 km. A larger geopotential altitude never gets a smaller geometric one; the converse conversion may reverse neighbouring doubles. Altitude conversions are not exact inverses.", "quantifier": "every double: altitudes up to 100 km (temperatures -10 to 50 km), offsets up to 100 degrees, temperatures 2^-60 to 2^60, pressures and densities 2^-800 to 2^800", "why_tests_cant": "2^64 doubles; the order of neighbouring doubles depends on every bit", "anchors": ["ADRpy/atmospheres.py"]}
{"id": "C88", "title": "The V-n diagram", "statement": "flightenvelope returns the same points whatever it draws, and draws unless show is False or an empty list. Each gust line starts at load factor 1 at zero airspeed, follows the gust load factor of its gust and ends at five times its design speed; each gust has one note on its upward line with the gust speed to two decimals, and none with 'reducedannotations'. The envelope and manoeuvre lines are their pieces in order and return to where they start. Every returned point has a marker, green for a positive load factor and red otherwise, with its numbers in the legend. All load factors drawn lie within the vertical axis, and all airspeeds within the horizontal one. Each warning is given exactly in its case; the one about inverted stall exactly when the inverted lift coefficient is the larger in magnitude.", "quantifier": "every aircraft with sensible numbers, every category, dive speed, altitude, weight fraction and show argument", "why_tests_cant": "infinitely many aircraft; the plot is shown in a window", "anchors": ["ADRpy/airworthiness.py:CertificationSpecifications.flightenvelope"]}
{"id": "C89", "title": "The turboprop thrust factor", "statement": "At each of the 63 points of the TPE331 table the thrust factor is the table's entry. Between them it is the value of the quadratic spline through the values of the quadratic splines through the table's columns, which exist and are unique; outside the table the nearest point of its edge counts. The factor is positive and finite for all arguments, so a turboprop concept without an engine deck has a positive thrust lapse at every altitude and airspeed. It never exceeds the static thrust at sea level; it falls with the Mach number and rises with the density ratio.", "quantifier": "every density ratio and Mach number; every turboprop concept, altitude and airspeed", "why_tests_cant": "a spline may overshoot or turn between any two tested points; infinitely many arguments", "anchors": ["ADRpy/atmospheres.py:turbopropthrustfactor", "ADRpy/constraintanalysis.py:AircraftConcept._propulsion_slcorr"]}
{"id": "C90", "title": "The transonic lift slope's cubic interpolation", "statement": "interp1d(kind='cubic') through four or more points with different abscissae, in any order, is the not-a-knot cubic spline through them, which exists and is unique; points of a cubic give that cubic. It raises ValueError exactly for fewer than four points, equal abscissae and arguments outside the points. The six transonic points of liftslope_prad never share a Mach number and come in order from an aspect ratio of 0.21 on, so the lift slope is defined at every Mach number and continuous except where the leading edge becomes sonic; 0.06 below the Mach number of the peak (and above it, if that is below 1.3) it is 95 percent of pi AR / 2. Every constraint can then be evaluated for a complete brief, with nothing assumed about the interpolators.", "quantifier": "every table of any length, every argument; every wing and Mach number; every complete brief", "why_tests_cant": "tables of any length and a continuum of wings and Mach numbers; coincident abscissae would raise only for isolated aspect ratios", "anchors": ["ADRpy/constraintanalysis.py:AircraftConcept.liftslope_prad", "ADRpy/constraintanalysis.py:AircraftConcept.twrequired"]}
{"id": "C91", "title": "The warnings of the constraint analysis", "statement": "Every method of AircraftConcept warns exactly in its case, and warnings do not change its outcome. A missing Mach number is reported once and taken as 0.3, by induceddragfact only if the fourth method is selected; oswaldspaneff4 reports its Mach number out of bounds exactly when its estimate is below a thousandth, which for usual wings happens from somewhere between Mach 0.84 and 0.85 on. twrequired and powerrequired give only the warnings about the propulsion system, once for each constraint and each take-off speed, and powerrequired also the number of default propeller efficiencies and whether no turn is feasible. The warnings about a missing thrust or power mapping appear when there is none, and the deprecation warning when the system is given by its bypass ratio. Options of the sensitivity plots that are not supported are reported and replaced by the defaults.", "quantifier": "every concept with a wing, Mach number, selector, wing loading and option; every complete brief", "why_tests_cant": "infinitely many arguments; the number of warnings depends on the lengths of arrays; that a warning is unreachable cannot be tested", "anchors": ["ADRpy/constraintanalysis.py:AircraftConcept.oswaldspaneff4", "ADRpy/constraintanalysis.py:AircraftConcept.induceddragfact", "ADRpy/constraintanalysis.py:AircraftConcept.induceddragfact_lesm", "ADRpy/constraintanalysis.py:AircraftConcept._propulsion_slcorr", "ADRpy/constraintanalysis.py:AircraftConcept.powerrequired", "ADRpy/constraintanalysis.py:AircraftConcept.propulsionsensitivity_monothetic"]}
{"id": "C92", "title": "The warnings of the engine decks", "statement": "A look-up in an engine deck warns exactly when the deck has no data for it, once, naming the quantity asked for and the deck's type, and then returns None. Thrust and fuel consumption methods that succeed have warned only, and once, if they had to size a propeller themselves; without the data they need they warn and then raise; they give no other warnings. The sea level thrust polynomials of a jet warn exactly outside their limits and name the limit passed. Warnings do not change outcomes.", "quantifier": "every deck with or without each of its tables, every propeller argument, flight condition and interpolator", "why_tests_cant": "infinitely many decks and arguments", "anchors": ["ADRpy/propulsion.py:TurbopropDeck", "ADRpy/propulsion.py:PistonDeck", "ADRpy/propulsion.py:ElectricDeck", "ADRpy/propulsion.py:JetDeck", "ADRpy/propulsion.py:_poly"]}
{"id": "C93", "title": "The propulsion argument and the engine decks behind it", "statement": "AircraftConcept keeps the propulsion system it is given: text, an engine deck alone, or a tuple of an engine deck and an optional propeller; anything else counts as none. The constraint analysis then uses the deck's own sea level correction, for thrust with a jet and for power with a propeller engine, none with an electric motor; a piston engine is taken at the speed of greatest power; decks without the table raise.", "quantifier": "every argument, deck, interpolator, atmosphere, speed and altitude", "why_tests_cant": "infinitely many decks, and interpolators are arguments", "anchors": ["ADRpy/constraintanalysis.py:AircraftConcept.__init__", "ADRpy/constraintanalysis.py:AircraftConcept._propulsion_slcorr", "ADRpy/mtools4acdc.py:iterable"]}
{"id": "C94", "title": "The printed catalogue of engines", "statement": "local_data with printdata=True prints one page per metadata row, in order: the engine with its category, the descriptions of its data files, notes and reference (a dash for an empty one); it returns what it returns without printing; any other printdata prints nothing; a malformed row raises after the earlier pages; a page lists exactly the kinds of data that the engine's deck loads.", "quantifier": "every category, directory listing, metadata and printdata argument", "why_tests_cant": "listings and metadata are unbounded", "anchors": ["ADRpy/propulsion.py:local_data"]}
{"id": "C95", "title": "The constructor of a propeller", "statement": "PropellerDeck takes each attribute from the dictionary entry of its name and False if there is none, the solver settings default to 6 decimals and 30 passes, no argument is the empty dictionary, other types raise TypeError and other keys are ignored; a propeller without diameter has no efficiency (nan).", "quantifier": "every dictionary, solver setting and flight condition", "why_tests_cant": "dictionaries and flight conditions are unbounded", "anchors": ["ADRpy/propulsion.py:PropellerDeck.__init__", "ADRpy/propulsion.py:PropellerDeck.efficiency"]}
{"id": "C96", "title": "The sea level polynomials of the shipped jet engines", "statement": "For each shipped jet engine with a sea level polynomial, sl_thrust and sl_take_off_thrust return a positive thrust within engine-specific bounds at every Mach number of the file's range and nothing outside it; thrust falls with Mach number (refuted for J52, J60 and F404-400); take-off thrust exceeds normal thrust; the polynomial agrees with the sea level rows of the engine's table to 0.5 %; static take-off thrust is known (refuted for the JT8D-9).", "quantifier": "every real Mach number, every shipped engine, every order of the directory listing", "why_tests_cant": "the Mach number ranges over an interval of reals", "anchors": ["ADRpy/propulsion.py:JetDeck.sl_thrust", "ADRpy/propulsion.py:JetDeck.sl_take_off_thrust", "ADRpy/propulsion.py:_poly_process", "ADRpy/data/engine_data/Jet_CSVs"]}
{"id": "C97", "title": "The tables of the shipped engines", "statement": "Every shipped engine's deck loads whatever the order of the directory listing (refuted for the IO-540); every cell of its tables is a number and outputs are positive (refuted for the TSFC of J52 and J60); the largest value, by which the corrections divide, lies at sea level (refuted for F404-400, TFE731-5 and Tyne); thrust and power are known at sea level and at rest (refuted for the engines named).", "quantifier": "every shipped engine, every order of the listing, every speed and altitude outside a table, every interpolator that does not extrapolate", "why_tests_cant": "listing orders, speeds and interpolators are unbounded", "anchors": ["ADRpy/propulsion.py:_setup", "ADRpy/propulsion.py:JetDeck.thrust", "ADRpy/propulsion.py:TurbopropDeck.shaftpower", "ADRpy/propulsion.py:PistonDeck.shaftpower", "ADRpy/data/engine_data"]}
{"id": "C98", "title": "Gas law and total temperature", "statement": "idealgasdens_kgm3 and idealgaspress_pa solve p = R rho T; tatbysat is 1 + recfac (gamma-1)/2 M^2, lies between the static and the full recovery value and rises with the Mach number; tempratio and pressratio are their static values times the isentropic total ratios.", "quantifier": "every real pressure, density, temperature, Mach number and recovery factor", "why_tests_cant": "the arguments are real numbers", "anchors": ["ADRpy/atmospheres.py:59-65", "ADRpy/atmospheres.py:tatbysat", "ADRpy/atmospheres.py:tempratio", "ADRpy/atmospheres.py:pressratio"]}
{"id": "C99", "title": "The best climb speed of a propeller aircraft needs the least power", "statement": "bestclimbspeedprop returns for every wing loading the one airspeed at which level flight needs the least power; there the induced drag is three times the zero-lift drag. Without a drag coefficient there is no speed.", "quantifier": "every wing, drag coefficient, altitude, wing loading and competing airspeed", "why_tests_cant": "optimality compares with every other real airspeed", "anchors": ["ADRpy/constraintanalysis.py:bestclimbspeedprop", "ADRpy/constraintanalysis.py:induceddragfact"]}
{"id": "C100", "title": "The shipped MIL-HDBK-310 atmospheres", "statement": "Every shipped handbook atmosphere loads with a level every 2 km up to 80 km and answers every altitude in between; density is positive, temperature lies between 163 and 302 K (refuted for one profile: 263e-650 K), density and pressure fall with altitude (refuted for three profiles), and at the altitude in the file's name the 1 % profile is more extreme than the 10 % profile (refuted for the high density at 5 km). The altitude 5.0 finds what 5 finds (refuted).", "quantifier": "every shipped file, every real altitude, every content of the current directory", "why_tests_cant": "altitudes are real numbers; pairs of altitudes are compared", "anchors": ["ADRpy/atmospheres.py:mil_hdbk_310", "ADRpy/atmospheres.py:Obsprofile", "ADRpy/data/_MHDBK310"]}
{"id": "C101", "title": "The shipped runway database", "statement": "In runways.csv the rows of every airport are consecutive, so Runway(code, n) is that airport's n-th runway (refuted for n = -1). Every runway found has plausible length, width, elevations and headings; headings of the two ends are opposite within 10 degrees (refuted for 84 airports), at most 360 (refuted for EGCL, EGED) and width is below length (refuted for CPC7, EINN). Every airport of the database can be used (refuted: no runway of 26685 of the 34113 airports can be constructed).", "quantifier": "every airport code, every runway number, every content of the columns that are not numbers", "why_tests_cant": "codes, runway numbers and the other columns are unbounded", "anchors": ["ADRpy/atmospheres.py:Runway.__init__", "ADRpy/data/runways.csv"]}
{"id": "C102", "title": "Constraint analyses with the shipped engines", "statement": "With a shipped jet, turboprop or piston engine, the sea level thrust to weight ratio or power required at an altitude outside the engine's table is nan, and one such altitude makes the combined requirement nan at every wing loading: no number is extrapolated. An analysis with a runway near sea level gives numbers (refuted for the TFE731-5 and the Wasp Major: their tables start at 6096 m and above 1 m).", "quantifier": "every shipped engine, every concept with that engine, every wing loading and altitude outside the table, every interpolator that does not extrapolate", "why_tests_cant": "concepts, wing loadings and altitudes are unbounded, and the tests use no concept with a shipped engine", "anchors": ["ADRpy/constraintanalysis.py:1035-1142", "ADRpy/constraintanalysis.py:1667-1833", "ADRpy/propulsion.py", "ADRpy/data/engine_data"]}
{"id": "C103", "title": "Trends and lower bounds of the thrust to weight constraints", "statement": "A higher wing loading, a hotter day, a higher runway, a smaller maximum lift coefficient or a shorter ground run each make the take-off constraint ask for strictly more thrust to weight. The cruise, climb, service ceiling and turn constraints never ask for less than the least drag to weight ratio 2 sqrt(CD0 k) (times the load factor, plus the climb gradient) allows, and cruise asks exactly for that where zero lift and induced drag are equal. A faster climb at the same speed asks for strictly more thrust.", "quantifier": "every wing loading, concept, atmosphere, temperature offset, runway elevation, thrust lapse and induced drag factor", "why_tests_cant": "comparisons between all pairs of concepts and minima over all wing loadings", "anchors": ["ADRpy/constraintanalysis.py:1144-1260", "ADRpy/constraintanalysis.py:1262-1427", "ADRpy/constraintanalysis.py:1429-1541", "ADRpy/constraintanalysis.py:1543-1665"]}
{"id": "C104", "title": "Atmospheres made from the readings of an ascent", "statement": "Temperature and density readings at different altitudes, in any order, make an atmosphere that answers with positive numbers from loalt to hialt and raises elsewhere. Pressures may be given in place of densities (refuted for a single reading). Between neighbouring readings temperature, density and pressure are linear; density and pressure fall with altitude if the readings do. The gas law holds at every altitude (refuted between readings: the exact error is given), the profile's own speed of sound is that of the atmosphere (refuted except at readings and in isothermal layers), and airspeeds can be converted wherever there are readings (refuted without readings around sea level).", "quantifier": "every list of readings, every altitude", "why_tests_cant": "lists of readings and altitudes are unbounded; the tests compare one handbook profile at a few altitudes", "anchors": ["ADRpy/atmospheres.py:276-311", "ADRpy/atmospheres.py:449-472", "ADRpy/atmospheres.py:592-653", "ADRpy/atmospheres.py:731-762"]}
{"id": "C105", "title": "Weight trends of the certification quantities", "statement": "Of two otherwise equal aeroplanes the heavier one has the larger gust alleviation factor and the milder gust load factors at every speed and in every category. Its stall speed at any load factor other than zero, its minimum design cruising speed and its minimum manoeuvring speed are higher; its positive limit factor is not larger but its limit load is. Its minimum design dive speed is not lower: true of the normal, utility and commuter categories, refuted for the aerobatic one, where the dive speed falls between 99 and 100 lb/ft2.", "quantifier": "every pair of aeroplanes that differ in weight, every gust speed dictionary, every load factor, every category", "why_tests_cant": "weights and speeds are real numbers; the tests evaluate one aeroplane at one weight", "anchors": ["ADRpy/airworthiness.py:137-168", "ADRpy/airworthiness.py:254-371", "ADRpy/airworthiness.py:373-422", "ADRpy/airworthiness.py:424-560"]}
{"id": "C106", "title": "Analyses in atmospheres that answer at some altitudes only", "statement": "Atmospheres made from readings answer between the lowest and the highest reading, MIL-HDBK-310 ones from 0 to 80 km, standard ones up to 50 km. Every constraint succeeds if the atmosphere answers at the altitudes it needs and raises TypeError if it does not at one of them: the runway for take-off, the altitude of the constraint and that of cruise for the others, and sea level for climb and ceiling. The combined thrust and power requirements need all of these. An atmosphere that covers the altitudes of the brief is enough (refuted: sea level is needed too), and a runway below sea level can be analysed in a handbook atmosphere (refuted). Stall speed and flight envelope need sea level, gust loads the altitude flown.", "quantifier": "every atmosphere, complete brief, altitude and wing loading", "why_tests_cant": "sets of altitudes and wing loadings are infinite; the tests use the standard atmosphere at altitudes it covers", "anchors": ["ADRpy/atmospheres.py:449-472", "ADRpy/constraintanalysis.py:935-1018", "ADRpy/constraintanalysis.py:1144-1665", "ADRpy/airworthiness.py:137-168"]}
{"id": "C107", "title": "ISA pressures and densities in double precision", "statement": "If numpy's power and math.exp are off by at most k rounding errors, the pressure computed in IEEE 754 double precision is within k + 100 rounding errors (about 1e-14 relative) of what the formulae of the code give in real numbers, and the density, with its correction for hot and cold days, within k + 125; both are within 1.0001e-5 of the hydrostatic standard atmosphere on a standard day. At altitudes at least 0.1 m apart the higher one always gets the smaller computed pressure and density, across all layer boundaries. Closer together they fall too (refuted: with any such functions both rise within the last millimetre below 47 km). By the gas law in the same arithmetic, computed pressure and temperature give the computed density within 4e-7, whatever the offset.", "quantifier": "every double altitude from -10 to 50 km (-5 km for the last two claims), every offset up to 100 degrees, every pair of elementary functions with error up to k <= 100", "why_tests_cant": "2^64 doubles, and the results of pow and exp depend on the platform", "anchors": ["ADRpy/atmospheres.py:391-430", "ADRpy/atmospheres.py:497-517", "ADRpy/atmospheres.py:541-564"]}
