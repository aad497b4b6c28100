{"id": "C01", "title": "AOI projection is the dot product of normal and sun vector", "statement": "irradiance.aoi_projection returns, for finite angles, exactly the dot product of the unit normal of the plane (surface_tilt, surface_azimuth) and the unit vector to the sun (solar_zenith, solar_azimuth); the result always lies in [-1, 1] whenever it is not NaN, and is NaN exactly when some angle is NaN or infinite.", "quantifier": "all four angles, finite, infinite or NaN", "why_tests_cant": "The domain is a continuum of real angles/powers; tests sample finitely many points and cannot rule out a bad region between them.", "anchors": ["pvlib/irradiance.py:aoi_projection", "pvlib/tools.py:cosd,sind"]}
{"id": "C02", "title": "Angle of incidence is the angle between normal and sun", "statement": "irradiance.aoi returns an angle in [0, 180] degrees whose cosine is aoi_projection; it is unchanged when 360 degrees are added to any azimuth and when both azimuths are rotated by the same amount.", "quantifier": "all finite angles", "why_tests_cant": "The domain is a continuum of real angles/powers; tests sample finitely many points and cannot rule out a bad region between them.", "anchors": ["pvlib/irradiance.py:aoi"]}
{"id": "C03", "title": "Plane-of-array energy accounting", "statement": "For every transposition model, get_total_irradiance returns components with poa_global = poa_direct + poa_diffuse and poa_diffuse = poa_sky_diffuse + poa_ground_diffuse; poa_direct is never negative for non-negative dni, is zero whenever the sun is behind the plane, and equals beam_component for the same arguments.", "quantifier": "all irradiances and angles, all transposition models", "why_tests_cant": "The domain is a continuum of real angles/powers; tests sample finitely many points and cannot rule out a bad region between them.", "anchors": ["pvlib/irradiance.py:get_total_irradiance,poa_components,beam_component"]}
{"id": "C04", "title": "A horizontal plane sees exactly DHI", "statement": "With surface_tilt = 0 the isotropic, Hay-Davies, Reindl, King, Perez and Perez-Driesse models return exactly dhi as sky diffuse (Hay-Davies, Reindl, Perez and Perez-Driesse for zenith up to their projection cut-off and inputs in the physical range; Perez also needs dhi + dni > 0), and get_ground_diffuse returns 0. Klucher is the exception: it returns more than dhi for every partly clear sky with the sun between zenith and horizon.", "quantifier": "all irradiances and solar positions", "why_tests_cant": "The domain is a continuum of real angles/powers; tests sample finitely many points and cannot rule out a bad region between them.", "anchors": ["pvlib/irradiance.py:isotropic,klucher,haydavies,reindl,king,perez,perez_driesse,get_ground_diffuse"]}
{"id": "C05", "title": "Sky diffuse components add up", "statement": "When return_components is requested, isotropic, haydavies, reindl report components whose sum is poa_sky_diffuse; for perez and perez_driesse the components sum to poa_sky_diffuse wherever poa_sky_diffuse is positive, and perez reports all components 0 wherever the total is 0.", "quantifier": "all irradiances and angles", "why_tests_cant": "The domain is a continuum of real angles/powers; tests sample finitely many points and cannot rule out a bad region between them.", "anchors": ["pvlib/irradiance.py:isotropic,haydavies,reindl,perez,perez_driesse"]}
{"id": "C06", "title": "Sky diffuse is never negative", "statement": "haydavies, king, perez and perez_driesse never return a negative sky diffuse irradiance; isotropic, klucher, reindl do not for non-negative physical inputs.", "quantifier": "all irradiances and angles", "why_tests_cant": "The domain is a continuum of real angles/powers; tests sample finitely many points and cannot rule out a bad region between them.", "anchors": ["pvlib/irradiance.py:haydavies,king,perez,perez_driesse,isotropic,klucher,reindl"]}
{"id": "C07", "title": "Ground-reflected irradiance range", "statement": "get_ground_diffuse is ghi*albedo times a view factor that lies in [0,1], is 0 for a horizontal plane, 1 for a downward-facing plane, is non-decreasing in tilt on [0,180], and complements the isotropic sky view factor to 1; a surface_type overrides albedo and an unknown surface_type is an error; the named surfaces have the tabulated albedos, all between 0 and 1.", "quantifier": "all tilts, irradiances, albedos, surface types", "why_tests_cant": "The domain is a continuum of real angles/powers; tests sample finitely many points and cannot rule out a bad region between them.", "anchors": ["pvlib/irradiance.py:get_ground_diffuse,isotropic", "pvlib/albedo.py:SURFACE_ALBEDOS"]}
{"id": "C08", "title": "Perez clearness bins partition the clearness axis", "statement": "perez assigns every non-negative, non-NaN clearness exactly one of the 8 coefficient rows by the published bin edges, assigns a NaN or negative clearness no row (result NaN), and returns 0 sky diffuse where airmass is NaN.", "quantifier": "all clearness values", "why_tests_cant": "The domain is a continuum of real angles/powers; tests sample finitely many points and cannot rule out a bad region between them.", "anchors": ["pvlib/irradiance.py:perez"]}
{"id": "C09", "title": "Decomposition models satisfy the closure equation", "statement": "erbs, erbs_driesse, orgill_hollands, boland and louche return dni and dhi with ghi = dhi + dni*cos(zenith) for every finite input with cos(zenith) nonzero, including night, negative ghi and bad-value branches (erbs_driesse closes on max(ghi,0)); the result is undefined only when the extraterrestrial horizontal irradiance used for the clearness index is 0 and ghi is 0; dni is never negative and is 0 whenever zenith > max_zenith.", "quantifier": "all ghi, zenith, dni_extra, thresholds", "why_tests_cant": "The domain is a continuum of real angles/powers; tests sample finitely many points and cannot rule out a bad region between them.", "anchors": ["pvlib/irradiance.py:erbs,erbs_driesse,orgill_hollands,boland,louche"]}
{"id": "C10", "title": "Diffuse fraction stays physical", "statement": "For ghi >= 0 and zenith <= max_zenith < 90 the dhi returned by erbs, erbs_driesse, orgill_hollands and boland satisfies 0 <= dhi <= ghi.", "quantifier": "all ghi, zenith, dni_extra", "why_tests_cant": "The domain is a continuum of real angles/powers; tests sample finitely many points and cannot rule out a bad region between them.", "anchors": ["pvlib/irradiance.py:erbs,erbs_driesse,orgill_hollands,boland"]}
{"id": "C11", "title": "Clearness and clear-sky indices are bounded", "statement": "clearness_index and clearness_index_zenith_independent lie in [0, max]; clearsky_index lies in [0, max_clearsky_index], is NaN exactly when ghi or ghi_clear is not finite, and is 0 when ghi_clear is 0.", "quantifier": "all inputs including NaN and infinities", "why_tests_cant": "The domain is a continuum of real angles/powers; tests sample finitely many points and cannot rule out a bad region between them.", "anchors": ["pvlib/irradiance.py:clearness_index,clearsky_index,clearness_index_zenith_independent"]}
{"id": "C12", "title": "complete_irradiance fills exactly one missing component", "statement": "complete_irradiance succeeds exactly when one of ghi, dhi, dni is missing, leaves the two given components unchanged, computes the third by the closure equation, and a computed dni is never negative, is NaN or 0 at zenith at/above 88 degrees and never exceeds 1.1 times clear-sky dni between 80 and 88 degrees.", "quantifier": "all combinations of missing arguments and all values", "why_tests_cant": "The claim ranges over all dictionaries/strings/tuples of arguments a caller may pass; tests try a handful.", "anchors": ["pvlib/irradiance.py:complete_irradiance,dni"]}
{"id": "C13", "title": "DIRINT binning is total and in range", "statement": "Every kt' in [0,1], zenith >= 0, w >= 0 (or absent) and delta-kt' in [0,1] (or absent) falls in exactly one bin; the coefficient table is never indexed out of range; the coefficient is NaN exactly when one of the four inputs lies outside its range.", "quantifier": "all real inputs and NaN", "why_tests_cant": "The domain is a continuum of real angles/powers; tests sample finitely many points and cannot rule out a bad region between them.", "anchors": ["pvlib/irradiance.py:_dirint_bins,_dirint_coeffs"]}
{"id": "C14", "title": "GTI-DIRINT keeps the best iterate", "statement": "For every history of model mismatches, gti_dirint's AOI<90 loop returns for each time the iterate whose mismatch was the smallest seen (the earliest such), performs at most max_iterations evaluations, and stops before that only if every AOI<90 point is within 1 W/m2.", "quantifier": "all iteration histories and max_iterations >= 1", "why_tests_cant": "The claim ranges over time series of any length and content; a test exercises a few fixed series.", "anchors": ["pvlib/irradiance.py:_gti_dirint_lt_90"]}
{"id": "C15", "title": "Extraterrestrial radiation stays near the solar constant", "statement": "get_extra_radiation with methods asce and spencer is proportional to solar_constant, has period 365 in day of year, and stays within 3.3% (asce) and 3.7% (spencer) of the solar constant for every day of year; pyephem and nrel follow the inverse-square law of the Earth-Sun distance; an unknown method is an error.", "quantifier": "all real day-of-year values and solar constants", "why_tests_cant": "The domain is a continuum of real angles/powers; tests sample finitely many points and cannot rule out a bad region between them.", "anchors": ["pvlib/irradiance.py:get_extra_radiation", "pvlib/solarposition.py:_calculate_simple_day_angle"]}
{"id": "C16", "title": "Tracker rotation respects its limits", "statement": "tracking.singleaxis returns tracker_theta between the minimum and maximum angle whenever the sun is up, with or without backtracking, and NaN for all four outputs exactly when apparent_zenith > 90 (or the inputs are not finite).", "quantifier": "all angles, gcr, axis and limit settings", "why_tests_cant": "The domain is a continuum of real angles/powers; tests sample finitely many points and cannot rule out a bad region between them.", "anchors": ["pvlib/tracking.py:singleaxis"]}
{"id": "C17", "title": "True tracking minimises the angle of incidence", "statement": "With backtrack=False and limits not binding, no other rotation about the same axis gives a smaller angle of incidence than the one singleaxis returns.", "quantifier": "all sun positions, axis orientations and competing rotations", "why_tests_cant": "The domain is a continuum of real angles/powers; tests sample finitely many points and cannot rule out a bad region between them.", "anchors": ["pvlib/tracking.py:singleaxis", "pvlib/shading.py:projected_solar_zenith_angle"]}
{"id": "C18", "title": "Backtracking removes row-to-row shade", "statement": "When backtracking changes the rotation and the rotation limits do not bind, shading.shaded_fraction1d evaluated at that rotation for the same array geometry is 0; and when backtracking does not change the rotation the shaded fraction at the true-tracking angle is already 0.", "quantifier": "all sun positions above the array plane, gcr in (0,1], cross-axis tilts", "why_tests_cant": "The domain is a continuum of real angles/powers; tests sample finitely many points and cannot rule out a bad region between them.", "anchors": ["pvlib/tracking.py:singleaxis", "pvlib/shading.py:shaded_fraction1d"]}
{"id": "C19", "title": "Surface orientation describes the rotated normal", "statement": "calc_surface_orientation returns surface_tilt in [0,180] and surface_azimuth in [0,360) such that the unit normal built from them is the module normal rotated by tracker_theta about the tilted axis; a horizontal surface gets azimuth axis_azimuth-90 modulo 360.", "quantifier": "all rotations and axis orientations", "why_tests_cant": "The domain is a continuum of real angles/powers; tests sample finitely many points and cannot rule out a bad region between them.", "anchors": ["pvlib/tracking.py:calc_surface_orientation,_unit_normal"]}
{"id": "C20", "title": "Tracker axis lies in the slope plane", "statement": "calc_axis_tilt returns the tilt for which the tracker axis with the given azimuth is parallel to the sloped ground plane; calc_cross_axis_tilt of that axis is the inclination of the line in the slope perpendicular to the axis, and is 0 on flat ground.", "quantifier": "all slope azimuths, slope tilts below 90 degrees and axis azimuths", "why_tests_cant": "The domain is a continuum of real angles/powers; tests sample finitely many points and cannot rule out a bad region between them.", "anchors": ["pvlib/tracking.py:calc_axis_tilt,calc_cross_axis_tilt"]}
{"id": "C21", "title": "Projected solar zenith is the sun's rotation angle", "statement": "projected_solar_zenith_angle returns an angle in (-180,180] such that rotating by it about the tracker axis brings the axis-normal projection of the sun vector onto the module normal direction.", "quantifier": "all sun positions and axis orientations", "why_tests_cant": "The domain is a continuum of real angles/powers; tests sample finitely many points and cannot rule out a bad region between them.", "anchors": ["pvlib/shading.py:projected_solar_zenith_angle"]}
{"id": "C22", "title": "Shading factors are fractions", "statement": "shaded_fraction1d, sky_diffuse_passias and direct_martinez (for physical inputs) return values in [0,1]; direct_martinez loss never exceeds the direct share of POA irradiance and is 0 when nothing is shaded.", "quantifier": "all inputs", "why_tests_cant": "The domain is a continuum of real angles/powers; tests sample finitely many points and cannot rule out a bad region between them.", "anchors": ["pvlib/shading.py:shaded_fraction1d,sky_diffuse_passias,direct_martinez"]}
{"id": "C23", "title": "Masking and ground angles are the row-geometry angles", "statement": "masking_angle(tilt,gcr,x) and ground_angle(tilt,gcr,x) return the elevation/depression angle of the facing row's edge seen from the fraction x of the slant height: their tangents equal the height-over-distance ratios of the row cross-section; masking_angle at the top edge is 0.", "quantifier": "all tilts in [0,90], gcr in (0,1), x in [0,1]", "why_tests_cant": "The domain is a continuum of real angles/powers; tests sample finitely many points and cannot rule out a bad region between them.", "anchors": ["pvlib/shading.py:masking_angle,ground_angle"]}
{"id": "C24", "title": "Sandia inverter clips and sleeps", "statement": "inverter.sandia never exceeds Paco; it returns exactly -|Pnt| when p_dc < Pso and never returns the night value otherwise unless the curve gives it; at (Vdco,Pdco) it returns Paco and at (Vdco,Pso) it returns 0.", "quantifier": "all dc voltages, powers and inverter parameter sets", "why_tests_cant": "The domain is a continuum of real angles/powers; tests sample finitely many points and cannot rule out a bad region between them.", "anchors": ["pvlib/inverter.py:sandia,_sandia_eff,_sandia_limits"]}
{"id": "C25", "title": "Multi-MPPT Sandia inverter generalises the single-input one", "statement": "sandia_multi with one input equals sandia; its result does not depend on the order of the inputs; with all inputs at the same voltage it equals sandia at the summed power; unequal numbers of voltages and powers raise ValueError.", "quantifier": "any number of inputs, all values", "why_tests_cant": "The claim ranges over all dictionaries/strings/tuples of arguments a caller may pass; tests try a handful.", "anchors": ["pvlib/inverter.py:sandia_multi"]}
{"id": "C26", "title": "ADR inverter window and limits", "statement": "inverter.adr returns NaN exactly when v_dc is outside the extended voltage window and nonzero (or an input is NaN), returns -|Pnt| at zero voltage, and otherwise lies between -|Pnt| and Pacmax.", "quantifier": "all voltages, powers and parameter sets", "why_tests_cant": "The domain is a continuum of real angles/powers; tests sample finitely many points and cannot rule out a bad region between them.", "anchors": ["pvlib/inverter.py:adr"]}
{"id": "C27", "title": "PVWatts inverter range and rating point", "statement": "inverter.pvwatts returns a value in [0, eta_inv_nom*pdc0], returns 0 at pdc = 0, returns exactly eta_inv_nom*pdc0 at rated pdc0 with default reference efficiency, is non-decreasing in pdc up to 30 times the rating (far above that the fitted curve collapses to 0), and never creates energy for eta_inv_nom <= eta_inv_ref; pvwatts_multi depends only on the sum of its inputs.", "quantifier": "all dc powers, ratings and efficiencies", "why_tests_cant": "The domain is a continuum of real angles/powers; tests sample finitely many points and cannot rule out a bad region between them.", "anchors": ["pvlib/inverter.py:pvwatts,pvwatts_multi"]}
{"id": "C28", "title": "Transformer output conserves energy", "statement": "transformer.simple_efficiency returns the output power for which input = output + no-load loss + load loss*(output/rating)^2*rating; the output is less than the input for positive losses and is strictly increasing in the input.", "quantifier": "all input powers above the no-load loss, all ratings and loss coefficients >= 0", "why_tests_cant": "The domain is a continuum of real angles/powers; tests sample finitely many points and cannot rule out a bad region between them.", "anchors": ["pvlib/transformer.py:simple_efficiency"]}
{"id": "C29", "title": "Snow coverage is a fraction and follows the slide recurrence", "statement": "snow.coverage_nrel equals, at every time step of every series, the physical recurrence: 1 at a new snowfall, otherwise previous coverage minus the slide amount floored at 0; hence it always lies in [0,1] for initial coverage in [0,1] and never increases between snowfalls.", "quantifier": "all snowfall, irradiance, temperature and depth series of any length", "why_tests_cant": "The claim ranges over time series of any length and content; a test exercises a few fixed series.", "anchors": ["pvlib/snow.py:coverage_nrel,fully_covered_nrel"]}
{"id": "C30", "title": "Snow DC loss is the covered strings", "statement": "snow.dc_loss_nrel returns the smallest multiple of 1/num_strings that is at least the coverage; it is in [0,1] for coverage in [0,1].", "quantifier": "all coverages and positive num_strings", "why_tests_cant": "The domain is a continuum of real angles/powers; tests sample finitely many points and cannot rule out a bad region between them.", "anchors": ["pvlib/snow.py:dc_loss_nrel"]}
{"id": "C31", "title": "Townsend snow loss is a fraction", "statement": "snow.loss_townsend returns a value in [0,1] for every month, and 0 when neither the month nor the previous month (December precedes January) had snow events.", "quantifier": "all monthly series", "why_tests_cant": "The claim ranges over time series of any length and content; a test exercises a few fixed series.", "anchors": ["pvlib/snow.py:loss_townsend,_townsend_effective_snow"]}
{"id": "C32", "title": "Kimber soiling follows its recurrence", "statement": "soiling.kimber equals min(max_soiling, s_t) where s_t is 0 inside a grace window or at a wash date and otherwise grows by the daily rate times the time-step; it never exceeds max_soiling and is never negative.", "quantifier": "all rainfall series, thresholds, grace periods and wash dates", "why_tests_cant": "The claim ranges over time series of any length and content; a test exercises a few fixed series.", "anchors": ["pvlib/soiling.py:kimber"]}
{"id": "C33", "title": "HSU soiling ratio range and cleaning", "statement": "soiling.hsu returns a ratio in [0.6563,1], equal to 1 at every cleaning time, and non-increasing between cleanings.", "quantifier": "all rainfall and particulate series with non-negative rates", "why_tests_cant": "The claim ranges over time series of any length and content; a test exercises a few fixed series.", "anchors": ["pvlib/soiling.py:hsu"]}
{"id": "C34", "title": "Golden-section search brackets and terminates", "statement": "tools._golden_sect_DataFrame (used for the maximum power point) stops, for any positive atol, at the first iteration whose golden-section interval is below atol in every row (and never stops for atol <= 0 on a finite row), returns a point inside [lower, upper] (nan for nan bounds), and for a unimodal function the point is within (sqrt 5 + 2)/2 (about 2.12) times atol of the maximiser; upper < lower raises ValueError.", "quantifier": "all brackets, tolerances and objective functions", "why_tests_cant": "The domain is a continuum of real angles/powers; tests sample finitely many points and cannot rule out a bad region between them.", "anchors": ["pvlib/tools.py:_golden_sect_DataFrame"]}
{"id": "C35", "title": "Linke turbidity lookup index is always valid", "statement": "tools._degrees_to_index maps every latitude in [-90,90] to 0..2159 and every longitude in [-180,180] to 0..4319, each to the grid cell whose centre is nearest; it raises ValueError for every value outside the range (beyond the stated margin) and for any other coordinate name.", "quantifier": "all real degrees", "why_tests_cant": "The domain is a continuum of real angles/powers; tests sample finitely many points and cannot rule out a bad region between them.", "anchors": ["pvlib/tools.py:_degrees_to_index"]}
{"id": "C36", "title": "Dublin Julian Day conversion round-trips", "statement": "djd_to_datetime(datetime_to_djd(t)) denotes the same instant as t for every aware datetime, and adding one day adds exactly 1 to the DJD.", "quantifier": "all instants at microsecond resolution", "why_tests_cant": "The domain is a continuum of real angles/powers; tests sample finitely many points and cannot rule out a bad region between them.", "anchors": ["pvlib/tools.py:datetime_to_djd,djd_to_datetime"]}
{"id": "C37", "title": "Incidence-angle modifiers are physical", "statement": "iam.ashrae (b >= 0), martin_ruiz (a_r > 0), schlick and physical (1 <= n <= 2 + sqrt 3, K, L >= 0, no AR coating; for larger n the modifier exceeds 1) return 1 at normal incidence, values in [0,1] everywhere, and 0 for angles of incidence from 90 to 180 degrees; ashrae, martin_ruiz and schlick are even and non-increasing on [0,90]. With an anti-reflective coating whose index differs from air and glass, physical is the ratio of the transmittance through both interfaces (each by Fresnel's equations, averaged over polarisations) and absorption to its value at normal incidence; a coating equal to air or glass is ignored.", "quantifier": "all angles and parameters", "why_tests_cant": "The domain is a continuum of real angles/powers; tests sample finitely many points and cannot rule out a bad region between them.", "anchors": ["pvlib/iam.py:ashrae,martin_ruiz,schlick,physical"]}
{"id": "C38", "title": "IAM input validation", "statement": "martin_ruiz raises ValueError exactly for a_r <= 0; interp raises ValueError for too few points, negative iam_ref or an unknown method; sapm never returns a negative value, never exceeds upper when given, and is 0 for negative aoi.", "quantifier": "all arguments", "why_tests_cant": "The claim ranges over all dictionaries/strings/tuples of arguments a caller may pass; tests try a handful.", "anchors": ["pvlib/iam.py:martin_ruiz,interp,sapm"]}
{"id": "C39", "title": "Cell temperature models reduce to air temperature in the dark", "statement": "sapm_cell, pvsyst_cell, faiman, faiman_rad (no ir_down), ross, noct_sam and generic_linear return temp_air at zero irradiance, shift one-for-one with temp_air, are non-decreasing in irradiance and non-increasing in wind speed for physical parameters.", "quantifier": "all weather inputs and physical parameters", "why_tests_cant": "The domain is a continuum of real angles/powers; tests sample finitely many points and cannot rule out a bad region between them.", "anchors": ["pvlib/temperature.py:sapm_cell,pvsyst_cell,faiman,faiman_rad,ross,noct_sam,generic_linear"]}
{"id": "C40", "title": "GenericLinearModel conversions are exact", "statement": "GenericLinearModel.use_X followed by to_X returns the parameters given (X in faiman, pvsyst, noct_sam, sapm), and after use_faiman/use_pvsyst/use_noct_sam a call predicts the same temperature as the source model.", "quantifier": "all parameters with non-degenerate absorptance and any prior use_* history", "why_tests_cant": "The domain is a continuum of real angles/powers; tests sample finitely many points and cannot rule out a bad region between them.", "anchors": ["pvlib/temperature.py:GenericLinearModel"]}
{"id": "C41", "title": "Prilliman smoothing is a local weighted average", "statement": "temperature.prilliman returns the input unchanged for sampling intervals of 20 minutes or more, keeps the first value, and otherwise every output lies between the minimum and maximum of the preceding 20-minute window of non-NaN inputs and depends only on past values.", "quantifier": "all series, wind speeds, masses", "why_tests_cant": "The claim ranges over time series of any length and content; a test exercises a few fixed series.", "anchors": ["pvlib/temperature.py:prilliman"]}
{"id": "C42", "title": "Relative airmass is undefined below the horizon and positive above", "statement": "get_relative_airmass is NaN exactly for zenith > 90 (or NaN); the simple model is 1/cos(zenith) >= 1 and increasing, and kastenyoung1989, kasten1966 and gueymard1993 never exceed it; every model but youngirvine1967 is positive on [0,90); unknown models raise; absolute airmass is proportional to pressure and equals relative airmass at 101325 Pa.", "quantifier": "all zeniths, models, pressures", "why_tests_cant": "The domain is a continuum of real angles/powers; tests sample finitely many points and cannot rule out a bad region between them.", "anchors": ["pvlib/atmosphere.py:get_relative_airmass,get_absolute_airmass"]}
{"id": "C43", "title": "Humidity/dew point and Angstrom conversions are inverse", "statement": "rh_from_tdew and tdew_from_rh are mutually inverse; angstrom_alpha and angstrom_aod_at_lambda are mutually inverse; windspeed_powerlaw is the identity at equal heights and invertible, and requires exactly one of exponent and surface_type; each named surface has its tabulated Hellmann exponent, any other name is a KeyError.", "quantifier": "all physical temperatures, humidities, wavelengths, heights", "why_tests_cant": "The domain is a continuum of real angles/powers; tests sample finitely many points and cannot rule out a bad region between them.", "anchors": ["pvlib/atmosphere.py:rh_from_tdew,tdew_from_rh,angstrom_alpha,angstrom_aod_at_lambda,windspeed_powerlaw"]}
{"id": "C44", "title": "Single-diode parameters scale from reference conditions", "statement": "calcparams_desoto, calcparams_cec and calcparams_pvsyst return exactly the reference photocurrent, saturation current, series and shunt resistance (and nNsVth) at reference irradiance and temperature; cec with Adjust=0 equals desoto; photocurrent is proportional to irradiance.", "quantifier": "all module parameter sets", "why_tests_cant": "The domain is a continuum of real angles/powers; tests sample finitely many points and cannot rule out a bad region between them.", "anchors": ["pvlib/pvsystem.py:calcparams_desoto,calcparams_cec,calcparams_pvsyst"]}
{"id": "C45", "title": "System scaling of module output", "statement": "scale_voltage_current_power multiplies voltages by modules per string, currents by strings and power by both, so p_mp = v_mp*i_mp is preserved, columns keep their order, and unknown columns make it fail.", "quantifier": "all data frames and counts", "why_tests_cant": "The claim ranges over all dictionaries/strings/tuples of arguments a caller may pass; tests try a handful.", "anchors": ["pvlib/pvsystem.py:scale_voltage_current_power"]}
{"id": "C46", "title": "PVWatts DC and losses algebra", "statement": "pvwatts_dc without k is linear in irradiance and equals pdc0 at 1000 W/m2 and temp_ref; with k it is never negative; pvwatts_losses is in [0,100] for losses in [0,100], is independent of argument order, 0 for no losses; combine_loss_factors returns 1 - prod(1 - loss) at each time of the index, the losses being those at the time, or before it or after it with forward or backward filling, and nan if a loss has none; with k, the low-irradiance correction is k at 200 W/m2 and 0 at 0 and 1000.", "quantifier": "all losses and conditions", "why_tests_cant": "The domain is a continuum of real angles/powers; tests sample finitely many points and cannot rule out a bad region between them.", "anchors": ["pvlib/pvsystem.py:pvwatts_dc,pvwatts_losses,combine_loss_factors"]}
{"id": "C47", "title": "DC ohmic loss is the stated percentage at reference conditions", "statement": "dc_ohms_from_percent gives the resistance for which dc_ohmic_losses at the array's reference current is exactly dc_ohmic_percent of the array's reference power; Array.dc_ohms_from_percent picks CEC, then SAPM, then PVsyst parameter names and raises ValueError otherwise.", "quantifier": "all parameter dictionaries and counts", "why_tests_cant": "The claim ranges over all dictionaries/strings/tuples of arguments a caller may pass; tests try a handful.", "anchors": ["pvlib/pvsystem.py:dc_ohms_from_percent,dc_ohmic_losses,Array.dc_ohms_from_percent"]}
{"id": "C48", "title": "Per-array argument validation", "statement": "Every PVSystem per-array method accepts a tuple exactly when its length equals the number of arrays (ValueError otherwise), broadcasts a non-tuple system-wide argument to all arrays, pairs the i-th value with the i-th array, and returns a bare value instead of a 1-tuple exactly for single-array systems; the single-diode parameters are those of each array's module parameters with the documented defaults for the optional ones, TypeError if a required one is missing.", "quantifier": "any number of arrays and any argument tuples", "why_tests_cant": "The claim ranges over all dictionaries/strings/tuples of arguments a caller may pass; tests try a handful.", "anchors": ["pvlib/pvsystem.py:PVSystem._validate_per_array,_unwrap_single_value"]}
{"id": "C49", "title": "Model inference picks the documented model", "statement": "ModelChain's dc, ac, aoi and temperature model inference chooses the first model in the documented priority order whose required keys are present in every array, raises ValueError when none is, and is insensitive to extra keys of lower-priority models.", "quantifier": "all parameter dictionaries and numbers of arrays", "why_tests_cant": "The claim ranges over all dictionaries/strings/tuples of arguments a caller may pass; tests try a handful.", "anchors": ["pvlib/modelchain.py:infer_dc_model,infer_ac_model,infer_aoi_model,infer_temperature_model,_common_keys"]}
{"id": "C50", "title": "Model setters accept exactly the documented names", "statement": "Assigning a string to ModelChain.dc_model, ac_model, aoi_model, spectral_model, temperature_model, losses_model, dc_ohmic_model selects the named model case-insensitively and raises ValueError for every other string, leaving a model set.", "quantifier": "all strings", "why_tests_cant": "The claim ranges over all dictionaries/strings/tuples of arguments a caller may pass; tests try a handful.", "anchors": ["pvlib/modelchain.py:ModelChain.dc_model,ac_model,aoi_model,spectral_model,temperature_model,losses_model,dc_ohmic_model"]}
{"id": "C51", "title": "run_model results do not depend on earlier runs", "statement": "After ModelChain.run_model(weather) on a chain with any history of previous runs, every result computed by that run (weather, times, solar_position, airmass, total_irrad, aoi, effective_irradiance, cell_temperature, dc, ac, losses) equals what a fresh chain would produce.", "quantifier": "all histories of run_model, run_model_from_poa, run_model_from_effective_irradiance, complete_irradiance calls", "why_tests_cant": "The claim ranges over time series of any length and content; a test exercises a few fixed series.", "anchors": ["pvlib/modelchain.py:ModelChain.run_model,prepare_inputs,_assign_weather,_configure_results"]}
{"id": "C52", "title": "Single-element list input is equivalent to bare input", "statement": "For a single-array system, run_model([weather]) succeeds exactly when run_model(weather) does and stores the same values wrapped in 1-tuples in the per-array result fields.", "quantifier": "all single-array systems, weather and model selections", "why_tests_cant": "The claim ranges over time series of any length and content; a test exercises a few fixed series.", "anchors": ["pvlib/modelchain.py:ModelChainResult.__setattr__,ModelChain.run_model"]}
{"id": "C53", "title": "Measured temperatures take precedence", "statement": "If input data contain cell_temperature the results use it verbatim per array; otherwise, if they contain module_temperature and the model is sapm, the cell temperature is sapm_cell_from_module; otherwise the temperature model computes it from poa_global (or effective irradiance if poa_global is absent).", "quantifier": "all data and systems", "why_tests_cant": "The claim ranges over all dictionaries/strings/tuples of arguments a caller may pass; tests try a handful.", "anchors": ["pvlib/modelchain.py:_prepare_temperature,_get_cell_temperature,_irrad_for_celltemp"]}
{"id": "C54", "title": "Input validation of run methods", "statement": "run_model requires ghi, dni and dhi in every data frame, run_model_from_poa the three POA columns, run_model_from_effective_irradiance the effective_irradiance column; tuples of the wrong length or unequal indices raise ValueError and bare input to a multi-array POA/effective-irradiance run raises TypeError, in all cases before any model is evaluated.", "quantifier": "all inputs", "why_tests_cant": "The claim ranges over all dictionaries/strings/tuples of arguments a caller may pass; tests try a handful.", "anchors": ["pvlib/modelchain.py:_check_multiple_input,_verify_df"]}
{"id": "C55", "title": "Transposition model dispatch", "statement": "get_sky_diffuse calls exactly the model named by its model argument, ignoring case, with the caller's irradiances and angles in the right places (Perez without airmass uses the Kasten-Young airmass of the zenith); it raises ValueError exactly for an unknown name, for a missing dni_extra when the model needs it, or for components requested from klucher/king, and KeyError exactly for an unknown Perez coefficient set.", "quantifier": "all model strings, argument combinations and numeric inputs", "why_tests_cant": "The claim ranges over all dictionaries/strings/tuples of arguments a caller may pass; tests try a handful.", "anchors": ["pvlib/irradiance.py:get_sky_diffuse,get_total_irradiance,_get_perez_coefficients"]}
{"id": "C56", "title": "Pressure, water vapour and turbidity conversions", "statement": "alt2pres and pres2alt are strictly decreasing over their physical range; gueymard94_pw never returns less than 0.1 cm; kasten96_lt equals the Kasten (1996) pyrheliometric formula (9.4 + 0.9 am)(delta_cda + delta_w + aod); bird_hulstrom80_aod_bb is the documented linear blend of the two optical depths.", "quantifier": "all real inputs in the physical range", "why_tests_cant": "The domain is a continuum of real angles/powers; tests sample finitely many points and cannot rule out a bad region between them.", "anchors": ["pvlib/atmosphere.py:alt2pres,pres2alt,gueymard94_pw,kasten96_lt,bird_hulstrom80_aod_bb"]}
{"id": "C57", "title": "Inland water albedo", "statement": "albedo.inland_water_dvoracek returns an albedo in (0, color_coeff], non-increasing in solar elevation and constant below the horizon; it succeeds exactly when the surface is given either by name or by both coefficients; otherwise it raises ValueError, and an unknown surface condition raises KeyError; the named surfaces have the tabulated coefficients.", "quantifier": "all solar elevations and coefficients", "why_tests_cant": "The domain is a continuum of real angles/powers; tests sample finitely many points and cannot rule out a bad region between them.", "anchors": ["pvlib/albedo.py:inland_water_dvoracek"]}
{"id": "C58", "title": "Parameter dictionaries are read by name", "statement": "tools._build_kwargs keeps exactly the requested keys that are present, with their values; _build_args returns the values in the order of the keys and raises KeyError exactly when a key is missing.", "quantifier": "all key lists and dictionaries", "why_tests_cant": "The claim ranges over all dictionaries/strings/tuples of arguments a caller may pass; tests try a handful.", "anchors": ["pvlib/tools.py:_build_kwargs,_build_args"]}
{"id": "C59", "title": "Sampling-interval detection", "statement": "tools._get_sample_intervals raises NotImplementedError exactly for an index without an inferable, constant step; below one day it returns the step and the whole number of samples in the window; data at a whole number of days divides by zero because only the seconds part of the interval is read.", "quantifier": "all indexes and window lengths", "why_tests_cant": "The claim ranges over time series of any length and content; a test exercises a few fixed series.", "anchors": ["pvlib/tools.py:_get_sample_intervals"]}
{"id": "C60", "title": "Normalisation and numerical derivative helpers", "statement": "tools.normalize_max2one divides by the largest magnitude, so the result lies in [-1,1] and reaches 1 in magnitude; the centred difference is exact on quadratics with error e*dx^2 on cubics.", "quantifier": "all vectors and polynomials", "why_tests_cant": "The domain is a continuum of real angles/powers; tests sample finitely many points and cannot rule out a bad region between them.", "anchors": ["pvlib/tools.py:normalize_max2one,_first_order_centered_difference"]}
{"id": "C61", "title": "Marion diffuse integration is an average", "statement": "iam.marion_integrate returns, for the sky, horizon or ground region, a solid-angle weighted average of the modifier over angles of incidence below 90 degrees, so it lies between the modifier's smallest and largest value there, or is 0 when nothing of the region is visible; an unknown region or model name raises ValueError; marion_diffuse reports the three regions with 180, 1800 and 180 steps.", "quantifier": "all IAM functions, tilts, regions and resolutions", "why_tests_cant": "The domain is a continuum of real angles/powers; tests sample finitely many points and cannot rule out a bad region between them.", "anchors": ["pvlib/iam.py:marion_integrate,marion_diffuse"]}
{"id": "C62", "title": "IAM model conversion", "statement": "iam.convert and fit raise NotImplementedError exactly for unknown models and ValueError for wrong source parameters; results carry the target model's parameters, physical results have K = 4 and L <= n; with fix_n the physical model has exactly the zero of the ashrae model it replaces; converting physical to physical fails with UnboundLocalError. Where scipy's minimiser finds a minimum, fit and convert return, of all parameters in the documented range, those of least weighted misfit.", "quantifier": "all models, parameters and optimiser outcomes", "why_tests_cant": "The claim ranges over all dictionaries/strings/tuples of arguments a caller may pass; tests try a handful.", "anchors": ["pvlib/iam.py:convert,fit,_ashrae_to_physical,_martin_ruiz_to_physical,_process_return"]}
{"id": "C63", "title": "Analytic diffuse modifiers", "statement": "martin_ruiz_diffuse's ground value at tilt t is its sky value at 180 - t; schlick_diffuse's sky and ground values weighted by the view factors (1 +- cos t)/2 add up to 20/21 at every tilt, and a horizontal surface gets (20/21, 0).", "quantifier": "all tilts and parameters", "why_tests_cant": "The domain is a continuum of real angles/powers; tests sample finitely many points and cannot rule out a bad region between them.", "anchors": ["pvlib/iam.py:martin_ruiz_diffuse,schlick_diffuse"]}
{"id": "C64", "title": "Fuentes module temperature stays physical", "statement": "temperature.fuentes never reports a module colder than the coldest of its 20 C start, the air and the sky temperature it computes, nor (without sun) hotter than the hottest of them; each reported value depends only on the records up to its own time; it needs at least two samples; the INOCT setup constants it derives are positive for physical inputs.", "quantifier": "all weather histories of any length", "why_tests_cant": "The claim ranges over time series of any length and content; a test exercises a few fixed series.", "anchors": ["pvlib/temperature.py:fuentes,_fuentes_hconv,_hydraulic_diameter"]}
{"id": "C65", "title": "Named temperature parameter sets", "statement": "temperature._temperature_model_params succeeds exactly for the documented model/mounting pairs and otherwise raises KeyError; every named set makes its model hotter with more sun and no hotter with more wind.", "quantifier": "all model and set names", "why_tests_cant": "The claim ranges over all dictionaries/strings/tuples of arguments a caller may pass; tests try a handful.", "anchors": ["pvlib/temperature.py:_temperature_model_params,TEMPERATURE_MODEL_PARAMETERS"]}
{"id": "C66", "title": "A successful run computes exactly the documented pipeline, array by array", "statement": "When run_model, run_model_from_poa or run_model_from_effective_irradiance returns normally, every result field equals the documented composition of the sub-models on that array's own data: solar position and airmass from the first frame, transposition, angle of incidence and its modifier, spectral modifier, effective irradiance, cell temperature, DC power scaled by the array's wiring, ohmic and pvwatts losses, and the inverter model on all arrays; per-array fields are bare values for one array given bare data and tuples with one entry per array otherwise.", "quantifier": "all chains, all sub-models, all numbers of arrays, all weather inputs and all previous states of the results object", "why_tests_cant": "The number of combinations of models, arrays and input shapes is unbounded; tests mock a few of them.", "anchors": ["pvlib/modelchain.py: ModelChain.run_model, run_model_from_poa, run_model_from_effective_irradiance", "pvlib/pvsystem.py: PVSystem"]}
{"id": "C67", "title": "complete_irradiance fills in exactly the missing component", "statement": "ModelChain.complete_irradiance adds, to every input frame that has exactly two of ghi, dni and dhi, the third one computed by irradiance.complete_irradiance from that frame and the sun position (with clear-sky DNI when DNI is missing), changes no other column, and leaves frames with all three or fewer than two unchanged.", "quantifier": "all chains, inputs and previous states for which the call returns normally", "why_tests_cant": "The domain is a continuum of real angles/powers; tests sample finitely many points and cannot rule out a bad region between them.", "anchors": ["pvlib/modelchain.py: ModelChain.complete_irradiance"]}
{"id": "C68", "title": "Array and PVSystem construction", "statement": "Array keeps every value it is given; a missing albedo is looked up from surface_type and falls back to 0.25; missing temperature parameters are inferred from racking model and module type by the documented rule (SAPM sets by name, else PVsyst freestanding, insulated or semi-integrated, else empty) and inference never fails. PVSystem(arrays=None) builds one Array from its own arguments; with arrays given it uses exactly those; an empty list of arrays raises ValueError. A module's cell type for spectral correction comes from the documented Technology and Material names.", "quantifier": "all argument combinations and parameter dictionaries", "why_tests_cant": "The claim ranges over all dictionaries/strings/tuples of arguments a caller may pass; tests try a handful.", "anchors": ["pvlib/pvsystem.py:Array.__init__,PVSystem.__init__,Array._infer_temperature_model_params,Array._infer_cell_type"]}
{"id": "C69", "title": "Array methods hand over the documented parameters", "statement": "Array.get_aoi, get_irradiance, get_iam, get_cell_temperature and pvwatts_dc and PVSystem.pvwatts_losses compute exactly the underlying model function at the array's own orientation, albedo and parameters, with the documented default for each absent optional parameter, KeyError for each absent required one, and ValueError for an unknown model name.", "quantifier": "all arrays, parameter dictionaries, model names and weather inputs", "why_tests_cant": "The claim ranges over all dictionaries/strings/tuples of arguments a caller may pass; tests try a handful.", "anchors": ["pvlib/pvsystem.py:Array.get_aoi,get_irradiance,get_iam,get_cell_temperature,PVSystem.pvwatts_dc,pvwatts_losses"]}
{"id": "C70", "title": "PVSystem.get_ac selects the inverter model by name and number of arrays", "statement": "get_ac with model sandia, adr or pvwatts (any case) calls that inverter function with the system's inverter parameters; with several arrays sandia and pvwatts use the multi-input variants on all arrays' power and voltage in order, and adr raises ValueError; any other name raises ValueError.", "quantifier": "all systems with any number of arrays, all model names and inputs", "why_tests_cant": "The claim ranges over all dictionaries/strings/tuples of arguments a caller may pass; tests try a handful.", "anchors": ["pvlib/pvsystem.py:PVSystem.get_ac"]}
{"id": "C71", "title": "SAPM DC model", "statement": "pvsystem.sapm returns the published Sandia equations for currents, voltages and power at any positive irradiance; at the reference point the nameplate values come back; voltages are never negative, p_mp = i_mp * v_mp, and i_x and i_xx are present exactly when their coefficients are; a missing required key raises KeyError. In the dark currents and v_oc are 0, but v_mp and p_mp are nan for modules with C2 <= 0.", "quantifier": "all module dictionaries, irradiances and temperatures", "why_tests_cant": "The domain is a continuum of real angles/powers; tests sample finitely many points and cannot rule out a bad region between them.", "anchors": ["pvlib/pvsystem.py:sapm"]}
{"id": "C72", "title": "Spectral correction factors", "statement": "spectral_factor_sapm is the airmass polynomial floored at 0 and never nan; spectral_factor_firstsolar is the published formula on clamped airmass and water content, nan above the maximum water content, and between 0.2 and 1.4 for every named technology; spectral_factor_jrc is 1 at AM 1.5 and clear sky and increases with airmass; pvspec, caballero and polo equal their published formulas (polo treats the sun behind the plane as 90 degrees). Each raises the documented error unless exactly one of module type and coefficients is given, and KeyError for an unknown technology; only firstsolar, pvspec and jrc ignore letter case.", "quantifier": "all airmasses, water contents, optical depths, angles, technologies and coefficients", "why_tests_cant": "The domain is a continuum of real angles/powers; tests sample finitely many points and cannot rule out a bad region between them.", "anchors": ["pvlib/spectrum/mismatch.py:spectral_factor_sapm,spectral_factor_firstsolar,spectral_factor_jrc,spectral_factor_pvspec,spectral_factor_caballero,spectral_factor_polo"]}
{"id": "C73", "title": "Spectral mismatch from measured spectra", "statement": "calc_spectral_mismatch_field is 1 for the reference spectrum itself, does not change when either spectrum is scaled, and is a ratio of irradiance-weighted means of the response, hence bounded by the spread of the response; the response is interpolated linearly between its samples and is 0 outside them.", "quantifier": "all spectra and responses on any wavelength grids", "why_tests_cant": "The domain is a continuum of real angles/powers; tests sample finitely many points and cannot rule out a bad region between them.", "anchors": ["pvlib/spectrum/mismatch.py:calc_spectral_mismatch_field"]}
{"id": "C74", "title": "SAM databases and product names", "statement": "retrieve_sam reads the bundled file belonging to the case-insensitive database name, or the given path or URL; it raises ValueError unless exactly one of name and path is given and KeyError for an unknown name. Product names keep their length, every unfriendly character becomes an underscore and nothing else changes, normalising twice changes nothing more, and warnings are issued exactly for duplicated names.", "quantifier": "all strings", "why_tests_cant": "The claim ranges over all dictionaries/strings/tuples of arguments a caller may pass; tests try a handful.", "anchors": ["pvlib/pvsystem.py:retrieve_sam,_normalize_sam_product_names"]}
{"id": "C75", "title": "Photon energy and response conversions", "statement": "average_photon_energy lies between the photon energies of the longest and the shortest wavelength, and raises ValueError exactly when the spectrum has a negative value; sr_to_qe and qe_to_sr convert sample by sample, undo each other, prefer the wavelength argument over the index and raise TypeError without either.", "quantifier": "all spectra and wavelength grids", "why_tests_cant": "The domain is a continuum of real angles/powers; tests sample finitely many points and cannot rule out a bad region between them.", "anchors": ["pvlib/spectrum/irradiance.py:average_photon_energy", "pvlib/spectrum/response.py:sr_to_qe,qe_to_sr"]}
{"id": "C76", "title": "bishop88 points satisfy the single diode equation", "statement": "For every diode voltage above the breakdown voltage, the current, voltage and power that bishop88 returns satisfy the (implicit) single diode equation with shunt, recombination and breakdown terms, and every point of that curve with such a diode voltage is returned for some diode voltage. Finding: at or below the breakdown voltage (-5.5 V by default) the result is nan even when breakdown_factor is 0, where the equation has a solution.", "quantifier": "all device parameters and diode voltages", "why_tests_cant": "The domain is a continuum of real angles/powers; tests sample finitely many points and cannot rule out a bad region between them.", "anchors": ["pvlib/singlediode.py:bishop88"]}
{"id": "C77", "title": "bishop88 gradients are the derivatives", "statement": "With gradients=True and no breakdown term, the five extra outputs of bishop88 are the true derivatives dI/dVd, dV/dVd, dI/dV, dP/dV and d2P/dVdVd of the curve it returns. Finding: with a breakdown term they are not, unless the breakdown voltage is -1 V (a factor -1/breakdown_voltage is missing).", "quantifier": "all device parameters and diode voltages", "why_tests_cant": "The domain is a continuum of real angles/powers; tests sample finitely many points and cannot rule out a bad region between them.", "anchors": ["pvlib/singlediode.py:bishop88"]}
{"id": "C78", "title": "The I-V curve is strictly falling", "statement": "For physical parameters without breakdown, current strictly falls and voltage strictly rises with diode voltage; on the curve there is at most one current per voltage and one voltage per current, and current never rises with voltage.", "quantifier": "all physical device parameters and pairs of points", "why_tests_cant": "The domain is a continuum of real angles/powers; tests sample finitely many points and cannot rule out a bad region between them.", "anchors": ["pvlib/singlediode.py:bishop88"]}
{"id": "C79", "title": "The maximum power point is the maximum", "statement": "A point at which the dP/dV of bishop88 is zero and the voltage is not negative has the largest power of the whole curve. bishop88_mpp, called with a bracketing solver that returns a zero of the handed function to within tol, returns the point at a diode voltage within tol of that maximum; an exact solver returns the global maximum itself.", "quantifier": "all physical device parameters and all root finders obeying their contract", "why_tests_cant": "The domain is a continuum of real angles/powers; tests sample finitely many points and cannot rule out a bad region between them.", "anchors": ["pvlib/singlediode.py:bishop88_mpp", "pvlib/pvsystem.py:max_power_point"]}
{"id": "C80", "title": "bishop88 root finding", "statement": "bishop88_v_from_i and bishop88_i_from_v with brentq or chandrupatla return the solution of the single diode equation to the solver's accuracy; a root found by newton is a solution; newton is called with tol 1e-6 and maxiter 100 unless the user says otherwise; an unknown method raises NotImplementedError and chandrupatla with an old scipy raises ImportError; the starting estimate of open-circuit voltage is that of the device without shunt; brentq's bracket stays below the built-in voltage. Finding: the chandrupatla bracket for thin-film devices ignores the built-in voltage and need not contain a sign change.", "quantifier": "all physical device parameters, currents, voltages, method names and root finders obeying their contract", "why_tests_cant": "The domain is a continuum of real angles/powers; tests sample finitely many points and cannot rule out a bad region between them.", "anchors": ["pvlib/singlediode.py:bishop88_i_from_v,bishop88_v_from_i,estimate_voc"]}
{"id": "C81", "title": "Accuracy of the Lambert W routine", "statement": "The Lambert W routine used by the explicit solution differs from the true Lambert W function by at most 1.3e-10 absolutely (2.2e-10 relatively) for every non-negative argument, its logarithmic companion by at most 2e-12 for large arguments; it is exact at 0 and nan for negative or nan arguments.", "quantifier": "all real arguments", "why_tests_cant": "The domain is a continuum of real angles/powers; tests sample finitely many points and cannot rule out a bad region between them.", "anchors": ["pvlib/ivtools/utils.py:_lambertw_pvlib,_log_lambertw"]}
{"id": "C82", "title": "Accuracy of the explicit single diode solutions", "statement": "v_from_i and i_from_v with method lambertw return, for every physical device, a value within 1.3e-10 nNsVth (respectively 1.3e-10 nNsVth / Rs) of the unique exact solution of the single diode equation (i_from_v is exact without series resistance); a current beyond what an infinite-shunt device can carry and a negative shunt resistance give nan. Finding: i_from_v gives nan when its exponential overflows.", "quantifier": "all physical device parameters, voltages and currents", "why_tests_cant": "The domain is a continuum of real angles/powers; tests sample finitely many points and cannot rule out a bad region between them.", "anchors": ["pvlib/singlediode.py:_lambertw_v_from_i,_lambertw_i_from_v", "pvlib/pvsystem.py:v_from_i,i_from_v"]}
{"id": "C83", "title": "singlediode's seven points agree with the point functions", "statement": "pvsystem.singlediode returns exactly what v_from_i, i_from_v and max_power_point return at short circuit, open circuit, maximum power, half and mid voltage for the same method, in any letter case, and raises what they raise; for lambertw the maximum is the golden section search on the explicit power between 0 and v_oc.", "quantifier": "all devices, methods and spellings", "why_tests_cant": "The claim ranges over all dictionaries/strings/tuples of arguments a caller may pass; tests try a handful.", "anchors": ["pvlib/pvsystem.py:singlediode,i_from_v,v_from_i,max_power_point", "pvlib/singlediode.py:_lambertw"]}
{"id": "C84", "title": "Batzelis explicit single diode points", "statement": "singlediode.batzelis returns zero for every point in the dark, equals the published closed form in the light, and for an ideal device (no series or shunt loss) its maximum power point is the true maximum of the power curve.", "quantifier": "all device parameters", "why_tests_cant": "The domain is a continuum of real angles/powers; tests sample finitely many points and cannot rule out a bad region between them.", "anchors": ["pvlib/singlediode.py:batzelis"]}
{"id": "C85", "title": "Pointwise view factors of a row", "statement": "vf_row_sky_2d at a position on a row integrates half the sine of the angle from the row's own plane to the ray that just clears the top edge of the row in front; vf_row_ground_2d is the share below the ray to the bottom edge of the row in front. Both lie between 0 and 1, together never exceed 1, the sky factor grows and the ground factor falls with height, and at the top (bottom) edge they equal the isolated row's values.", "quantifier": "all tilts, ground coverage ratios and positions", "why_tests_cant": "The domain is a continuum of real angles/powers; tests sample finitely many points and cannot rule out a bad region between them.", "anchors": ["pvlib/bifacial/utils.py:vf_row_sky_2d,vf_row_ground_2d"]}
{"id": "C86", "title": "Averaged sky view factor is the mean of the pointwise one", "statement": "vf_row_sky_2d_integ over a row segment is the integral mean of vf_row_sky_2d over that segment; segments shorter than 1e-6 give the pointwise value; a negative rotation mirrors the segment; equal segments average to the whole row.", "quantifier": "all tilts, ground coverage ratios and segments", "why_tests_cant": "The domain is a continuum of real angles/powers; tests sample finitely many points and cannot rule out a bad region between them.", "anchors": ["pvlib/bifacial/utils.py:vf_row_sky_2d_integ"]}
{"id": "C87", "title": "Unshaded ground fraction", "statement": "_unshaded_ground_fraction of a ground segment is the share of the segment not in the shadow of any of the considered rows, hence of any row when the outermost shadows reach past the segment; for a whole pitch it is 1 - min(1, gcr |cos(rotation) + sin(rotation) tan(phi)|); it is 0 beyond max_zenith and raises TypeError exactly when height or pitch is missing for a partial segment. Finding: the defaults (10 rows, 85 degrees) are not enough for dense arrays at low sun: fully shaded ground is reported as 70% lit.", "quantifier": "all rotations, sun positions, layouts and segments", "why_tests_cant": "The domain is a continuum of real angles/powers; tests sample finitely many points and cannot rule out a bad region between them.", "anchors": ["pvlib/bifacial/utils.py:_unshaded_ground_fraction"]}
{"id": "C88", "title": "View factor of the ground to the sky", "statement": "vf_ground_sky_2d at a ground point is the integral, weighted by half the sine of elevation, of the directions not hidden by any of the considered rows, between the first directions hidden by the outermost rows; it lies between 0 and 1.", "quantifier": "all rotations, layouts, ground points and row counts", "why_tests_cant": "The domain is a continuum of real angles/powers; tests sample finitely many points and cannot rule out a bad region between them.", "anchors": ["pvlib/bifacial/utils.py:vf_ground_sky_2d"]}
{"id": "C89", "title": "Averaged ground view factors", "statement": "vf_ground_sky_2d_integ over a ground segment is the integral mean of vf_ground_sky_2d over the segment (for leaning and for flat rows, when no sight line grazes two row edges from a segment end); it and the averaged row-to-ground view factors are never negative.", "quantifier": "all rotations, layouts, segments and row counts", "why_tests_cant": "The domain is a continuum of real angles/powers; tests sample finitely many points and cannot rule out a bad region between them.", "anchors": ["pvlib/bifacial/utils.py:vf_ground_sky_2d_integ,vf_row_ground_2d_integ"]}
{"id": "C90", "title": "infinite_sheds on one side", "statement": "get_irradiance_poa returns poa_global = direct + diffuse and diffuse = sky + ground; the shaded fraction lies in [0,1] and splits the row exactly into points whose view of the sun the row in front blocks and points it does not; direct is beam times unshaded fraction times IAM; haydavies moves circumsolar irradiance from diffuse to beam without changing the irradiance of horizontal ground and needs dni_extra (ValueError otherwise), every other model name changes nothing; the number of rows looked at is the smallest that reaches 5 degrees above the horizon. Finding: with the sun behind the array the shaded fraction is 0, not 1 as commented.", "quantifier": "all layouts, sun positions, irradiances and model names", "why_tests_cant": "The domain is a continuum of real angles/powers; tests sample finitely many points and cannot rule out a bad region between them.", "anchors": ["pvlib/bifacial/infinite_sheds.py:get_irradiance_poa,_shaded_fraction,_poa_ground_pv"]}
{"id": "C91", "title": "infinite_sheds front and back together", "statement": "get_irradiance evaluates the front as given and the back with the opposite normal, reports each side's outputs under the documented names, and poa_global = front + back x bifaciality x (1 + shade_factor)(1 + transmission_factor); it fails exactly when one side fails; beam irradiance falls on at most one side.", "quantifier": "all layouts, sun positions and irradiances", "why_tests_cant": "The domain is a continuum of real angles/powers; tests sample finitely many points and cannot rule out a bad region between them.", "anchors": ["pvlib/bifacial/infinite_sheds.py:get_irradiance,_backside"]}
{"id": "C92", "title": "Mismatch loss of non-uniform irradiance", "statement": "power_mismatch_deline is the polynomial in the deviation with the constant term first, multiplied by fill_factor / fill_factor_reference when a fill factor is given (0 counts as not given); a uniform irradiance loses exactly the constant term.", "quantifier": "all coefficient lists, deviations and fill factors", "why_tests_cant": "The domain is a continuum of real angles/powers; tests sample finitely many points and cannot rule out a bad region between them.", "anchors": ["pvlib/bifacial/loss_models.py:power_mismatch_deline"]}
{"id": "C93", "title": "ants2d: segments, sky models and sloped ground", "statement": "The shaded fraction of a row segment is the shaded part of its length, shade being the shadow of the neighbouring row growing from the lower edge; equal segments average to the row's shaded fraction; haydavies, perez and perez-driesse move circumsolar irradiance without changing the irradiance of horizontal ground, unknown models and missing dni_extra or airmass raise ValueError, exactly then; sloped ground is handled by height along the ground normal, pitch along the slope and irradiance on the sloped plane; each segment's global is direct plus ground plus sky.", "quantifier": "all rotations, layouts, segments, sun positions and irradiances", "why_tests_cant": "The domain is a continuum of real angles/powers; tests sample finitely many points and cannot rule out a bad region between them.", "anchors": ["pvlib/bifacial/ants2d.py:get_irradiance,_shaded_fraction,_apply_sky_diffuse_model,_apply_ground_slope"]}
{"id": "C94", "title": "DISC and DIRINDEX", "statement": "disc returns, by day, the extraterrestrial irradiance times the published transmittance of clearness and airmass, floored at zero; DNI is zero beyond max_zenith, for negative GHI and for zero GHI, and never negative for any input; the reported kt lies in [0,1] and the airmass never exceeds max_airmass. dirindex scales the clear-sky DNI by the ratio of the two dirint values, is never negative and equals the clear-sky DNI when the ratio is 1.", "quantifier": "all GHI, zeniths, days, pressures and limits", "why_tests_cant": "The domain is a continuum of real angles/powers; tests sample finitely many points and cannot rule out a bad region between them.", "anchors": ["pvlib/irradiance.py:disc,_disc_kn,dirindex"]}
{"id": "C95", "title": "Ineichen clear sky", "statement": "clearsky.ineichen returns the published Ineichen-Perez irradiances: ghi = dni cos(zenith) + dhi with the sun up, 0 <= dni, ghi and (for Linke turbidity >= ln 2) dhi; everything is zero with the sun below the horizon, a missing airmass counts as no irradiance, any other missing input gives nan, ghi and dni fall as turbidity rises, and Perez enhancement multiplies ghi only through the published exponential. Finding: dhi is negative for turbidities below ln 2.", "quantifier": "all zeniths, airmasses, turbidities, altitudes and extraterrestrial irradiances", "why_tests_cant": "The domain is a continuum of real angles/powers; tests sample finitely many points and cannot rule out a bad region between them.", "anchors": ["pvlib/clearsky.py:ineichen"]}
{"id": "C96", "title": "Linke turbidity climatology lookup", "statement": "clearsky.lookup_linke_turbidity returns, for any date, the stored value / 20 of the nearest map cell, linear in the day of the year between the middles of the months (in leap and common years, and continuous across New Year), never outside the range of the cell's twelve stored values; without interpolation it is the month's own value; it raises ValueError exactly for positions off the globe.", "quantifier": "all positions, dates and table contents", "why_tests_cant": "The domain is a continuum of real angles/powers; tests sample finitely many points and cannot rule out a bad region between them.", "anchors": ["pvlib/clearsky.py:lookup_linke_turbidity,_interpolate_turbidity,_degrees_to_index,_calendar_month_middles"]}
{"id": "C97", "title": "Haurwitz and simplified Solis clear sky", "statement": "haurwitz is 1098 cos z exp(-0.059 / cos z) with the sun up and zero otherwise, rising as the sun rises; simplified_solis is the published model (ghi, dni, dhi from the fitted transmittances), never negative for pressures from 101325/15 Pa, does not depend on elevation below the horizon, and floors precipitable water at 0.2 cm. Finding: haurwitz reports 0, not nan, for a missing zenith.", "quantifier": "all zeniths, elevations, aerosol optical depths, water contents and pressures", "why_tests_cant": "The domain is a continuum of real angles/powers; tests sample finitely many points and cannot rule out a bad region between them.", "anchors": ["pvlib/clearsky.py:haurwitz,simplified_solis,_calc_i0p,_calc_taub,_calc_b,_calc_taug,_calc_g,_calc_taud,_calc_d"]}
{"id": "C98", "title": "Bird clear sky", "statement": "bird is the published Bird-Hulstrom model: direct_horizontal = dni cos z, ghi closes with the diffuse, every transmittance lies in [0,1] up to absolute airmass 29, horizontal components are zero with the sun below the horizon (dni is not), and a missing airmass gives nan. Finding: beyond airmass 29.3 the Rayleigh transmittance exceeds 1; at 32 in clean dry air dni exceeds 1.02 times the extraterrestrial irradiance.", "quantifier": "all zeniths, airmasses, optical depths, ozone, water, pressures and albedos", "why_tests_cant": "The domain is a continuum of real angles/powers; tests sample finitely many points and cannot rule out a bad region between them.", "anchors": ["pvlib/clearsky.py:bird"]}
{"id": "C99", "title": "detect_clearsky finds exactly the clear windows", "statement": "A sample is reported clear exactly when it belongs to a window all of whose six statistics (mean, max, line length, slope deviation, largest slope change, present data) meet the criteria for the clear-sky scale used in the last pass; the scale is the least squares fit on the clear samples of the pass before, passes stop at agreement to four digits or max_iterations; missing data are never clear; a measured series equal to the clear-sky series is clear throughout with scale 1; inferred limits are linear in the published table; it refuses what it documents. Findings: the returned alpha is the one fitted after the last pass, not the one used; max_iterations=0 raises UnboundLocalError.", "quantifier": "all measured and clear-sky series, window lengths, thresholds and iteration limits", "why_tests_cant": "The claim ranges over time series of any length and content; a test exercises a few fixed series.", "anchors": ["pvlib/clearsky.py:detect_clearsky,_clear_sample_index,_calc_stats,_calc_slope_nstd,_to_centered_series,_line_length_windowed,_clearsky_get_threshold"]}
{"id": "C100", "title": "ADR module efficiency and its fit", "statement": "pvefficiency_adr is the published efficiency curve: k_a at 1000 W/m2 and 25 C whatever the other parameters, 0 in the dark, between k_a G/1000 and k_a (1+k_rs+k_rsh) up to one sun at 25 C, not rising with temperature for tc_d >= 0; missing irradiance or temperature gives nan. fit_pvefficiency_adr hands scipy.curve_fit exactly this curve, the documented bounds, start, scales, weights and robust loss (which keyword arguments override), names the result k_a, k_d, tc_d, k_rs, k_rsh, and, if curve_fit finds a least-loss point of the box, reproduces measurements that follow the model exactly.", "quantifier": "all irradiances, temperatures, parameters and measurement sets", "why_tests_cant": "The domain is a continuum of real angles/powers; tests sample finitely many points and cannot rule out a bad region between them.", "anchors": ["pvlib/pvarray.py:pvefficiency_adr,fit_pvefficiency_adr"]}
{"id": "C101", "title": "Huld power model", "statement": "huld is the published polynomial in the logarithm of irradiance and the temperature excess; rated conditions give rated power for every coefficient set, no irradiance gives no power, the logarithm counts as zero for non-positive irradiance; built-in coefficients are the published PVGIS5/PVGIS6 tables times pdc0 (so power is proportional to pdc0), selected by name in any letter case; no coefficients and no cell type, or an unknown version, raise ValueError, an unknown cell type KeyError, a short coefficient list IndexError.", "quantifier": "all irradiances, temperatures, ratings, coefficients and names", "why_tests_cant": "The domain is a continuum of real angles/powers; tests sample finitely many points and cannot rule out a bad region between them.", "anchors": ["pvlib/pvarray.py:huld,_infer_k_huld"]}
{"id": "C102", "title": "Batzelis datasheet method", "statement": "pvarray.batzelis returns the datasheet values at 1000 W/m2 and 25 C, follows the published extrapolation elsewhere (with Lambert's W within 1.3e-10), makes i_sc proportional to irradiance and shifts i_sc and v_oc at one sun by exactly their temperature coefficients; without irradiance all five outputs are 0; missing or infinite irradiance gives nan voltages and power, never a number.", "quantifier": "all irradiances, temperatures and datasheets", "why_tests_cant": "The domain is a continuum of real angles/powers; tests sample finitely many points and cannot rule out a bad region between them.", "anchors": ["pvlib/pvarray.py:batzelis"]}
{"id": "C103", "title": "Analytical zenith and azimuth", "statement": "solar_zenith_analytical is in [0, pi] with cosine sin(lat) sin(dec) + cos(lat) cos(dec) cos(h). With that zenith, solar_azimuth_analytical is the azimuth (clockwise from north) of the sun's direction for every morning and afternoon hour angle; the snapping of the cosine to +-1 moves the direction by at most 1e-8 to the north and 1.5e-4 to the east; azimuths lie in [0, 2 pi] for any arguments; at the poles or with the sun in the zenith it is pi; missing inputs give nan. Findings: at hour angle 0 the answer is always south, also when the noon sun stands in the north; hour angles past midnight give the mirror image.", "quantifier": "all latitudes, declinations and hour angles", "why_tests_cant": "The domain is a continuum of real angles/powers; tests sample finitely many points and cannot rule out a bad region between them.", "anchors": ["pvlib/solarposition.py:solar_zenith_analytical,solar_azimuth_analytical"]}
{"id": "C104", "title": "Declination and equation of time series", "statement": "The Cooper and Spencer declinations and the Spencer and PVCDROM equations of time are the published series of the day of year, repeat every 365 days and stay within 23.45 degrees, [-0.4091, 0.4229] rad, 17.4 and 17.6 minutes; Cooper's declination is zero on day 81, positive to day 263.5 and negative after.", "quantifier": "all days of the year", "why_tests_cant": "The domain is a continuum of real angles/powers; tests sample finitely many points and cannot rule out a bad region between them.", "anchors": ["pvlib/solarposition.py:declination_cooper69,declination_spencer71,equation_of_time_spencer71,equation_of_time_pvcdrom"]}
{"id": "C105", "title": "Hour angle and geometric sunrise, sunset, transit", "statement": "hour_angle is, up to whole turns, 15 (UTC hours - 12) + longitude + equation of time / 4 whenever the local clock has kept its offset since local midnight, and is otherwise off by exactly 15 degrees per hour of clock change; it inverts to the hours since local midnight. sun_rise_set_transit_geometric returns instants at which the geometric sun is on the horizon (rising before, setting after) and on the meridian, symmetric about transit; sunrise and sunset are NaT exactly when the sun never crosses the horizon. Time zone naive input raises ValueError. Finding: on days of clock change hour_angle is 15 degrees off after the change.", "quantifier": "all time zones, instants, positions, declinations and equations of time", "why_tests_cant": "The domain is a continuum of real angles/powers; tests sample finitely many points and cannot rule out a bad region between them.", "anchors": ["pvlib/solarposition.py:hour_angle,_hour_angle_to_hours,_local_times_from_hours_since_midnight,_times_to_hours_after_local_midnight,sun_rise_set_transit_geometric"]}
{"id": "C106", "title": "ephemeris is the geometric sun", "statement": "solarposition.ephemeris terminates for every array of time stamps (years 1000-3000) after at most four turns of its Kepler iteration, with the eccentric anomaly within 2.1e-6 degrees of the unique solution of Kepler's equation; true anomaly, ecliptic longitude, azimuth in [0, 360), elevation and solar time in [0, 24] are those of the ellipse and of the rotations from ecliptic to equatorial to horizontal axes; zenith = 90 - elevation; refraction is the published formula, never lowers the sun and vanishes outside (-1, 85] degrees. Finding: the day count is one day off in 1900 and before, and from 2101.", "quantifier": "all arrays of time stamps, positions, pressures and temperatures", "why_tests_cant": "The claim ranges over time series of any length and content; a test exercises a few fixed series.", "anchors": ["pvlib/solarposition.py:ephemeris"]}
{"id": "C107", "title": "get_solarposition selects the algorithm and completes the site", "statement": "get_solarposition hands latitude, longitude, altitude, pressure and temperature to the algorithm named by method in any letter case, derives the missing one of altitude and pressure from the other (sea level and 101325 Pa when both are missing), and raises ValueError exactly for other names. Finding: method='nrel_c' passes the temperature as the altitude and never passes the temperature.", "quantifier": "all sites, names and conditions", "why_tests_cant": "The claim ranges over all dictionaries/strings/tuples of arguments a caller may pass; tests try a handful.", "anchors": ["pvlib/solarposition.py:get_solarposition,spa_c"]}
{"id": "C108", "title": "SPA azimuth and elevation are the direction of the sun", "statement": "For every instant within 4000 years of 2000 and every site off the poles, the azimuth (in [0, 360)) and elevation (in [-90, 90]) of solarposition.spa_python point along the vector from the observer on the ellipsoid (latitude, height) to the apparent sun, whose ecliptic longitude, latitude and distance are the published periodic series with nutation and aberration, rotated by obliquity and sidereal time; zenith = 90 - elevation, apparent elevation = elevation + refraction; the direction does not depend on the atmosphere, and a whole turn of longitude changes nothing.", "quantifier": "all instants, delta T, sites and atmospheres", "why_tests_cant": "The domain is a continuum of real angles/powers; tests sample finitely many points and cannot rule out a bad region between them.", "anchors": ["pvlib/spa.py:solar_position,solar_position_numpy,solar_position_loop,heliocentric_longitude,topocentric_azimuth_angle"]}
{"id": "C109", "title": "SPA distance, equation of time and refraction", "statement": "nrel_earthsun_distance is the published radius series and lies in [0.977, 1.023] AU; the equation of time is the mean longitude less aberration, right ascension and the nutation term, in minutes up to whole days, within (-1420, 20] and equal to the true value whenever that is within 20 minutes; the refraction correction is the published formula above the horizon, positive and at most 0.65 degrees at standard air, and zero below. Findings: it is nan at elevation -5.11 degrees and negative very near the zenith.", "quantifier": "all instants, elevations, pressures and temperatures", "why_tests_cant": "The domain is a continuum of real angles/powers; tests sample finitely many points and cannot rule out a bad region between them.", "anchors": ["pvlib/spa.py:heliocentric_radius_vector,equation_of_time,atmospheric_refraction_correction,earthsun_distance", "pvlib/solarposition.py:nrel_earthsun_distance"]}
{"id": "C110", "title": "The threaded SPA calculation equals the array calculation", "statement": "solar_position with numba and any number of threads gives, for every interleaving of the threads' writes and every initial memory, exactly the cells of the numpy version; no cell is written twice and none outside the result; the samples are cut into max(1, min(threads, samples)) nearly equal pieces.", "quantifier": "all schedules, thread counts, sample arrays and modes", "why_tests_cant": "The claim ranges over time series of any length and content; a test exercises a few fixed series.", "anchors": ["pvlib/spa.py:solar_position_numba,solar_position_loop,solar_position_numpy"]}
{"id": "C111", "title": "Time scales: delta T and Julian day", "statement": "calculate_deltat is the published piecewise polynomial estimate for every year and month; from 2005 to 2050 it lies in [64, 94] s and grows from month to month. julian_day_dt is the Julian day of the Gregorian date and agrees with julian_day of the Unix time.", "quantifier": "all years, months and times of day", "why_tests_cant": "The domain is a continuum of real angles/powers; tests sample finitely many points and cannot rule out a bad region between them.", "anchors": ["pvlib/spa.py:calculate_deltat,julian_day_dt,julian_day"]}
{"id": "C112", "title": "SPA sunrise, sunset and transit", "statement": "transit_sunrise_sunset raises ValueError exactly when a date is not at 00:00 UTC and treats each date separately; for a date, transit, sunrise and sunset are the documented one-step refinements from the interpolated right ascension and declination: the first estimates put the sun of 0h TT on the meridian and 0.8333 degrees below the horizon, the corrections move by the local hour angle and altitude error; sunrise and sunset are nan exactly when the sun never reaches that altitude. sun_rise_set_transit_spa uses the calendar day of the local clock, never fails for localized times and raises ValueError for naive ones. Finding: if an event falls in the neighbouring UTC day, the correction uses the sun of the wrapped fraction of the day.", "quantifier": "all dates, delta T and sites", "why_tests_cant": "The domain is a continuum of real angles/powers; tests sample finitely many points and cannot rule out a bad region between them.", "anchors": ["pvlib/spa.py:transit_sunrise_sunset", "pvlib/solarposition.py:sun_rise_set_transit_spa"]}
{"id": "C113", "title": "SPA wrappers: compiled functions and defaults", "statement": "spa_python selects compiled functions exactly when how is 'numba' and numba can be imported, raises ValueError exactly for other names, and a process without numba keeps the uncompiled functions through every history of calls; pressures are taken in Pa and delta_t=None means the estimate for the UTC month. Findings: switching deletes the user's PVLIB_USE_NUMBA variable; atmos_refract=0 is replaced by 0.5667.", "quantifier": "all call histories, environments and arguments", "why_tests_cant": "The claim ranges over time series of any length and content; a test exercises a few fixed series.", "anchors": ["pvlib/solarposition.py:spa_python,_spa_python_import"]}
{"id": "C114", "title": "Location time zone", "statement": "Assigning an integer (or whole float) n to Location.tz selects the fixed-offset zone n hours east of Greenwich (whose IANA name has the opposite sign), for exactly the offsets -12..14 of the database; fractional, nan and infinite floats and other types raise TypeError; a tzinfo is taken by name; through every history of assignments, failed or not, tz is a name of the database, the last successfully assigned one, reading it and assigning it back changes nothing, and no other attribute changes. Finding: the documentation promises ValueError where TypeError is raised.", "quantifier": "all assigned values and assignment histories", "why_tests_cant": "The claim ranges over time series of any length and content; a test exercises a few fixed series.", "anchors": ["pvlib/location.py:Location.tz"]}
{"id": "C115", "title": "Location construction", "statement": "Without an altitude, Location takes the stored byte of the nearest cell of the altitude map (28 m steps from -450 m, 0 for missing data), raising ValueError exactly for positions off the globe; a given altitude is kept as is and the map is not consulted; from_tmy and from_epw use the metadata entries (City if non-empty, else Name; city for EPW), attach the data, and raise KeyError for a missing entry.", "quantifier": "all positions, map contents and metadata dictionaries", "why_tests_cant": "The claim ranges over all dictionaries/strings/tuples of arguments a caller may pass; tests try a handful.", "anchors": ["pvlib/location.py:lookup_altitude,Location.__init__,Location.from_tmy,Location.from_epw"]}
{"id": "C116", "title": "Location methods", "statement": "get_solarposition asks the named back end for the site's own latitude, longitude, altitude and the pressure of its altitude unless one is given; get_airmass uses the apparent or the true zenith according to the model and the site's pressure; get_clearsky combines given values with the climatology, the airmass and the extraterrestrial irradiance, accepts exactly the documented keyword arguments (TypeError otherwise), and its default model is physical by day (ghi = dhi + dni cos z, nothing negative) and zero by night at every site; get_sun_rise_set_transit labels sunrise, sunset and transit correctly; unknown names raise ValueError. Findings: gueymard2003 is refused by get_airmass; a pressure given to get_clearsky does not reach the airmass of the ineichen model.", "quantifier": "all sites, positions of the sun, names and keyword arguments", "why_tests_cant": "The domain is a continuum of real angles/powers; tests sample finitely many points and cannot rule out a bad region between them.", "anchors": ["pvlib/location.py:Location.get_solarposition,Location.get_airmass,Location.get_clearsky,Location.get_sun_rise_set_transit"]}
{"id": "C117", "title": "Wavelets of the clear-sky index", "statement": "scaling.wvm succeeds exactly for data, sites, a non-zero cloud speed and a time step in (0, 4096] s (the ways other steps fail are listed); the time scales are the step doubled repeatedly up to the last one not above 4096 s; the wavelet of a scale is the difference of successive centred moving averages of the series reflected at both ends, the last one is the widest average, and the wavelets of each sample add up to the sample; a sample of the result is missing exactly where the input is. Finding: a time index whose step is a day or more loses the whole days.", "quantifier": "all series, indexes, sites and cloud speeds", "why_tests_cant": "The domain is a continuum of real angles/powers; tests sample finitely many points and cannot rule out a bad region between them.", "anchors": ["pvlib/scaling.py:wvm,_compute_wavelet"]}
{"id": "C118", "title": "Variability reduction of a fleet", "statement": "Whenever scipy's fmin finds the number of sites, the variability reduction of a time scale is n^2 over the sum of the n^2 correlations exp(-2 distance / (speed * scale)), lies in [1, n] and falls with speed and scale; the smoothed index is the sum of the wavelets divided by its root (the slowest undivided), never leaves the range of the input series, and equals it when all sites coincide. Finding: for one site fmin starts at a minimum (0) and the result is nan.", "quantifier": "all series, site positions and cloud speeds", "why_tests_cant": "The domain is a continuum of real angles/powers; tests sample finitely many points and cannot rule out a bad region between them.", "anchors": ["pvlib/scaling.py:wvm,_compute_vr"]}
{"id": "C119", "title": "Local coordinates", "statement": "latlon_to_xy turns (latitude, longitude) pairs into (x, y) pairs in their order: y is the arc along the meridian, x the arc along the parallel of the mean latitude on a sphere of 6371008.7714 m; a single pair uses its own latitude; moving every longitude changes no difference of coordinates, and wvm depends on the positions only through their distances.", "quantifier": "all lists of positions", "why_tests_cant": "The domain is a continuum of real angles/powers; tests sample finitely many points and cannot rule out a bad region between them.", "anchors": ["pvlib/scaling.py:latlon_to_xy,wvm"]}
{"id": "C120", "title": "rectify_iv_curve", "statement": "The curve returned by rectify_iv_curve has strictly increasing voltages, lies in the first quadrant, and consists of exactly the (rounded) voltages of the complete measured points in the first quadrant, each with the mean of the currents measured there; the order of the measurements does not matter, a clean curve is returned unchanged, and rounding moves a voltage by at most half a unit of the last decimal.", "quantifier": "all lists of measured points with missing values, all decimals", "why_tests_cant": "The domain is a continuum of real angles/powers; tests sample finitely many points and cannot rule out a bad region between them.", "anchors": ["pvlib/ivtools/utils.py:rectify_iv_curve"]}
{"id": "C121", "title": "Numerical differentiation of IV curves", "statement": "The first derivative used by the Sandia parameter fits is, at every point with two neighbours on either side, the derivative of the quartic through the five points, for any unequal spacing; the two points at either end are nan. Finding: the second derivative is wrong (not divided by the Lagrange denominators and two index slips): for x^2 at 0..4 it gives -176 instead of 2, and for equally spaced points always -2 h^2 times a weighted sum of the values.", "quantifier": "all lists of distinct abscissae and all ordinates", "why_tests_cant": "The domain is a continuum of real angles/powers; tests sample finitely many points and cannot rule out a bad region between them.", "anchors": ["pvlib/ivtools/utils.py:_numdiff"]}
{"id": "C122", "title": "Schumaker spline of an IV curve", "statement": "For increasing abscissae the spline's knots increase, its unflagged rows are the data points in order, and at most one flagged knot lies between neighbouring data points; data slopes are harmonic means of the neighbouring chords (0 at extrema, one-sided at the left end); pieces start on the curve and join with equal value and slope at inserted knots; without an inserted knot slopes join exactly and values within the tolerance. Finding: the piece after an inserted knot uses the wrong interval length and misses the next data point by an explicit amount.", "quantifier": "all increasing abscissae and all ordinates", "why_tests_cant": "The domain is a continuum of real angles/powers; tests sample finitely many points and cannot rule out a bad region between them.", "anchors": ["pvlib/ivtools/utils.py:_schumaker_qspline"]}
{"id": "C123", "title": "ASTM E1036 parameters", "statement": "astm_e1036 takes voc and isc from the first measured point nearest the axis when it is within 0.1% / 0.5%, and otherwise from the line fitted to the requested number of nearest points; vmp is the root of the fitted polynomial's derivative with the largest fitted power strictly inside the window around the first best measured point, pmp is that power, imp = pmp / vmp and ff = pmp / (voc isc); it fails, with ValueError, exactly when there is no measured point or no such root.", "quantifier": "all measured curves, limits, point counts and fitted polynomials", "why_tests_cant": "The claim ranges over all dictionaries/strings/tuples of arguments a caller may pass; tests try a handful.", "anchors": ["pvlib/ivtools/utils.py:astm_e1036"]}
{"id": "C124", "title": "fit_sandia_simple", "statement": "Given the regression coefficients of a single diode curve, fit_sandia_simple returns exactly its five parameters; fitted by least squares to data whose linear and exponential portions follow the model it finds those coefficients; for any data the saturation current returned is positive and makes the equation hold at the maximum power point or at open circuit, or is the mean of the two currents that do; the line is fitted to the shortest prefix that contains all points below vlim v_oc and slopes down; values not given are read off the curve; the ways it fails are listed. Findings: without an exponential portion ZeroDivisionError is raised, not the documented RuntimeError; points at vlim v_oc exactly are not part of the linear portion although documented.", "quantifier": "all curves, limits, coefficients and least-squares routines", "why_tests_cant": "The domain is a continuum of real angles/powers; tests sample finitely many points and cannot rule out a bad region between them.", "anchors": ["pvlib/ivtools/sde.py:fit_sandia_simple,_sandia_beta0_beta1,_sandia_beta3_beta4,_sandia_simple_params"]}
{"id": "C125", "title": "Co-content method", "statement": "_fit_sandia_cocontent computes, for each data point, the integral of isc minus the spline through the data; on a single diode curve that integral is a quadratic in V and Isc - I whose coefficients give back series and shunt resistance and ideality factor exactly; the least-squares regression in shifted, scaled and rotated coordinates finds the coefficients whenever the data determine them; too few points or unequal lengths raise ValueError. Finding: the photocurrent returned satisfies the single diode equation at short circuit only if the series resistance is 1 ohm, because the exponent omits it.", "quantifier": "all curves with increasing voltages, all parameters", "why_tests_cant": "The domain is a continuum of real angles/powers; tests sample finitely many points and cannot rule out a bad region between them.", "anchors": ["pvlib/ivtools/sde.py:_fit_sandia_cocontent,_cocontent,_cocontent_regress"]}
{"id": "C126", "title": "fit_desoto", "statement": "The five equations solved by fit_desoto vanish exactly when the datasheet's short circuit, open circuit and maximum power points are those of the fitted device and its open circuit voltage two degrees above reference, translated by calcparams_desoto, follows beta_voc; the search starts from the documented guesses or those given, unknown names in init_guess raise ValueError before anything is solved, the result is the solver's point under the documented keys, and an unsuccessful solver raises RuntimeError.", "quantifier": "all datasheets, guesses and root finders", "why_tests_cant": "The domain is a continuum of real angles/powers; tests sample finitely many points and cannot rule out a bad region between them.", "anchors": ["pvlib/ivtools/sdm/desoto.py:fit_desoto,_system_of_equations_desoto"]}
{"id": "C127", "title": "fit_desoto_batzelis", "statement": "The returned parameters are Batzelis' explicit equations with Lambert's W met within 1.3e-10 and alpha_sc unchanged; the residual current of the single diode equation at the maximum power, open circuit and short circuit points of the datasheet is given exactly.", "quantifier": "all datasheets", "why_tests_cant": "The domain is a continuum of real angles/powers; tests sample finitely many points and cannot rule out a bad region between them.", "anchors": ["pvlib/ivtools/sdm/desoto.py:fit_desoto_batzelis"]}
{"id": "C128", "title": "fit_cec_sam", "statement": "Without the SAM package ImportError is raised; otherwise its module is run on the renamed inputs, and its six results are returned if it reports success, else RuntimeError is raised.", "quantifier": "all datasheets and answers of the external module", "why_tests_cant": "The claim ranges over all dictionaries/strings/tuples of arguments a caller may pass; tests try a handful.", "anchors": ["pvlib/ivtools/sdm/cec.py:fit_cec_sam"]}
{"id": "C129", "title": "Resistances from the maximum power point (Sandia fits)", "statement": "The series resistance computed by the Sandia fits puts the measured maximum power point on the single diode curve (within 1.3e-10 nNsVth/imp); a shunt resistance is left unchanged by the exact iteration step exactly when, with the matching series resistance, the measured point is the maximum power point of the curve; the step is taken 500 times and keeps fixed points and missing values. Finding: where the exponential overflows, the helper claims 8 digits but, because two names share one array, its Lambert W is too small by more than 9.8.", "quantifier": "all parameters and measured points", "why_tests_cant": "The domain is a continuum of real angles/powers; tests sample finitely many points and cannot rule out a bad region between them.", "anchors": ["pvlib/ivtools/sdm/_fit_desoto_pvsyst_sandia.py:_update_rsh_fixed_pt,_calc_theta_phi_exact,_update_iv_params"]}
{"id": "C130", "title": "Saturation current from the open circuit voltage (Sandia fits)", "statement": "Each step scales the saturation current by 1 + 2 d / (2 nNsVth - d) for the voltage error d, which keeps it positive and moves it the right way; when the change falls below the tolerance the measured open circuit voltage is met to 1.1e-8 nNsVth; all good curves are updated together, one to nine times, until the largest change is at most 1e-6 per cent; with no good curve ValueError is raised.", "quantifier": "all lists of curves and parameters", "why_tests_cant": "The claim ranges over time series of any length and content; a test exercises a few fixed series.", "anchors": ["pvlib/ivtools/sdm/_fit_desoto_pvsyst_sandia.py:_update_io"]}
{"id": "C131", "title": "Which curves the Sandia fits keep", "statement": "A curve is kept exactly when 0 <= Rs <= Rsh and Io > 0 (nothing missing) and its short circuit current is within 5% of the least-squares line through the origin over all curves. Finding: the comment promises to drop non-positive resistances, but a curve with Rs = Rsh = 0 is kept.", "quantifier": "all lists of curves and parameters", "why_tests_cant": "The domain is a continuum of real angles/powers; tests sample finitely many points and cannot rule out a bad region between them.", "anchors": ["pvlib/ivtools/sdm/_fit_desoto_pvsyst_sandia.py:_filter_params"]}
{"id": "C132", "title": "The iteration over all curves (Sandia fits)", "statement": "Initial parameters come from each curve's own data by the documented formulas and meet its short circuit; without a positive shunt resistance everything is missing and the curve is not used; the convergence statistics are the largest, smallest and mean relative errors at the maximum power point; at most maxiter rounds are made (at least two if allowed), stopping early exactly when no statistic changed by eps1 or more; every returned curve meets its short circuit, and a curve that is neither in use nor acceptable at the start keeps its parameters and never comes back; if no acceptable curve is left ValueError is raised.", "quantifier": "all lists of curves, iteration limits and tolerances", "why_tests_cant": "The claim ranges over time series of any length and content; a test exercises a few fixed series.", "anchors": ["pvlib/ivtools/sdm/_fit_desoto_pvsyst_sandia.py:_initial_iv_params,_update_iv_params,_check_converge"]}
{"id": "C133", "title": "Reference values from many curves (Sandia fits)", "statement": "From the parameters of curves that follow calcparams_pvsyst or calcparams_desoto exactly, the extraction returns the reference photocurrent, saturation current, resistances and (PVsyst) band gap that produced them; the shunt resistance fit has vanishing residuals exactly when its curve passes through every shunt resistance, two irradiances determine both values, and it starts from the documented point. Finding: for De Soto the fitted EgRef is 17.3% too large for silicon because of a sign error, and the test pins that value.", "quantifier": "all lists of curves at two or more irradiances and temperatures", "why_tests_cant": "The domain is a continuum of real angles/powers; tests sample finitely many points and cannot rule out a bad region between them.", "anchors": ["pvlib/ivtools/sdm/_fit_desoto_pvsyst_sandia.py:_extract_sdm_params"]}
{"id": "C134", "title": "fit_desoto_sandia and fit_pvsyst_sandia end to end", "statement": "The diode factor regression recovers the factor of a module whose open circuit voltage is linear in temperature and in the logarithm of irradiance, and the PVsyst regression recovers gamma and its temperature derivative from curves that follow the model; the fits run start, regression, iteration and extraction in that order on the same curves, return the documented keys, and raise exactly the listed errors.", "quantifier": "all lists of curves, solvers meeting their contracts", "why_tests_cant": "The domain is a continuum of real angles/powers; tests sample finitely many points and cannot rule out a bad region between them.", "anchors": ["pvlib/ivtools/sdm/desoto.py:fit_desoto_sandia,_fit_desoto_sandia_diode", "pvlib/ivtools/sdm/pvsyst.py:fit_pvsyst_sandia,_fit_pvsyst_sandia_gamma"]}
{"id": "C135", "title": "Steps of the PVsyst fit to IEC 61853 data", "statement": "On measurements of a module that follows the PVsyst equations exactly: the relative temperature coefficient and the shunt resistances are recovered; the series resistance is the coefficient of the current; the diode factor and the saturation current are found from below within the relative error of the exponential each formula neglects; the photocurrent is exact, or low by a bounded amount if the saturation current is; each post-fit estimate of the diode factor is high by at most an explicit fraction and the fitted line stays within (1 + sqrt n) times the largest error at every temperature measured.", "quantifier": "all lists of test conditions, all modules, all least-squares solvers", "why_tests_cant": "The domain is a continuum of real angles/powers; tests sample finitely many points and cannot rule out a bad region between them.", "anchors": ["pvlib/ivtools/sdm/pvsyst.py:_fit_tempco_pvsyst_iec61853_sandia_2025,_fit_shunt_resistances_pvsyst_iec61853_sandia_2025,_fit_diode_ideality_factor_pvsyst_iec61853_sandia_2025,_fit_saturation_current_pvsyst_iec61853_sandia_2025,_fit_photocurrent_pvsyst_iec61853_sandia_2025,_fit_diode_ideality_factor_post_pvsyst_iec61853_sandia_2025"]}
{"id": "C136", "title": "fit_pvsyst_iec61853_sandia_2025 and pvsyst_temperature_coeff", "statement": "alpha_sc, beta_mp and R_s are used unchanged when given; without alpha_sc there must be a condition near 1000 W/m2 (TypeError) and exactly one that is also near 25 C (ValueError), whose current scales the coefficient; the steps run in order, the diode factor from conditions near 25 C only and the rest from all, and the result has the documented keys. The temperature coefficient of power is the relative slope of maximum power at some temperature within the step, and exact for a linear power.", "quantifier": "all lists of test conditions, options and parameters", "why_tests_cant": "The claim ranges over all dictionaries/strings/tuples of arguments a caller may pass; tests try a handful.", "anchors": ["pvlib/ivtools/sdm/pvsyst.py:fit_pvsyst_iec61853_sandia_2025,pvsyst_temperature_coeff"]}
{"id": "C137", "title": "SPECTRL2 direct spectrum", "statement": "spectrl2 returns 122 rows at increasing wavelengths from 300 to 4000 nm; dni is dni_extra times the five transmittances of the report, positive and never above dni_extra, which is the table value within the Earth-Sun distance factor; a larger airmass, pressure, precipitable water, ozone or aerosol depth never gives more at any wavelength; a pandas index determines the day of the year (an explicit dayofyear is ignored), otherwise a missing dayofyear raises ValueError.", "quantifier": "all atmospheres, sun positions and days", "why_tests_cant": "The domain is a continuum of real angles/powers; tests sample finitely many points and cannot rule out a bad region between them.", "anchors": ["pvlib/spectrum/spectrl2.py:spectrl2,_spectrl2_transmittances"]}
{"id": "C138", "title": "SPECTRL2 diffuse spectrum", "statement": "dhi is the sum of Rayleigh and aerosol scatter and of the whole geometric series of reflections between ground and sky, with the ultraviolet correction; sky reflectivity is in [0, 1/2) and at least half of the aerosol scatter goes forward (asymmetry up to 0.9), so dhi is not negative; over a black ground dni cos z + dhi never exceeds dni_extra cos z, and over any ground not twice that. Finding: an asymmetry factor very near 1 gives a negative diffuse irradiance.", "quantifier": "all atmospheres, albedos and days with the sun up", "why_tests_cant": "The domain is a continuum of real angles/powers; tests sample finitely many points and cannot rule out a bad region between them.", "anchors": ["pvlib/spectrum/spectrl2.py:spectrl2"]}
{"id": "C139", "title": "SPECTRL2 on tilted surfaces", "statement": "poa_global is poa_direct + poa_sky_diffuse + poa_ground_diffuse with the Hay-Davies sky and an isotropic ground; none is negative, a sun behind the surface gives no beam, and a horizontal surface receives exactly dni cos z + dhi when the sun is at least one degree up; where the airmass is nan every irradiance but dni_extra is nan.", "quantifier": "all surfaces, atmospheres, albedos and days", "why_tests_cant": "The domain is a continuum of real angles/powers; tests sample finitely many points and cannot rule out a bad region between them.", "anchors": ["pvlib/spectrum/spectrl2.py:spectrl2"]}
{"id": "C140", "title": "inverter.fit_sandia", "statement": "From noise-free measurements of a Sandia-model inverter at the levels Vmin, Vnom and Vmax (at least three DC powers at each), fit_sandia returns that inverter's parameters referred to the voltage of Vnom: the same AC power at every voltage and DC power, and the identical parameters if that is the inverter's reference voltage; p_ac_0 and p_nt are passed through; each level's data are used separately and other levels are ignored; a missing level raises TypeError. Findings: an inverter whose AC power is linear in DC power, or one without self-consumption, gets nan parameters and with them nan power.", "quantifier": "all inverters whose curves rise, all lists of measurements, all polynomial fits that are exact on exact data", "why_tests_cant": "The domain is a continuum of real angles/powers; tests sample finitely many points and cannot rule out a bad region between them.", "anchors": ["pvlib/inverter.py:fit_sandia"]}
{"id": "C141", "title": "Deprecated names", "statement": "warn_deprecated and the deprecated decorator announce name, version, removal date (soon if none is given), alternative and addendum in the documented words, in the category PendingDeprecationWarning if pending and pvlibDeprecationWarning otherwise; a pending deprecation with a removal date raises ValueError, nothing else does; each call of a decorated function gives exactly one such warning before any other and returns or raises exactly what the function does (so parse_bsrn, parse_cams and parse_epw are read_bsrn, read_cams and read_epw).", "quantifier": "all texts, functions and arguments", "why_tests_cant": "The claim ranges over time series of any length and content; a test exercises a few fixed series.", "anchors": ["pvlib/_deprecation.py:_generate_deprecation_message,warn_deprecated,deprecated"]}
{"id": "C142", "title": "Renamed parameters", "statement": "With renamed_kwarg_warning, a call with the old keyword gives one warning and is the call with the value under the new keyword, everything else unchanged; with both keywords ValueError is raised and the function is not called; without the old keyword the call is passed on unchanged and without a warning.", "quantifier": "all functions, names and keyword arguments", "why_tests_cant": "The claim ranges over all dictionaries/strings/tuples of arguments a caller may pass; tests try a handful.", "anchors": ["pvlib/_deprecation.py:renamed_kwarg_warning"]}
{"id": "C143", "title": "read_panond: structure", "statement": "The content of a .PAN or .OND file with sections shown by indentation of any depth is returned as nested dicts in file order, a section's own key and value repeated as its first entry, later entries of the same key replacing earlier ones; the last line only closes the file (so the last entry of a file without an End line is lost); a blank line is harmless unless the next line is deeper than the one before. Finding: after a section header a blank line raises IndexError or puts the section's entries into the previous section.", "quantifier": "all files, all depths of nesting", "why_tests_cant": "The claim ranges over time series of any length and content; a test exercises a few fixed series.", "anchors": ["pvlib/iotools/panond.py:read_panond,_parse_panond"]}
{"id": "C144", "title": "read_panond: values", "statement": "A value with commas is the list of the values between them; one with a dot is a float if float() accepts it, one without a dot an int if int() accepts it, anything else stays text; a line without an equals sign has the value None; text after a second equals sign is dropped.", "quantifier": "all lines of text", "why_tests_cant": "The claim ranges over all dictionaries/strings/tuples of arguments a caller may pass; tests try a handful.", "anchors": ["pvlib/iotools/panond.py:_num_type,_element_type,_parse_panond"]}
{"id": "C145", "title": "read_tmy3: time index", "statement": "Each row of a TMY3 file is labelled with its own local time, 24:00 being midnight of the next day and a February 29 moved to March 1; with coerce_year a typical year whose last row is December 31, 24:00 is labelled with the rows' own times in that year. ValueError exactly if a date does not exist. Findings: with coerce_year the last row is put into the following year whatever its date, so a file with hours 0..23 ends a year late; with a leap coerce_year the midnight after February 28 is labelled one day late.", "quantifier": "all rows, all years", "why_tests_cant": "The domain is a continuum of real angles/powers; tests sample finitely many points and cannot rule out a bad region between them.", "anchors": ["pvlib/iotools/tmy.py:read_tmy3"]}
{"id": "C146", "title": "read_tmy3, read_epw: site header", "statement": "The cells of the header line become the site record, further cells are ignored; KeyError exactly if cells are missing, ValueError exactly if a number is expected and not found; the index is in the file's UTC offset, exact for every offset of a whole number of seconds and either sign.", "quantifier": "all header lines and offsets", "why_tests_cant": "The claim ranges over all dictionaries/strings/tuples of arguments a caller may pass; tests try a handful.", "anchors": ["pvlib/iotools/tmy.py:read_tmy3", "pvlib/iotools/epw.py:_parse_epw"]}
{"id": "C147", "title": "read_tmy2", "statement": "Every value of a data line is read from the positions given in the TMY2 manual, source flags as texts and all others as numbers, ValueError exactly if one of those is not a number; latitude is positive for N and longitude for E; each row is labelled with the start of its hour in the year of the first row, ValueError exactly if there is no such day or hour. Findings: the last column is named LastSnowfallUncertaint; the present weather digits are read as one number.", "quantifier": "all lines and rows", "why_tests_cant": "The claim ranges over all dictionaries/strings/tuples of arguments a caller may pass; tests try a handful.", "anchors": ["pvlib/iotools/tmy.py:read_tmy2,_read_tmy2,_parsemeta_tmy2"]}
{"id": "C148", "title": "read_epw: time index", "statement": "Each row is labelled with the start of its hour in its own year or in coerce_year; ValueError exactly if that year has no such day or the hour is not 1..24, in particular if a file with a February 29 is coerced to a year without one.", "quantifier": "all rows, all years", "why_tests_cant": "The domain is a continuum of real angles/powers; tests sample finitely many points and cannot rule out a bad region between them.", "anchors": ["pvlib/iotools/epw.py:_parse_epw"]}
{"id": "C149", "title": "read_surfrad, read_solrad", "statement": "Each row is labelled with its minute of its day (day of year in SURFRAD, month and day in SOLRAD files), one-digit numbers included, ValueError exactly if a row is no valid time; in SURFRAD files the value -9999.9 becomes nan and every other value is kept; the site line gives name, latitude, longitude, elevation and version (SURFRAD, last) or time zone (SOLRAD, fourth).", "quantifier": "all rows with a four-digit or larger year, all header tokens", "why_tests_cant": "The claim ranges over all dictionaries/strings/tuples of arguments a caller may pass; tests try a handful.", "anchors": ["pvlib/iotools/surfrad.py:read_surfrad,_format_index", "pvlib/iotools/solrad.py:read_solrad"]}
{"id": "C150", "title": "read_crn, read_midc(raw_data): time index", "statement": "Times given as the number HHMM without leading zeros (5 is five past midnight) and dates as YYYYMMDD or year and day of year give exactly that minute; ValueError exactly if a row is no valid time.", "quantifier": "all rows", "why_tests_cant": "The claim ranges over all dictionaries/strings/tuples of arguments a caller may pass; tests try a handful.", "anchors": ["pvlib/iotools/crn.py:read_crn", "pvlib/iotools/midc.py:_format_index_raw"]}
{"id": "C151", "title": "read_srml: time index", "statement": "If the first two rows are less than forty minutes apart within an hour, or one hour apart, every row, labelled in the file with the end of its interval as HHMM up to 2400, is labelled with its start. KeyError exactly for fewer than two rows. Findings: a file of half hours from the start of a day raises ValueError, and so does every file that starts with the last interval of an hour.", "quantifier": "all rows, intervals and years", "why_tests_cant": "The domain is a continuum of real angles/powers; tests sample finitely many points and cannot rule out a bad region between them.", "anchors": ["pvlib/iotools/srml.py:_format_index"]}
{"id": "C152", "title": "read_srml: columns", "statement": "Each flag column is renamed after the variable column before it and values with flag 99 become nan, everything else is kept; with map_variables the first three digits of a name give the variable and the rest the instrument, spectral and unknown names are kept; a variable without flag column raises KeyError.", "quantifier": "all tables with distinct names", "why_tests_cant": "The claim ranges over all dictionaries/strings/tuples of arguments a caller may pass; tests try a handful.", "anchors": ["pvlib/iotools/srml.py:read_srml,_map_columns"]}
{"id": "C153", "title": "get_surfrad, get_solrad, get_srml", "statement": "One file per day (month for SRML) from start to end is asked for, in order and with distinct names; the tables found are concatenated in this order with the site data of the last one, each missing file gives one warning, ValueError is raised if no file is found, and any other exception stops the download at once. Finding: get_surfrad ignores map_variables (variables are always mapped).", "quantifier": "all date ranges and all patterns of missing files", "why_tests_cant": "The claim ranges over time series of any length and content; a test exercises a few fixed series.", "anchors": ["pvlib/iotools/surfrad.py:get_surfrad", "pvlib/iotools/solrad.py:get_solrad", "pvlib/iotools/srml.py:get_srml"]}
{"id": "C154", "title": "read_bsrn: metadata", "statement": "Start month, station number and version come from the second line; after the line of record 0004 every item is the text at its place without surrounding white space, latitude and longitude are shifted by 90 and 180 degrees to the equator and Greenwich, the horizon is the list of pairs up to the next record, sorted by azimuth without the placeholder -1; ValueError for an odd number of horizon values; no other errors than ValueError and IndexError. Finding: the message 'Mandatory record LR0004 not found' can never be raised; a file without that record fails with int('').", "quantifier": "all texts in the archive's layout, any length of the free lines and of the horizon", "why_tests_cant": "The claim ranges over all dictionaries/strings/tuples of arguments a caller may pass; tests try a handful.", "anchors": ["pvlib/iotools/bsrn.py:_parse_bsrn"]}
{"id": "C155", "title": "read_bsrn: location of the records", "statement": "Whatever records a file contains and in whatever order, the rows read for a record are exactly the lines after its (last) header up to the next header or the end of the file; a record is looked for exactly if it occurs; a file without any record raises UnboundLocalError.", "quantifier": "all sequences of records with any number of lines", "why_tests_cant": "The claim ranges over time series of any length and content; a test exercises a few fixed series.", "anchors": ["pvlib/iotools/bsrn.py:_parse_bsrn"]}
{"id": "C156", "title": "read_bsrn: tables", "statement": "Lines written in the archive's Fortran formats (0100 and 0500 two lines per minute, 0300 one) give one row per minute, labelled with its UTC time, every quantity under its name; -99.9 (and -999 except in 0500) become nan and every other value is kept; if the last line is missing its values are nan; a record of a single line raises ValueError. Column names are distinct.", "quantifier": "all months, days, minutes and field texts of the given widths", "why_tests_cant": "The claim ranges over all dictionaries/strings/tuples of arguments a caller may pass; tests try a handful.", "anchors": ["pvlib/iotools/bsrn.py:_parse_bsrn,_empty_dataframe_from_logical_records"]}
{"id": "C157", "title": "read_bsrn, get_bsrn: what is returned", "statement": "The tables are those of the requested records that the file contains, in the order 0100, 0300, 0500; ValueError exactly for an unknown record, an empty frame with the requested names if there is none. get_bsrn asks for one file per calendar month from start to end in order; the months found are concatenated with the metadata of the last, a warning names the missing ones (or says that none was found), an unknown station is a KeyError, any other answer of the server is raised at once.", "quantifier": "all requests, files, ranges of months and patterns of missing files", "why_tests_cant": "The claim ranges over time series of any length and content; a test exercises a few fixed series.", "anchors": ["pvlib/iotools/bsrn.py:_parse_bsrn,get_bsrn"]}
{"id": "C158", "title": "get_pvgis_tmy: change of time zone and year", "statement": "With roll_utc_offset h (-12..14) and coerce_year, the i-th row keeps its month, day, hour and minute, now read as local time h hours ahead of UTC in that year, and receives the data of the row h places before it (cyclically): for hourly data that fill the year every value stays at its UTC instant, up to a whole year at the ends; no row is lost or repeated, without offset only the year changes. KeyError exactly for other offsets, ValueError exactly for a February 29 in a year without one. Finding: coerced to a leap year and rolled forward, the first hours of March 1 hold data of February 28 labelled a day late.", "quantifier": "all row counts, offsets and years", "why_tests_cant": "The domain is a continuum of real angles/powers; tests sample finitely many points and cannot rule out a bad region between them.", "anchors": ["pvlib/iotools/pvgis.py:_coerce_and_roll_tmy"]}
{"id": "C159", "title": "read_pvgis_hourly: csv files", "statement": "Four lines give latitude, longitude, elevation and database, every further line 'key: value' up to the line starting with 'time,' becomes an entry of the inputs (blank lines are skipped, the last one of a key counts), the rows up to the next blank line become the table labelled with UTC minutes from YYYYMMDD:HHMM, columns under their pvlib names with map_variables, the column Int without decimals, and the remaining lines with a colon the descriptions. ValueError if there is no table, IndexError for a line without colon before it, KeyError without column Int.", "quantifier": "all files of this layout: any metadata, number of rows and columns, trailing white space", "why_tests_cant": "The claim ranges over all dictionaries/strings/tuples of arguments a caller may pass; tests try a handful.", "anchors": ["pvlib/iotools/pvgis.py:_parse_pvgis_hourly_csv"]}
{"id": "C160", "title": "read_pvgis_tmy: csv files", "statement": "Three lines give the place, the next one optionally the time offset of the irradiance, twelve lines the year chosen for each month, then the table of 8760 rows with the column time(UTC) anywhere, labelled with UTC minutes, and the descriptions.", "quantifier": "all files of this layout", "why_tests_cant": "The claim ranges over all dictionaries/strings/tuples of arguments a caller may pass; tests try a handful.", "anchors": ["pvlib/iotools/pvgis.py:_parse_pvgis_tmy_csv"]}
{"id": "C161", "title": "PVGIS: formats, years and horizon", "statement": "For json, csv and epw the download returns the parsed table, renamed with map_variables, with its own time stamps if neither offset nor year is given and otherwise coerced to the year given, 1990 by default; errors of the parser are passed on. read_pvgis_tmy raises ValueError for any other format. get_pvgis_horizon counts azimuths from north, in [0, 360), and drops only the repeated north point. Finding: get_pvgis_tmy raises ValueError only for 'basic', for other unknown formats AttributeError, TypeError or UnboundLocalError.", "quantifier": "all formats, offsets, years and profiles", "why_tests_cant": "The claim ranges over all dictionaries/strings/tuples of arguments a caller may pass; tests try a handful.", "anchors": ["pvlib/iotools/pvgis.py:get_pvgis_tmy,read_pvgis_tmy,get_pvgis_horizon"]}
{"id": "C162", "title": "get_nasa_power: names and units", "statement": "Parameters known to pvlib are requested under their NASA names, others as they are, and the table answered carries the names asked for. The fill value becomes NaN in every column; with map_variables the sixteen NASA columns get their pvlib names, pressure is converted from kPa to Pa and precipitable water from kg/m2 to cm, every other value and column is unchanged; without it nothing else changes. Longitude, latitude and altitude come from the first three coordinates, IndexError with fewer.", "quantifier": "all parameter lists, fill values and tables without columns already called pressure or precipitable_water", "why_tests_cant": "The claim ranges over all dictionaries/strings/tuples of arguments a caller may pass; tests try a handful.", "anchors": ["pvlib/iotools/nasa_power.py:get_nasa_power"]}
{"id": "C163", "title": "Solcast: names, units and time stamps", "statement": "Every column in the Solcast dictionary gets its pvlib name and is converted exactly once (hPa to Pa, mm to cm, azimuth to clockwise from north in [0, 360), congruent to the negated one), whatever the order and number of columns; others are unchanged. The time stamp is the middle of the period. Finding: get_solcast_historic also sends the API key as query parameter.", "quantifier": "all tables without columns already called pressure or solar_azimuth", "why_tests_cant": "The claim ranges over all dictionaries/strings/tuples of arguments a caller may pass; tests try a handful.", "anchors": ["pvlib/iotools/solcast.py:_solcast2pvlib,get_solcast_historic"]}
{"id": "C164", "title": "get_solargis: names, missing values, resolution and metadata", "statement": "In the listed columns -9 becomes NaN, before names and units are converted exactly once per column (azimuth +180, hPa to Pa, kg/m2 to cm). The resolutions in minutes and ISO durations are translated, other numbers raise AttributeError. The metadata fields are those of the last piece 'key: value' after a '#', keys in any case, nothing else is taken; latitude, longitude and the altitude without its unit become numbers, KeyError if one is missing, ValueError if one is no number. Findings: -9 stays in GTIc (the list has GIc) and the columns with _C, 'PT30M' is not translated (the table has PT30).", "quantifier": "all tables, resolutions and metadata texts", "why_tests_cant": "The claim ranges over all dictionaries/strings/tuples of arguments a caller may pass; tests try a handful.", "anchors": ["pvlib/iotools/solargis.py:get_solargis"]}
{"id": "C165", "title": "get_merra2: one column per variable", "statement": "For every variable, from its own or the common dataset, the table has the column answered with the answer's own fill value masked, in the order asked for; with map_variables the names are pvlib's and the temperature in degrees Celsius; latitude and longitude are those of the last answer. A header is read as 'key,value' lines up to a blank one. UnboundLocalError without variables, KeyError and ValueError for a missing or unreadable fill value. Findings: with fewer datasets than variables the others are dropped without a word, precipitable water stays in kg/m2 although it has the pvlib name of a quantity in cm.", "quantifier": "all variable lists, datasets and answers", "why_tests_cant": "The claim ranges over all dictionaries/strings/tuples of arguments a caller may pass; tests try a handful.", "anchors": ["pvlib/iotools/merra2.py:get_merra2"]}
{"id": "C166", "title": "get_era5: names, units and polling", "statement": "pvlib names are requested under the ECMWF long names and the columns answered under the short names come back under the pvlib names, in degrees Celsius, W/m2 and cm; other names and columns are unchanged. The request is polled until it is successful or failed; after timeout + 1 polls without either a timeout is raised, never earlier, and never if one of these polls was successful.", "quantifier": "all variable lists, tables, timeouts and sequences of server states", "why_tests_cant": "The claim ranges over time series of any length and content; a test exercises a few fixed series.", "anchors": ["pvlib/iotools/era5.py:get_era5"]}
{"id": "C167", "title": "read_cams: header", "statement": "Lines before the one with the column names that contain ': ' become metadata entries, key without leading '#' and blanks, value up to a second ': ', the last one of a key counting; other lines are skipped; the columns are the names separated by semicolons. Finding: a file without a line starting with '# Observation period' is read for ever.", "quantifier": "all header texts of any number of lines", "why_tests_cant": "The claim ranges over all dictionaries/strings/tuples of arguments a caller may pass; tests try a handful.", "anchors": ["pvlib/iotools/sodapro.py:read_cams"]}
{"id": "C168", "title": "read_cams: metadata", "statement": "The entries whose first word is latitude, longitude or altitude (in any case) become numbers under these names, the unit follows the argument integrated, the time step the integration period; every other entry is kept. ValueError for a place that is no number, KeyError for a missing or unknown integration period.", "quantifier": "all metadata dictionaries with at most one entry per place", "why_tests_cant": "The claim ranges over all dictionaries/strings/tuples of arguments a caller may pass; tests try a handful.", "anchors": ["pvlib/iotools/sodapro.py:read_cams"]}
{"id": "C169", "title": "read_cams: time stamps", "statement": "Rows are labelled with the start or, with label='right', the end of their period; days with the date; months with their first day (left) or, by default and with right, their last day, whatever the month and year. With any other label daily and monthly files raise AttributeError, others silently get running numbers.", "quantifier": "all periods, months, years and labels", "why_tests_cant": "The claim ranges over all dictionaries/strings/tuples of arguments a caller may pass; tests try a handful.", "anchors": ["pvlib/iotools/sodapro.py:read_cams"]}
{"id": "C170", "title": "read_cams, get_cams: energy, power and requests", "statement": "Unless integrated is set, each of the thirteen energy columns is divided by the length of its own period in hours, for every time step including months of any length; other columns are unchanged; pvlib names only with map_variables. get_cams raises ValueError exactly for an unknown time step or identifier; verbose output is requested only for 1 min UT and otherwise a warning issued; a missing altitude is sent as -999, the @ of the address as %2540.", "quantifier": "all time steps, periods, tables and arguments", "why_tests_cant": "The claim ranges over all dictionaries/strings/tuples of arguments a caller may pass; tests try a handful.", "anchors": ["pvlib/iotools/sodapro.py:read_cams,get_cams"]}
{"id": "C171", "title": "NSRDB header lines: csv rows with quoted fields", "statement": "A header line in which every field is written as it is (if it contains no comma, quote or line end) or between quotes with its quotes doubled is read back as the same fields, whatever they contain, with any line end; the empty line and the end of the file are rows without fields; a row is refused, with csv.Error, only if a carriage return or line feed outside quotes is followed by more text.", "quantifier": "all lists of fields and ways of writing them, all texts", "why_tests_cant": "The claim ranges over all dictionaries/strings/tuples of arguments a caller may pass; tests try a handful.", "anchors": ["pvlib/iotools/psm4.py:read_nsrdb_psm4"]}
{"id": "C172", "title": "read_nsrdb_psm4", "statement": "The metadata pair the fields of the first line with the values of the second (the last one of a name counting), the time zones and the elevation as integers, latitude and longitude as numbers, with map_variables under pvlib's names; the table is what the csv parser makes of the rest of the file under the column names left when blank ones are dropped, renamed as documented and with its values unchanged; row i is at its local date, hour and minute less the time zone. Failures are csv.Error, IndexError, KeyError or ValueError, KeyError for a time zone outside -12 ... 14.", "quantifier": "all header texts, tables and time zones", "why_tests_cant": "The claim ranges over all dictionaries/strings/tuples of arguments a caller may pass; tests try a handful.", "anchors": ["pvlib/iotools/psm4.py:read_nsrdb_psm4"]}
{"id": "C173", "title": "get_nsrdb_psm4_*: request", "statement": "The six functions ask for a point with the longitude first, for each parameter under its request name (pvlib's names translated, others as they are), with true and false in lower case and everything else as given; the column answered for a pvlib name comes back under that name.", "quantifier": "all places, parameters and options", "why_tests_cant": "The claim ranges over all dictionaries/strings/tuples of arguments a caller may pass; tests try a handful.", "anchors": ["pvlib/iotools/psm4.py:get_nsrdb_psm4_aggregated,get_nsrdb_psm4_tmy,get_nsrdb_psm4_conus,get_nsrdb_psm4_full_disc,get_nsrdb_psm4_polar,get_nsrdb_psm4_polar_tmy"]}
{"id": "C174", "title": "ACIS grids", "statement": "The columns are those asked for, in that order, under pvlib's names with map_variables, -999 being missing and every other value unchanged; the pair ll becomes longitude and latitude, in this order, the elevation metres instead of feet, every other entry of the metadata is kept. An answer with an error raises HTTPError, and no other answer does.", "quantifier": "all answers, elements and places", "why_tests_cant": "The claim ranges over all dictionaries/strings/tuples of arguments a caller may pass; tests try a handful.", "anchors": ["pvlib/iotools/acis.py:get_acis_prism,get_acis_nrcc,get_acis_mpe"]}
{"id": "C175", "title": "ACIS stations", "statement": "In station data M is missing, T the trace value given, every other text the number it denotes, ValueError if it denotes none. get_acis_available_stations moves the place into longitude, latitude and altitude, KeyError exactly if one is missing; its box is west, south, east, north, dates are sent only if both are given. Finding: its altitude is in feet, unlike that of get_acis_station_data.", "quantifier": "all answers, trace values and station records", "why_tests_cant": "The claim ranges over all dictionaries/strings/tuples of arguments a caller may pass; tests try a handful.", "anchors": ["pvlib/iotools/acis.py:get_acis_station_data,get_acis_available_stations"]}
{"id": "C176", "title": "read_solaranywhere", "statement": "The first line gives USAF, name, state, time zone, latitude, longitude and altitude and then, quotes removed, pairs of texts around a colon between slashes (pieces without a colon skipped, blanks stripped, the last one of a name counting), the resolution as a number; the index is the local time less the time zone, for every zone that is a whole number of seconds and less than a day, ValueError otherwise; -999 becomes NaN, every other value is unchanged and each known column, from files or from the API, gets its pvlib name. Failures to read the line are ValueError, IndexError or KeyError. Finding: a value with a colon in it makes the file unreadable.", "quantifier": "all first lines, time zones and tables", "why_tests_cant": "The claim ranges over all dictionaries/strings/tuples of arguments a caller may pass; tests try a handful.", "anchors": ["pvlib/iotools/solaranywhere.py:read_solaranywhere"]}
{"id": "C177", "title": "get_solaranywhere: times and polling", "statement": "ValueError exactly for a probability of exceedance that is no integer, otherwise AttributeError exactly if one of start and end is given without the other; times without a zone are in UTC. The first answer that is Done decides, RuntimeError if it reports a failure; TimeoutError only after an answer that is not done and later than the timeout; with five seconds between the requests there are at most timeout/5 + 2 of them.", "quantifier": "all times, sequences of answers and clocks", "why_tests_cant": "The claim ranges over time series of any length and content; a test exercises a few fixed series.", "anchors": ["pvlib/iotools/solaranywhere.py:get_solaranywhere"]}
{"id": "C178", "title": "get_solaranywhere: answer", "statement": "Latitude, longitude and altitude become numbers under pvlib's names, the resolutions are added, every other entry is kept; the columns get pvlib's names with map_variables; KeyError if the place is missing.", "quantifier": "all answers", "why_tests_cant": "The claim ranges over all dictionaries/strings/tuples of arguments a caller may pass; tests try a handful.", "anchors": ["pvlib/iotools/solaranywhere.py:get_solaranywhere"]}
{"id": "C179", "title": "Meteonorm: request", "statement": "Parameters, one or several, are asked for under the service's names, others as they are, and answered under pvlib's; lists are joined by commas, time steps translated, what is None is not sent; start and end are sent as the digits of their local date and time of day followed by Z, other texts as they are. Findings: a time in a zone other than UTC therefore asks for another instant; the albedo argument of get_meteonorm_tmy is never sent.", "quantifier": "all places, parameters, times, options", "why_tests_cant": "The claim ranges over all dictionaries/strings/tuples of arguments a caller may pass; tests try a handful.", "anchors": ["pvlib/iotools/meteonorm.py:get_meteonorm_forecast_basic,get_meteonorm_forecast_precision,get_meteonorm_observation_realtime,get_meteonorm_observation_training,get_meteonorm_tmy"]}
{"id": "C180", "title": "Meteonorm: answer", "statement": "Exactly the columns without values are dropped, the others keep their order and values; each row is labelled with its period or the middle of it; with map_variables columns and place have pvlib's names, every other entry of the metadata is kept; HTTPError if the request failed, KeyError if the place is missing.", "quantifier": "all answers", "why_tests_cant": "The claim ranges over all dictionaries/strings/tuples of arguments a caller may pass; tests try a handful.", "anchors": ["pvlib/iotools/meteonorm.py:_parse_meteonorm"]}
{"id": "C181", "title": "ghi_from_poa_driesse_2024", "statement": "The result is that of the documented bisection between 0 and the extraterrestrial irradiance: NaN and not converged if the plane-of-array irradiance has no sign change or an argument is missing, 0 for none, NaN for NaN, otherwise a value between the limits after at most 25 halvings; where the transposition is increasing in ghi a converged value is within xtol of the true ghi, where it is continuous it is within xtol of one that reproduces poa_global exactly, and on a horizontal plane ghi is recovered. Elements are independent; ValueError only for xtol <= 0 or no data. Finding: for small xtol 25 halvings do not suffice, and the value is not within xtol.", "quantifier": "all geometries, irradiances, tolerances and Perez spline coefficients", "why_tests_cant": "The domain is a continuum of real angles/powers; tests sample finitely many points and cannot rule out a bad region between them.", "anchors": ["pvlib/irradiance.py:ghi_from_poa_driesse_2024"]}
{"id": "C182", "title": "ModelChain.with_pvwatts, with_sapm, get_orientation", "statement": "Each named configuration, with any keywords, is the ModelChain with the documented defaults overridden by the caller's keywords, whatever their order, TypeError exactly for a keyword ModelChain does not have; without keywords it succeeds exactly if every array has the module parameters of the DC model and the temperature parameters infer sapm, ValueError otherwise. get_orientation answers for its two strategies, KeyError without a latitude, ValueError for others. Finding: with_pvwatts accepts a system whose inverter has no parameters.", "quantifier": "all systems and keyword arguments", "why_tests_cant": "The claim ranges over all dictionaries/strings/tuples of arguments a caller may pass; tests try a handful.", "anchors": ["pvlib/modelchain.py:ModelChain.__init__,ModelChain.with_pvwatts,ModelChain.with_sapm,get_orientation"]}
{"id": "C183", "title": "get_extra_radiation at times and days", "statement": "asce and spencer give the solar constant times the documented factor at the day of the year of the date a time has in UTC (naive times: their own date), of a date, or of a number as it is; pyephem and nrel give it over the square of the distance at the instant, a number counting as that many days, to the microsecond, after the end of the year before epoch_year, so that whole numbers are the midnights of the days of epoch_year. One result per input, in order. ValueError exactly for other methods or a missing day with the distance methods, OverflowError for infinite ones. Finding: two times of one local day can have different values, since the date is that in UTC.", "quantifier": "all indices, time stamps, dates, numbers, arrays and solar constants", "why_tests_cant": "The domain is a continuum of real angles/powers; tests sample finitely many points and cannot rule out a bad region between them.", "anchors": ["pvlib/irradiance.py:get_extra_radiation,_handle_extra_radiation_types", "pvlib/tools.py:_pandas_to_doy,_pandas_to_utc,_doy_to_datetimeindex,_datetimelike_scalar_to_doy"]}
{"id": "C184", "title": "sun_rise_set_transit_ephem and calc_time", "statement": "PyEphem is asked for the next (previous) rising, setting and transit at the instant of each time, at the site, with the pressure in millibar; each answer is given to the nearest microsecond in the zone of the times. ValueError for naive times or another word; otherwise exactly the first error of the library (a sun that does not rise) is raised. calc_time gives a time in UTC, between the bounds, that is within the solver's tolerances in days, plus half a microsecond, of a time at which the attribute has the value; ValueError if the attribute is on one side of the value at both bounds or the tolerance is not positive.", "quantifier": "all times, sites, bounds, values, and every PyEphem and brentq as documented", "why_tests_cant": "The domain is a continuum of real angles/powers; tests sample finitely many points and cannot rule out a bad region between them.", "anchors": ["pvlib/solarposition.py:sun_rise_set_transit_ephem,calc_time,_ephem_setup,_ephem_to_timezone,_ephem_convert_to_seconds_and_microseconds", "pvlib/tools.py:datetime_to_djd,djd_to_datetime"]}
{"id": "C185", "title": "gti_dirint: times in front of the plane", "statement": "ValueError exactly without an angle of incidence below 90, then UnboundLocalError without iterations, then only what the transposition raises for the names of the models. The result of a time with angle of incidence below 90 is the guess, of those of the iterations made, whose modelled irradiance in the plane is closest to the measured, the earliest such: from the adjusted irradiance the clearness index, DISC beam times DIRINT coefficient, ghi and the rest dhi; it is within 1 W/m^2 of the measured unless a warning is given. ghi, dni, dhi are never negative, and dhi is ghi less the horizontal part of dni or 0. Finding: if the clearness index from the measured irradiance, corrected for the zenith, exceeds 1, dni and dhi are missing.", "quantifier": "all series of times, angles, irradiances, pressures, dew points, albedos, iterations and models", "why_tests_cant": "The domain is a continuum of real angles/powers; tests sample finitely many points and cannot rule out a bad region between them.", "anchors": ["pvlib/irradiance.py:gti_dirint,_gti_dirint_lt_90"]}
{"id": "C186", "title": "gti_dirint: times behind the plane", "statement": "A time at day with angle of incidence of at least 90 gets the beam of the mean kt' of the times of the same local day and half of the day with angle of incidence between 65 and 80 (missing without such, at noon and at night), and the diffuse irradiance with which an isotropic sky and the ground give the measured irradiance in the plane, ghi being the sum; dhi is negative exactly if the ground-reflected beam alone exceeds the measured irradiance. Finding: the DIRINT coefficient is that of the time's own kt'.", "quantifier": "all series as before", "why_tests_cant": "The domain is a continuum of real angles/powers; tests sample finitely many points and cannot rule out a bad region between them.", "anchors": ["pvlib/irradiance.py:gti_dirint,_gti_dirint_gte_90,_gti_dirint_gte_90_kt_prime"]}
{"id": "C187", "title": "pvfactors_timeseries: what is calculated and returned", "statement": "Tilt and azimuth of the surface, given once or for every time, reach the engine at every time of the solar positions, every other argument unchanged; the four results are incident front, incident back, absorbed front and absorbed back irradiance of the observed row (negative numbers counting from the end), one value per time stamp. ValueError for other lengths, IndexError for a row that does not exist. Finding: with integer solar zeniths the tilt and azimuth are cut to whole degrees.", "quantifier": "all times, angles, irradiances, rows and every engine", "why_tests_cant": "The claim ranges over all dictionaries/strings/tuples of arguments a caller may pass; tests try a handful.", "anchors": ["pvlib/bifacial/pvfactors.py:pvfactors_timeseries"]}
{"id": "C188", "title": "retrieve_sam: the table of a database", "statement": "Every named product has every value of its row, under the name of the row with blanks replaced by underscores; the coefficients of the ADR model, texts of words between brackets, become lists of numbers. The only failures: a word that is no number (ValueError), a missing cell of these coefficients (AttributeError). Finding: coefficients separated by commas, as a comment in the code describes, are a ValueError.", "quantifier": "all databases", "why_tests_cant": "The claim ranges over all dictionaries/strings/tuples of arguments a caller may pass; tests try a handful.", "anchors": ["pvlib/pvsystem.py:_parse_raw_sam_df,retrieve_sam"]}
{"id": "C189", "title": "read_crn", "statement": "A file is read exactly if every line with a value has readable numbers in its columns, a valid date and a time HHMM (5 being five past midnight); then these lines, and no others, are the rows in order, with times in UTC, every number as written except that the mark of its column for a missing value becomes NaN, and the columns under pvlib's names if asked for. Every failure is a ValueError. Finding: the missing mark -99999 of the data logger's version stays, as that column is text.", "quantifier": "all files of 23 columns", "why_tests_cant": "The claim ranges over all dictionaries/strings/tuples of arguments a caller may pass; tests try a handful.", "anchors": ["pvlib/iotools/crn.py:read_crn"]}
{"id": "C190", "title": "read_midc", "statement": "A processed file is read exactly if its stamps are month/day/year and hour:minute (one or two digits, year of four) of existing days; the index is these local times in the zone of the label of the second column (PST and CST being UTC-8 and UTC-6 all year), every column unchanged under the name that the map gives it. A raw file is read by year, day of the year and HHMM likewise, the label of the fourth column being the zone. IndexError without these columns, KeyError without the date column, TypeError for stamps that are no text, ValueError for stamps that are no times, or what the localization raises. Requests carry both dates as YYYYMMDD.", "quantifier": "all files, maps and time zones", "why_tests_cant": "The claim ranges over all dictionaries/strings/tuples of arguments a caller may pass; tests try a handful.", "anchors": ["pvlib/iotools/midc.py:read_midc,_format_index,_format_index_raw,read_midc_raw_data_from_nrel"]}
{"id": "C191", "title": "localize_to_utc", "statement": "A datetime with a time zone keeps its instant. A naive datetime becomes the first instant at which the clocks of the location show it and, when they skip it, the instant that the offset before the change gives; it is never an error. An index with a time zone keeps its instants; a naive index is converted exactly if each of its times is shown exactly once, and otherwise the first time that is shown twice or never decides which error is raised", "quantifier": "all instants, naive times, indexes of any length, and time zones whose offsets are at most a day and whose changes are at least two days apart", "why_tests_cant": "The claim ranges over all dictionaries/strings/tuples of arguments a caller may pass; tests try a handful.", "anchors": ["pvlib/tools.py:localize_to_utc"]}
{"id": "C192", "title": "get_reference_spectra", "statement": "Exactly one standard exists, every other name is a ValueError. Without wavelengths the table of the standard is returned as it is; with them the index is exactly these wavelengths in their order and every column, under its name, holds the linear interpolation between neighbouring rows, the last row at the last wavelength and 0 outside the table; asking for the table's own wavelengths gives the table", "quantifier": "all standards, wavelengths (unordered, repeated or outside too) and tables with increasing wavelengths", "why_tests_cant": "The claim ranges over all dictionaries/strings/tuples of arguments a caller may pass; tests try a handful.", "anchors": ["pvlib/spectrum/irradiance.py:get_reference_spectra"]}
{"id": "C193", "title": "get_example_spectral_response", "statement": "One value per wavelength, in order: the cubic spline through the 13 published points from 290 to 1190 nm, so the published responses at the published wavelengths, and 0 outside; without wavelengths the 185 from 280 to 1200 nm in steps of 5", "quantifier": "all wavelengths and every spline through its points", "why_tests_cant": "The claim ranges over all dictionaries/strings/tuples of arguments a caller may pass; tests try a handful.", "anchors": ["pvlib/spectrum/response.py:get_example_spectral_response"]}
{"id": "C194", "title": "Shapes of the arguments of the Bishop solvers", "statement": "With the newton method scalars stay scalars; otherwise every argument becomes an array of its shape and the initial guess is stretched to the first of the shapes with the most elements, an error exactly if it does not broadcast to it. If all arguments broadcast to a shape without empty axes that one of them has, the guess gets this shape up to leading axes of length 1; with scalars and arrays of one shape of at least two elements, exactly this shape", "quantifier": "all numbers of arguments, ranks and shapes", "why_tests_cant": "The claim ranges over all dictionaries/strings/tuples of arguments a caller may pass; tests try a handful.", "anchors": ["pvlib/singlediode.py:bishop88_i_from_v,bishop88_v_from_i,bishop88_mpp,_shape_of_max_size,_prepare_newton_inputs"]}
{"id": "C195", "title": "Brackets of the chandrupatla method", "statement": "For voltage and current both ends of the bracket get the shape of the larger of the first argument and the estimated open-circuit voltage; for the maximum power point they get the shape of the photocurrent and lie at 0 and the open-circuit voltage; in both cases an error exactly if the open-circuit voltage does not broadcast to that shape", "quantifier": "all shapes and voltages", "why_tests_cant": "The claim ranges over all dictionaries/strings/tuples of arguments a caller may pass; tests try a handful.", "anchors": ["pvlib/singlediode.py:bishop88_i_from_v,bishop88_v_from_i,bishop88_mpp"]}
{"id": "C196", "title": "Clear-sky models on arrays of integers", "statement": "haurwitz on a series of float zeniths is the published irradiance of each; on zeniths of an integer type it is the whole part of it. simplified_solis on float optical depths and a scalar precipitable water is the published model; on optical depths of an integer type ghi and dni still are, while dhi is that of the whole centimetres of water", "quantifier": "all zeniths, elevations, optical depths, water contents and pressures", "why_tests_cant": "The domain is a continuum of real angles/powers; tests sample finitely many points and cannot rule out a bad region between them.", "anchors": ["pvlib/clearsky.py:haurwitz,simplified_solis,_calc_taud"]}
{"id": "C197", "title": "get_era5, get_merra2: the times asked for", "statement": "ERA5 is asked for the calendar days, in UTC, of the start and the end, MERRA-2 for the two times in UTC to the second and without a zone; times without a zone are taken as UTC, offsets carry over days, months, leap days and years; the only error is the ValueError of a text that is no time", "quantifier": "all dates, times and UTC offsets of less than a day", "why_tests_cant": "The claim ranges over all dictionaries/strings/tuples of arguments a caller may pass; tests try a handful.", "anchors": ["pvlib/iotools/era5.py:get_era5", "pvlib/iotools/merra2.py:get_merra2"]}
{"id": "C198", "title": "get_nasa_power, get_cams, get_solargis: the days asked for", "statement": "Each asks for the calendar days that the start and the end have in their own time zone, which is otherwise not looked at: the day asked for is the day in UTC exactly if the offset does not carry the time over midnight, else the day after or before; the only error is the ValueError of a text that is no time", "quantifier": "all dates, times and UTC offsets of less than a day", "why_tests_cant": "The claim ranges over all dictionaries/strings/tuples of arguments a caller may pass; tests try a handful.", "anchors": ["pvlib/iotools/nasa_power.py:get_nasa_power", "pvlib/iotools/sodapro.py:get_cams", "pvlib/iotools/solargis.py:get_solargis"]}
{"id": "C199", "title": "get_pvgis_hourly: the request", "statement": "Each parameter is sent once: the azimuth counted from the south, truth values as 0 or 1, a user horizon joined by commas, the years of integers or of times on their own clocks; horizon, database, years and peak power only if given; the only error is the ValueError of a text that is no time", "quantifier": "all combinations of arguments", "why_tests_cant": "The claim ranges over all dictionaries/strings/tuples of arguments a caller may pass; tests try a handful.", "anchors": ["pvlib/iotools/pvgis.py:get_pvgis_hourly"]}
{"id": "C200", "title": "get_pvgis_tmy, get_pvgis_horizon: the requests", "statement": "Place and format are always sent, the horizon always as JSON; usehorizon is sent as 0 and only if it is false, a user horizon joined by commas and the years only if given; each parameter once", "quantifier": "all combinations of arguments", "why_tests_cant": "The claim ranges over all dictionaries/strings/tuples of arguments a caller may pass; tests try a handful.", "anchors": ["pvlib/iotools/pvgis.py:get_pvgis_tmy,get_pvgis_horizon"]}
{"id": "C201", "title": "get_solcast_*: the requests", "statement": "Place and the JSON format are sent, for the past also start, end and duration as far as given and the key, and every further keyword that is not None; of the further keywords only format is refused, with a TypeError; the key is part of the address for the past only; the four services have different endpoints", "quantifier": "all arguments and further keywords", "why_tests_cant": "The claim ranges over all dictionaries/strings/tuples of arguments a caller may pass; tests try a handful.", "anchors": ["pvlib/iotools/solcast.py:get_solcast_tmy,get_solcast_historic,get_solcast_forecast,get_solcast_live"]}
