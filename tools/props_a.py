# Generator for properties.jsonl (source of truth for the English claims).
P=[]
def p(title, statement, quantifier, why, anchors):
    P.append(dict(id="C%02d"%(len(P)+1), title=title, statement=statement, quantifier=quantifier, why_tests_cant=why, anchors=anchors))
CONT="The domain is a continuum of real angles/powers; tests sample finitely many points and cannot rule out a bad region between them."
HIST="The claim ranges over time series of any length and content; a test exercises a few fixed series."
FIN="The claim ranges over all dictionaries/strings/tuples of arguments a caller may pass; tests try a handful."

p("AOI projection is the dot product of normal and sun vector",
  "irradiance.aoi_projection returns, for finite angles, exactly the dot product of the unit normal of the plane (surface_tilt, surface_azimuth) and the unit vector to the sun (solar_zenith, solar_azimuth); the result always lies in [-1, 1] whenever it is not NaN, and is NaN exactly when some angle is NaN or infinite.",
  "all four angles, finite, infinite or NaN", CONT, ["pvlib/irradiance.py:aoi_projection","pvlib/tools.py:cosd,sind"])
p("Angle of incidence is the angle between normal and sun",
  "irradiance.aoi returns an angle in [0, 180] degrees whose cosine is aoi_projection; it is unchanged when 360 degrees are added to any azimuth and when both azimuths are rotated by the same amount.",
  "all finite angles", CONT, ["pvlib/irradiance.py:aoi"])
p("Plane-of-array energy accounting",
  "For every transposition model, get_total_irradiance returns components with poa_global = poa_direct + poa_diffuse and poa_diffuse = poa_sky_diffuse + poa_ground_diffuse; poa_direct is never negative for non-negative dni, is zero whenever the sun is behind the plane, and equals beam_component for the same arguments.",
  "all irradiances and angles, all transposition models", CONT, ["pvlib/irradiance.py:get_total_irradiance,poa_components,beam_component"])
p("A horizontal plane sees exactly DHI",
  "With surface_tilt = 0 the isotropic, Hay-Davies, Reindl, King, Perez and Perez-Driesse models return exactly dhi as sky diffuse (Hay-Davies, Reindl, Perez and Perez-Driesse for zenith up to their projection cut-off and inputs in the physical range; Perez also needs dhi + dni > 0), and get_ground_diffuse returns 0. Klucher is the exception: it returns more than dhi for every partly clear sky with the sun between zenith and horizon.",
  "all irradiances and solar positions", CONT, ["pvlib/irradiance.py:isotropic,klucher,haydavies,reindl,king,perez,perez_driesse,get_ground_diffuse"])
p("Sky diffuse components add up",
  "When return_components is requested, isotropic, haydavies, reindl report components whose sum is poa_sky_diffuse; for perez and perez_driesse the components sum to poa_sky_diffuse wherever poa_sky_diffuse is positive, and perez reports all components 0 wherever the total is 0.",
  "all irradiances and angles", CONT, ["pvlib/irradiance.py:isotropic,haydavies,reindl,perez,perez_driesse"])
p("Sky diffuse is never negative",
  "haydavies, king, perez and perez_driesse never return a negative sky diffuse irradiance; isotropic, klucher, reindl do not for non-negative physical inputs.",
  "all irradiances and angles", CONT, ["pvlib/irradiance.py:haydavies,king,perez,perez_driesse,isotropic,klucher,reindl"])
p("Ground-reflected irradiance range",
  "get_ground_diffuse is ghi*albedo times a view factor that lies in [0,1], is 0 for a horizontal plane, 1 for a downward-facing plane, is non-decreasing in tilt on [0,180], and complements the isotropic sky view factor to 1; a surface_type overrides albedo and an unknown surface_type is an error; the named surfaces have the tabulated albedos, all between 0 and 1.",
  "all tilts, irradiances, albedos, surface types", CONT, ["pvlib/irradiance.py:get_ground_diffuse,isotropic","pvlib/albedo.py:SURFACE_ALBEDOS"])
p("Perez clearness bins partition the clearness axis",
  "perez assigns every non-negative, non-NaN clearness exactly one of the 8 coefficient rows by the published bin edges, assigns a NaN or negative clearness no row (result NaN), and returns 0 sky diffuse where airmass is NaN.",
  "all clearness values", CONT, ["pvlib/irradiance.py:perez"])
p("Decomposition models satisfy the closure equation",
  "erbs, erbs_driesse, orgill_hollands, boland and louche return dni and dhi with ghi = dhi + dni*cos(zenith) for every finite input with cos(zenith) nonzero, including night, negative ghi and bad-value branches (erbs_driesse closes on max(ghi,0)); the result is undefined only when the extraterrestrial horizontal irradiance used for the clearness index is 0 and ghi is 0; dni is never negative and is 0 whenever zenith > max_zenith.",
  "all ghi, zenith, dni_extra, thresholds", CONT, ["pvlib/irradiance.py:erbs,erbs_driesse,orgill_hollands,boland,louche"])
p("Diffuse fraction stays physical",
  "For ghi >= 0 and zenith <= max_zenith < 90 the dhi returned by erbs, erbs_driesse, orgill_hollands and boland satisfies 0 <= dhi <= ghi.",
  "all ghi, zenith, dni_extra", CONT, ["pvlib/irradiance.py:erbs,erbs_driesse,orgill_hollands,boland"])
p("Clearness and clear-sky indices are bounded",
  "clearness_index and clearness_index_zenith_independent lie in [0, max]; clearsky_index lies in [0, max_clearsky_index], is NaN exactly when ghi or ghi_clear is not finite, and is 0 when ghi_clear is 0.",
  "all inputs including NaN and infinities", CONT, ["pvlib/irradiance.py:clearness_index,clearsky_index,clearness_index_zenith_independent"])
p("complete_irradiance fills exactly one missing component",
  "complete_irradiance succeeds exactly when one of ghi, dhi, dni is missing, leaves the two given components unchanged, computes the third by the closure equation, and a computed dni is never negative, is NaN or 0 at zenith at/above 88 degrees and never exceeds 1.1 times clear-sky dni between 80 and 88 degrees.",
  "all combinations of missing arguments and all values", FIN, ["pvlib/irradiance.py:complete_irradiance,dni"])
p("DIRINT binning is total and in range",
  "Every kt' in [0,1], zenith >= 0, w >= 0 (or absent) and delta-kt' in [0,1] (or absent) falls in exactly one bin; the coefficient table is never indexed out of range; the coefficient is NaN exactly when one of the four inputs lies outside its range.",
  "all real inputs and NaN", CONT, ["pvlib/irradiance.py:_dirint_bins,_dirint_coeffs"])
p("GTI-DIRINT keeps the best iterate",
  "For every history of model mismatches, gti_dirint's AOI<90 loop returns for each time the iterate whose mismatch was the smallest seen (the earliest such), performs at most max_iterations evaluations, and stops before that only if every AOI<90 point is within 1 W/m2.",
  "all iteration histories and max_iterations >= 1", HIST, ["pvlib/irradiance.py:_gti_dirint_lt_90"])
p("Extraterrestrial radiation stays near the solar constant",
  "get_extra_radiation with methods asce and spencer is proportional to solar_constant, has period 365 in day of year, and stays within 3.3% (asce) and 3.7% (spencer) of the solar constant for every day of year; pyephem and nrel follow the inverse-square law of the Earth-Sun distance; an unknown method is an error.",
  "all real day-of-year values and solar constants", CONT, ["pvlib/irradiance.py:get_extra_radiation","pvlib/solarposition.py:_calculate_simple_day_angle"])
p("Tracker rotation respects its limits",
  "tracking.singleaxis returns tracker_theta between the minimum and maximum angle whenever the sun is up, with or without backtracking, and NaN for all four outputs exactly when apparent_zenith > 90 (or the inputs are not finite).",
  "all angles, gcr, axis and limit settings", CONT, ["pvlib/tracking.py:singleaxis"])
p("True tracking minimises the angle of incidence",
  "With backtrack=False and limits not binding, no other rotation about the same axis gives a smaller angle of incidence than the one singleaxis returns.",
  "all sun positions, axis orientations and competing rotations", CONT, ["pvlib/tracking.py:singleaxis","pvlib/shading.py:projected_solar_zenith_angle"])
p("Backtracking removes row-to-row shade",
  "When backtracking changes the rotation and the rotation limits do not bind, shading.shaded_fraction1d evaluated at that rotation for the same array geometry is 0; and when backtracking does not change the rotation the shaded fraction at the true-tracking angle is already 0.",
  "all sun positions above the array plane, gcr in (0,1], cross-axis tilts", CONT, ["pvlib/tracking.py:singleaxis","pvlib/shading.py:shaded_fraction1d"])
p("Surface orientation describes the rotated normal",
  "calc_surface_orientation returns surface_tilt in [0,180] and surface_azimuth in [0,360) such that the unit normal built from them is the module normal rotated by tracker_theta about the tilted axis; a horizontal surface gets azimuth axis_azimuth-90 modulo 360.",
  "all rotations and axis orientations", CONT, ["pvlib/tracking.py:calc_surface_orientation,_unit_normal"])
p("Tracker axis lies in the slope plane",
  "calc_axis_tilt returns the tilt for which the tracker axis with the given azimuth is parallel to the sloped ground plane; calc_cross_axis_tilt of that axis is the inclination of the line in the slope perpendicular to the axis, and is 0 on flat ground.",
  "all slope azimuths, slope tilts below 90 degrees and axis azimuths", CONT, ["pvlib/tracking.py:calc_axis_tilt,calc_cross_axis_tilt"])
p("Projected solar zenith is the sun's rotation angle",
  "projected_solar_zenith_angle returns an angle in (-180,180] such that rotating by it about the tracker axis brings the axis-normal projection of the sun vector onto the module normal direction.",
  "all sun positions and axis orientations", CONT, ["pvlib/shading.py:projected_solar_zenith_angle"])
p("Shading factors are fractions",
  "shaded_fraction1d, sky_diffuse_passias and direct_martinez (for physical inputs) return values in [0,1]; direct_martinez loss never exceeds the direct share of POA irradiance and is 0 when nothing is shaded.",
  "all inputs", CONT, ["pvlib/shading.py:shaded_fraction1d,sky_diffuse_passias,direct_martinez"])
p("Masking and ground angles are the row-geometry angles",
  "masking_angle(tilt,gcr,x) and ground_angle(tilt,gcr,x) return the elevation/depression angle of the facing row's edge seen from the fraction x of the slant height: their tangents equal the height-over-distance ratios of the row cross-section; masking_angle at the top edge is 0.",
  "all tilts in [0,90], gcr in (0,1), x in [0,1]", CONT, ["pvlib/shading.py:masking_angle,ground_angle"])
p("Sandia inverter clips and sleeps",
  "inverter.sandia never exceeds Paco; it returns exactly -|Pnt| when p_dc < Pso and never returns the night value otherwise unless the curve gives it; at (Vdco,Pdco) it returns Paco and at (Vdco,Pso) it returns 0.",
  "all dc voltages, powers and inverter parameter sets", CONT, ["pvlib/inverter.py:sandia,_sandia_eff,_sandia_limits"])
p("Multi-MPPT Sandia inverter generalises the single-input one",
  "sandia_multi with one input equals sandia; its result does not depend on the order of the inputs; with all inputs at the same voltage it equals sandia at the summed power; unequal numbers of voltages and powers raise ValueError.",
  "any number of inputs, all values", FIN, ["pvlib/inverter.py:sandia_multi"])
p("ADR inverter window and limits",
  "inverter.adr returns NaN exactly when v_dc is outside the extended voltage window and nonzero (or an input is NaN), returns -|Pnt| at zero voltage, and otherwise lies between -|Pnt| and Pacmax.",
  "all voltages, powers and parameter sets", CONT, ["pvlib/inverter.py:adr"])
p("PVWatts inverter range and rating point",
  "inverter.pvwatts returns a value in [0, eta_inv_nom*pdc0], returns 0 at pdc = 0, returns exactly eta_inv_nom*pdc0 at rated pdc0 with default reference efficiency, is non-decreasing in pdc up to 30 times the rating (far above that the fitted curve collapses to 0), and never creates energy for eta_inv_nom <= eta_inv_ref; pvwatts_multi depends only on the sum of its inputs.",
  "all dc powers, ratings and efficiencies", CONT, ["pvlib/inverter.py:pvwatts,pvwatts_multi"])
p("Transformer output conserves energy",
  "transformer.simple_efficiency returns the output power for which input = output + no-load loss + load loss*(output/rating)^2*rating; the output is less than the input for positive losses and is strictly increasing in the input.",
  "all input powers above the no-load loss, all ratings and loss coefficients >= 0", CONT, ["pvlib/transformer.py:simple_efficiency"])
p("Snow coverage is a fraction and follows the slide recurrence",
  "snow.coverage_nrel equals, at every time step of every series, the physical recurrence: 1 at a new snowfall, otherwise previous coverage minus the slide amount floored at 0; hence it always lies in [0,1] for initial coverage in [0,1] and never increases between snowfalls.",
  "all snowfall, irradiance, temperature and depth series of any length", HIST, ["pvlib/snow.py:coverage_nrel,fully_covered_nrel"])
p("Snow DC loss is the covered strings",
  "snow.dc_loss_nrel returns the smallest multiple of 1/num_strings that is at least the coverage; it is in [0,1] for coverage in [0,1].",
  "all coverages and positive num_strings", CONT, ["pvlib/snow.py:dc_loss_nrel"])
p("Townsend snow loss is a fraction",
  "snow.loss_townsend returns a value in [0,1] for every month, and 0 when neither the month nor the previous month (December precedes January) had snow events.",
  "all monthly series", HIST, ["pvlib/snow.py:loss_townsend,_townsend_effective_snow"])
p("Kimber soiling follows its recurrence",
  "soiling.kimber equals min(max_soiling, s_t) where s_t is 0 inside a grace window or at a wash date and otherwise grows by the daily rate times the time-step; it never exceeds max_soiling and is never negative.",
  "all rainfall series, thresholds, grace periods and wash dates", HIST, ["pvlib/soiling.py:kimber"])
p("HSU soiling ratio range and cleaning",
  "soiling.hsu returns a ratio in [0.6563,1], equal to 1 at every cleaning time, and non-increasing between cleanings.",
  "all rainfall and particulate series with non-negative rates", HIST, ["pvlib/soiling.py:hsu"])
p("Golden-section search brackets and terminates",
  "tools._golden_sect_DataFrame (used for the maximum power point) stops, for any positive atol, at the first iteration whose golden-section interval is below atol in every row (and never stops for atol <= 0 on a finite row), returns a point inside [lower, upper] (nan for nan bounds), and for a unimodal function the point is within (sqrt 5 + 2)/2 (about 2.12) times atol of the maximiser; upper < lower raises ValueError.",
  "all brackets, tolerances and objective functions", CONT, ["pvlib/tools.py:_golden_sect_DataFrame"])
p("Linke turbidity lookup index is always valid",
  "tools._degrees_to_index maps every latitude in [-90,90] to 0..2159 and every longitude in [-180,180] to 0..4319, each to the grid cell whose centre is nearest; it raises ValueError for every value outside the range (beyond the stated margin) and for any other coordinate name.",
  "all real degrees", CONT, ["pvlib/tools.py:_degrees_to_index"])
p("Dublin Julian Day conversion round-trips",
  "djd_to_datetime(datetime_to_djd(t)) denotes the same instant as t for every aware datetime, and adding one day adds exactly 1 to the DJD.",
  "all instants at microsecond resolution", CONT, ["pvlib/tools.py:datetime_to_djd,djd_to_datetime"])
p("Incidence-angle modifiers are physical",
  "iam.ashrae (b >= 0), martin_ruiz (a_r > 0), schlick and physical (1 <= n <= 2 + sqrt 3, K, L >= 0, no AR coating; for larger n the modifier exceeds 1) return 1 at normal incidence, values in [0,1] everywhere, and 0 for angles of incidence from 90 to 180 degrees; ashrae, martin_ruiz and schlick are even and non-increasing on [0,90]. With an anti-reflective coating whose index differs from air and glass, physical is the ratio of the transmittance through both interfaces (each by Fresnel's equations, averaged over polarisations) and absorption to its value at normal incidence; a coating equal to air or glass is ignored.",
  "all angles and parameters", CONT, ["pvlib/iam.py:ashrae,martin_ruiz,schlick,physical"])
p("IAM input validation",
  "martin_ruiz raises ValueError exactly for a_r <= 0; interp raises ValueError for too few points, negative iam_ref or an unknown method; sapm never returns a negative value, never exceeds upper when given, and is 0 for negative aoi.",
  "all arguments", FIN, ["pvlib/iam.py:martin_ruiz,interp,sapm"])
p("Cell temperature models reduce to air temperature in the dark",
  "sapm_cell, pvsyst_cell, faiman, faiman_rad (no ir_down), ross, noct_sam and generic_linear return temp_air at zero irradiance, shift one-for-one with temp_air, are non-decreasing in irradiance and non-increasing in wind speed for physical parameters.",
  "all weather inputs and physical parameters", CONT, ["pvlib/temperature.py:sapm_cell,pvsyst_cell,faiman,faiman_rad,ross,noct_sam,generic_linear"])
p("GenericLinearModel conversions are exact",
  "GenericLinearModel.use_X followed by to_X returns the parameters given (X in faiman, pvsyst, noct_sam, sapm), and after use_faiman/use_pvsyst/use_noct_sam a call predicts the same temperature as the source model.",
  "all parameters with non-degenerate absorptance and any prior use_* history", CONT, ["pvlib/temperature.py:GenericLinearModel"])
p("Prilliman smoothing is a local weighted average",
  "temperature.prilliman returns the input unchanged for sampling intervals of 20 minutes or more, keeps the first value, and otherwise every output lies between the minimum and maximum of the preceding 20-minute window of non-NaN inputs and depends only on past values.",
  "all series, wind speeds, masses", HIST, ["pvlib/temperature.py:prilliman"])
p("Relative airmass is undefined below the horizon and positive above",
  "get_relative_airmass is NaN exactly for zenith > 90 (or NaN); the simple model is 1/cos(zenith) >= 1 and increasing, and kastenyoung1989, kasten1966 and gueymard1993 never exceed it; every model but youngirvine1967 is positive on [0,90); unknown models raise; absolute airmass is proportional to pressure and equals relative airmass at 101325 Pa.",
  "all zeniths, models, pressures", CONT, ["pvlib/atmosphere.py:get_relative_airmass,get_absolute_airmass"])
p("Humidity/dew point and Angstrom conversions are inverse",
  "rh_from_tdew and tdew_from_rh are mutually inverse; angstrom_alpha and angstrom_aod_at_lambda are mutually inverse; windspeed_powerlaw is the identity at equal heights and invertible, and requires exactly one of exponent and surface_type; each named surface has its tabulated Hellmann exponent, any other name is a KeyError.",
  "all physical temperatures, humidities, wavelengths, heights", CONT, ["pvlib/atmosphere.py:rh_from_tdew,tdew_from_rh,angstrom_alpha,angstrom_aod_at_lambda,windspeed_powerlaw"])
p("Single-diode parameters scale from reference conditions",
  "calcparams_desoto, calcparams_cec and calcparams_pvsyst return exactly the reference photocurrent, saturation current, series and shunt resistance (and nNsVth) at reference irradiance and temperature; cec with Adjust=0 equals desoto; photocurrent is proportional to irradiance.",
  "all module parameter sets", CONT, ["pvlib/pvsystem.py:calcparams_desoto,calcparams_cec,calcparams_pvsyst"])
p("System scaling of module output",
  "scale_voltage_current_power multiplies voltages by modules per string, currents by strings and power by both, so p_mp = v_mp*i_mp is preserved, columns keep their order, and unknown columns make it fail.",
  "all data frames and counts", FIN, ["pvlib/pvsystem.py:scale_voltage_current_power"])
p("PVWatts DC and losses algebra",
  "pvwatts_dc without k is linear in irradiance and equals pdc0 at 1000 W/m2 and temp_ref; with k it is never negative; pvwatts_losses is in [0,100] for losses in [0,100], is independent of argument order, 0 for no losses; combine_loss_factors returns 1 - prod(1 - loss) at each time of the index, the losses being those at the time, or before it or after it with forward or backward filling, and nan if a loss has none; with k, the low-irradiance correction is k at 200 W/m2 and 0 at 0 and 1000.",
  "all losses and conditions", CONT, ["pvlib/pvsystem.py:pvwatts_dc,pvwatts_losses,combine_loss_factors"])
p("DC ohmic loss is the stated percentage at reference conditions",
  "dc_ohms_from_percent gives the resistance for which dc_ohmic_losses at the array's reference current is exactly dc_ohmic_percent of the array's reference power; Array.dc_ohms_from_percent picks CEC, then SAPM, then PVsyst parameter names and raises ValueError otherwise.",
  "all parameter dictionaries and counts", FIN, ["pvlib/pvsystem.py:dc_ohms_from_percent,dc_ohmic_losses,Array.dc_ohms_from_percent"])
p("Per-array argument validation",
  "Every PVSystem per-array method accepts a tuple exactly when its length equals the number of arrays (ValueError otherwise), broadcasts a non-tuple system-wide argument to all arrays, pairs the i-th value with the i-th array, and returns a bare value instead of a 1-tuple exactly for single-array systems; the single-diode parameters are those of each array's module parameters with the documented defaults for the optional ones, TypeError if a required one is missing.",
  "any number of arrays and any argument tuples", FIN, ["pvlib/pvsystem.py:PVSystem._validate_per_array,_unwrap_single_value"])
p("Model inference picks the documented model",
  "ModelChain's dc, ac, aoi and temperature model inference chooses the first model in the documented priority order whose required keys are present in every array, raises ValueError when none is, and is insensitive to extra keys of lower-priority models.",
  "all parameter dictionaries and numbers of arrays", FIN, ["pvlib/modelchain.py:infer_dc_model,infer_ac_model,infer_aoi_model,infer_temperature_model,_common_keys"])
p("Model setters accept exactly the documented names",
  "Assigning a string to ModelChain.dc_model, ac_model, aoi_model, spectral_model, temperature_model, losses_model, dc_ohmic_model selects the named model case-insensitively and raises ValueError for every other string, leaving a model set.",
  "all strings", FIN, ["pvlib/modelchain.py:ModelChain.dc_model,ac_model,aoi_model,spectral_model,temperature_model,losses_model,dc_ohmic_model"])
p("run_model results do not depend on earlier runs",
  "After ModelChain.run_model(weather) on a chain with any history of previous runs, every result computed by that run (weather, times, solar_position, airmass, total_irrad, aoi, effective_irradiance, cell_temperature, dc, ac, losses) equals what a fresh chain would produce.",
  "all histories of run_model, run_model_from_poa, run_model_from_effective_irradiance, complete_irradiance calls", HIST, ["pvlib/modelchain.py:ModelChain.run_model,prepare_inputs,_assign_weather,_configure_results"])
p("Single-element list input is equivalent to bare input",
  "For a single-array system, run_model([weather]) succeeds exactly when run_model(weather) does and stores the same values wrapped in 1-tuples in the per-array result fields.",
  "all single-array systems, weather and model selections", HIST, ["pvlib/modelchain.py:ModelChainResult.__setattr__,ModelChain.run_model"])
p("Measured temperatures take precedence",
  "If input data contain cell_temperature the results use it verbatim per array; otherwise, if they contain module_temperature and the model is sapm, the cell temperature is sapm_cell_from_module; otherwise the temperature model computes it from poa_global (or effective irradiance if poa_global is absent).",
  "all data and systems", FIN, ["pvlib/modelchain.py:_prepare_temperature,_get_cell_temperature,_irrad_for_celltemp"])
p("Input validation of run methods",
  "run_model requires ghi, dni and dhi in every data frame, run_model_from_poa the three POA columns, run_model_from_effective_irradiance the effective_irradiance column; tuples of the wrong length or unequal indices raise ValueError and bare input to a multi-array POA/effective-irradiance run raises TypeError, in all cases before any model is evaluated.",
  "all inputs", FIN, ["pvlib/modelchain.py:_check_multiple_input,_verify_df"])
