# Properties C55.. added while the model grew.
from props_a import CONT,HIST,FIN
P=[]
def p(title, statement, quantifier, why, anchors):
    P.append(dict(id="C%02d"%(54+len(P)+1), title=title, statement=statement, quantifier=quantifier, why_tests_cant=why, anchors=anchors))

p("Transposition model dispatch",
  "get_sky_diffuse calls exactly the model named by its model argument, ignoring case, with the caller's irradiances and angles in the right places (Perez without airmass uses the Kasten-Young airmass of the zenith); it raises ValueError exactly for an unknown name, for a missing dni_extra when the model needs it, or for components requested from klucher/king, and KeyError exactly for an unknown Perez coefficient set.",
  "all model strings, argument combinations and numeric inputs", FIN, ["pvlib/irradiance.py:get_sky_diffuse,get_total_irradiance,_get_perez_coefficients"])

p("Pressure, water vapour and turbidity conversions",
  "alt2pres and pres2alt are strictly decreasing over their physical range; gueymard94_pw never returns less than 0.1 cm; kasten96_lt equals the Kasten (1996) pyrheliometric formula (9.4 + 0.9 am)(delta_cda + delta_w + aod); bird_hulstrom80_aod_bb is the documented linear blend of the two optical depths.",
  "all real inputs in the physical range", CONT, ["pvlib/atmosphere.py:alt2pres,pres2alt,gueymard94_pw,kasten96_lt,bird_hulstrom80_aod_bb"])
p("Inland water albedo",
  "albedo.inland_water_dvoracek returns an albedo in (0, color_coeff], non-increasing in solar elevation and constant below the horizon; it succeeds exactly when the surface is given either by name or by both coefficients; otherwise it raises ValueError, and an unknown surface condition raises KeyError; the named surfaces have the tabulated coefficients.",
  "all solar elevations and coefficients", CONT, ["pvlib/albedo.py:inland_water_dvoracek"])
p("Parameter dictionaries are read by name",
  "tools._build_kwargs keeps exactly the requested keys that are present, with their values; _build_args returns the values in the order of the keys and raises KeyError exactly when a key is missing.",
  "all key lists and dictionaries", FIN, ["pvlib/tools.py:_build_kwargs,_build_args"])
p("Sampling-interval detection",
  "tools._get_sample_intervals raises NotImplementedError exactly for an index without an inferable, constant step; below one day it returns the step and the whole number of samples in the window; data at a whole number of days divides by zero because only the seconds part of the interval is read.",
  "all indexes and window lengths", HIST, ["pvlib/tools.py:_get_sample_intervals"])
p("Normalisation and numerical derivative helpers",
  "tools.normalize_max2one divides by the largest magnitude, so the result lies in [-1,1] and reaches 1 in magnitude; the centred difference is exact on quadratics with error e*dx^2 on cubics.",
  "all vectors and polynomials", CONT, ["pvlib/tools.py:normalize_max2one,_first_order_centered_difference"])

p("Marion diffuse integration is an average",
  "iam.marion_integrate returns, for the sky, horizon or ground region, a solid-angle weighted average of the modifier over angles of incidence below 90 degrees, so it lies between the modifier's smallest and largest value there, or is 0 when nothing of the region is visible; an unknown region or model name raises ValueError; marion_diffuse reports the three regions with 180, 1800 and 180 steps.",
  "all IAM functions, tilts, regions and resolutions", CONT, ["pvlib/iam.py:marion_integrate,marion_diffuse"])
p("IAM model conversion",
  "iam.convert and fit raise NotImplementedError exactly for unknown models and ValueError for wrong source parameters; results carry the target model's parameters, physical results have K = 4 and L <= n; with fix_n the physical model has exactly the zero of the ashrae model it replaces; converting physical to physical fails with UnboundLocalError. Where scipy's minimiser finds a minimum, fit and convert return, of all parameters in the documented range, those of least weighted misfit.",
  "all models, parameters and optimiser outcomes", FIN, ["pvlib/iam.py:convert,fit,_ashrae_to_physical,_martin_ruiz_to_physical,_process_return"])
p("Analytic diffuse modifiers",
  "martin_ruiz_diffuse's ground value at tilt t is its sky value at 180 - t; schlick_diffuse's sky and ground values weighted by the view factors (1 +- cos t)/2 add up to 20/21 at every tilt, and a horizontal surface gets (20/21, 0).",
  "all tilts and parameters", CONT, ["pvlib/iam.py:martin_ruiz_diffuse,schlick_diffuse"])

p("Fuentes module temperature stays physical",
  "temperature.fuentes never reports a module colder than the coldest of its 20 C start, the air and the sky temperature it computes, nor (without sun) hotter than the hottest of them; each reported value depends only on the records up to its own time; it needs at least two samples; the INOCT setup constants it derives are positive for physical inputs.",
  "all weather histories of any length", HIST, ["pvlib/temperature.py:fuentes,_fuentes_hconv,_hydraulic_diameter"])
p("Named temperature parameter sets",
  "temperature._temperature_model_params succeeds exactly for the documented model/mounting pairs and otherwise raises KeyError; every named set makes its model hotter with more sun and no hotter with more wind.",
  "all model and set names", FIN, ["pvlib/temperature.py:_temperature_model_params,TEMPERATURE_MODEL_PARAMETERS"])
p("A successful run computes exactly the documented pipeline, array by array",
  "When run_model, run_model_from_poa or run_model_from_effective_irradiance returns normally, every result field equals the documented composition of the sub-models on that array's own data: solar position and airmass from the first frame, transposition, angle of incidence and its modifier, spectral modifier, effective irradiance, cell temperature, DC power scaled by the array's wiring, ohmic and pvwatts losses, and the inverter model on all arrays; per-array fields are bare values for one array given bare data and tuples with one entry per array otherwise.",
  "all chains, all sub-models, all numbers of arrays, all weather inputs and all previous states of the results object",
  "The number of combinations of models, arrays and input shapes is unbounded; tests mock a few of them.",
  ["pvlib/modelchain.py: ModelChain.run_model, run_model_from_poa, run_model_from_effective_irradiance", "pvlib/pvsystem.py: PVSystem"])
p("complete_irradiance fills in exactly the missing component",
  "ModelChain.complete_irradiance adds, to every input frame that has exactly two of ghi, dni and dhi, the third one computed by irradiance.complete_irradiance from that frame and the sun position (with clear-sky DNI when DNI is missing), changes no other column, and leaves frames with all three or fewer than two unchanged.",
  "all chains, inputs and previous states for which the call returns normally",
  CONT,
  ["pvlib/modelchain.py: ModelChain.complete_irradiance"])
p("Array and PVSystem construction",
  "Array keeps every value it is given; a missing albedo is looked up from surface_type and falls back to 0.25; missing temperature parameters are inferred from racking model and module type by the documented rule (SAPM sets by name, else PVsyst freestanding, insulated or semi-integrated, else empty) and inference never fails. PVSystem(arrays=None) builds one Array from its own arguments; with arrays given it uses exactly those; an empty list of arrays raises ValueError. A module's cell type for spectral correction comes from the documented Technology and Material names.",
  "all argument combinations and parameter dictionaries", FIN, ["pvlib/pvsystem.py:Array.__init__,PVSystem.__init__,Array._infer_temperature_model_params,Array._infer_cell_type"])
p("Array methods hand over the documented parameters",
  "Array.get_aoi, get_irradiance, get_iam, get_cell_temperature and pvwatts_dc and PVSystem.pvwatts_losses compute exactly the underlying model function at the array's own orientation, albedo and parameters, with the documented default for each absent optional parameter, KeyError for each absent required one, and ValueError for an unknown model name.",
  "all arrays, parameter dictionaries, model names and weather inputs", FIN, ["pvlib/pvsystem.py:Array.get_aoi,get_irradiance,get_iam,get_cell_temperature,PVSystem.pvwatts_dc,pvwatts_losses"])
p("PVSystem.get_ac selects the inverter model by name and number of arrays",
  "get_ac with model sandia, adr or pvwatts (any case) calls that inverter function with the system's inverter parameters; with several arrays sandia and pvwatts use the multi-input variants on all arrays' power and voltage in order, and adr raises ValueError; any other name raises ValueError.",
  "all systems with any number of arrays, all model names and inputs", FIN, ["pvlib/pvsystem.py:PVSystem.get_ac"])
p("SAPM DC model",
  "pvsystem.sapm returns the published Sandia equations for currents, voltages and power at any positive irradiance; at the reference point the nameplate values come back; voltages are never negative, p_mp = i_mp * v_mp, and i_x and i_xx are present exactly when their coefficients are; a missing required key raises KeyError. In the dark currents and v_oc are 0, but v_mp and p_mp are nan for modules with C2 <= 0.",
  "all module dictionaries, irradiances and temperatures", CONT, ["pvlib/pvsystem.py:sapm"])
p("Spectral correction factors",
  "spectral_factor_sapm is the airmass polynomial floored at 0 and never nan; spectral_factor_firstsolar is the published formula on clamped airmass and water content, nan above the maximum water content, and between 0.2 and 1.4 for every named technology; spectral_factor_jrc is 1 at AM 1.5 and clear sky and increases with airmass; pvspec, caballero and polo equal their published formulas (polo treats the sun behind the plane as 90 degrees). Each raises the documented error unless exactly one of module type and coefficients is given, and KeyError for an unknown technology; only firstsolar, pvspec and jrc ignore letter case.",
  "all airmasses, water contents, optical depths, angles, technologies and coefficients", CONT, ["pvlib/spectrum/mismatch.py:spectral_factor_sapm,spectral_factor_firstsolar,spectral_factor_jrc,spectral_factor_pvspec,spectral_factor_caballero,spectral_factor_polo"])
p("Spectral mismatch from measured spectra",
  "calc_spectral_mismatch_field is 1 for the reference spectrum itself, does not change when either spectrum is scaled, and is a ratio of irradiance-weighted means of the response, hence bounded by the spread of the response; the response is interpolated linearly between its samples and is 0 outside them.",
  "all spectra and responses on any wavelength grids", CONT, ["pvlib/spectrum/mismatch.py:calc_spectral_mismatch_field"])
p("SAM databases and product names",
  "retrieve_sam reads the bundled file belonging to the case-insensitive database name, or the given path or URL; it raises ValueError unless exactly one of name and path is given and KeyError for an unknown name. Product names keep their length, every unfriendly character becomes an underscore and nothing else changes, normalising twice changes nothing more, and warnings are issued exactly for duplicated names.",
  "all strings", FIN, ["pvlib/pvsystem.py:retrieve_sam,_normalize_sam_product_names"])
p("Photon energy and response conversions",
  "average_photon_energy lies between the photon energies of the longest and the shortest wavelength, and raises ValueError exactly when the spectrum has a negative value; sr_to_qe and qe_to_sr convert sample by sample, undo each other, prefer the wavelength argument over the index and raise TypeError without either.",
  "all spectra and wavelength grids", CONT, ["pvlib/spectrum/irradiance.py:average_photon_energy", "pvlib/spectrum/response.py:sr_to_qe,qe_to_sr"])
p("bishop88 points satisfy the single diode equation",
  "For every diode voltage above the breakdown voltage, the current, voltage and power that bishop88 returns satisfy the (implicit) single diode equation with shunt, recombination and breakdown terms, and every point of that curve with such a diode voltage is returned for some diode voltage. Finding: at or below the breakdown voltage (-5.5 V by default) the result is nan even when breakdown_factor is 0, where the equation has a solution.",
  "all device parameters and diode voltages", CONT, ["pvlib/singlediode.py:bishop88"])
p("bishop88 gradients are the derivatives",
  "With gradients=True and no breakdown term, the five extra outputs of bishop88 are the true derivatives dI/dVd, dV/dVd, dI/dV, dP/dV and d2P/dVdVd of the curve it returns. Finding: with a breakdown term they are not, unless the breakdown voltage is -1 V (a factor -1/breakdown_voltage is missing).",
  "all device parameters and diode voltages", CONT, ["pvlib/singlediode.py:bishop88"])
p("The I-V curve is strictly falling",
  "For physical parameters without breakdown, current strictly falls and voltage strictly rises with diode voltage; on the curve there is at most one current per voltage and one voltage per current, and current never rises with voltage.",
  "all physical device parameters and pairs of points", CONT, ["pvlib/singlediode.py:bishop88"])
p("The maximum power point is the maximum",
  "A point at which the dP/dV of bishop88 is zero and the voltage is not negative has the largest power of the whole curve. bishop88_mpp, called with a bracketing solver that returns a zero of the handed function to within tol, returns the point at a diode voltage within tol of that maximum; an exact solver returns the global maximum itself.",
  "all physical device parameters and all root finders obeying their contract", CONT, ["pvlib/singlediode.py:bishop88_mpp", "pvlib/pvsystem.py:max_power_point"])
p("bishop88 root finding",
  "bishop88_v_from_i and bishop88_i_from_v with brentq or chandrupatla return the solution of the single diode equation to the solver's accuracy; a root found by newton is a solution; newton is called with tol 1e-6 and maxiter 100 unless the user says otherwise; an unknown method raises NotImplementedError and chandrupatla with an old scipy raises ImportError; the starting estimate of open-circuit voltage is that of the device without shunt; brentq's bracket stays below the built-in voltage. Finding: the chandrupatla bracket for thin-film devices ignores the built-in voltage and need not contain a sign change.",
  "all physical device parameters, currents, voltages, method names and root finders obeying their contract", CONT, ["pvlib/singlediode.py:bishop88_i_from_v,bishop88_v_from_i,estimate_voc"])
p("Accuracy of the Lambert W routine",
  "The Lambert W routine used by the explicit solution differs from the true Lambert W function by at most 1.3e-10 absolutely (2.2e-10 relatively) for every non-negative argument, its logarithmic companion by at most 2e-12 for large arguments; it is exact at 0 and nan for negative or nan arguments.",
  "all real arguments", CONT, ["pvlib/ivtools/utils.py:_lambertw_pvlib,_log_lambertw"])
p("Accuracy of the explicit single diode solutions",
  "v_from_i and i_from_v with method lambertw return, for every physical device, a value within 1.3e-10 nNsVth (respectively 1.3e-10 nNsVth / Rs) of the unique exact solution of the single diode equation (i_from_v is exact without series resistance); a current beyond what an infinite-shunt device can carry and a negative shunt resistance give nan. Finding: i_from_v gives nan when its exponential overflows.",
  "all physical device parameters, voltages and currents", CONT, ["pvlib/singlediode.py:_lambertw_v_from_i,_lambertw_i_from_v", "pvlib/pvsystem.py:v_from_i,i_from_v"])
p("singlediode's seven points agree with the point functions",
  "pvsystem.singlediode returns exactly what v_from_i, i_from_v and max_power_point return at short circuit, open circuit, maximum power, half and mid voltage for the same method, in any letter case, and raises what they raise; for lambertw the maximum is the golden section search on the explicit power between 0 and v_oc.",
  "all devices, methods and spellings", FIN, ["pvlib/pvsystem.py:singlediode,i_from_v,v_from_i,max_power_point", "pvlib/singlediode.py:_lambertw"])
p("Batzelis explicit single diode points",
  "singlediode.batzelis returns zero for every point in the dark, equals the published closed form in the light, and for an ideal device (no series or shunt loss) its maximum power point is the true maximum of the power curve.",
  "all device parameters", CONT, ["pvlib/singlediode.py:batzelis"])
p("Pointwise view factors of a row",
  "vf_row_sky_2d at a position on a row integrates half the sine of the angle from the row's own plane to the ray that just clears the top edge of the row in front; vf_row_ground_2d is the share below the ray to the bottom edge of the row in front. Both lie between 0 and 1, together never exceed 1, the sky factor grows and the ground factor falls with height, and at the top (bottom) edge they equal the isolated row's values.",
  "all tilts, ground coverage ratios and positions", CONT, ["pvlib/bifacial/utils.py:vf_row_sky_2d,vf_row_ground_2d"])
p("Averaged sky view factor is the mean of the pointwise one",
  "vf_row_sky_2d_integ over a row segment is the integral mean of vf_row_sky_2d over that segment; segments shorter than 1e-6 give the pointwise value; a negative rotation mirrors the segment; equal segments average to the whole row.",
  "all tilts, ground coverage ratios and segments", CONT, ["pvlib/bifacial/utils.py:vf_row_sky_2d_integ"])
p("Unshaded ground fraction",
  "_unshaded_ground_fraction of a ground segment is the share of the segment not in the shadow of any of the considered rows, hence of any row when the outermost shadows reach past the segment; for a whole pitch it is 1 - min(1, gcr |cos(rotation) + sin(rotation) tan(phi)|); it is 0 beyond max_zenith and raises TypeError exactly when height or pitch is missing for a partial segment. Finding: the defaults (10 rows, 85 degrees) are not enough for dense arrays at low sun: fully shaded ground is reported as 70% lit.",
  "all rotations, sun positions, layouts and segments", CONT, ["pvlib/bifacial/utils.py:_unshaded_ground_fraction"])
p("View factor of the ground to the sky",
  "vf_ground_sky_2d at a ground point is the integral, weighted by half the sine of elevation, of the directions not hidden by any of the considered rows, between the first directions hidden by the outermost rows; it lies between 0 and 1.",
  "all rotations, layouts, ground points and row counts", CONT, ["pvlib/bifacial/utils.py:vf_ground_sky_2d"])
p("Averaged ground view factors",
  "vf_ground_sky_2d_integ over a ground segment is the integral mean of vf_ground_sky_2d over the segment (for leaning and for flat rows, when no sight line grazes two row edges from a segment end); it and the averaged row-to-ground view factors are never negative.",
  "all rotations, layouts, segments and row counts", CONT, ["pvlib/bifacial/utils.py:vf_ground_sky_2d_integ,vf_row_ground_2d_integ"])
p("infinite_sheds on one side",
  "get_irradiance_poa returns poa_global = direct + diffuse and diffuse = sky + ground; the shaded fraction lies in [0,1] and splits the row exactly into points whose view of the sun the row in front blocks and points it does not; direct is beam times unshaded fraction times IAM; haydavies moves circumsolar irradiance from diffuse to beam without changing the irradiance of horizontal ground and needs dni_extra (ValueError otherwise), every other model name changes nothing; the number of rows looked at is the smallest that reaches 5 degrees above the horizon. Finding: with the sun behind the array the shaded fraction is 0, not 1 as commented.",
  "all layouts, sun positions, irradiances and model names", CONT, ["pvlib/bifacial/infinite_sheds.py:get_irradiance_poa,_shaded_fraction,_poa_ground_pv"])
p("infinite_sheds front and back together",
  "get_irradiance evaluates the front as given and the back with the opposite normal, reports each side's outputs under the documented names, and poa_global = front + back x bifaciality x (1 + shade_factor)(1 + transmission_factor); it fails exactly when one side fails; beam irradiance falls on at most one side.",
  "all layouts, sun positions and irradiances", CONT, ["pvlib/bifacial/infinite_sheds.py:get_irradiance,_backside"])
p("Mismatch loss of non-uniform irradiance",
  "power_mismatch_deline is the polynomial in the deviation with the constant term first, multiplied by fill_factor / fill_factor_reference when a fill factor is given (0 counts as not given); a uniform irradiance loses exactly the constant term.",
  "all coefficient lists, deviations and fill factors", CONT, ["pvlib/bifacial/loss_models.py:power_mismatch_deline"])
p("ants2d: segments, sky models and sloped ground",
  "The shaded fraction of a row segment is the shaded part of its length, shade being the shadow of the neighbouring row growing from the lower edge; equal segments average to the row's shaded fraction; haydavies, perez and perez-driesse move circumsolar irradiance without changing the irradiance of horizontal ground, unknown models and missing dni_extra or airmass raise ValueError, exactly then; sloped ground is handled by height along the ground normal, pitch along the slope and irradiance on the sloped plane; each segment's global is direct plus ground plus sky.",
  "all rotations, layouts, segments, sun positions and irradiances", CONT, ["pvlib/bifacial/ants2d.py:get_irradiance,_shaded_fraction,_apply_sky_diffuse_model,_apply_ground_slope"])
p("DISC and DIRINDEX",
  "disc returns, by day, the extraterrestrial irradiance times the published transmittance of clearness and airmass, floored at zero; DNI is zero beyond max_zenith, for negative GHI and for zero GHI, and never negative for any input; the reported kt lies in [0,1] and the airmass never exceeds max_airmass. dirindex scales the clear-sky DNI by the ratio of the two dirint values, is never negative and equals the clear-sky DNI when the ratio is 1.",
  "all GHI, zeniths, days, pressures and limits", CONT, ["pvlib/irradiance.py:disc,_disc_kn,dirindex"])
p("Ineichen clear sky",
  "clearsky.ineichen returns the published Ineichen-Perez irradiances: ghi = dni cos(zenith) + dhi with the sun up, 0 <= dni, ghi and (for Linke turbidity >= ln 2) dhi; everything is zero with the sun below the horizon, a missing airmass counts as no irradiance, any other missing input gives nan, ghi and dni fall as turbidity rises, and Perez enhancement multiplies ghi only through the published exponential. Finding: dhi is negative for turbidities below ln 2.",
  "all zeniths, airmasses, turbidities, altitudes and extraterrestrial irradiances", CONT, ["pvlib/clearsky.py:ineichen"])
p("Linke turbidity climatology lookup",
  "clearsky.lookup_linke_turbidity returns, for any date, the stored value / 20 of the nearest map cell, linear in the day of the year between the middles of the months (in leap and common years, and continuous across New Year), never outside the range of the cell's twelve stored values; without interpolation it is the month's own value; it raises ValueError exactly for positions off the globe.",
  "all positions, dates and table contents", CONT, ["pvlib/clearsky.py:lookup_linke_turbidity,_interpolate_turbidity,_degrees_to_index,_calendar_month_middles"])
p("Haurwitz and simplified Solis clear sky",
  "haurwitz is 1098 cos z exp(-0.059 / cos z) with the sun up and zero otherwise, rising as the sun rises; simplified_solis is the published model (ghi, dni, dhi from the fitted transmittances), never negative for pressures from 101325/15 Pa, does not depend on elevation below the horizon, and floors precipitable water at 0.2 cm. Finding: haurwitz reports 0, not nan, for a missing zenith.",
  "all zeniths, elevations, aerosol optical depths, water contents and pressures", CONT, ["pvlib/clearsky.py:haurwitz,simplified_solis,_calc_i0p,_calc_taub,_calc_b,_calc_taug,_calc_g,_calc_taud,_calc_d"])
p("Bird clear sky",
  "bird is the published Bird-Hulstrom model: direct_horizontal = dni cos z, ghi closes with the diffuse, every transmittance lies in [0,1] up to absolute airmass 29, horizontal components are zero with the sun below the horizon (dni is not), and a missing airmass gives nan. Finding: beyond airmass 29.3 the Rayleigh transmittance exceeds 1; at 32 in clean dry air dni exceeds 1.02 times the extraterrestrial irradiance.",
  "all zeniths, airmasses, optical depths, ozone, water, pressures and albedos", CONT, ["pvlib/clearsky.py:bird"])
p("detect_clearsky finds exactly the clear windows",
  "A sample is reported clear exactly when it belongs to a window all of whose six statistics (mean, max, line length, slope deviation, largest slope change, present data) meet the criteria for the clear-sky scale used in the last pass; the scale is the least squares fit on the clear samples of the pass before, passes stop at agreement to four digits or max_iterations; missing data are never clear; a measured series equal to the clear-sky series is clear throughout with scale 1; inferred limits are linear in the published table; it refuses what it documents. Findings: the returned alpha is the one fitted after the last pass, not the one used; max_iterations=0 raises UnboundLocalError.",
  "all measured and clear-sky series, window lengths, thresholds and iteration limits", HIST, ["pvlib/clearsky.py:detect_clearsky,_clear_sample_index,_calc_stats,_calc_slope_nstd,_to_centered_series,_line_length_windowed,_clearsky_get_threshold"])
p("ADR module efficiency and its fit",
  "pvefficiency_adr is the published efficiency curve: k_a at 1000 W/m2 and 25 C whatever the other parameters, 0 in the dark, between k_a G/1000 and k_a (1+k_rs+k_rsh) up to one sun at 25 C, not rising with temperature for tc_d >= 0; missing irradiance or temperature gives nan. fit_pvefficiency_adr hands scipy.curve_fit exactly this curve, the documented bounds, start, scales, weights and robust loss (which keyword arguments override), names the result k_a, k_d, tc_d, k_rs, k_rsh, and, if curve_fit finds a least-loss point of the box, reproduces measurements that follow the model exactly.",
  "all irradiances, temperatures, parameters and measurement sets", CONT, ["pvlib/pvarray.py:pvefficiency_adr,fit_pvefficiency_adr"])
p("Huld power model",
  "huld is the published polynomial in the logarithm of irradiance and the temperature excess; rated conditions give rated power for every coefficient set, no irradiance gives no power, the logarithm counts as zero for non-positive irradiance; built-in coefficients are the published PVGIS5/PVGIS6 tables times pdc0 (so power is proportional to pdc0), selected by name in any letter case; no coefficients and no cell type, or an unknown version, raise ValueError, an unknown cell type KeyError, a short coefficient list IndexError.",
  "all irradiances, temperatures, ratings, coefficients and names", CONT, ["pvlib/pvarray.py:huld,_infer_k_huld"])
p("Batzelis datasheet method",
  "pvarray.batzelis returns the datasheet values at 1000 W/m2 and 25 C, follows the published extrapolation elsewhere (with Lambert's W within 1.3e-10), makes i_sc proportional to irradiance and shifts i_sc and v_oc at one sun by exactly their temperature coefficients; without irradiance all five outputs are 0; missing or infinite irradiance gives nan voltages and power, never a number.",
  "all irradiances, temperatures and datasheets", CONT, ["pvlib/pvarray.py:batzelis"])
p("Analytical zenith and azimuth",
  "solar_zenith_analytical is in [0, pi] with cosine sin(lat) sin(dec) + cos(lat) cos(dec) cos(h). With that zenith, solar_azimuth_analytical is the azimuth (clockwise from north) of the sun's direction for every morning and afternoon hour angle; the snapping of the cosine to +-1 moves the direction by at most 1e-8 to the north and 1.5e-4 to the east; azimuths lie in [0, 2 pi] for any arguments; at the poles or with the sun in the zenith it is pi; missing inputs give nan. Findings: at hour angle 0 the answer is always south, also when the noon sun stands in the north; hour angles past midnight give the mirror image.",
  "all latitudes, declinations and hour angles", CONT, ["pvlib/solarposition.py:solar_zenith_analytical,solar_azimuth_analytical"])
p("Declination and equation of time series",
  "The Cooper and Spencer declinations and the Spencer and PVCDROM equations of time are the published series of the day of year, repeat every 365 days and stay within 23.45 degrees, [-0.4091, 0.4229] rad, 17.4 and 17.6 minutes; Cooper's declination is zero on day 81, positive to day 263.5 and negative after.",
  "all days of the year", CONT, ["pvlib/solarposition.py:declination_cooper69,declination_spencer71,equation_of_time_spencer71,equation_of_time_pvcdrom"])
p("Hour angle and geometric sunrise, sunset, transit",
  "hour_angle is, up to whole turns, 15 (UTC hours - 12) + longitude + equation of time / 4 whenever the local clock has kept its offset since local midnight, and is otherwise off by exactly 15 degrees per hour of clock change; it inverts to the hours since local midnight. sun_rise_set_transit_geometric returns instants at which the geometric sun is on the horizon (rising before, setting after) and on the meridian, symmetric about transit; sunrise and sunset are NaT exactly when the sun never crosses the horizon. Time zone naive input raises ValueError. Finding: on days of clock change hour_angle is 15 degrees off after the change.",
  "all time zones, instants, positions, declinations and equations of time", CONT, ["pvlib/solarposition.py:hour_angle,_hour_angle_to_hours,_local_times_from_hours_since_midnight,_times_to_hours_after_local_midnight,sun_rise_set_transit_geometric"])
p("ephemeris is the geometric sun",
  "solarposition.ephemeris terminates for every array of time stamps (years 1000-3000) after at most four turns of its Kepler iteration, with the eccentric anomaly within 2.1e-6 degrees of the unique solution of Kepler's equation; true anomaly, ecliptic longitude, azimuth in [0, 360), elevation and solar time in [0, 24] are those of the ellipse and of the rotations from ecliptic to equatorial to horizontal axes; zenith = 90 - elevation; refraction is the published formula, never lowers the sun and vanishes outside (-1, 85] degrees. Finding: the day count is one day off in 1900 and before, and from 2101.",
  "all arrays of time stamps, positions, pressures and temperatures", HIST, ["pvlib/solarposition.py:ephemeris"])
p("get_solarposition selects the algorithm and completes the site",
  "get_solarposition hands latitude, longitude, altitude, pressure and temperature to the algorithm named by method in any letter case, derives the missing one of altitude and pressure from the other (sea level and 101325 Pa when both are missing), and raises ValueError exactly for other names. Finding: method='nrel_c' passes the temperature as the altitude and never passes the temperature.",
  "all sites, names and conditions", FIN, ["pvlib/solarposition.py:get_solarposition,spa_c"])
p("SPA azimuth and elevation are the direction of the sun",
  "For every instant within 4000 years of 2000 and every site off the poles, the azimuth (in [0, 360)) and elevation (in [-90, 90]) of solarposition.spa_python point along the vector from the observer on the ellipsoid (latitude, height) to the apparent sun, whose ecliptic longitude, latitude and distance are the published periodic series with nutation and aberration, rotated by obliquity and sidereal time; zenith = 90 - elevation, apparent elevation = elevation + refraction; the direction does not depend on the atmosphere, and a whole turn of longitude changes nothing.",
  "all instants, delta T, sites and atmospheres", CONT, ["pvlib/spa.py:solar_position,solar_position_numpy,solar_position_loop,heliocentric_longitude,topocentric_azimuth_angle"])
p("SPA distance, equation of time and refraction",
  "nrel_earthsun_distance is the published radius series and lies in [0.977, 1.023] AU; the equation of time is the mean longitude less aberration, right ascension and the nutation term, in minutes up to whole days, within (-1420, 20] and equal to the true value whenever that is within 20 minutes; the refraction correction is the published formula above the horizon, positive and at most 0.65 degrees at standard air, and zero below. Findings: it is nan at elevation -5.11 degrees and negative very near the zenith.",
  "all instants, elevations, pressures and temperatures", CONT, ["pvlib/spa.py:heliocentric_radius_vector,equation_of_time,atmospheric_refraction_correction,earthsun_distance", "pvlib/solarposition.py:nrel_earthsun_distance"])
p("The threaded SPA calculation equals the array calculation",
  "solar_position with numba and any number of threads gives, for every interleaving of the threads' writes and every initial memory, exactly the cells of the numpy version; no cell is written twice and none outside the result; the samples are cut into max(1, min(threads, samples)) nearly equal pieces.",
  "all schedules, thread counts, sample arrays and modes", HIST, ["pvlib/spa.py:solar_position_numba,solar_position_loop,solar_position_numpy"])
p("Time scales: delta T and Julian day",
  "calculate_deltat is the published piecewise polynomial estimate for every year and month; from 2005 to 2050 it lies in [64, 94] s and grows from month to month. julian_day_dt is the Julian day of the Gregorian date and agrees with julian_day of the Unix time.",
  "all years, months and times of day", CONT, ["pvlib/spa.py:calculate_deltat,julian_day_dt,julian_day"])
p("SPA sunrise, sunset and transit",
  "transit_sunrise_sunset raises ValueError exactly when a date is not at 00:00 UTC and treats each date separately; for a date, transit, sunrise and sunset are the documented one-step refinements from the interpolated right ascension and declination: the first estimates put the sun of 0h TT on the meridian and 0.8333 degrees below the horizon, the corrections move by the local hour angle and altitude error; sunrise and sunset are nan exactly when the sun never reaches that altitude. sun_rise_set_transit_spa uses the calendar day of the local clock, never fails for localized times and raises ValueError for naive ones. Finding: if an event falls in the neighbouring UTC day, the correction uses the sun of the wrapped fraction of the day.",
  "all dates, delta T and sites", CONT, ["pvlib/spa.py:transit_sunrise_sunset", "pvlib/solarposition.py:sun_rise_set_transit_spa"])
p("SPA wrappers: compiled functions and defaults",
  "spa_python selects compiled functions exactly when how is 'numba' and numba can be imported, raises ValueError exactly for other names, and a process without numba keeps the uncompiled functions through every history of calls; pressures are taken in Pa and delta_t=None means the estimate for the UTC month. Findings: switching deletes the user's PVLIB_USE_NUMBA variable; atmos_refract=0 is replaced by 0.5667.",
  "all call histories, environments and arguments", HIST, ["pvlib/solarposition.py:spa_python,_spa_python_import"])
p("Location time zone",
  "Assigning an integer (or whole float) n to Location.tz selects the fixed-offset zone n hours east of Greenwich (whose IANA name has the opposite sign), for exactly the offsets -12..14 of the database; fractional, nan and infinite floats and other types raise TypeError; a tzinfo is taken by name; through every history of assignments, failed or not, tz is a name of the database, the last successfully assigned one, reading it and assigning it back changes nothing, and no other attribute changes. Finding: the documentation promises ValueError where TypeError is raised.",
  "all assigned values and assignment histories", HIST, ["pvlib/location.py:Location.tz"])
p("Location construction",
  "Without an altitude, Location takes the stored byte of the nearest cell of the altitude map (28 m steps from -450 m, 0 for missing data), raising ValueError exactly for positions off the globe; a given altitude is kept as is and the map is not consulted; from_tmy and from_epw use the metadata entries (City if non-empty, else Name; city for EPW), attach the data, and raise KeyError for a missing entry.",
  "all positions, map contents and metadata dictionaries", FIN, ["pvlib/location.py:lookup_altitude,Location.__init__,Location.from_tmy,Location.from_epw"])
p("Location methods",
  "get_solarposition asks the named back end for the site's own latitude, longitude, altitude and the pressure of its altitude unless one is given; get_airmass uses the apparent or the true zenith according to the model and the site's pressure; get_clearsky combines given values with the climatology, the airmass and the extraterrestrial irradiance, accepts exactly the documented keyword arguments (TypeError otherwise), and its default model is physical by day (ghi = dhi + dni cos z, nothing negative) and zero by night at every site; get_sun_rise_set_transit labels sunrise, sunset and transit correctly; unknown names raise ValueError. Findings: gueymard2003 is refused by get_airmass; a pressure given to get_clearsky does not reach the airmass of the ineichen model.",
  "all sites, positions of the sun, names and keyword arguments", CONT, ["pvlib/location.py:Location.get_solarposition,Location.get_airmass,Location.get_clearsky,Location.get_sun_rise_set_transit"])
p("Wavelets of the clear-sky index",
  "scaling.wvm succeeds exactly for data, sites, a non-zero cloud speed and a time step in (0, 4096] s (the ways other steps fail are listed); the time scales are the step doubled repeatedly up to the last one not above 4096 s; the wavelet of a scale is the difference of successive centred moving averages of the series reflected at both ends, the last one is the widest average, and the wavelets of each sample add up to the sample; a sample of the result is missing exactly where the input is. Finding: a time index whose step is a day or more loses the whole days.",
  "all series, indexes, sites and cloud speeds", CONT, ["pvlib/scaling.py:wvm,_compute_wavelet"])
p("Variability reduction of a fleet",
  "Whenever scipy's fmin finds the number of sites, the variability reduction of a time scale is n^2 over the sum of the n^2 correlations exp(-2 distance / (speed * scale)), lies in [1, n] and falls with speed and scale; the smoothed index is the sum of the wavelets divided by its root (the slowest undivided), never leaves the range of the input series, and equals it when all sites coincide. Finding: for one site fmin starts at a minimum (0) and the result is nan.",
  "all series, site positions and cloud speeds", CONT, ["pvlib/scaling.py:wvm,_compute_vr"])
p("Local coordinates",
  "latlon_to_xy turns (latitude, longitude) pairs into (x, y) pairs in their order: y is the arc along the meridian, x the arc along the parallel of the mean latitude on a sphere of 6371008.7714 m; a single pair uses its own latitude; moving every longitude changes no difference of coordinates, and wvm depends on the positions only through their distances.",
  "all lists of positions", CONT, ["pvlib/scaling.py:latlon_to_xy,wvm"])
p("rectify_iv_curve",
  "The curve returned by rectify_iv_curve has strictly increasing voltages, lies in the first quadrant, and consists of exactly the (rounded) voltages of the complete measured points in the first quadrant, each with the mean of the currents measured there; the order of the measurements does not matter, a clean curve is returned unchanged, and rounding moves a voltage by at most half a unit of the last decimal.",
  "all lists of measured points with missing values, all decimals", CONT, ["pvlib/ivtools/utils.py:rectify_iv_curve"])
p("Numerical differentiation of IV curves",
  "The first derivative used by the Sandia parameter fits is, at every point with two neighbours on either side, the derivative of the quartic through the five points, for any unequal spacing; the two points at either end are nan. Finding: the second derivative is wrong (not divided by the Lagrange denominators and two index slips): for x^2 at 0..4 it gives -176 instead of 2, and for equally spaced points always -2 h^2 times a weighted sum of the values.",
  "all lists of distinct abscissae and all ordinates", CONT, ["pvlib/ivtools/utils.py:_numdiff"])
p("Schumaker spline of an IV curve",
  "For increasing abscissae the spline's knots increase, its unflagged rows are the data points in order, and at most one flagged knot lies between neighbouring data points; data slopes are harmonic means of the neighbouring chords (0 at extrema, one-sided at the left end); pieces start on the curve and join with equal value and slope at inserted knots; without an inserted knot slopes join exactly and values within the tolerance. Finding: the piece after an inserted knot uses the wrong interval length and misses the next data point by an explicit amount.",
  "all increasing abscissae and all ordinates", CONT, ["pvlib/ivtools/utils.py:_schumaker_qspline"])
p("ASTM E1036 parameters",
  "astm_e1036 takes voc and isc from the first measured point nearest the axis when it is within 0.1% / 0.5%, and otherwise from the line fitted to the requested number of nearest points; vmp is the root of the fitted polynomial's derivative with the largest fitted power strictly inside the window around the first best measured point, pmp is that power, imp = pmp / vmp and ff = pmp / (voc isc); it fails, with ValueError, exactly when there is no measured point or no such root.",
  "all measured curves, limits, point counts and fitted polynomials", FIN, ["pvlib/ivtools/utils.py:astm_e1036"])
p("fit_sandia_simple",
  "Given the regression coefficients of a single diode curve, fit_sandia_simple returns exactly its five parameters; fitted by least squares to data whose linear and exponential portions follow the model it finds those coefficients; for any data the saturation current returned is positive and makes the equation hold at the maximum power point or at open circuit, or is the mean of the two currents that do; the line is fitted to the shortest prefix that contains all points below vlim v_oc and slopes down; values not given are read off the curve; the ways it fails are listed. Findings: without an exponential portion ZeroDivisionError is raised, not the documented RuntimeError; points at vlim v_oc exactly are not part of the linear portion although documented.",
  "all curves, limits, coefficients and least-squares routines", CONT, ["pvlib/ivtools/sde.py:fit_sandia_simple,_sandia_beta0_beta1,_sandia_beta3_beta4,_sandia_simple_params"])
p("Co-content method",
  "_fit_sandia_cocontent computes, for each data point, the integral of isc minus the spline through the data; on a single diode curve that integral is a quadratic in V and Isc - I whose coefficients give back series and shunt resistance and ideality factor exactly; the least-squares regression in shifted, scaled and rotated coordinates finds the coefficients whenever the data determine them; too few points or unequal lengths raise ValueError. Finding: the photocurrent returned satisfies the single diode equation at short circuit only if the series resistance is 1 ohm, because the exponent omits it.",
  "all curves with increasing voltages, all parameters", CONT, ["pvlib/ivtools/sde.py:_fit_sandia_cocontent,_cocontent,_cocontent_regress"])
p("fit_desoto",
  "The five equations solved by fit_desoto vanish exactly when the datasheet's short circuit, open circuit and maximum power points are those of the fitted device and its open circuit voltage two degrees above reference, translated by calcparams_desoto, follows beta_voc; the search starts from the documented guesses or those given, unknown names in init_guess raise ValueError before anything is solved, the result is the solver's point under the documented keys, and an unsuccessful solver raises RuntimeError.",
  "all datasheets, guesses and root finders", CONT, ["pvlib/ivtools/sdm/desoto.py:fit_desoto,_system_of_equations_desoto"])
p("fit_desoto_batzelis",
  "The returned parameters are Batzelis' explicit equations with Lambert's W met within 1.3e-10 and alpha_sc unchanged; the residual current of the single diode equation at the maximum power, open circuit and short circuit points of the datasheet is given exactly.",
  "all datasheets", CONT, ["pvlib/ivtools/sdm/desoto.py:fit_desoto_batzelis"])
p("fit_cec_sam",
  "Without the SAM package ImportError is raised; otherwise its module is run on the renamed inputs, and its six results are returned if it reports success, else RuntimeError is raised.",
  "all datasheets and answers of the external module", FIN, ["pvlib/ivtools/sdm/cec.py:fit_cec_sam"])
p("Resistances from the maximum power point (Sandia fits)",
  "The series resistance computed by the Sandia fits puts the measured maximum power point on the single diode curve (within 1.3e-10 nNsVth/imp); a shunt resistance is left unchanged by the exact iteration step exactly when, with the matching series resistance, the measured point is the maximum power point of the curve; the step is taken 500 times and keeps fixed points and missing values. Finding: where the exponential overflows, the helper claims 8 digits but, because two names share one array, its Lambert W is too small by more than 9.8.",
  "all parameters and measured points", CONT, ["pvlib/ivtools/sdm/_fit_desoto_pvsyst_sandia.py:_update_rsh_fixed_pt,_calc_theta_phi_exact,_update_iv_params"])
p("Saturation current from the open circuit voltage (Sandia fits)",
  "Each step scales the saturation current by 1 + 2 d / (2 nNsVth - d) for the voltage error d, which keeps it positive and moves it the right way; when the change falls below the tolerance the measured open circuit voltage is met to 1.1e-8 nNsVth; all good curves are updated together, one to nine times, until the largest change is at most 1e-6 per cent; with no good curve ValueError is raised.",
  "all lists of curves and parameters", HIST, ["pvlib/ivtools/sdm/_fit_desoto_pvsyst_sandia.py:_update_io"])
p("Which curves the Sandia fits keep",
  "A curve is kept exactly when 0 <= Rs <= Rsh and Io > 0 (nothing missing) and its short circuit current is within 5% of the least-squares line through the origin over all curves. Finding: the comment promises to drop non-positive resistances, but a curve with Rs = Rsh = 0 is kept.",
  "all lists of curves and parameters", CONT, ["pvlib/ivtools/sdm/_fit_desoto_pvsyst_sandia.py:_filter_params"])
p("The iteration over all curves (Sandia fits)",
  "Initial parameters come from each curve's own data by the documented formulas and meet its short circuit; without a positive shunt resistance everything is missing and the curve is not used; the convergence statistics are the largest, smallest and mean relative errors at the maximum power point; at most maxiter rounds are made (at least two if allowed), stopping early exactly when no statistic changed by eps1 or more; every returned curve meets its short circuit, and a curve that is neither in use nor acceptable at the start keeps its parameters and never comes back; if no acceptable curve is left ValueError is raised.",
  "all lists of curves, iteration limits and tolerances", HIST, ["pvlib/ivtools/sdm/_fit_desoto_pvsyst_sandia.py:_initial_iv_params,_update_iv_params,_check_converge"])
p("Reference values from many curves (Sandia fits)",
  "From the parameters of curves that follow calcparams_pvsyst or calcparams_desoto exactly, the extraction returns the reference photocurrent, saturation current, resistances and (PVsyst) band gap that produced them; the shunt resistance fit has vanishing residuals exactly when its curve passes through every shunt resistance, two irradiances determine both values, and it starts from the documented point. Finding: for De Soto the fitted EgRef is 17.3% too large for silicon because of a sign error, and the test pins that value.",
  "all lists of curves at two or more irradiances and temperatures", CONT, ["pvlib/ivtools/sdm/_fit_desoto_pvsyst_sandia.py:_extract_sdm_params"])
p("fit_desoto_sandia and fit_pvsyst_sandia end to end",
  "The diode factor regression recovers the factor of a module whose open circuit voltage is linear in temperature and in the logarithm of irradiance, and the PVsyst regression recovers gamma and its temperature derivative from curves that follow the model; the fits run start, regression, iteration and extraction in that order on the same curves, return the documented keys, and raise exactly the listed errors.",
  "all lists of curves, solvers meeting their contracts", CONT, ["pvlib/ivtools/sdm/desoto.py:fit_desoto_sandia,_fit_desoto_sandia_diode", "pvlib/ivtools/sdm/pvsyst.py:fit_pvsyst_sandia,_fit_pvsyst_sandia_gamma"])
p("Steps of the PVsyst fit to IEC 61853 data",
  "On measurements of a module that follows the PVsyst equations exactly: the relative temperature coefficient and the shunt resistances are recovered; the series resistance is the coefficient of the current; the diode factor and the saturation current are found from below within the relative error of the exponential each formula neglects; the photocurrent is exact, or low by a bounded amount if the saturation current is; each post-fit estimate of the diode factor is high by at most an explicit fraction and the fitted line stays within (1 + sqrt n) times the largest error at every temperature measured.",
  "all lists of test conditions, all modules, all least-squares solvers", CONT, ["pvlib/ivtools/sdm/pvsyst.py:_fit_tempco_pvsyst_iec61853_sandia_2025,_fit_shunt_resistances_pvsyst_iec61853_sandia_2025,_fit_diode_ideality_factor_pvsyst_iec61853_sandia_2025,_fit_saturation_current_pvsyst_iec61853_sandia_2025,_fit_photocurrent_pvsyst_iec61853_sandia_2025,_fit_diode_ideality_factor_post_pvsyst_iec61853_sandia_2025"])
p("fit_pvsyst_iec61853_sandia_2025 and pvsyst_temperature_coeff",
  "alpha_sc, beta_mp and R_s are used unchanged when given; without alpha_sc there must be a condition near 1000 W/m2 (TypeError) and exactly one that is also near 25 C (ValueError), whose current scales the coefficient; the steps run in order, the diode factor from conditions near 25 C only and the rest from all, and the result has the documented keys. The temperature coefficient of power is the relative slope of maximum power at some temperature within the step, and exact for a linear power.",
  "all lists of test conditions, options and parameters", FIN, ["pvlib/ivtools/sdm/pvsyst.py:fit_pvsyst_iec61853_sandia_2025,pvsyst_temperature_coeff"])
p("SPECTRL2 direct spectrum",
  "spectrl2 returns 122 rows at increasing wavelengths from 300 to 4000 nm; dni is dni_extra times the five transmittances of the report, positive and never above dni_extra, which is the table value within the Earth-Sun distance factor; a larger airmass, pressure, precipitable water, ozone or aerosol depth never gives more at any wavelength; a pandas index determines the day of the year (an explicit dayofyear is ignored), otherwise a missing dayofyear raises ValueError.",
  "all atmospheres, sun positions and days", CONT, ["pvlib/spectrum/spectrl2.py:spectrl2,_spectrl2_transmittances"])
p("SPECTRL2 diffuse spectrum",
  "dhi is the sum of Rayleigh and aerosol scatter and of the whole geometric series of reflections between ground and sky, with the ultraviolet correction; sky reflectivity is in [0, 1/2) and at least half of the aerosol scatter goes forward (asymmetry up to 0.9), so dhi is not negative; over a black ground dni cos z + dhi never exceeds dni_extra cos z, and over any ground not twice that. Finding: an asymmetry factor very near 1 gives a negative diffuse irradiance.",
  "all atmospheres, albedos and days with the sun up", CONT, ["pvlib/spectrum/spectrl2.py:spectrl2"])
p("SPECTRL2 on tilted surfaces",
  "poa_global is poa_direct + poa_sky_diffuse + poa_ground_diffuse with the Hay-Davies sky and an isotropic ground; none is negative, a sun behind the surface gives no beam, and a horizontal surface receives exactly dni cos z + dhi when the sun is at least one degree up; where the airmass is nan every irradiance but dni_extra is nan.",
  "all surfaces, atmospheres, albedos and days", CONT, ["pvlib/spectrum/spectrl2.py:spectrl2"])
p("inverter.fit_sandia",
  "From noise-free measurements of a Sandia-model inverter at the levels Vmin, Vnom and Vmax (at least three DC powers at each), fit_sandia returns that inverter's parameters referred to the voltage of Vnom: the same AC power at every voltage and DC power, and the identical parameters if that is the inverter's reference voltage; p_ac_0 and p_nt are passed through; each level's data are used separately and other levels are ignored; a missing level raises TypeError. Findings: an inverter whose AC power is linear in DC power, or one without self-consumption, gets nan parameters and with them nan power.",
  "all inverters whose curves rise, all lists of measurements, all polynomial fits that are exact on exact data", CONT, ["pvlib/inverter.py:fit_sandia"])
p("Deprecated names",
  "warn_deprecated and the deprecated decorator announce name, version, removal date (soon if none is given), alternative and addendum in the documented words, in the category PendingDeprecationWarning if pending and pvlibDeprecationWarning otherwise; a pending deprecation with a removal date raises ValueError, nothing else does; each call of a decorated function gives exactly one such warning before any other and returns or raises exactly what the function does (so parse_bsrn, parse_cams and parse_epw are read_bsrn, read_cams and read_epw).",
  "all texts, functions and arguments", HIST, ["pvlib/_deprecation.py:_generate_deprecation_message,warn_deprecated,deprecated"])
p("Renamed parameters",
  "With renamed_kwarg_warning, a call with the old keyword gives one warning and is the call with the value under the new keyword, everything else unchanged; with both keywords ValueError is raised and the function is not called; without the old keyword the call is passed on unchanged and without a warning.",
  "all functions, names and keyword arguments", FIN, ["pvlib/_deprecation.py:renamed_kwarg_warning"])
p("read_panond: structure",
  "The content of a .PAN or .OND file with sections shown by indentation of any depth is returned as nested dicts in file order, a section's own key and value repeated as its first entry, later entries of the same key replacing earlier ones; the last line only closes the file (so the last entry of a file without an End line is lost); a blank line is harmless unless the next line is deeper than the one before. Finding: after a section header a blank line raises IndexError or puts the section's entries into the previous section.",
  "all files, all depths of nesting", HIST, ["pvlib/iotools/panond.py:read_panond,_parse_panond"])
p("read_panond: values",
  "A value with commas is the list of the values between them; one with a dot is a float if float() accepts it, one without a dot an int if int() accepts it, anything else stays text; a line without an equals sign has the value None; text after a second equals sign is dropped.",
  "all lines of text", FIN, ["pvlib/iotools/panond.py:_num_type,_element_type,_parse_panond"])
p("read_tmy3: time index",
  "Each row of a TMY3 file is labelled with its own local time, 24:00 being midnight of the next day and a February 29 moved to March 1; with coerce_year a typical year whose last row is December 31, 24:00 is labelled with the rows' own times in that year. ValueError exactly if a date does not exist. Findings: with coerce_year the last row is put into the following year whatever its date, so a file with hours 0..23 ends a year late; with a leap coerce_year the midnight after February 28 is labelled one day late.",
  "all rows, all years", CONT, ["pvlib/iotools/tmy.py:read_tmy3"])
p("read_tmy3, read_epw: site header",
  "The cells of the header line become the site record, further cells are ignored; KeyError exactly if cells are missing, ValueError exactly if a number is expected and not found; the index is in the file's UTC offset, exact for every offset of a whole number of seconds and either sign.",
  "all header lines and offsets", FIN, ["pvlib/iotools/tmy.py:read_tmy3", "pvlib/iotools/epw.py:_parse_epw"])
p("read_tmy2",
  "Every value of a data line is read from the positions given in the TMY2 manual, source flags as texts and all others as numbers, ValueError exactly if one of those is not a number; latitude is positive for N and longitude for E; each row is labelled with the start of its hour in the year of the first row, ValueError exactly if there is no such day or hour. Findings: the last column is named LastSnowfallUncertaint; the present weather digits are read as one number.",
  "all lines and rows", FIN, ["pvlib/iotools/tmy.py:read_tmy2,_read_tmy2,_parsemeta_tmy2"])
p("read_epw: time index",
  "Each row is labelled with the start of its hour in its own year or in coerce_year; ValueError exactly if that year has no such day or the hour is not 1..24, in particular if a file with a February 29 is coerced to a year without one.",
  "all rows, all years", CONT, ["pvlib/iotools/epw.py:_parse_epw"])
p("read_surfrad, read_solrad",
  "Each row is labelled with its minute of its day (day of year in SURFRAD, month and day in SOLRAD files), one-digit numbers included, ValueError exactly if a row is no valid time; in SURFRAD files the value -9999.9 becomes nan and every other value is kept; the site line gives name, latitude, longitude, elevation and version (SURFRAD, last) or time zone (SOLRAD, fourth).",
  "all rows with a four-digit or larger year, all header tokens", FIN, ["pvlib/iotools/surfrad.py:read_surfrad,_format_index", "pvlib/iotools/solrad.py:read_solrad"])
p("read_crn, read_midc(raw_data): time index",
  "Times given as the number HHMM without leading zeros (5 is five past midnight) and dates as YYYYMMDD or year and day of year give exactly that minute; ValueError exactly if a row is no valid time.",
  "all rows", FIN, ["pvlib/iotools/crn.py:read_crn", "pvlib/iotools/midc.py:_format_index_raw"])
p("read_srml: time index",
  "If the first two rows are less than forty minutes apart within an hour, or one hour apart, every row, labelled in the file with the end of its interval as HHMM up to 2400, is labelled with its start. KeyError exactly for fewer than two rows. Findings: a file of half hours from the start of a day raises ValueError, and so does every file that starts with the last interval of an hour.",
  "all rows, intervals and years", CONT, ["pvlib/iotools/srml.py:_format_index"])
p("read_srml: columns",
  "Each flag column is renamed after the variable column before it and values with flag 99 become nan, everything else is kept; with map_variables the first three digits of a name give the variable and the rest the instrument, spectral and unknown names are kept; a variable without flag column raises KeyError.",
  "all tables with distinct names", FIN, ["pvlib/iotools/srml.py:read_srml,_map_columns"])
p("get_surfrad, get_solrad, get_srml",
  "One file per day (month for SRML) from start to end is asked for, in order and with distinct names; the tables found are concatenated in this order with the site data of the last one, each missing file gives one warning, ValueError is raised if no file is found, and any other exception stops the download at once. Finding: get_surfrad ignores map_variables (variables are always mapped).",
  "all date ranges and all patterns of missing files", HIST, ["pvlib/iotools/surfrad.py:get_surfrad", "pvlib/iotools/solrad.py:get_solrad", "pvlib/iotools/srml.py:get_srml"])
p("read_bsrn: metadata",
  "Start month, station number and version come from the second line; after the line of record 0004 every item is the text at its place without surrounding white space, latitude and longitude are shifted by 90 and 180 degrees to the equator and Greenwich, the horizon is the list of pairs up to the next record, sorted by azimuth without the placeholder -1; ValueError for an odd number of horizon values; no other errors than ValueError and IndexError. Finding: the message 'Mandatory record LR0004 not found' can never be raised; a file without that record fails with int('').",
  "all texts in the archive's layout, any length of the free lines and of the horizon", FIN, ["pvlib/iotools/bsrn.py:_parse_bsrn"])
p("read_bsrn: location of the records",
  "Whatever records a file contains and in whatever order, the rows read for a record are exactly the lines after its (last) header up to the next header or the end of the file; a record is looked for exactly if it occurs; a file without any record raises UnboundLocalError.",
  "all sequences of records with any number of lines", HIST, ["pvlib/iotools/bsrn.py:_parse_bsrn"])
p("read_bsrn: tables",
  "Lines written in the archive's Fortran formats (0100 and 0500 two lines per minute, 0300 one) give one row per minute, labelled with its UTC time, every quantity under its name; -99.9 (and -999 except in 0500) become nan and every other value is kept; if the last line is missing its values are nan; a record of a single line raises ValueError. Column names are distinct.",
  "all months, days, minutes and field texts of the given widths", FIN, ["pvlib/iotools/bsrn.py:_parse_bsrn,_empty_dataframe_from_logical_records"])
p("read_bsrn, get_bsrn: what is returned",
  "The tables are those of the requested records that the file contains, in the order 0100, 0300, 0500; ValueError exactly for an unknown record, an empty frame with the requested names if there is none. get_bsrn asks for one file per calendar month from start to end in order; the months found are concatenated with the metadata of the last, a warning names the missing ones (or says that none was found), an unknown station is a KeyError, any other answer of the server is raised at once.",
  "all requests, files, ranges of months and patterns of missing files", HIST, ["pvlib/iotools/bsrn.py:_parse_bsrn,get_bsrn"])
p("get_pvgis_tmy: change of time zone and year",
  "With roll_utc_offset h (-12..14) and coerce_year, the i-th row keeps its month, day, hour and minute, now read as local time h hours ahead of UTC in that year, and receives the data of the row h places before it (cyclically): for hourly data that fill the year every value stays at its UTC instant, up to a whole year at the ends; no row is lost or repeated, without offset only the year changes. KeyError exactly for other offsets, ValueError exactly for a February 29 in a year without one. Finding: coerced to a leap year and rolled forward, the first hours of March 1 hold data of February 28 labelled a day late.",
  "all row counts, offsets and years", CONT, ["pvlib/iotools/pvgis.py:_coerce_and_roll_tmy"])
p("read_pvgis_hourly: csv files",
  "Four lines give latitude, longitude, elevation and database, every further line 'key: value' up to the line starting with 'time,' becomes an entry of the inputs (blank lines are skipped, the last one of a key counts), the rows up to the next blank line become the table labelled with UTC minutes from YYYYMMDD:HHMM, columns under their pvlib names with map_variables, the column Int without decimals, and the remaining lines with a colon the descriptions. ValueError if there is no table, IndexError for a line without colon before it, KeyError without column Int.",
  "all files of this layout: any metadata, number of rows and columns, trailing white space", FIN, ["pvlib/iotools/pvgis.py:_parse_pvgis_hourly_csv"])
p("read_pvgis_tmy: csv files",
  "Three lines give the place, the next one optionally the time offset of the irradiance, twelve lines the year chosen for each month, then the table of 8760 rows with the column time(UTC) anywhere, labelled with UTC minutes, and the descriptions.",
  "all files of this layout", FIN, ["pvlib/iotools/pvgis.py:_parse_pvgis_tmy_csv"])
p("PVGIS: formats, years and horizon",
  "For json, csv and epw the download returns the parsed table, renamed with map_variables, with its own time stamps if neither offset nor year is given and otherwise coerced to the year given, 1990 by default; errors of the parser are passed on. read_pvgis_tmy raises ValueError for any other format. get_pvgis_horizon counts azimuths from north, in [0, 360), and drops only the repeated north point. Finding: get_pvgis_tmy raises ValueError only for 'basic', for other unknown formats AttributeError, TypeError or UnboundLocalError.",
  "all formats, offsets, years and profiles", FIN, ["pvlib/iotools/pvgis.py:get_pvgis_tmy,read_pvgis_tmy,get_pvgis_horizon"])
p("get_nasa_power: names and units",
  "Parameters known to pvlib are requested under their NASA names, others as they are, and the table answered carries the names asked for. The fill value becomes NaN in every column; with map_variables the sixteen NASA columns get their pvlib names, pressure is converted from kPa to Pa and precipitable water from kg/m2 to cm, every other value and column is unchanged; without it nothing else changes. Longitude, latitude and altitude come from the first three coordinates, IndexError with fewer.",
  "all parameter lists, fill values and tables without columns already called pressure or precipitable_water", FIN, ["pvlib/iotools/nasa_power.py:get_nasa_power"])
p("Solcast: names, units and time stamps",
  "Every column in the Solcast dictionary gets its pvlib name and is converted exactly once (hPa to Pa, mm to cm, azimuth to clockwise from north in [0, 360), congruent to the negated one), whatever the order and number of columns; others are unchanged. The time stamp is the middle of the period. Finding: get_solcast_historic also sends the API key as query parameter.",
  "all tables without columns already called pressure or solar_azimuth", FIN, ["pvlib/iotools/solcast.py:_solcast2pvlib,get_solcast_historic"])
p("get_solargis: names, missing values, resolution and metadata",
  "In the listed columns -9 becomes NaN, before names and units are converted exactly once per column (azimuth +180, hPa to Pa, kg/m2 to cm). The resolutions in minutes and ISO durations are translated, other numbers raise AttributeError. The metadata fields are those of the last piece 'key: value' after a '#', keys in any case, nothing else is taken; latitude, longitude and the altitude without its unit become numbers, KeyError if one is missing, ValueError if one is no number. Findings: -9 stays in GTIc (the list has GIc) and the columns with _C, 'PT30M' is not translated (the table has PT30).",
  "all tables, resolutions and metadata texts", FIN, ["pvlib/iotools/solargis.py:get_solargis"])
p("get_merra2: one column per variable",
  "For every variable, from its own or the common dataset, the table has the column answered with the answer's own fill value masked, in the order asked for; with map_variables the names are pvlib's and the temperature in degrees Celsius; latitude and longitude are those of the last answer. A header is read as 'key,value' lines up to a blank one. UnboundLocalError without variables, KeyError and ValueError for a missing or unreadable fill value. Findings: with fewer datasets than variables the others are dropped without a word, precipitable water stays in kg/m2 although it has the pvlib name of a quantity in cm.",
  "all variable lists, datasets and answers", FIN, ["pvlib/iotools/merra2.py:get_merra2"])
p("get_era5: names, units and polling",
  "pvlib names are requested under the ECMWF long names and the columns answered under the short names come back under the pvlib names, in degrees Celsius, W/m2 and cm; other names and columns are unchanged. The request is polled until it is successful or failed; after timeout + 1 polls without either a timeout is raised, never earlier, and never if one of these polls was successful.",
  "all variable lists, tables, timeouts and sequences of server states", HIST, ["pvlib/iotools/era5.py:get_era5"])
p("read_cams: header",
  "Lines before the one with the column names that contain ': ' become metadata entries, key without leading '#' and blanks, value up to a second ': ', the last one of a key counting; other lines are skipped; the columns are the names separated by semicolons. Finding: a file without a line starting with '# Observation period' is read for ever.",
  "all header texts of any number of lines", FIN, ["pvlib/iotools/sodapro.py:read_cams"])
p("read_cams: metadata",
  "The entries whose first word is latitude, longitude or altitude (in any case) become numbers under these names, the unit follows the argument integrated, the time step the integration period; every other entry is kept. ValueError for a place that is no number, KeyError for a missing or unknown integration period.",
  "all metadata dictionaries with at most one entry per place", FIN, ["pvlib/iotools/sodapro.py:read_cams"])
p("read_cams: time stamps",
  "Rows are labelled with the start or, with label='right', the end of their period; days with the date; months with their first day (left) or, by default and with right, their last day, whatever the month and year. With any other label daily and monthly files raise AttributeError, others silently get running numbers.",
  "all periods, months, years and labels", FIN, ["pvlib/iotools/sodapro.py:read_cams"])
p("read_cams, get_cams: energy, power and requests",
  "Unless integrated is set, each of the thirteen energy columns is divided by the length of its own period in hours, for every time step including months of any length; other columns are unchanged; pvlib names only with map_variables. get_cams raises ValueError exactly for an unknown time step or identifier; verbose output is requested only for 1 min UT and otherwise a warning issued; a missing altitude is sent as -999, the @ of the address as %2540.",
  "all time steps, periods, tables and arguments", FIN, ["pvlib/iotools/sodapro.py:read_cams,get_cams"])
p("NSRDB header lines: csv rows with quoted fields",
  "A header line in which every field is written as it is (if it contains no comma, quote or line end) or between quotes with its quotes doubled is read back as the same fields, whatever they contain, with any line end; the empty line and the end of the file are rows without fields; a row is refused, with csv.Error, only if a carriage return or line feed outside quotes is followed by more text.",
  "all lists of fields and ways of writing them, all texts", FIN, ["pvlib/iotools/psm4.py:read_nsrdb_psm4"])
p("read_nsrdb_psm4",
  "The metadata pair the fields of the first line with the values of the second (the last one of a name counting), the time zones and the elevation as integers, latitude and longitude as numbers, with map_variables under pvlib's names; the table is what the csv parser makes of the rest of the file under the column names left when blank ones are dropped, renamed as documented and with its values unchanged; row i is at its local date, hour and minute less the time zone. Failures are csv.Error, IndexError, KeyError or ValueError, KeyError for a time zone outside -12 ... 14.",
  "all header texts, tables and time zones", FIN, ["pvlib/iotools/psm4.py:read_nsrdb_psm4"])
p("get_nsrdb_psm4_*: request",
  "The six functions ask for a point with the longitude first, for each parameter under its request name (pvlib's names translated, others as they are), with true and false in lower case and everything else as given; the column answered for a pvlib name comes back under that name.",
  "all places, parameters and options", FIN, ["pvlib/iotools/psm4.py:get_nsrdb_psm4_aggregated,get_nsrdb_psm4_tmy,get_nsrdb_psm4_conus,get_nsrdb_psm4_full_disc,get_nsrdb_psm4_polar,get_nsrdb_psm4_polar_tmy"])
p("ACIS grids",
  "The columns are those asked for, in that order, under pvlib's names with map_variables, -999 being missing and every other value unchanged; the pair ll becomes longitude and latitude, in this order, the elevation metres instead of feet, every other entry of the metadata is kept. An answer with an error raises HTTPError, and no other answer does.",
  "all answers, elements and places", FIN, ["pvlib/iotools/acis.py:get_acis_prism,get_acis_nrcc,get_acis_mpe"])
p("ACIS stations",
  "In station data M is missing, T the trace value given, every other text the number it denotes, ValueError if it denotes none. get_acis_available_stations moves the place into longitude, latitude and altitude, KeyError exactly if one is missing; its box is west, south, east, north, dates are sent only if both are given. Finding: its altitude is in feet, unlike that of get_acis_station_data.",
  "all answers, trace values and station records", FIN, ["pvlib/iotools/acis.py:get_acis_station_data,get_acis_available_stations"])
p("read_solaranywhere",
  "The first line gives USAF, name, state, time zone, latitude, longitude and altitude and then, quotes removed, pairs of texts around a colon between slashes (pieces without a colon skipped, blanks stripped, the last one of a name counting), the resolution as a number; the index is the local time less the time zone, for every zone that is a whole number of seconds and less than a day, ValueError otherwise; -999 becomes NaN, every other value is unchanged and each known column, from files or from the API, gets its pvlib name. Failures to read the line are ValueError, IndexError or KeyError. Finding: a value with a colon in it makes the file unreadable.",
  "all first lines, time zones and tables", FIN, ["pvlib/iotools/solaranywhere.py:read_solaranywhere"])
p("get_solaranywhere: times and polling",
  "ValueError exactly for a probability of exceedance that is no integer, otherwise AttributeError exactly if one of start and end is given without the other; times without a zone are in UTC. The first answer that is Done decides, RuntimeError if it reports a failure; TimeoutError only after an answer that is not done and later than the timeout; with five seconds between the requests there are at most timeout/5 + 2 of them.",
  "all times, sequences of answers and clocks", HIST, ["pvlib/iotools/solaranywhere.py:get_solaranywhere"])
p("get_solaranywhere: answer",
  "Latitude, longitude and altitude become numbers under pvlib's names, the resolutions are added, every other entry is kept; the columns get pvlib's names with map_variables; KeyError if the place is missing.",
  "all answers", FIN, ["pvlib/iotools/solaranywhere.py:get_solaranywhere"])
p("Meteonorm: request",
  "Parameters, one or several, are asked for under the service's names, others as they are, and answered under pvlib's; lists are joined by commas, time steps translated, what is None is not sent; start and end are sent as the digits of their local date and time of day followed by Z, other texts as they are. Findings: a time in a zone other than UTC therefore asks for another instant; the albedo argument of get_meteonorm_tmy is never sent.",
  "all places, parameters, times, options", FIN, ["pvlib/iotools/meteonorm.py:get_meteonorm_forecast_basic,get_meteonorm_forecast_precision,get_meteonorm_observation_realtime,get_meteonorm_observation_training,get_meteonorm_tmy"])
p("Meteonorm: answer",
  "Exactly the columns without values are dropped, the others keep their order and values; each row is labelled with its period or the middle of it; with map_variables columns and place have pvlib's names, every other entry of the metadata is kept; HTTPError if the request failed, KeyError if the place is missing.",
  "all answers", FIN, ["pvlib/iotools/meteonorm.py:_parse_meteonorm"])
p("ghi_from_poa_driesse_2024",
  "The result is that of the documented bisection between 0 and the extraterrestrial irradiance: NaN and not converged if the plane-of-array irradiance has no sign change or an argument is missing, 0 for none, NaN for NaN, otherwise a value between the limits after at most 25 halvings; where the transposition is increasing in ghi a converged value is within xtol of the true ghi, where it is continuous it is within xtol of one that reproduces poa_global exactly, and on a horizontal plane ghi is recovered. Elements are independent; ValueError only for xtol <= 0 or no data. Finding: for small xtol 25 halvings do not suffice, and the value is not within xtol.",
  "all geometries, irradiances, tolerances and Perez spline coefficients", CONT, ["pvlib/irradiance.py:ghi_from_poa_driesse_2024"])
p("ModelChain.with_pvwatts, with_sapm, get_orientation",
  "Each named configuration, with any keywords, is the ModelChain with the documented defaults overridden by the caller's keywords, whatever their order, TypeError exactly for a keyword ModelChain does not have; without keywords it succeeds exactly if every array has the module parameters of the DC model and the temperature parameters infer sapm, ValueError otherwise. get_orientation answers for its two strategies, KeyError without a latitude, ValueError for others. Finding: with_pvwatts accepts a system whose inverter has no parameters.",
  "all systems and keyword arguments", FIN, ["pvlib/modelchain.py:ModelChain.__init__,ModelChain.with_pvwatts,ModelChain.with_sapm,get_orientation"])
p("get_extra_radiation at times and days",
  "asce and spencer give the solar constant times the documented factor at the day of the year of the date a time has in UTC (naive times: their own date), of a date, or of a number as it is; pyephem and nrel give it over the square of the distance at the instant, a number counting as that many days, to the microsecond, after the end of the year before epoch_year, so that whole numbers are the midnights of the days of epoch_year. One result per input, in order. ValueError exactly for other methods or a missing day with the distance methods, OverflowError for infinite ones. Finding: two times of one local day can have different values, since the date is that in UTC.",
  "all indices, time stamps, dates, numbers, arrays and solar constants", CONT, ["pvlib/irradiance.py:get_extra_radiation,_handle_extra_radiation_types", "pvlib/tools.py:_pandas_to_doy,_pandas_to_utc,_doy_to_datetimeindex,_datetimelike_scalar_to_doy"])
p("sun_rise_set_transit_ephem and calc_time",
  "PyEphem is asked for the next (previous) rising, setting and transit at the instant of each time, at the site, with the pressure in millibar; each answer is given to the nearest microsecond in the zone of the times. ValueError for naive times or another word; otherwise exactly the first error of the library (a sun that does not rise) is raised. calc_time gives a time in UTC, between the bounds, that is within the solver's tolerances in days, plus half a microsecond, of a time at which the attribute has the value; ValueError if the attribute is on one side of the value at both bounds or the tolerance is not positive.",
  "all times, sites, bounds, values, and every PyEphem and brentq as documented", CONT, ["pvlib/solarposition.py:sun_rise_set_transit_ephem,calc_time,_ephem_setup,_ephem_to_timezone,_ephem_convert_to_seconds_and_microseconds", "pvlib/tools.py:datetime_to_djd,djd_to_datetime"])
p("gti_dirint: times in front of the plane",
  "ValueError exactly without an angle of incidence below 90, then UnboundLocalError without iterations, then only what the transposition raises for the names of the models. The result of a time with angle of incidence below 90 is the guess, of those of the iterations made, whose modelled irradiance in the plane is closest to the measured, the earliest such: from the adjusted irradiance the clearness index, DISC beam times DIRINT coefficient, ghi and the rest dhi; it is within 1 W/m^2 of the measured unless a warning is given. ghi, dni, dhi are never negative, and dhi is ghi less the horizontal part of dni or 0. Finding: if the clearness index from the measured irradiance, corrected for the zenith, exceeds 1, dni and dhi are missing.",
  "all series of times, angles, irradiances, pressures, dew points, albedos, iterations and models", CONT, ["pvlib/irradiance.py:gti_dirint,_gti_dirint_lt_90"])
p("gti_dirint: times behind the plane",
  "A time at day with angle of incidence of at least 90 gets the beam of the mean kt' of the times of the same local day and half of the day with angle of incidence between 65 and 80 (missing without such, at noon and at night), and the diffuse irradiance with which an isotropic sky and the ground give the measured irradiance in the plane, ghi being the sum; dhi is negative exactly if the ground-reflected beam alone exceeds the measured irradiance. Finding: the DIRINT coefficient is that of the time's own kt'.",
  "all series as before", CONT, ["pvlib/irradiance.py:gti_dirint,_gti_dirint_gte_90,_gti_dirint_gte_90_kt_prime"])
p("pvfactors_timeseries: what is calculated and returned",
  "Tilt and azimuth of the surface, given once or for every time, reach the engine at every time of the solar positions, every other argument unchanged; the four results are incident front, incident back, absorbed front and absorbed back irradiance of the observed row (negative numbers counting from the end), one value per time stamp. ValueError for other lengths, IndexError for a row that does not exist. Finding: with integer solar zeniths the tilt and azimuth are cut to whole degrees.",
  "all times, angles, irradiances, rows and every engine", FIN, ["pvlib/bifacial/pvfactors.py:pvfactors_timeseries"])
p("retrieve_sam: the table of a database",
  "Every named product has every value of its row, under the name of the row with blanks replaced by underscores; the coefficients of the ADR model, texts of words between brackets, become lists of numbers. The only failures: a word that is no number (ValueError), a missing cell of these coefficients (AttributeError). Finding: coefficients separated by commas, as a comment in the code describes, are a ValueError.",
  "all databases", FIN, ["pvlib/pvsystem.py:_parse_raw_sam_df,retrieve_sam"])
p("read_crn",
  "A file is read exactly if every line with a value has readable numbers in its columns, a valid date and a time HHMM (5 being five past midnight); then these lines, and no others, are the rows in order, with times in UTC, every number as written except that the mark of its column for a missing value becomes NaN, and the columns under pvlib's names if asked for. Every failure is a ValueError. Finding: the missing mark -99999 of the data logger's version stays, as that column is text.",
  "all files of 23 columns", FIN, ["pvlib/iotools/crn.py:read_crn"])
p("read_midc",
  "A processed file is read exactly if its stamps are month/day/year and hour:minute (one or two digits, year of four) of existing days; the index is these local times in the zone of the label of the second column (PST and CST being UTC-8 and UTC-6 all year), every column unchanged under the name that the map gives it. A raw file is read by year, day of the year and HHMM likewise, the label of the fourth column being the zone. IndexError without these columns, KeyError without the date column, TypeError for stamps that are no text, ValueError for stamps that are no times, or what the localization raises. Requests carry both dates as YYYYMMDD.",
  "all files, maps and time zones", FIN, ["pvlib/iotools/midc.py:read_midc,_format_index,_format_index_raw,read_midc_raw_data_from_nrel"])
p("localize_to_utc",
  "A datetime with a time zone keeps its instant. A naive datetime becomes the first instant at which the clocks of the location show it and, when they skip it, the instant that the offset before the change gives; it is never an error. An index with a time zone keeps its instants; a naive index is converted exactly if each of its times is shown exactly once, and otherwise the first time that is shown twice or never decides which error is raised",
  "all instants, naive times, indexes of any length, and time zones whose offsets are at most a day and whose changes are at least two days apart", FIN, ["pvlib/tools.py:localize_to_utc"])
p("get_reference_spectra",
  "Exactly one standard exists, every other name is a ValueError. Without wavelengths the table of the standard is returned as it is; with them the index is exactly these wavelengths in their order and every column, under its name, holds the linear interpolation between neighbouring rows, the last row at the last wavelength and 0 outside the table; asking for the table's own wavelengths gives the table",
  "all standards, wavelengths (unordered, repeated or outside too) and tables with increasing wavelengths", FIN, ["pvlib/spectrum/irradiance.py:get_reference_spectra"])
p("get_example_spectral_response",
  "One value per wavelength, in order: the cubic spline through the 13 published points from 290 to 1190 nm, so the published responses at the published wavelengths, and 0 outside; without wavelengths the 185 from 280 to 1200 nm in steps of 5",
  "all wavelengths and every spline through its points", FIN, ["pvlib/spectrum/response.py:get_example_spectral_response"])
p("Shapes of the arguments of the Bishop solvers",
  "With the newton method scalars stay scalars; otherwise every argument becomes an array of its shape and the initial guess is stretched to the first of the shapes with the most elements, an error exactly if it does not broadcast to it. If all arguments broadcast to a shape without empty axes that one of them has, the guess gets this shape up to leading axes of length 1; with scalars and arrays of one shape of at least two elements, exactly this shape",
  "all numbers of arguments, ranks and shapes", FIN, ["pvlib/singlediode.py:bishop88_i_from_v,bishop88_v_from_i,bishop88_mpp,_shape_of_max_size,_prepare_newton_inputs"])
p("Brackets of the chandrupatla method",
  "For voltage and current both ends of the bracket get the shape of the larger of the first argument and the estimated open-circuit voltage; for the maximum power point they get the shape of the photocurrent and lie at 0 and the open-circuit voltage; in both cases an error exactly if the open-circuit voltage does not broadcast to that shape",
  "all shapes and voltages", FIN, ["pvlib/singlediode.py:bishop88_i_from_v,bishop88_v_from_i,bishop88_mpp"])
p("Clear-sky models on arrays of integers",
  "haurwitz on a series of float zeniths is the published irradiance of each; on zeniths of an integer type it is the whole part of it. simplified_solis on float optical depths and a scalar precipitable water is the published model; on optical depths of an integer type ghi and dni still are, while dhi is that of the whole centimetres of water",
  "all zeniths, elevations, optical depths, water contents and pressures", CONT, ["pvlib/clearsky.py:haurwitz,simplified_solis,_calc_taud"])
p("get_era5, get_merra2: the times asked for",
  "ERA5 is asked for the calendar days, in UTC, of the start and the end, MERRA-2 for the two times in UTC to the second and without a zone; times without a zone are taken as UTC, offsets carry over days, months, leap days and years; the only error is the ValueError of a text that is no time",
  "all dates, times and UTC offsets of less than a day", FIN, ["pvlib/iotools/era5.py:get_era5", "pvlib/iotools/merra2.py:get_merra2"])
p("get_nasa_power, get_cams, get_solargis: the days asked for",
  "Each asks for the calendar days that the start and the end have in their own time zone, which is otherwise not looked at: the day asked for is the day in UTC exactly if the offset does not carry the time over midnight, else the day after or before; the only error is the ValueError of a text that is no time",
  "all dates, times and UTC offsets of less than a day", FIN, ["pvlib/iotools/nasa_power.py:get_nasa_power", "pvlib/iotools/sodapro.py:get_cams", "pvlib/iotools/solargis.py:get_solargis"])
p("get_pvgis_hourly: the request",
  "Each parameter is sent once: the azimuth counted from the south, truth values as 0 or 1, a user horizon joined by commas, the years of integers or of times on their own clocks; horizon, database, years and peak power only if given; the only error is the ValueError of a text that is no time",
  "all combinations of arguments", FIN, ["pvlib/iotools/pvgis.py:get_pvgis_hourly"])
p("get_pvgis_tmy, get_pvgis_horizon: the requests",
  "Place and format are always sent, the horizon always as JSON; usehorizon is sent as 0 and only if it is false, a user horizon joined by commas and the years only if given; each parameter once",
  "all combinations of arguments", FIN, ["pvlib/iotools/pvgis.py:get_pvgis_tmy,get_pvgis_horizon"])
p("get_solcast_*: the requests",
  "Place and the JSON format are sent, for the past also start, end and duration as far as given and the key, and every further keyword that is not None; of the further keywords only format is refused, with a TypeError; the key is part of the address for the past only; the four services have different endpoints",
  "all arguments and further keywords", FIN, ["pvlib/iotools/solcast.py:get_solcast_tmy,get_solcast_historic,get_solcast_forecast,get_solcast_live"])
