"""What was done about every mutant that survived: (file, definition, fragment of the edit) -> (claim, tightened theorems)."""
NOTES={
('Inverter','pvwatts','#1 in'):('none: equivalent program (the value is multiplied by a zero power ratio)',[]),
('Snow','hourly_snow_rate','=> #0 end'):('none: equivalent program (the rate list is empty in that branch)',[]),
('Shading','shaded_fraction1d','* cos_theta_2_S_diff_abs'):('C22 the shaded fraction is the shaded part of the row',['C22_shaded_part','C22_shaded_part_same_rotation']),
('Shading','masking_angle_passias',''):('C22 the Passias angle is the mean masking angle of the row',['C22_passias_is_mean_masking_angle']),
('Atmosphere','HELLMANN_SURFACE_EXPONENTS',''):('C43 published exponents for the named surfaces',['C43_wind_surface_types']),
('Atmosphere','WATER_COLOR_COEFFS',''):('C57 published coefficients for the named water conditions',['C57_surface_conditions']),
('Iam','fit_setup',''):('C62 how the optimiser is started',['C62_fit_start','C62_fit_minimises_misfit']),
('Iam','region_mask',''):('none: equivalent program (an unknown region raises before the mask is used)',[]),
('Pvsystem','first_ge',''):('C46 combine_loss_factors with other fill methods',['C46_combine_backfill','C46_combine_no_fill','C46_combine_other_missing']),
('IrradDecomp','disc',''):('C94 no beam beyond max_zenith',['C94_disc_zero','C94_disc_value']),
('IrradDecomp','dirindex_combine',''):('C94 dirindex is the clear-sky beam times the dirint ratio',['C94_dirindex']),
('Irradiance','perez_row_fl',''):('none: equivalent program (every row index is below 8, C08_no_row covers nan inputs before the table is used)',[]),
('System','desoto_kw',''):('C48 documented defaults of the module parameters',['C48_desoto_parameters','C48_cec_parameters','C48_pvsyst_parameters','C48_missing_parameter']),
('System','nan_sample',''):('none: equivalent program (the sample only probes for parameter errors, its values never matter)',[]),
('Iam','mrd_tilt',''):('C63 singular tilts are nudged by 1e-6 degrees',['C63_martin_ruiz_limits']),
('Iam','phys_n2',''):('C37 coated physical modifier',['C37_physical_coated','C37_physical_coating_ignored']),
('Iam','fclose',''):('C37 coated physical modifier',['C37_physical_coated','C37_physical_coating_ignored']),
('Bifacial','rows_of',''):('C90 a layout without a number of rows is refused',['C90_rows_not_finite']),
('Pvarray','adr_wrapper',''):('C100 the curve handed to curve_fit takes the five parameters',['C100_fit_curve_arity']),
('Spa','julian_day',''):('none: equivalent program (x * 1 = x / 1)',[]),
('Spa','julian_ephemeris_century',''):('none: equivalent program (x * 1 = x / 1)',[]),
('Location','truthy_meta',''):('none: a time zone object as the City entry is outside the documented metadata types',[]),
('Location','meta_num',''):('none: a non-numeric latitude or longitude entry is outside the documented metadata types',[]),
('Scaling','shift_left',''):('none: equivalent program (the list has at least two entries)',[]),
('IvUtils','diff5_second',''):('C121 what is returned as second derivative',['C121_second_equally_spaced']),
('IvUtils','argmax',''):('C123 astm_e1036 raises ValueError',['C123_refuses']),
('IvUtils','row_before',''):('none: equivalent program (the order of the points is irrelevant, C120_order)',[]),
('Sde','predictors',''):('none: the definition was not used; removed',[]),
('Sde','rmean',''):('none: the fitted coefficients do not depend on the centring (C125_rotation)',[]),
('SdmSandia','np_min',''):('none: not reached for an empty list (the starting values fail first)',[]),
('SdmSandia','start_rsh',''):('C134 thermal voltage given to the co-content fit',['C134_start']),
('SdmSandia','initial_loop','Pars #0'):('none: equivalent program (only the shunt resistance of the default is read, and the index is in range)',[]),
('SdmIec','fit_diode_ideality_factor_post',''):('none: lstsq returns one coefficient per column, the branch is not reached',[]),
('Deprecation','newline',''):('C141 the text of a deprecation warning starts on a new line',['the theorem on warn_deprecated (own line break instead of the model\'s)']),
('Tmy','epw_head',''):('C146 names of the text entries of an EPW header',['C146_epw']),
('Bsrn','to_float',''):('C154 a header that cannot be read raises ValueError',['C154_errors']),
('Bsrn','dict_get',''):('none: equivalent program (the default is not reached, every record looked up has been located)',[]),
('Bsrn','col_specs_0300',''):('none: equivalent program on files of the documented format (column 54 is a separator)',[]),
('Pvgis','hourly_inputs',''):('none: equivalent program (the fuel is larger than the number of lines, it is never used up)',[]),
('Web','era5_wait',''):('none: equivalent program (the fuel is not used up before the timeout)',[]),
('Services','acis_grid_params',''):('C174 what the request contains',['C174_request']),
('Services','acis_elev',''):('C174 elevations given as integers are in metres too',['C174_place','C174_grid']),
('Services','int_entry',''):('C172 a missing number of the header is a KeyError, one that is no number a ValueError',['C172_header_numbers']),
('Services','value_float',''):('C178 the kind of error of a place that is no number',['C178_not_a_number']),
('Cams','entry_float',''):('none: equivalent program (the keys looked up are those of the dictionary)',[]),
('Configs','with_keywords','ValueError'):('none: equivalent program (the configurations and the remaining keywords never contain a named keyword)',[]),
('GtiDirint','gti_warns',''):('none: equivalent program (the flag of the first iteration only decides which values are kept, the test of convergence reads the differences); noticed then that nothing said when the warning is given: C185_warning',['C185_warning']),
('GtiDirint','gti_nan',''):('none: equivalent program (the default for an index outside the table, never used)',[]),
('GtiDirint','gti_row0',''):('none: equivalent program (the default for an index outside the table, never used)',[]),
('GtiDirint','gti_coefficient','Err _ => #0'):('none: equivalent program (dirint_coeff is never an error: C13)',[]),
('GtiDirint','gti_first',''):('none: equivalent program (the case of 0 comes first)',[]),
('Readers','six_nuls',''):('C189 the six NUL characters that mark a missing version',['C189_result']),
}
