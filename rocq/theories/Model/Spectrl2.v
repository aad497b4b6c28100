(** spectrum/spectrl2.py.  One time stamp: every array of shape (122, 1) is one value per table row; with more time stamps each column is computed alike. *)
From Verif Require Import Base.Fl Base.Py Model.Atmosphere Model.Irradiance Model.Spectrl2Tables.
Open Scope R_scope.
Open Scope list_scope.

Record transmittances := Trans { tD : fl; tR : fl; tA : fl; tW : fl; tO : fl; tU : fl; tAS : fl; tAA : fl }.
(** spectrl2.py:86-171 _spectrl2_transmittances; get_extra_radiation(dayofyear, method='spencer', solar_constant=1) is [#1 * spencer_factor] *)
Definition spectrl2_transmittances (c : sp2) (apparent_zenith relative_airmass surface_pressure precipitable_water ozone optical_thickness scattering_albedo dayofyear : fl) : transmittances :=
  (let earth_sun_distance_correction := #1 * spencer_factor dayofyear in
   let airmass := relative_airmass * surface_pressure / #101300 in
   let wavelength_um := #(lam c) / #1000 in
   let rayleigh := fexp (- airmass / (fpown wavelength_um 4 * (#115.6406 - #1.3366 / fpown wavelength_um 2))) in
   let aerosol := fexp (- optical_thickness * relative_airmass) in
   let aWM := #(aw c) * precipitable_water * relative_airmass in
   let vapor := fexp (- #0.2385 * aWM / fpow (#1 + #20.07 * aWM) #0.45) in
   let h0_norm := #22 / #6370 in
   let ozone_mass := (#1 + h0_norm) / fsqrt (fpown (cosd apparent_zenith) 2 + #2 * h0_norm) in
   let ozone_t := fexp (- #(ao c) * ozone * ozone_mass) in
   let aM := #(au c) * airmass in
   let mixed := fexp (- #1.41 * aM / fpow (#1 + #118.3 * aM) #0.45) in
   let scattering := fexp (- scattering_albedo * optical_thickness * relative_airmass) in
   let absorption := fexp (- (#1 - scattering_albedo) * optical_thickness * relative_airmass) in
   Trans earth_sun_distance_correction rayleigh aerosol vapor ozone_t mixed scattering absorption)%fl.

(** one row of the returned dict: wavelength, dni_extra, dhi, dni, poa_sky_diffuse, poa_ground_diffuse, poa_direct, poa_global *)
Record spectral := Spectral { o_wavelength : fl; o_dni_extra : fl; o_dhi : fl; o_dni : fl; o_sky : fl; o_ground : fl; o_direct : fl; o_global : fl }.
(** the arguments other than dayofyear, in order *)
Record sp2_args := Sp2Args { apparent_zenith : fl; aoi : fl; surface_tilt : fl; ground_albedo : fl; surface_pressure : fl; relative_airmass : fl; precipitable_water : fl; ozone : fl;
  aerosol_turbidity_500nm : fl; scattering_albedo_400nm : fl; alpha : fl; wavelength_variation_factor : fl; aerosol_asymmetry_factor : fl }.
(** spectrl2.py:302-397 *)
Definition spectrl2_row (x : sp2_args) (dayofyear : fl) (c : sp2) : spectral :=
  (let wavelength := #(lam c) in
   let optical_thickness := angstrom_aod_at_lambda (aerosol_turbidity_500nm x) #500 (alpha x) wavelength in
   let scattering_albedo := scattering_albedo_400nm x * fexp (- wavelength_variation_factor x * fpown (fln (wavelength / #400)) 2) in
   let t := spectrl2_transmittances c (apparent_zenith x) (relative_airmass x) (surface_pressure x) (precipitable_water x) (ozone x) optical_thickness scattering_albedo dayofyear in
   let spectrum_et_adj := #(et c) * tD t in
   let Id := spectrum_et_adj * tR t * tA t * tW t * tO t * tU t in
   let cosZ := cosd (apparent_zenith x) in
   let Cs := if fleb wavelength #450 then fpow ((wavelength + #550) / #1000) #1.8 else #1 in
   let ALG := fln (#1 - aerosol_asymmetry_factor x) in
   let BFS := ALG * (#0.0783 + ALG * (- #0.3824 - ALG * #0.5874)) in
   let AFS := ALG * (#1.459 + ALG * (#0.1595 + ALG * #0.4129)) in
   let Fs := #1 - #0.5 * fexp ((AFS + BFS * cosZ) * cosZ) in
   let Fsp := #1 - #0.5 * fexp ((AFS + BFS / #1.8) / #1.8) in
   let p := spectrl2_transmittances c (apparent_zenith x) #1.8 (surface_pressure x) (precipitable_water x) (ozone x) optical_thickness scattering_albedo dayofyear in
   let sky_reflectivity := tU p * tW p * tAA p * (#0.5 * (#1 - tR p) + (#1 - Fsp) * tR p * (#1 - tAS p)) in
   let common_factor := spectrum_et_adj * cosZ * tO t * tU t * tW t * tAA t in
   let Ir := common_factor * (#1 - fpow (tR t) #0.95) * #0.5 in
   let Ia := common_factor * fpow (tR t) #1.5 * (#1 - tAS t) * Fs in
   let rs := sky_reflectivity in
   let rg := ground_albedo x in
   let Ig := (Id * cosZ + Ir + Ia) * rs * rg / (#1 - rs * rg) in
   let Is := (Ir + Ia + Ig) * Cs in
   let aoi_projection_nn := fmax (cosd (aoi x)) #0 in
   let Ibeam := Id * aoi_projection_nn in
   let projection_ratio := aoi_projection_nn / fmax cosZ #0.01745 in
   let Isky := sky_total (haydavies (surface_tilt x) NaN Is Id spectrum_et_adj NaN NaN (Some projection_ratio)) in
   let ghi := Id * cosZ + Is in
   let Iground := ground_diffuse (surface_tilt x) ghi rg in
   let Itilt := Ibeam + Isky + Iground in
   Spectral wavelength spectrum_et_adj Is Id Isky Iground Ibeam Itilt)%fl.
(** spectrl2.py:174-397; [index] is the day of year of a pandas time stamp, None for numbers and arrays (278-296) *)
Definition spectrl2 (x : sp2_args) (index dayofyear : option fl) : res (list spectral) :=
  match index, dayofyear with
  | Some d, _ => Ok (map (spectrl2_row x d) SPECTRL2_COEFFS)
  | None, Some d => Ok (map (spectrl2_row x d) SPECTRL2_COEFFS)
  | None, None => Err ValueError
  end.
