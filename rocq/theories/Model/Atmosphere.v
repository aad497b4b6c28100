(** Model of pvlib/atmosphere.py and pvlib/albedo.py (element-wise functions on one element). *)
From Verif Require Import Base.Fl Base.Py.
Open Scope fl_scope.

(** atmosphere.py:16-53 pres2alt *)
Definition pres2alt (pressure : fl) : fl := #44331.5 - #4946.62 * fpow pressure #0.190263.

(** atmosphere.py:56-93 alt2pres *)
Definition alt2pres (altitude : fl) : fl :=
  #100 * fpow ((#44331.514 - altitude) / #11880.516) (#1 / #0.1902632).

(** atmosphere.py:96-131 get_absolute_airmass *)
Definition get_absolute_airmass (airmass_relative pressure : fl) : fl :=
  airmass_relative * pressure / #101325.

(** atmosphere.py:223-224: zenith above 90 becomes nan *)
Definition airmass_z (zenith : fl) : fl := where_ (fgtb zenith #90) NaN zenith.

(** atmosphere.py:229-253, one formula per model, on the masked zenith [z] *)
Definition am_kastenyoung1989 (z : fl) : fl :=
  #1 / (fcos (fradians z) + #0.50572 * fpow (#6.07995 + (#90 - z)) #(-1.6364)).
Definition am_kasten1966 (z : fl) : fl :=
  #1 / (fcos (fradians z) + #0.15 * fpow (#93.885 - z) #(-1.253)).
Definition am_simple (z : fl) : fl := #1 / fcos (fradians z).
Definition am_pickering2002 (z : fl) : fl :=
  #1 / fsin (fradians (#90 - z + #244 / (#165 + #47 * fpow (#90 - z) #1.1))).
Definition am_youngirvine1967 (z : fl) : fl :=
  let sec_zen := #1 / fcos (fradians z) in
  sec_zen * (#1 - #0.0012 * (sec_zen * sec_zen - #1)).
Definition am_young1994 (z : fl) : fl :=
  let c := fcos (fradians z) in
  (#1.002432 * (c ^ 2) + #0.148386 * c + #0.0096467)
  / (c ^ 3 + #0.149864 * (c ^ 2) + #0.0102963 * c + #0.000303978).
Definition am_gueymard1993 (z : fl) : fl :=
  #1 / (fcos (fradians z) + #0.00176759 * z * fpow (#94.37515 - z) #(-1.21563)).
Definition am_gueymard2003 (z : fl) : fl :=
  #1 / (fcos (fradians z) + #0.48353 * fpow z #0.095846 / fpow (#96.741 - z) #1.754).

(** atmosphere.py:134-260 get_relative_airmass; the Series index handling is omitted. *)
Definition get_relative_airmass (zenith : fl) (model : string) : res fl :=
  let z := airmass_z zenith in
  let m := lower model in
  if String.eqb m "kastenyoung1989" then Ok (am_kastenyoung1989 z)
  else if String.eqb m "kasten1966" then Ok (am_kasten1966 z)
  else if String.eqb m "simple" then Ok (am_simple z)
  else if String.eqb m "pickering2002" then Ok (am_pickering2002 z)
  else if String.eqb m "youngirvine1967" then Ok (am_youngirvine1967 z)
  else if String.eqb m "young1994" then Ok (am_young1994 z)
  else if String.eqb m "gueymard1993" then Ok (am_gueymard1993 z)
  else if String.eqb m "gueymard2003" then Ok (am_gueymard2003 z)
  else Err ValueError.

(** atmosphere.py:263-343 gueymard94_pw *)
Definition gueymard94_pw (temp_air relative_humidity : fl) : fl :=
  let T := temp_air + #273.15 in
  let RH := relative_humidity in
  let theta := T / #273.15 in
  let pw :=
    #0.1 * (#0.4976 + #1.5265 * theta + fexp (#13.6897 * theta - #14.9188 * (theta ^ 3)))
    * (#216.7 * RH / (#100 * T)
       * fexp (#22.330 - #49.140 * (#100 / T) - #10.922 * ((#100 / T) ^ 2) - #0.39015 * T / #100)) in
  fmax pw #0.1.

(** atmosphere.py:346-395 rh_from_tdew; coeff = (c0, c1, c2) *)
Definition rh_from_tdew (temp_air temp_dew c0 c1 c2 : fl) : fl :=
  let e := c0 * fexp ((c1 * temp_dew) / (c2 + temp_dew)) in
  let es := c0 * fexp ((c1 * temp_air) / (c2 + temp_air)) in
  #100 * (e / es).

(** atmosphere.py:398-434 tdew_from_rh (coeff[0] is unused by the source) *)
Definition tdew_from_rh (temp_air relative_humidity c1 c2 : fl) : fl :=
  let ln_term := (c1 * temp_air) / (c2 + temp_air) + fln (relative_humidity / #100) in
  c2 * ln_term / (c1 - ln_term).

(** atmosphere.py:437-471 bird_hulstrom80_aod_bb *)
Definition bird_hulstrom80_aod_bb (aod380 aod500 : fl) : fl :=
  #0.27583 * aod380 + #0.35 * aod500.

(** atmosphere.py:474-559 kasten96_lt *)
Definition kasten96_lt (airmass_absolute precipitable_water aod_bb : fl) : fl :=
  let delta_cda := #(-0.101) + #0.235 * fpow airmass_absolute #(-0.16) in
  let delta_w := #0.112 * fpow airmass_absolute #(-0.55) * fpow precipitable_water #0.34 in
  let delta_a := aod_bb in
  - (#9.4 + #0.9 * airmass_absolute)
  * fln (fexp (- airmass_absolute * (delta_cda + delta_w + delta_a))) / airmass_absolute.

(** atmosphere.py:562-599 angstrom_aod_at_lambda *)
Definition angstrom_aod_at_lambda (aod0 lambda0 alpha lambda1 : fl) : fl :=
  aod0 * fpow (lambda1 / lambda0) (- alpha).

(** atmosphere.py:602-627 angstrom_alpha *)
Definition angstrom_alpha (aod1 lambda1 aod2 lambda2 : fl) : fl :=
  - fln (aod1 / aod2) / fln (lambda1 / lambda2).

(** atmosphere.py:630-641 HELLMANN_SURFACE_EXPONENTS *)
Definition HELLMANN_SURFACE_EXPONENTS : list (string * fl) :=
  [ ("unstable_air_above_open_water_surface", #0.06);
    ("neutral_air_above_open_water_surface", #0.10);
    ("stable_air_above_open_water_surface", #0.27);
    ("unstable_air_above_flat_open_coast", #0.11);
    ("neutral_air_above_flat_open_coast", #0.16);
    ("stable_air_above_flat_open_coast", #0.40);
    ("unstable_air_above_human_inhabited_areas", #0.27);
    ("neutral_air_above_human_inhabited_areas", #0.34);
    ("stable_air_above_human_inhabited_areas", #0.60) ]%string.

(** atmosphere.py:772-777: a negative wind speed (or a negative height ratio, complex in python and
    nan in [fpow]) gives nan *)
Definition powerlaw_speed (wind_speed_reference height_reference height_desired exponent : fl) : fl :=
  let wind_speed := wind_speed_reference * fpow (height_desired / height_reference) exponent in
  where_ (fltb wind_speed #0) NaN wind_speed.

(** atmosphere.py:644-782 windspeed_powerlaw *)
Definition windspeed_powerlaw (wind_speed_reference height_reference height_desired : fl)
    (exponent : option fl) (surface_type : option string) : res fl :=
  match surface_type, exponent with
  | Some st, None =>
      let* e := getitem HELLMANN_SURFACE_EXPONENTS st in
      Ok (powerlaw_speed wind_speed_reference height_reference height_desired e)
  | None, Some e => Ok (powerlaw_speed wind_speed_reference height_reference height_desired e)
  | _, _ => Err ValueError
  end.

(** albedo.py:12-27 SURFACE_ALBEDOS *)
Definition SURFACE_ALBEDOS : list (string * fl) :=
  [ ("urban", #0.18); ("grass", #0.20); ("fresh grass", #0.26); ("soil", #0.17); ("sand", #0.40);
    ("snow", #0.65); ("fresh snow", #0.75); ("asphalt", #0.12); ("concrete", #0.30);
    ("aluminum", #0.85); ("copper", #0.74); ("fresh steel", #0.35); ("dirty steel", #0.08);
    ("sea", #0.06) ]%string.

(** albedo.py:29-45 WATER_COLOR_COEFFS, WATER_ROUGHNESS_COEFFS *)
Definition WATER_COLOR_COEFFS : list (string * fl) :=
  [ ("clear_water_no_waves", #0.13);
    ("clear_water_ripples_up_to_2.5cm", #0.16);
    ("clear_water_ripples_larger_than_2.5cm_occasional_whitecaps", #0.23);
    ("clear_water_frequent_whitecaps", #0.3);
    ("green_water_ripples_up_to_2.5cm", #0.22);
    ("muddy_water_no_waves", #0.19) ]%string.
Definition WATER_ROUGHNESS_COEFFS : list (string * fl) :=
  [ ("clear_water_no_waves", #0.29);
    ("clear_water_ripples_up_to_2.5cm", #0.7);
    ("clear_water_ripples_larger_than_2.5cm_occasional_whitecaps", #1.25);
    ("clear_water_frequent_whitecaps", #2);
    ("green_water_ripples_up_to_2.5cm", #0.7);
    ("muddy_water_no_waves", #0.29) ]%string.

(** albedo.py:159-163 *)
Definition dvoracek_albedo (solar_elevation color_coeff wave_roughness_coeff : fl) : fl :=
  let e := where_ (fltb solar_elevation #0) #0 solar_elevation in
  fpow color_coeff (wave_roughness_coeff * sind e + #1).

(** albedo.py:48-168 inland_water_dvoracek *)
Definition inland_water_dvoracek (solar_elevation : fl) (surface_condition : option string)
    (color_coeff wave_roughness_coeff : option fl) : res fl :=
  match surface_condition, color_coeff, wave_roughness_coeff with
  | Some sc, None, None =>
      let* c := getitem WATER_COLOR_COEFFS sc in
      let* w := getitem WATER_ROUGHNESS_COEFFS sc in
      Ok (dvoracek_albedo solar_elevation c w)
  | None, Some c, Some w => Ok (dvoracek_albedo solar_elevation c w)
  | _, _, _ => Err ValueError
  end.
