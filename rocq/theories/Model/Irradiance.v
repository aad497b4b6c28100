(** Model of pvlib/irradiance.py, part 1: extraterrestrial radiation, geometry, transposition.
    All functions are element-wise in the source and modelled on one element. *)
From Verif Require Import Base.Fl Base.Py Model.IrradTables Model.Atmosphere.
Open Scope fl_scope.

(** solarposition.py:1037-1076 _calculate_simple_day_angle *)
Definition calculate_simple_day_angle (dayofyear offset : fl) : fl :=
  (#2 * #PI / #365) * (dayofyear - offset).

(** irradiance.py:104 *)
Definition asce_factor (doy : fl) : fl :=
  #1 + #0.033 * fcos (calculate_simple_day_angle doy #0).
(** irradiance.py:106-108 *)
Definition spencer_factor (doy : fl) : fl :=
  let B := calculate_simple_day_angle doy #1 in
  #1.00011 + #0.034221 * fcos B + #0.00128 * fsin B
  + #0.000719 * fcos (#2 * B) + #7.7e-05 * fsin (#2 * B).

(** irradiance.py:33-123 get_extra_radiation for a numeric day of year; the earth-sun distances of
    the pyephem and nrel methods are oracles.  Times instead of
    numbers (126-163) are in Datetimes.v. *)
Definition get_extra_radiation (dist_pyephem dist_nrel : fl -> fl)
    (doy solar_constant : fl) (method : string) : res fl :=
  let m := lower method in
  if String.eqb m "asce" then Ok (solar_constant * asce_factor doy)
  else if String.eqb m "spencer" then Ok (solar_constant * spencer_factor doy)
  else if String.eqb m "pyephem" then Ok (solar_constant * (#1 / (dist_pyephem doy) ^ 2))
  else if String.eqb m "nrel" then Ok (solar_constant * (#1 / (dist_nrel doy) ^ 2))
  else Err ValueError.

(** irradiance.py:166-210 aoi_projection *)
Definition aoi_projection (surface_tilt surface_azimuth solar_zenith solar_azimuth : fl) : fl :=
  let projection :=
    cosd surface_tilt * cosd solar_zenith
    + sind surface_tilt * sind solar_zenith * cosd (solar_azimuth - surface_azimuth) in
  fclip projection #(-1) #1.

(** irradiance.py:213-246 aoi *)
Definition aoi (surface_tilt surface_azimuth solar_zenith solar_azimuth : fl) : fl :=
  fdegrees (facos (aoi_projection surface_tilt surface_azimuth solar_zenith solar_azimuth)).

(** irradiance.py:249-276 beam_component *)
Definition beam_component (surface_tilt surface_azimuth solar_zenith solar_azimuth dni : fl) : fl :=
  fmax (dni * aoi_projection surface_tilt surface_azimuth solar_zenith solar_azimuth) #0.

(** irradiance.py:639-642 *)
Definition ground_diffuse (surface_tilt ghi albedo : fl) : fl :=
  ghi * albedo * (#1 - fcos (fradians surface_tilt)) * #0.5.
(** irradiance.py:581-649 get_ground_diffuse *)
Definition get_ground_diffuse (surface_tilt ghi albedo : fl) (surface_type : option string) : res fl :=
  let* a := match surface_type with
            | Some st => getitem SURFACE_ALBEDOS st
            | None => Ok albedo
            end in
  Ok (ground_diffuse surface_tilt ghi a).

(** ** Sky diffuse models.  The optional dict/DataFrame of components is a record whose absent
    components are [None]. *)
Record sky := { sky_total : fl; sky_iso : option fl; sky_circ : option fl; sky_horiz : option fl }.
Definition sky_only (t : fl) : sky :=
  {| sky_total := t; sky_iso := None; sky_circ := None; sky_horiz := None |}.

(** irradiance.py:652-725 isotropic *)
Definition isotropic (surface_tilt dhi : fl) : sky :=
  let t := dhi * (#1 + cosd surface_tilt) * #0.5 in
  {| sky_total := t; sky_iso := Some t; sky_circ := None; sky_horiz := None |}.

(** irradiance.py:728-816 klucher *)
Definition klucher (surface_tilt surface_azimuth dhi ghi solar_zenith solar_azimuth : fl) : sky :=
  let cos_tt := fmax (aoi_projection surface_tilt surface_azimuth solar_zenith solar_azimuth) #0 in
  let F0 := #1 - ((dhi / ghi) ^ 2) in
  let F := where_ (isnan F0) #0 F0 in
  let term1 := #0.5 * (#1 + cosd surface_tilt) in
  let term2 := #1 + F * (sind (#0.5 * surface_tilt) ^ 3) in
  let term3 := #1 + F * (cos_tt ^ 2) * (sind solar_zenith ^ 3) in
  sky_only (dhi * term1 * term2 * term3).

(** irradiance.py:922-930: ratio of tilted and horizontal beam irradiance *)
Definition projection_ratio_of (surface_tilt surface_azimuth solar_zenith solar_azimuth : fl) : fl :=
  let cos_tt := fmax (aoi_projection surface_tilt surface_azimuth solar_zenith solar_azimuth) #0 in
  cos_tt / fmax (cosd solar_zenith) #0.01745.
(** irradiance.py:932-954, given the ratio Rb *)
Definition haydavies_rb (surface_tilt dhi dni dni_extra Rb : fl) : sky :=
  let AI := dni / dni_extra in
  let term1 := #1 - AI in
  let term2 := #0.5 * (#1 + cosd surface_tilt) in
  let poa_isotropic := fmax (dhi * term1 * term2) #0 in
  let poa_circumsolar := fmax (dhi * (AI * Rb)) #0 in
  {| sky_total := poa_isotropic + poa_circumsolar;
     sky_iso := Some poa_isotropic; sky_circ := Some poa_circumsolar; sky_horiz := None |}.
(** irradiance.py:819-954 haydavies; [projection_ratio] is the optional argument of that name *)
Definition haydavies (surface_tilt surface_azimuth dhi dni dni_extra solar_zenith solar_azimuth : fl)
    (projection_ratio : option fl) : sky :=
  let Rb := match projection_ratio with
            | None => projection_ratio_of surface_tilt surface_azimuth solar_zenith solar_azimuth
            | Some r => r
            end in
  haydavies_rb surface_tilt dhi dni dni_extra Rb.

(** irradiance.py:957-1109 reindl *)
Definition reindl (surface_tilt surface_azimuth dhi dni ghi dni_extra solar_zenith solar_azimuth : fl) : sky :=
  let cos_tt := fmax (aoi_projection surface_tilt surface_azimuth solar_zenith solar_azimuth) #0 in
  let cos_solar_zenith := cosd solar_zenith in
  let Rb := cos_tt / fmax cos_solar_zenith #0.01745 in
  let AI := dni / dni_extra in
  let HB := fmax (dni * cos_solar_zenith) #0 in
  let SVF := (#1 + cosd surface_tilt) / #2 in
  let hb_to_ghi := where_ (feqb ghi #0) #0 (HB / ghi) in
  let h := fsqrt hb_to_ghi * (sind (surface_tilt / #2) ^ 3) in
  let term1 := (#1 - AI) * SVF in
  let term2 := AI * Rb in
  let term3 := term1 * h in
  {| sky_total := dhi * (term1 + term2 + term3);
     sky_iso := Some (dhi * term1); sky_circ := Some (dhi * term2); sky_horiz := Some (dhi * term3) |}.

(** irradiance.py:1118-1157 king *)
Definition king (surface_tilt dhi ghi solar_zenith : fl) : sky :=
  let poa_sky_diffuse :=
    dhi * (#1 + cosd surface_tilt) / #2
    + ghi * (#0.012 * solar_zenith - #0.04) * (#1 - cosd surface_tilt) / #2 in
  sky_only (fmax poa_sky_diffuse #0).

(** np.digitize(x, bins) for increasing bins: the number of edges [<= x]; all of them for nan *)
Definition digitize (x : fl) (bins : list R) : nat :=
  match x with
  | NaN => length bins
  | _ => length (filter (fun b => fleb #b x) bins)
  end.
(** irradiance.py:1297 the clearness bin edges *)
Definition perez_bins : list R := [0; 1.065; 1.23; 1.5; 1.95; 2.8; 4.5; 6.2]%R.
(** irradiance.py:1285-1287 clearness *)
Definition perez_eps (dhi dni solar_zenith : fl) : fl :=
  let z := fradians solar_zenith in
  ((dhi + dni) / dhi + #1.041 * (z ^ 3)) / (#1 + #1.041 * (z ^ 3)).
(** irradiance.py:1297-1303: 0-based row of the coefficient table, None for ebin = -1 (nan row) *)
Definition perez_ebin (eps : fl) : option nat :=
  match (if isnan eps then O else digitize eps perez_bins) with
  | O => None
  | S n => Some n
  end.
(** irradiance.py:1309-1317: row lookup with the appended nan row; a missing row is impossible for a
    table of 8 rows and is given nan *)
Definition perez_row_fl (table : list perez_row) (ebin : option nat) : (fl * fl * fl * fl * fl * fl) :=
  match ebin with
  | None => (NaN, NaN, NaN, NaN, NaN, NaN)
  | Some n => match nth_error table n with
              | Some (a, b, c, d, e, f) => (#a, #b, #c, #d, #e, #f)
              | None => (NaN, NaN, NaN, NaN, NaN, NaN)
              end
  end.

(** irradiance.py:1319-1331 and 1546-1558: the geometry shared by perez and perez_driesse *)
Definition perez_terms (surface_tilt surface_azimuth solar_zenith solar_azimuth F1 F2 : fl) : fl * fl * fl :=
  let A := fmax (aoi_projection surface_tilt surface_azimuth solar_zenith solar_azimuth) #0 in
  let B := fmax (cosd solar_zenith) (cosd #85) in
  let term1 := #0.5 * (#1 - F1) * (#1 + cosd surface_tilt) in
  let term2 := F1 * A / B in
  let term3 := F2 * sind surface_tilt in
  (term1, term2, term3).

(** irradiance.py:1275-1317: brightening coefficients F1 and F2 *)
Definition perez_F (table : list perez_row) (dhi dni dni_extra solar_zenith airmass : fl) : fl * fl :=
  let z := fradians solar_zenith in
  let delta := dhi * airmass / dni_extra in
  let '(f11, f12, f13, f21, f22, f23) := perez_row_fl table (perez_ebin (perez_eps dhi dni solar_zenith)) in
  let F1 := fmax (f11 + f12 * delta + f13 * z) #0 in
  let F2 := f21 + f22 * delta + f23 * z in
  (F1, F2).

(** irradiance.py:1160-1357 perez, given the coefficient table *)
Definition perez_with (table : list perez_row)
    (surface_tilt surface_azimuth dhi dni dni_extra solar_zenith solar_azimuth airmass : fl) : sky :=
  let '(F1, F2) := perez_F table dhi dni dni_extra solar_zenith airmass in
  let '(term1, term2, term3) := perez_terms surface_tilt surface_azimuth solar_zenith solar_azimuth F1 F2 in
  let poa0 := fmax (dhi * (term1 + term2 + term3)) #0 in
  let poa := where_ (isnan airmass) #0 poa0 in
  let mask := feqb poa #0 in
  {| sky_total := where_ mask #0 poa;
     sky_iso := Some (where_ mask #0 (dhi * term1));
     sky_circ := Some (where_ mask #0 (dhi * term2));
     sky_horiz := Some (where_ mask #0 (dhi * term3)) |}.
(** irradiance.py:3295-3452 _get_perez_coefficients, 1307 *)
Definition perez (model : string)
    (surface_tilt surface_azimuth dhi dni dni_extra solar_zenith solar_azimuth airmass : fl) : res sky :=
  let* table := getitem perez_coeffdict model in
  Ok (perez_with table surface_tilt surface_azimuth dhi dni dni_extra solar_zenith solar_azimuth airmass).

(** irradiance.py:1360-1375 _calc_delta *)
Definition calc_delta (dhi dni_extra solar_zenith : fl) (airmass : option fl) : fl :=
  let am := match airmass with
            | None => am_kastenyoung1989 (airmass_z solar_zenith)
            | Some a => a
            end in
  let max_airmass := am_kastenyoung1989 (airmass_z #90) in
  let am := where_ (fgeb solar_zenith #90) max_airmass am in
  dhi / (dni_extra / am).

(** irradiance.py:1378-1400 _calc_zeta *)
Definition calc_zeta (dhi dni zenith : fl) : fl :=
  let zeta := dni / (dhi + dni) in
  let zeta := where_ (feqb dhi #0) #0 zeta in
  let kterm := #1.041 * (fradians zenith ^ 3) in
  zeta / (#1 - kterm * (zeta - #1)).

(** irradiance.py:1437-1573 perez_driesse; the quadratic B-spline _f (1403-1434, scipy splev) is the
    oracle [f]. *)
Definition perez_driesse (f : nat -> nat -> fl -> fl)
    (surface_tilt surface_azimuth dhi dni dni_extra solar_zenith solar_azimuth : fl)
    (airmass : option fl) : sky :=
  let delta := calc_delta dhi dni_extra solar_zenith airmass in
  let zeta := calc_zeta dhi dni solar_zenith in
  let z := fradians solar_zenith in
  let F1 := f 1%nat 1%nat zeta + f 1%nat 2%nat zeta * delta + f 1%nat 3%nat zeta * z in
  let F2 := f 2%nat 1%nat zeta + f 2%nat 2%nat zeta * delta + f 2%nat 3%nat zeta * z in
  let F1 := fclip F1 #0 #0.9 in
  let '(term1, term2, term3) := perez_terms surface_tilt surface_azimuth solar_zenith solar_azimuth F1 F2 in
  {| sky_total := fmax (dhi * (term1 + term2 + term3)) #0;
     sky_iso := Some (dhi * term1); sky_circ := Some (dhi * term2); sky_horiz := Some (dhi * term3) |}.

(** irradiance.py:376-501 get_sky_diffuse *)
Definition get_sky_diffuse (f : nat -> nat -> fl -> fl)
    (surface_tilt surface_azimuth solar_zenith solar_azimuth dni ghi dhi : fl)
    (dni_extra airmass : option fl) (model model_perez : string) (return_components : bool) : res sky :=
  let m := lower model in
  if return_components && mem m ["klucher"; "king"]%string then Err ValueError
  else
  match dni_extra with
  | None =>
      if mem m ["haydavies"; "reindl"; "perez"; "perez-driesse"]%string then Err ValueError
      else if String.eqb m "isotropic" then Ok (isotropic surface_tilt dhi)
      else if String.eqb m "klucher" then
        Ok (klucher surface_tilt surface_azimuth dhi ghi solar_zenith solar_azimuth)
      else if String.eqb m "king" then Ok (king surface_tilt dhi ghi solar_zenith)
      else Err ValueError
  | Some x =>
      if String.eqb m "isotropic" then Ok (isotropic surface_tilt dhi)
      else if String.eqb m "klucher" then
        Ok (klucher surface_tilt surface_azimuth dhi ghi solar_zenith solar_azimuth)
      else if String.eqb m "haydavies" then
        Ok (haydavies surface_tilt surface_azimuth dhi dni x solar_zenith solar_azimuth None)
      else if String.eqb m "reindl" then
        Ok (reindl surface_tilt surface_azimuth dhi dni ghi x solar_zenith solar_azimuth)
      else if String.eqb m "king" then Ok (king surface_tilt dhi ghi solar_zenith)
      else if String.eqb m "perez" then
        let am := match airmass with
                  | None => am_kastenyoung1989 (airmass_z solar_zenith)
                  | Some a => a
                  end in
        perez model_perez surface_tilt surface_azimuth dhi dni x solar_zenith solar_azimuth am
      else if String.eqb m "perez-driesse" then
        Ok (perez_driesse f surface_tilt surface_azimuth dhi dni x solar_zenith solar_azimuth airmass)
      else Err ValueError
  end.

(** irradiance.py:504-578 poa_components *)
Record poa := { poa_global : fl; poa_direct : fl; poa_diffuse : fl;
                poa_sky_diffuse : fl; poa_ground_diffuse : fl }.
Definition poa_components (aoi_ dni sky_diffuse gnd_diffuse : fl) : poa :=
  let poa_direct := fmax (dni * fcos (fradians aoi_)) #0 in
  let poa_diffuse := sky_diffuse + gnd_diffuse in
  {| poa_global := poa_direct + poa_diffuse; poa_direct := poa_direct; poa_diffuse := poa_diffuse;
     poa_sky_diffuse := sky_diffuse; poa_ground_diffuse := gnd_diffuse |}.

(** irradiance.py:279-373 get_total_irradiance *)
Definition get_total_irradiance (f : nat -> nat -> fl -> fl)
    (surface_tilt surface_azimuth solar_zenith solar_azimuth dni ghi dhi : fl)
    (dni_extra airmass : option fl) (albedo : fl) (surface_type : option string)
    (model model_perez : string) (diffuse_components : bool) : res poa :=
  let* s := get_sky_diffuse f surface_tilt surface_azimuth solar_zenith solar_azimuth dni ghi dhi
              dni_extra airmass model model_perez diffuse_components in
  let* g := get_ground_diffuse surface_tilt ghi albedo surface_type in
  Ok (poa_components (aoi surface_tilt surface_azimuth solar_zenith solar_azimuth) dni
        (sky_total s) g).
