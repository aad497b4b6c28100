(** Model of pvlib/solarposition.py (without the ephem and compiled-C back ends, which are arguments).  One sample at a time, except
    for the loop of [ephemeris], which runs over the whole array.  Instants are integer nanoseconds since 1970 UTC. *)
From Verif Require Import Base.Fl Base.Py Model.Atmosphere Model.Irradiance.
From Coq Require Import ZArith.
Open Scope R_scope.
Open Scope list_scope.

(** solarposition.py:1037-1051 _calculate_simple_day_angle with its default offset *)
Definition day_angle (dayofyear : fl) : fl := calculate_simple_day_angle dayofyear #1.
(** solarposition.py:1054-1116 *)
Definition equation_of_time_spencer71 (dayofyear : fl) : fl :=
  (let day_angle := day_angle dayofyear in
   (#1440 / #2 / #PI) * (#0.0000075 + #0.001868 * fcos day_angle - #0.032077 * fsin day_angle
                         - #0.014615 * fcos (#2 * day_angle) - #0.040849 * fsin (#2 * day_angle)))%fl.
(** solarposition.py:1119-1150 *)
Definition equation_of_time_pvcdrom (dayofyear : fl) : fl :=
  (let bday := day_angle dayofyear - (#2 * #PI / #365) * #80 in
   #9.87 * fsin (#2 * bday) - #7.53 * fcos bday - #1.5 * fsin bday)%fl.
(** solarposition.py:1153-1194 *)
Definition declination_spencer71 (dayofyear : fl) : fl :=
  (let day_angle := day_angle dayofyear in
   #0.006918 - #0.399912 * fcos day_angle + #0.070257 * fsin day_angle - #0.006758 * fcos (#2 * day_angle) + #0.000907 * fsin (#2 * day_angle)
   - #0.002697 * fcos (#3 * day_angle) + #0.00148 * fsin (#3 * day_angle))%fl.
(** solarposition.py:1197-1241 *)
Definition declination_cooper69 (dayofyear : fl) : fl :=
  (let day_angle := day_angle dayofyear in
   fradians (#23.45 * fsin (day_angle + (#2 * #PI / #365) * #285)))%fl.

(** np.isclose(a, b, rtol=0, atol=1e-8): infinities are close to themselves only, nan to nothing *)
Definition isclose8 (a b : fl) : bool :=
  match a, b with
  | Fin x, Fin y => Rleb (Rabs (x - y)) 1e-8
  | PInf, PInf | NInf, NInf => true
  | _, _ => false
  end.
(** solarposition.py:1244-1311 *)
Definition solar_azimuth_analytical (latitude hourangle declination zenith : fl) : fl :=
  (let numer := fcos zenith * fsin latitude - fsin declination in
   let denom := fsin zenith * fcos latitude in
   let cos_azi := numer / denom in
   let cos_azi := where_ (isclose8 denom #0) #1 cos_azi in
   let cos_azi := where_ (isclose8 cos_azi #1) #1 cos_azi in
   let cos_azi := where_ (isclose8 cos_azi #(-1)) #(-1) cos_azi in
   let sign_ha := fsign hourangle in
   sign_ha * facos cos_azi + #PI)%fl.
(** solarposition.py:1314-1363 *)
Definition solar_zenith_analytical (latitude hourangle declination : fl) : fl :=
  facos (fcos declination * fcos latitude * fcos hourangle + fsin declination * fsin latitude)%fl.

(** A time zone as pandas uses it: the offset from UTC at an instant (ns), and turning a naive wall-clock time into an instant, either
    shifting nonexistent times forward and refusing ambiguous ones, or refusing both. *)
Record zone := Zone { utcoffset : Z -> Z; localize_forward : Z -> res Z; localize_strict : Z -> res Z }.
Definition ns_per_day : Z := 86400000000000.
Definition hours (ns : Z) : R := IZR ns / 3600000000000.
(** DatetimeIndex.tz_localize(None).normalize(): wall-clock midnight *)
Definition wall (z : zone) (t : Z) : Z := (t + utcoffset z t)%Z.
Definition wall_midnight (z : zone) (t : Z) : Z := (wall z t - wall z t mod ns_per_day)%Z.
(** solarposition.py:1446-1466 *)
Definition times_to_hours_after_local_midnight (tz : option zone) (t : Z) : res R :=
  match tz with
  | None => Err ValueError
  | Some z => let* u := localize_forward z (wall_midnight z t) in Ok (hours (t - u))
  end.
(** solarposition.py:1366-1417; the time stamp is the instant [t] with zone [tz] *)
Definition hour_angle (tz : option zone) (t : Z) (longitude equation_of_time : fl) : res fl :=
  match tz with
  | None => Err ValueError
  | Some z =>
    let tzs := hours (utcoffset z t) in
    let* h := times_to_hours_after_local_midnight tz t in
    Ok (#15 * (#(h - tzs) - #12) + longitude + equation_of_time / #4)%fl
  end.
(** solarposition.py:1420-1429 *)
Definition hour_angle_to_hours (tz : option zone) (t : Z) (hourangle longitude equation_of_time : fl) : res fl :=
  match tz with
  | None => Err ValueError
  | Some z => Ok ((hourangle - longitude - equation_of_time / #4) / #15 + #12 + #(hours (utcoffset z t)))%fl
  end.
(** solarposition.py:1432-1443; the result is an instant in (real) nanoseconds, nan for NaT.  normalize() of a localized index
    raises on days without a midnight. *)
Definition local_times_from_hours_since_midnight (tz : option zone) (t : Z) (hours : fl) : res fl :=
  match tz with
  | None => Err ValueError
  | Some z => let* u := localize_strict z (wall_midnight z t) in Ok (#(IZR u) + hours * #3600000000000)%fl
  end.
(** solarposition.py:1469-1530 -> (sunrise, sunset, transit) *)
Definition sun_rise_set_transit_geometric (tz : option zone) (t : Z) (latitude longitude declination equation_of_time : fl)
    : res (fl * fl * fl) :=
  match tz with
  | None => Err ValueError
  | Some _ =>
    let latitude_rad := fradians latitude in
    let sunset_angle := fdegrees (facos (- ftan declination * ftan latitude_rad)%fl) in
    let sunrise_angle := fneg sunset_angle in
    let* sunrise_hour := hour_angle_to_hours tz t sunrise_angle longitude equation_of_time in
    let* sunset_hour := hour_angle_to_hours tz t sunset_angle longitude equation_of_time in
    let* transit_hour := hour_angle_to_hours tz t #0 longitude equation_of_time in
    let* sunrise := local_times_from_hours_since_midnight tz t sunrise_hour in
    let* sunset := local_times_from_hours_since_midnight tz t sunset_hour in
    let* transit := local_times_from_hours_since_midnight tz t transit_hour in
    Ok (sunrise, sunset, transit)
  end.

(** ** ephemeris, solarposition.py:696-878, on non-empty arrays (np.max of an empty array raises) *)
(** the UTC fields of a time stamp *)
Record stamp := Stamp { st_year : Z; st_dayofyear : Z; st_hour : Z; st_minute : Z; st_second : Z; st_microsecond : Z }.
Definition dec_hours (s : stamp) : R := IZR (st_hour s) + IZR (st_minute s) / 60 + IZR (st_second s) / 3600 + IZR (st_microsecond s) / 3600e6.
(** 783-786 *)
Definition ezero (s : stamp) : R :=
  let yr := IZR (st_year s) - 1900 in 365 * yr + Rfloor ((yr - 1) / 4) - 0.5 + IZR (st_dayofyear s).
Definition epoch_date (s : stamp) : R := ezero s + dec_hours s / 24.
(** 787-796: Greenwich and local sidereal time in degrees; [longitude] positive east *)
Definition gmst (s : stamp) : R :=
  let t := ezero s / 36525 in
  let g0 := 6 / 24 + 38 / 1440 + (45.836 + 8640184.542 * t + 0.0929 * t ^ 2) / 86400 in
  let g0 := 360 * (g0 - Rfloor g0) in
  Rmodp (g0 + 360 * (1.0027379093 * dec_hours s / 24)) 360.
Definition loc_ast (s : stamp) (longitude : fl) : fl := fmod ((#360 + #(gmst s)) - #(-1) * longitude)%fl #360.
(** 799-807 *)
Definition t1 (s : stamp) : R := epoch_date s / 36525.
Definition obliquity (s : stamp) : R := let t := t1 s in 23.452294 - 0.0130125 * t - 1.64e-06 * t ^ 2 + 5.03e-07 * t ^ 3.
Definition ml_perigee (s : stamp) : R := let t := t1 s in 281.22083 + 4.70684e-05 * epoch_date s + 0.000453 * t ^ 2 + 3e-06 * t ^ 3.
Definition mean_anom (s : stamp) : R := let t := t1 s in Rmodp (358.47583 + 0.985600267 * epoch_date s - 0.00015 * t ^ 2 - 3e-06 * t ^ 3) 360.
Definition eccen (s : stamp) : R := let t := t1 s in 0.01675104 - 4.18e-05 * t - 1.26e-07 * t ^ 2.
(** 808-813: Kepler's equation by fixed-point iteration over the whole array of samples, until no entry moves by more than 1e-4
    degrees.  None: still running after [fuel] turns. *)
Definition kepler_step (s : stamp) (e : R) : R := mean_anom s + Rdeg (eccen s) * sin (Rrad e).
Definition max_move (l : list (R * R)) : R := fold_right (fun p acc => Rmax (Rabs (fst p - snd p)) acc) 0 l.
Fixpoint kepler_loop (fuel : nat) (l : list stamp) (anom e : list R) : option (list R) :=
  if Rltb 0.0001 (max_move (combine anom e)) then
    match fuel with
    | O => None
    | S k => kepler_loop k l (map (fun p => kepler_step (fst p) (snd p)) (combine l anom)) anom
    end
  else Some anom.
Definition kepler (fuel : nat) (l : list stamp) : option (list R) :=
  kepler_loop fuel l (map mean_anom l) (map (fun _ => 0) l).
(** 815-819: ecliptic longitude in degrees *)
Definition true_anom (s : stamp) (e : R) : fl :=
  (#2 * fmod (fdegrees (fatan2 (fpow ((#1 + #(eccen s)) / (#1 - #(eccen s))) #0.5 * ftan (#(Rrad e) / #2)) #1)) #360)%fl.
Definition ec_lon (s : stamp) (e : R) : fl := (fmod (#(ml_perigee s) + true_anom s e) #360 - #(20 / 3600))%fl.
(** 840-861: refraction in degrees *)
Definition ephemeris_refraction (elevation pressure temperature : fl) : fl :=
  (let tan_el := ftan (fradians elevation) in
   let r := #0 in
   let r := if fgtb elevation #5 && fleb elevation #85
            then #58.1 / tan_el - #0.07 / tan_el ^ 3 + #8.6e-05 / tan_el ^ 5 else r in
   let r := if fgtb elevation #(-0.575) && fleb elevation #5
            then elevation * (#(-518.2) + elevation * (#103.4 + elevation * (#(-12.79) + elevation * #0.711))) + #1735 else r in
   let r := if fgtb elevation #(-1) && fleb elevation #(-0.575) then #(-20.774) / tan_el else r in
   r * ((#283 / (#273 + temperature)) * (pressure / #101325) / #3600))%fl.
Record sunpos := SunPos { sp_apparent_elevation : fl; sp_elevation : fl; sp_azimuth : fl; sp_apparent_zenith : fl; sp_zenith : fl; sp_solar_time : fl }.
(** 820-876, for one sample with eccentric anomaly [e] *)
Definition ephemeris_at (s : stamp) (e : R) (latitude longitude pressure temperature : fl) : sunpos :=
  (let lat_r := fradians latitude in
   let obliquity_r := fradians #(obliquity s) in
   let ec_lon_r := fradians (ec_lon s e) in
   let dec_r := fasin (fsin obliquity_r * fsin ec_lon_r) in
   let rt_ascen := fdegrees (fatan2 (fcos obliquity_r * fsin ec_lon_r) (fcos ec_lon_r)) in
   let hr_angle := loc_ast s longitude - rt_ascen in
   let hr_angle_r := fradians hr_angle in
   let hr_angle := hr_angle - #360 * (if fgtb (fabs hr_angle) #180 then #1 else #0) in
   let sun_az := fdegrees (fatan2 (- fsin hr_angle_r) (fcos lat_r * ftan dec_r - fsin lat_r * fcos hr_angle_r)) in
   let sun_az := if fltb sun_az #0 then sun_az + #360 else sun_az in
   let sun_el := fdegrees (fasin (fcos lat_r * fcos dec_r * fcos hr_angle_r + fsin lat_r * fsin dec_r)) in
   let solar_time := (#180 + hr_angle) / #15 in
   let apparent := sun_el + ephemeris_refraction sun_el pressure temperature in
   {| sp_apparent_elevation := apparent; sp_elevation := sun_el; sp_azimuth := sun_az; sp_apparent_zenith := #90 - apparent;
      sp_zenith := #90 - sun_el; sp_solar_time := solar_time |})%fl.
Definition ephemeris (fuel : nat) (times : list stamp) (latitude longitude pressure temperature : fl) : option (list sunpos) :=
  match kepler fuel times with
  | None => None
  | Some anom => Some (map (fun p => ephemeris_at (fst p) (snd p) latitude longitude pressure temperature) (combine times anom))
  end.

(** ** get_solarposition, solarposition.py:30-125.  The back ends are recorded by the call made: python arguments in the order of the
    callee's signature, with the callee's defaults filled in. *)
Inductive spcall (P : Type) :=
| Call_spa_c (latitude longitude pressure altitude temperature : P)
| Call_spa_python (latitude longitude altitude pressure temperature : P) (how : string)
| Call_pyephem (latitude longitude altitude pressure temperature : P)
| Call_ephemeris (latitude longitude pressure temperature : P).
Arguments Call_spa_c {P}. Arguments Call_spa_python {P}. Arguments Call_pyephem {P}. Arguments Call_ephemeris {P}.
Definition get_solarposition (latitude longitude : fl) (altitude pressure : option fl) (method : string) (temperature : fl) : res (spcall fl) :=
  let '(altitude, pressure) :=
    match altitude, pressure with
    | None, None => (#0, #101325)
    | None, Some p => (pres2alt p, p)
    | Some a, None => (a, alt2pres a)
    | Some a, Some p => (a, p)
    end in
  let method := lower method in
  if String.eqb method "nrel_c" then
    (* spa_c(time, latitude, longitude, pressure, temperature): the fifth parameter of spa_c (128-130) is altitude *)
    Ok (Call_spa_c latitude longitude pressure temperature #12)
  else if String.eqb method "nrel_numba" then Ok (Call_spa_python latitude longitude altitude pressure temperature "numba")
  else if String.eqb method "nrel_numpy" then Ok (Call_spa_python latitude longitude altitude pressure temperature "numpy")
  else if String.eqb method "pyephem" then Ok (Call_pyephem latitude longitude altitude pressure temperature)
  else if String.eqb method "ephemeris" then Ok (Call_ephemeris latitude longitude pressure temperature)
  else Err ValueError.
