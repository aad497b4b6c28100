(** Model of the conversions between times, days of the year and DatetimeIndex (pvlib/tools.py:199-284), of get_extra_radiation for every kind of
    input (pvlib/irradiance.py:33-163), and of the functions of pvlib/solarposition.py that call PyEphem (487-604, 881-975). *)
From Coq Require Import ZArith Reals.
From Verif Require Import Base.Fl Base.Py Base.Calendar Base.Round Model.Tools Model.Irradiance.
Open Scope list_scope.
Open Scope Z_scope.

(** ** days *)
(** pandas' dayofyear of a wall-clock time in microseconds since 1970-01-01T00:00 (proleptic Gregorian calendar) *)
Definition epoch_ordinal : Z := 719163.
Definition year_of_ordinal (n : Z) : Z :=
  let y := n * 400 / 146097 + 1 in
  if n <=? days_before_year y then y - 1 else if days_before_year (y + 1) <? n then y + 1 else y.
Definition dayofyear (wall_us : Z) : Z := let n := wall_us / us_per_day + epoch_ordinal in n - days_before_year (year_of_ordinal n).
(** tools.py:220-237 _pandas_to_utc: a naive time raises TypeError in tz_convert and is kept *)
Definition pandas_to_utc (t : datetime) : datetime := match offset t with Some o => Dt (wall t - o) (Some 0) | None => t end.
(** tools.py:199-217 _pandas_to_doy *)
Definition pandas_to_doy (t : datetime) : Z := dayofyear (wall (pandas_to_utc t)).
(** midnight of a date, as datetime.date or a time stamp without a time of day gives it *)
Definition midnight_of (d : date) : datetime := Dt ((ordinal d - epoch_ordinal) * us_per_day) None.
(** tools.py:240-256 _doy_to_datetimeindex, one value: timedelta(days=x) rounds half-even to microseconds; it refuses nan and the infinities.
    Dates outside the range of pandas' time stamps (OutOfBoundsDatetime) are not modelled. *)
Definition doy_to_datetime (epoch_year : Z) (doy : fl) : res datetime :=
  match doy with
  | Fin x => Ok (Dt (wall (midnight_of (Date (epoch_year - 1) 12 31)) + round_even (x * IZR us_per_day)) None)
  | NaN => Err ValueError
  | _ => Err OverflowError
  end.

(** ** irradiance.py:126-163 _handle_extra_radiation_types.  A DatetimeIndex; a Timestamp, datetime.datetime or numpy.datetime64; a
    datetime.date; a number; an array of numbers.  Results are lists of values: the Series on the index, the scalar, the array. *)
Inductive given := GIndex (l : list datetime) | GStamp (t : datetime) | GDate (d : date) | GDoy (x : fl) | GDoys (l : list fl).
Definition to_doy (g : given) : list fl :=
  match g with
  | GIndex l => map (fun t => Fin (IZR (pandas_to_doy t))) l
  | GStamp t => [Fin (IZR (pandas_to_doy t))]
  | GDate d => [Fin (IZR (pandas_to_doy (midnight_of d)))]
  | GDoy x => [x]
  | GDoys l => l
  end.
Definition to_datetimeindex (epoch_year : Z) (g : given) : res (list datetime) :=
  match g with
  | GIndex l => Ok l
  | GStamp t => Ok [t]
  | GDate d => Ok [midnight_of d]
  | GDoy x => mapM (doy_to_datetime epoch_year) [x]
  | GDoys l => mapM (doy_to_datetime epoch_year) l
  end.
(** solarposition.py:950-975 pyephem_earthsun_distance and 978-1034 nrel_earthsun_distance: both distances are functions of the instant; the
    instant of a time stamp is that of _pandas_to_utc (962) and _datetime_to_unixtime (268-278), naive times counting as UTC *)
Definition earthsun_distance (dist : Z -> fl) (times : list datetime) : list fl := map (fun t => dist (wall (pandas_to_utc t))) times.
(** irradiance.py:95-123 *)
Definition get_extra_radiation_at (dist_pyephem dist_nrel : Z -> fl) (g : given) (solar_constant : fl) (method : string) (epoch_year : Z) : res (list fl) :=
  let m := lower method in
  if String.eqb m "asce" then Ok (map (fun d => fmul solar_constant (asce_factor d)) (to_doy g))
  else if String.eqb m "spencer" then Ok (map (fun d => fmul solar_constant (spencer_factor d)) (to_doy g))
  else if String.eqb m "pyephem" then
    let* times := to_datetimeindex epoch_year g in Ok (map (fun r => fmul solar_constant ((#1 / r ^ 2)%fl)) (earthsun_distance dist_pyephem times))
  else if String.eqb m "nrel" then
    let* times := to_datetimeindex epoch_year g in Ok (map (fun r => fmul solar_constant ((#1 / r ^ 2)%fl)) (earthsun_distance dist_nrel times))
  else Err ValueError.

(** ** PyEphem *)
(** solarposition.py:505-519 _ephem_setup *)
Record observer := Observer { obs_lat : fl; obs_lon : fl; obs_elevation : fl; obs_pressure : fl; obs_temp : fl; obs_horizon : string }.
Definition ephem_setup (latitude longitude altitude pressure temperature : fl) (horizon : string) : observer :=
  Observer latitude longitude altitude (fdiv pressure (Fin 100)) temperature horizon.
Inductive event := Rising | Setting | Transit.
(** the library: the date (days since 1899-12-31T12:00) of the next or previous event after a date, and an attribute of the sun at a date *)
Record ephem := Ephem { next_event : observer -> event -> R -> res R; previous_event : observer -> event -> R -> res R; sun_attribute : observer -> string -> R -> res R }.
(** solarposition.py:487-493 _ephem_convert_to_seconds_and_microseconds *)
Definition ephem_to_seconds (date : R) : Z * Z :=
  let microseconds := round_even (24 * 60 * 60 * 1000000 * date) in (microseconds / 1000000 - 2209032000, microseconds mod 1000000).
(** solarposition.py:496-502 _ephem_to_timezone; fromtimestamp takes the zone's offset at the whole second *)
Definition ephem_to_timezone (date : R) (z : Tools.zone) : datetime :=
  let '(seconds, microseconds) := ephem_to_seconds date in
  let o := z (seconds * 1000000) in Dt (seconds * 1000000 + o + microseconds) (Some o).
(** ephem.Date of a time in UTC; float rounding is not modelled *)
Definition ephem_date (t : datetime) : R := datetime_to_djd (pandas_to_utc t).
(** solarposition.py:522-604 sun_rise_set_transit_ephem; the index has the zone [tz].  Results: (sunrise, sunset, transit) for each time. *)
Definition sun_rise_set_transit_ephem (E : ephem) (tz : option Tools.zone) (times : list datetime) (latitude longitude : fl) (next_or_previous : string)
    (altitude pressure temperature : fl) (horizon : string) : res (list (datetime * datetime * datetime)) :=
  match tz with
  | None => Err ValueError
  | Some z =>
    let obs := ephem_setup latitude longitude altitude pressure temperature horizon in
    let* find := if String.eqb (lower next_or_previous) "next" then Ok (next_event E) else if String.eqb (lower next_or_previous) "previous" then Ok (previous_event E)
                 else Err ValueError in
    mapM (fun t => let date := ephem_date t in
      let* sunrise := find obs Rising date in
      let* sunset := find obs Setting date in
      let* transit := find obs Transit date in
      Ok (ephem_to_timezone sunrise z, ephem_to_timezone sunset z, ephem_to_timezone transit z)) times
  end.
(** solarposition.py:881-947 calc_time; [brentq f a b xtol] is scipy's *)
Definition utc : Tools.zone := fun _ => 0.
Definition calc_time (brentq : (R -> res R) -> R -> R -> R -> res R) (E : ephem) (lower_bound upper_bound : datetime) (latitude longitude : fl) (attribute : string)
    (value : R) (altitude pressure temperature : fl) (horizon : string) (xtol : R) : res datetime :=
  let obs := ephem_setup latitude longitude altitude pressure temperature horizon in
  let compute_attr := fun date => let* v := sun_attribute E obs attribute date in Ok (v - value)%R in
  let* root := brentq compute_attr (datetime_to_djd lower_bound) (datetime_to_djd upper_bound) xtol in
  Ok (djd_to_datetime root utc).
