(** Model of the days in the requests of nasa_power.py:118-129 get_nasa_power, sodapro.py:200-202 get_cams and solargis.py:140-152 get_solargis, and of the parameters of the
    requests of pvgis.py:205-228, 512-523, 754 and solcast.py.  Times as in Model/Requests.v. *)
From Coq Require Import ZArith Reals List Bool String Ascii.
From Verif Require Import Base.Fl Base.Py Base.Calendar Base.Strptime Model.Services Model.Requests.
Import ListNotations.
Open Scope Z_scope.

(** pd.to_datetime, pd.Timestamp: the date strftime prints, that of the time in its own zone *)
Definition own_date (t : when) : res date := match t with Verbatim _ => Err ValueError | Moment d _ _ _ _ => Ok d end.
(** strftime('%Y%m%d') *)
Definition compact_text (d : date) : string := (digits_text (zpad 4 (Calendar.yr d)) ++ two (mo d) ++ two (dy d))%string.
(** nasa_power.py:118-119, 128-129 *)
Definition nasa_days (start end_ : when) : res (string * string) :=
  let* d := own_date start in let* d' := own_date end_ in Ok (compact_text d, compact_text d').
(** sodapro.py:201-202 *)
Definition cams_days (start end_ : when) : res (string * string) :=
  let* d := own_date start in let* d' := own_date end_ in Ok (date_text d, date_text d').
(** solargis.py:141-142, 151-152 *)
Definition solargis_days (start end_ : when) : res (string * string) :=
  let* d := own_date start in let* d' := own_date end_ in Ok (date_text d, date_text d').

(** ** get_pvgis_hourly *)
(** a value of a parameter; numbers that are passed on as they are *)
Inductive pvgis_value := PText (s : string) | PNum (x : fl) | PInt (z : Z).
(** start and end: an integer year or a time *)
Inductive pvgis_year := AYear (y : Z) | ATime (t : when).
(** pvgis.py:224, 226 *)
Definition year_of (y : pvgis_year) : res Z :=
  match y with AYear y => Ok y | ATime t => let* d := own_date t in Ok (Calendar.yr d) end.
(** int(bool) *)
Definition int_of_bool (b : bool) : pvgis_value := PInt (if b then 1 else 0).
(** `if x is not None: params[name] = ...` *)
Definition optional_param {A} (name : string) (x : option A) (f : A -> pvgis_value) : list (string * pvgis_value) :=
  match x with None => [] | Some a => [(name, f a)] end.
(** pvgis.py:224, 226 for an optional year *)
Definition optional_year (y : option pvgis_year) : res (option Z) := match y with None => Ok None | Some y => let* z := year_of y in Ok (Some z) end.
(** pvgis.py:205-228; the elevations of the horizon as the texts str() makes of them; mountingplace and pvtechchoice are texts *)
Definition pvgis_hourly_params (latitude longitude : fl) (start end_ : option pvgis_year) (raddatabase : option string) (components : bool) (surface_tilt surface_azimuth : fl)
    (outputformat : string) (usehorizon : bool) (userhorizon : option (list string)) (pvcalculation : bool) (peakpower : option fl) (pvtechchoice mountingplace : string) (loss : fl)
    (trackingtype : Z) (optimal_surface_tilt optimalangles : bool) : res (list (string * pvgis_value)) :=
  let params :=
    [("lat", PNum latitude); ("lon", PNum longitude); ("outputformat", PText outputformat);
     ("angle", PNum surface_tilt); ("aspect", PNum (fsub surface_azimuth (Fin 180)));
     ("pvcalculation", int_of_bool pvcalculation); ("pvtechchoice", PText pvtechchoice); ("mountingplace", PText mountingplace);
     ("trackingtype", PInt trackingtype); ("components", int_of_bool components); ("usehorizon", int_of_bool usehorizon);
     ("optimalangles", int_of_bool optimalangles); ("optimalinclination", int_of_bool optimal_surface_tilt); ("loss", PNum loss)]%string in
  let params := params ++ optional_param "userhorizon" userhorizon (fun l => PText (String.concat "," l)) in
  let params := params ++ optional_param "raddatabase" raddatabase PText in
  let* y := optional_year start in
  let params := params ++ optional_param "startyear" y PInt in
  let* y' := optional_year end_ in
  let params := params ++ optional_param "endyear" y' PInt in
  Ok (params ++ optional_param "peakpower" peakpower PNum).

(** pvgis.py:512-523 get_pvgis_tmy; years as they are given *)
Definition pvgis_tmy_params (latitude longitude : fl) (outputformat : string) (usehorizon : bool) (userhorizon : option (list string)) (startyear endyear : option Z) : list (string * pvgis_value) :=
  [("lat", PNum latitude); ("lon", PNum longitude); ("outputformat", PText outputformat)]%string ++
  (if negb usehorizon then [("usehorizon"%string, PInt 0)] else []) ++
  optional_param "userhorizon" userhorizon (fun l => PText (String.concat "," l)) ++
  optional_param "startyear" startyear PInt ++ optional_param "endyear" endyear PInt.
(** pvgis.py:754 get_pvgis_horizon *)
Definition pvgis_horizon_params (latitude longitude : fl) : list (string * pvgis_value) := [("lat", PNum latitude); ("lon", PNum longitude); ("outputformat", PText "json")]%string.

(** ** solcast.py: dict(name=value, ..., **kwargs) is a TypeError when a name comes twice; values as texts, None is not sent by requests *)
Definition solcast_query (fixed kwargs : list (string * option string)) : res (list (string * string)) :=
  if existsb (fun k => mem (fst k) (map fst fixed)) kwargs then Err TypeError
  else Ok (flat_map (fun p => match snd p with Some v => [(fst p, v)] | None => [] end) (fixed ++ kwargs)).
Inductive solcast_service := SolcastTmy | SolcastHistoric (start : string) (end_ duration : option string) | SolcastForecast | SolcastLive.
(** solcast.py:115-120, 217-226, 299-304, 386-391 *)
Definition solcast_params (service : solcast_service) (latitude longitude api_key : string) (kwargs : list (string * option string)) : res (list (string * string)) :=
  match service with
  | SolcastHistoric start end_ duration =>
      solcast_query [("latitude", Some latitude); ("longitude", Some longitude); ("start", Some start); ("end", end_); ("duration", duration); ("api_key", Some api_key); ("format", Some "json")]%string kwargs
  | _ => solcast_query [("latitude", Some latitude); ("longitude", Some longitude); ("format", Some "json")]%string kwargs
  end.
(** solcast.py:122-123, 228-229, 306-307, 393-394 *)
Definition solcast_endpoint (service : solcast_service) : string :=
  match service with
  | SolcastTmy => "tmy/radiation_and_weather" | SolcastHistoric _ _ _ => "historic/radiation_and_weather"
  | SolcastForecast => "forecast/radiation_and_weather" | SolcastLive => "live/radiation_and_weather"
  end%string.
