(** Weather services: iotools/psm4.py, acis.py, solaranywhere.py, meteonorm.py.  Requests as the names and texts that are sent, answers as tables (named columns) and dictionaries;
    transport, JSON and pandas' csv parser not modelled; Python's int() and float() as arguments *)
From Verif Require Import Base.Fl Base.Py Base.PyStr Base.Calendar Base.Strptime Model.Bsrn Model.Tmy Model.Pvgis Model.Web Model.Cams.
From Coq Require Import Reals List String Ascii Bool ZArith.
Import ListNotations.
Open Scope list_scope.
Open Scope Z_scope.

(** a value in a metadata dictionary *)
Inductive value := VText (s : string) | VInt (n : Z) | VFloat (x : fl) | VList (l : list fl).
Definition dict : Type := list (string * value).
(** d[new] = f(d.pop(old)) *)
Definition move (old new : string) (d : dict) : res dict :=
  match lookup old d with Some v => Ok (dict_set new v (remove_key old d)) | None => Err KeyError end.

(** ** psm4.py *)
Definition is_crnl (c : ascii) : bool := Nat.eqb (nat_of_ascii c) 10 || Nat.eqb (nat_of_ascii c) 13.
Definition quote : ascii := ascii_of_nat 34.
Fixpoint all_chars (p : ascii -> bool) (s : string) : bool := match s with EmptyString => true | String c s' => p c && all_chars p s' end.
(** Python's csv module, dialect excel (delimiter ',', quotechar the double quote, doublequote, not strict), on one line.  The state is where the next character is; the first field of the
    result is what remains of the current one *)
Inductive csv_state := StartField | InField | InQuoted | QuoteInQuoted.
Definition csv_end (s : string) : res (list string) := if all_chars is_crnl s then Ok [EmptyString] else Err CsvError.
Definition csv_char (c : ascii) (r : res (list string)) : res (list string) := match r with Ok (f :: fs) => Ok (String c f :: fs) | Ok [] => Ok [String c EmptyString] | Err e => Err e end.
Definition csv_next (r : res (list string)) : res (list string) := rmap (cons EmptyString) r.
Fixpoint csv_fields (st : csv_state) (s : string) : res (list string) :=
  match s with
  | EmptyString => Ok [EmptyString]
  | String c s' =>
      match st with
      | StartField => if is_crnl c then csv_end s' else if Ascii.eqb c quote then csv_fields InQuoted s' else if Ascii.eqb c "," then csv_next (csv_fields StartField s') else csv_char c (csv_fields InField s')
      | InField => if is_crnl c then csv_end s' else if Ascii.eqb c "," then csv_next (csv_fields StartField s') else csv_char c (csv_fields InField s')
      | InQuoted => if Ascii.eqb c quote then csv_fields QuoteInQuoted s' else csv_char c (csv_fields InQuoted s')
      | QuoteInQuoted => if Ascii.eqb c quote then csv_char c (csv_fields InQuoted s') else if Ascii.eqb c "," then csv_next (csv_fields StartField s') else if is_crnl c then csv_end s' else csv_char c (csv_fields InField s')
      end
  end.
(** next(csv.reader([line])); a line without text is the empty row *)
Definition csv_row (s : string) : res (list string) :=
  match s with
  | EmptyString => Ok []
  | String c s' => if is_crnl c then rmap (fun _ => []) (csv_end s') else csv_fields StartField s
  end.
(** l[-1] = l[-1].strip() *)
Fixpoint strip_last (l : list string) : res (list string) :=
  match l with [] => Err IndexError | [x] => Ok [strip x] | x :: l' => rmap (cons x) (strip_last l') end.
(** psm4.py:39-56 *)
Definition psm4_map : list (string * string) :=
  [("GHI", "ghi"); ("DHI", "dhi"); ("DNI", "dni"); ("Clearsky GHI", "ghi_clear"); ("Clearsky DHI", "dhi_clear"); ("Clearsky DNI", "dni_clear"); ("Solar Zenith Angle", "solar_zenith"); ("Temperature", "temp_air");
   ("Dew Point", "temp_dew"); ("Relative Humidity", "relative_humidity"); ("Pressure", "pressure"); ("Wind Speed", "wind_speed"); ("Wind Direction", "wind_direction"); ("Surface Albedo", "albedo");
   ("Precipitable Water", "precipitable_water"); ("AOD", "aod")]%string.
(** psm4.py:61-78 *)
Definition psm4_request_map : list (string * string) :=
  [("ghi", "ghi"); ("dhi", "dhi"); ("dni", "dni"); ("ghi_clear", "clearsky_ghi"); ("dhi_clear", "clearsky_dhi"); ("dni_clear", "clearsky_dni"); ("solar_zenith", "solar_zenith_angle"); ("temp_air", "air_temperature");
   ("temp_dew", "dew_point"); ("relative_humidity", "relative_humidity"); ("pressure", "surface_pressure"); ("wind_speed", "wind_speed"); ("wind_direction", "wind_direction"); ("albedo", "surface_albedo");
   ("precipitable_water", "total_precipitable_water"); ("aod", "aod")]%string.
(** psm4.py:180-201, 320-341, 456-477, 595-616, 744-765, 893-914: the parameters of a request; longitude and latitude as the texts '%9.4f', '%8.4f' make of them, the other values as the texts they are sent as *)
Definition psm4_params (longitude latitude api_key email full_name affiliation names time_step : string) (parameters : list string) (leap_day utc : bool) : list (string * string) :=
  let text (b : bool) := (if b then "true" else "false")%string in
  [("api_key", api_key); ("full_name", full_name); ("email", email); ("affiliation", affiliation); ("reason", "pvlib python"); ("mailing_list", "false");
   ("wkt", "POINT(" ++ strip longitude ++ " " ++ strip latitude ++ ")"); ("names", names); ("attributes", String.concat "," (map (get_or psm4_request_map) parameters));
   ("leap_day", text leap_day); ("utc", text utc); ("interval", time_step)]%string.
Section Psm4.
Variable py_int : string -> option Z.
Variable py_float : string -> option fl.
Definition int_entry (k : string) (d : dict) : res dict :=
  match lookup k d with
  | None => Err KeyError
  | Some (VText s) => match py_int s with Some n => Ok (dict_set k (VInt n) d) | None => Err ValueError end
  | Some _ => Ok d
  end.
Definition float_entry (k : string) (d : dict) : res dict :=
  match lookup k d with
  | None => Err KeyError
  | Some (VText s) => match py_float s with Some x => Ok (dict_set k (VFloat x) d) | None => Err ValueError end
  | Some _ => Ok d
  end.
(** psm4.py:1058-1066 *)
Definition psm4_meta (fields values : list string) : res dict :=
  let* fields := strip_last fields in
  let* values := strip_last values in
  let d := fold_left (fun d kv => dict_set (fst kv) (VText (snd kv)) d) (combine fields values) [] in
  let* d := int_entry "Local Time Zone" d in
  let* d := int_entry "Time Zone" d in
  let* d := float_entry "Latitude" d in
  let* d := float_entry "Longitude" d in
  int_entry "Elevation" d.
(** what pandas.read_csv makes of the rest of the text: the columns Year, Month, Day, Hour, Minute of each row, and the table *)
Variable frame : list string -> string -> res (list (Z * Z * Z * Z * Z) * table).
(** psm4.py:1069-1072: pandas adds hours and minutes to the date, whatever they are *)
Definition psm4_stamp (tz : Z) (r : Z * Z * Z * Z * Z) : res Z :=
  let '(y, m, d, h, mi) := r in let dt := Date y m d in if valid_dateb dt then Ok (instant dt h mi - 60 * tz) else Err ValueError.
Definition psm4_index (columns : list string) (tz : Z) (rows : list (Z * Z * Z * Z * Z)) : res (list Z) :=
  if forallb (fun c => mem c columns) ["Year"; "Month"; "Day"; "Hour"; "Minute"]%string then
    let* _ := mapM (psm4_stamp 0) rows in let* tz := etc_gmt tz in mapM (psm4_stamp tz) rows
  else Err KeyError.
(** psm4.py:934-1080 *)
Definition read_nsrdb_psm4 (text : string) (map_variables : bool) : res (list Z * table * dict) :=
  let (l1, s) := read_line text in let* fields := csv_row l1 in
  let (l2, s) := read_line s in let* values := csv_row l2 in
  let (l3, s) := read_line s in let* columns := csv_row l3 in
  let* columns := strip_last columns in
  let columns := filter (fun c => negb (String.eqb c "")) columns in
  let* rt := frame columns s in
  let* d := psm4_meta fields values in
  let* tz := match lookup "Time Zone" d with Some (VInt n) => Ok n | _ => Err TypeError end in
  let* index := psm4_index columns tz (fst rt) in
  if map_variables then
    let* d := move "Latitude" "latitude" d in
    let* d := move "Longitude" "longitude" d in
    let* d := move "Elevation" "altitude" d in
    Ok (index, rename_columns psm4_map (snd rt), d)
  else Ok (index, snd rt, d).
End Psm4.

(** ** acis.py *)
(** acis.py:6-23 *)
Definition acis_map : list (string * string) :=
  [("pcpn", "precipitation"); ("maxt", "temp_air_max"); ("avgt", "temp_air_average"); ("obst", "temp_air_observation"); ("mint", "temp_air_min"); ("cdd", "cooling_degree_days"); ("hdd", "heating_degree_days");
   ("gdd", "growing_degree_days"); ("snow", "snowfall"); ("snwd", "snowdepth"); ("lat", "latitude"); ("lon", "longitude"); ("elev", "altitude")]%string.
(** a cell of the answer *)
Inductive cell := CText (s : string) | CNum (x : fl).
(** payload: an error, or the columns of data (after the dates) and meta *)
Inductive acis_answer := AcisError | AcisData (dates : list Z) (columns : list (list cell)) (meta : dict).
Definition to_cells (t : list (string * list cell)) (m : list (string * string)) : list (string * list cell) := map (fun c => (get_or m (fst c), snd c)) t.
(** acis.py:57-61: a, b = d.pop('ll'); 'll' is a list of numbers *)
Definition acis_ll (lon lat : string) (d : dict) : res dict :=
  match lookup "ll" d with
  | None => Err KeyError
  | Some (VList [x; y]) => Ok (dict_set lat (VFloat y) (dict_set lon (VFloat x) (remove_key "ll" d)))
  | Some (VList _) | Some (VText _) => Err ValueError
  | Some _ => Err TypeError
  end.
Definition unless_key_error (r : res dict) (d : dict) : res dict := match r with Err KeyError => Ok d | _ => r end.
(** acis.py:63-67 *)
Definition acis_elev (d : dict) : res dict :=
  match lookup "elev" d with
  | None => Err KeyError
  | Some (VFloat x) => Ok (dict_set "elev" (VFloat (x * #0.3048)) d)
  | Some (VInt n) => Ok (dict_set "elev" (VFloat (#(IZR n) * #0.3048)) d)
  | Some _ => Err TypeError
  end.
(** acis.py:72-74 *)
Fixpoint acis_keys (keys : list string) (d : dict) : res dict :=
  match keys with
  | [] => Ok d
  | k :: ks => let* d := match lookup k acis_map with Some n => move k n d | None => Ok d end in acis_keys ks d
  end.
(** acis.py:46-76 *)
Definition acis_parse (elems : list string) (answer : acis_answer) (map_variables : bool) : res (list Z * list (string * list cell) * dict) :=
  match answer with
  | AcisError => Err HttpError
  | AcisData dates cols meta =>
      let t := combine elems cols in
      let* d := unless_key_error (acis_ll "lon" "lat" meta) meta in
      let* d := unless_key_error (acis_elev d) d in
      if map_variables then let* d := acis_keys (map fst d) d in Ok (dates, to_cells t acis_map, d) else Ok (dates, t, d)
  end.
(** acis.py:142-150, 310-313, 397-408: name and units of the elements *)
Definition grid_elems : list (string * string) := [("pcpn", "mm"); ("maxt", "degreeC"); ("mint", "degreeC"); ("avgt", "degreeC"); ("cdd", "degreeC"); ("hdd", "degreeC"); ("gdd", "degreeC")]%string.
Definition mpe_elems : list (string * string) := [("pcpn", "mm")]%string.
Definition station_elems : list (string * string) :=
  [("maxt", "degreeC"); ("mint", "degreeC"); ("avgt", "degreeC"); ("obst", "degreeC"); ("pcpn", "mm"); ("snow", "cm"); ("snwd", "cm"); ("cdd", "degreeC"); ("hdd", "degreeC"); ("gdd", "degreeC")]%string.
(** acis.py:30-35, 151-156, 236-241, 314-319: the request for a grid (elements apart); dates and numbers as texts *)
Definition acis_grid_params (start end_ latitude longitude grid : string) : list (string * string) :=
  [("sdate", start); ("edate", end_); ("output", "json"); ("loc", longitude ++ "," ++ latitude); ("grid", grid)]%string.
(** acis.py:158, 243, 321: df.replace(-999, nan) *)
Definition cell_nan (c : cell) : cell := match c with CNum x => if feqb x #(-999) then CNum NaN else c | CText _ => c end.
(** acis.py:79-322: get_acis_prism, get_acis_nrcc and get_acis_mpe with their elements *)
Definition get_acis_grid (elems : list (string * string)) (answer : acis_answer) (map_variables : bool) : res (list Z * list (string * list cell) * dict) :=
  let* r := acis_parse (map fst elems) answer map_variables in
  let '(i, t, d) := r in Ok (i, map (fun c => (fst c, map cell_nan (snd c))) t, d).
Section Station.
Variable py_float : string -> option fl.
(** acis.py:416-418 *)
Definition station_cell (trace_val : fl) (c : cell) : res fl :=
  let c := match c with CText s => if String.eqb s "M" then CNum NaN else c | _ => c end in
  let c := match c with CText s => if String.eqb s "T" then CNum trace_val else c | _ => c end in
  match c with CNum x => Ok x | CText s => match py_float s with Some x => Ok x | None => Err ValueError end end.
(** acis.py:325-419 *)
Definition get_acis_station_data (answer : acis_answer) (trace_val : fl) (map_variables : bool) : res (list Z * table * dict) :=
  let* r := acis_parse (map fst station_elems) answer map_variables in
  let '(i, t, d) := r in
  let* t := mapM (fun c => let* v := mapM (station_cell trace_val) (snd c) in Ok (fst c, v)) t in
  Ok (i, t, d).
End Station.
(** acis.py:483-498: the bounding box and, if both are given, start and end *)
Definition acis_stations_params (lat0 lat1 lon0 lon1 : string) (start end_ : option string) : list (string * string) :=
  [("bbox", lon0 ++ "," ++ lat0 ++ "," ++ lon1 ++ "," ++ lat1)]%string ++
  match start, end_ with Some s, Some e => [("sdate", s); ("edate", e)]%string | _, _ => [] end.
(** acis.py:509-513 *)
Definition acis_station_record (d : dict) : res dict := let* d := move "elev" "altitude" d in acis_ll "longitude" "latitude" d.
Definition get_acis_available_stations (meta : option (list dict)) : res (list dict) := match meta with None => Err HttpError | Some l => mapM acis_station_record l end.

(** ** solaranywhere.py *)
(** solaranywhere.py:14-35 *)
Definition sa_map : list (string * string) :=
  [("Global Horizontal Irradiance (GHI) W/m2", "ghi"); ("GlobalHorizontalIrradiance_WattsPerMeterSquared", "ghi"); ("DirectNormalIrradiance_WattsPerMeterSquared", "dni"); ("Direct Normal Irradiance (DNI) W/m2", "dni");
   ("Diffuse Horizontal Irradiance (DIF) W/m2", "dhi"); ("DiffuseHorizontalIrradiance_WattsPerMeterSquared", "dhi"); ("AmbientTemperature (deg C)", "temp_air"); ("AmbientTemperature_DegreesC", "temp_air");
   ("WindSpeed (m/s)", "wind_speed"); ("WindSpeed_MetersPerSecond", "wind_speed"); ("Relative Humidity (%)", "relative_humidity"); ("RelativeHumidity_Percent", "relative_humidity"); ("Clear Sky GHI", "ghi_clear");
   ("ClearSkyGHI_WattsPerMeterSquared", "ghi_clear"); ("Clear Sky DNI", "dni_clear"); ("ClearSkyDNI_WattsPerMeterSquared", "dni_clear"); ("Clear Sky DHI", "dhi_clear"); ("ClearSkyDHI_WattsPerMeterSquared", "dhi_clear");
   ("Albedo", "albedo"); ("Albedo_Unitless", "albedo")]%string.
Section SolarAnywhere.
Variable py_int : string -> option Z.
Variable py_float : string -> option fl.
Definition pop (l : list string) : res (string * list string) := match l with x :: l' => Ok (x, l') | [] => Err IndexError end.
Definition text_int (s : string) : res Z := match py_int s with Some n => Ok n | None => Err ValueError end.
Definition text_float (s : string) : res fl := match py_float s with Some n => Ok n | None => Err ValueError end.
(** solaranywhere.py:274-277 *)
Definition sa_piece (d : dict) (i : string) : res dict :=
  if has_char ":" i then match split_on ":" i with [k; v] => Ok (dict_set (strip k) (VText (strip v)) d) | _ => Err ValueError end else Ok d.
Fixpoint sa_pieces (l : list string) (d : dict) : res dict := match l with [] => Ok d | i :: l' => let* d := sa_piece d i in sa_pieces l' d end.
(** solaranywhere.py:256, 261-279 *)
Definition sa_meta (line : string) : res dict :=
  let l := split_on "," (strip line) in
  let* p := pop l in let* usaf := text_int (fst p) in
  let* p := pop (snd p) in let name := fst p in
  let* p := pop (snd p) in let state := fst p in
  let* p := pop (snd p) in let* tz := text_float (fst p) in
  let* p := pop (snd p) in let* lat := text_float (fst p) in
  let* p := pop (snd p) in let* lon := text_float (fst p) in
  let* p := pop (snd p) in let* alt := text_float (fst p) in
  let d := [("USAF", VInt usaf); ("name", VText name); ("state", VText state); ("TZ", VFloat tz); ("latitude", VFloat lat); ("longitude", VFloat lon); ("altitude", VFloat alt)]%string in
  let* d := sa_pieces (split_on "/" (replace_char quote "" (String.concat "," (snd p)))) d in
  float_entry py_float "LatLon Resolution" d.
(** solaranywhere.py:285: int(TZ*3600) seconds; a fixed offset is less than a day.  A text (TZ given once more as a pair) times 3600 is no number *)
Definition sa_offset (d : dict) : res Z :=
  match lookup "TZ" d with
  | Some (VFloat (Fin tz)) => let o := utc_offset tz in if (-86400 <? o) && (o <? 86400) then Ok o else Err ValueError
  | Some (VFloat NaN) => Err ValueError
  | Some (VFloat _) => Err OverflowError
  | Some (VText _) => Err ValueError
  | Some _ => Err TypeError
  | None => Err KeyError
  end.
(** solaranywhere.py:219-294, after the csv parser: the observation times in local minutes and the table; the index in seconds, UTC *)
Definition read_solaranywhere (line : string) (times : list Z) (t : table) (map_variables : bool) : res (list Z * table * dict) :=
  let* d := sa_meta line in
  let* o := sa_offset d in
  let t := replace_nan #(-999) t in
  Ok (map (fun m => 60 * m - o) times, if map_variables then rename_columns sa_map t else t, d).
(** solaranywhere.py:157-174: a time is its local minutes and the UTC offset in minutes, if it has one; not given is None.  (exceedance is given and not an integer; ...) *)
Definition localized (s : Z * option Z) : Z * Z := (fst s, match snd s with Some o => o | None => 0 end).
Definition sa_times (non_integer_exceedance : bool) (start end_ : option (Z * option Z)) : res (option ((Z * Z) * (Z * Z))) :=
  if non_integer_exceedance then Err ValueError else
  match start, end_ with
  | None, None => Ok None
  | Some s, Some e => Ok (Some (localized s, localized e))
  | _, _ => Err AttributeError
  end.
(** solaranywhere.py:188-199: the answers to the requests (status, and that of the first result) and the time elapsed after each; None: the fuel is used up *)
Fixpoint sa_poll (timeout : R) (answer : nat -> string * string) (elapsed : nat -> R) (fuel k : nat) : option (res nat) :=
  match fuel with
  | O => None
  | S f => if String.eqb (fst (answer k)) "Done" then Some (if String.eqb (snd (answer k)) "Failure" then Err RuntimeError else Ok k)
           else if Rlt_dec timeout (elapsed k) then Some (Err TimeoutError)
           else sa_poll timeout answer elapsed f (S k)
  end.
(** float() of a JSON value *)
Definition value_float (v : value) : res fl := match v with VText s => text_float s | VInt n => Ok #(IZR n) | VFloat x => Ok x | VList _ => Err TypeError end.
Definition move_float (old new : string) (d : dict) : res dict :=
  match lookup old d with Some v => let* x := value_float v in Ok (dict_set new (VFloat x) (remove_key old d)) | None => Err KeyError end.
(** solaranywhere.py:205-216 *)
Definition sa_result (info : dict) (resolution spatial_resolution : value) (t : table) (map_variables : bool) : res (table * dict) :=
  let d := dict_set "spatial_resolution" spatial_resolution (dict_set "time_resolution" resolution info) in
  let* d := move_float "Latitude" "latitude" d in
  let* d := move_float "Longitude" "longitude" d in
  let* d := move_float "Elevation_Meters" "altitude" d in
  Ok (if map_variables then rename_columns sa_map t else t, d).
End SolarAnywhere.

(** ** meteonorm.py *)
(** meteonorm.py:12-26 *)
Definition mn_map : list (string * string) :=
  [("global_horizontal_irradiance", "ghi"); ("diffuse_horizontal_irradiance", "dhi"); ("direct_normal_irradiance", "dni"); ("direct_horizontal_irradiance", "bhi"); ("global_clear_sky_irradiance", "ghi_clear");
   ("diffuse_clear_sky_irradiance", "dhi_clear"); ("direct_normal_clear_sky_irradiance", "dni_clear"); ("direct_horizontal_clear_sky_irradiance", "bhi_clear"); ("diffuse_tilted_irradiance", "poa_diffuse");
   ("direct_tilted_irradiance", "poa_direct"); ("global_tilted_irradiance", "poa"); ("temperature", "temp_air"); ("dew_point_temperature", "temp_dew")]%string.
(** meteonorm.py:28-34 *)
Definition mn_steps : list (string * string) := [("1h", "1_hour"); ("h", "1_hour"); ("15min", "15_minutes"); ("1min", "1_minute"); ("min", "1_minute")]%string.
(** a text or a list of texts *)
Inductive texts_arg := One (s : string) | Many (l : list string).
(** a time: a text pandas cannot read ('now' is one for this purpose), or a time of day (date, hour, minute, second) with its UTC offset in minutes, if it has one *)
Inductive when := Verbatim (s : string) | Moment (d : date) (h mi s : Z) (offset : option Z).
Definition digits_text (l : list Z) : string := fold_right (fun c s => String (if c =? dash then "-"%char else ascii_of_nat (48 + Z.to_nat c)) s) EmptyString l.
(** meteonorm.py:545-558: strftime in ISO format with a Z, of the local time *)
Definition mn_time (t : when) : string :=
  match t with
  | Verbatim s => s
  | Moment d h mi s _ => (digits_text (zpad 4 (Calendar.yr d)) ++ "-" ++ digits_text (zpad 2 (mo d)) ++ "-" ++ digits_text (zpad 2 (dy d)) ++ "T" ++ digits_text (zpad 2 h) ++ ":" ++ digits_text (zpad 2 mi) ++ ":" ++ digits_text (zpad 2 s) ++ "Z")%string
  end.
(** meteonorm.py:575-582 *)
Definition mn_parameters (p : texts_arg) : string := String.concat "," (map (get_or (reversed mn_map)) (match p with One s => [s] | Many l => l end)).
(** meteonorm.py:584-585, 516-517 *)
Definition mn_joined (p : texts_arg) : string := match p with One s => s | Many l => String.concat "," l end.
(** meteonorm.py:560-585; what is None is not sent; numbers as texts *)
Definition optional (k : string) (v : option string) : list (string * string) := match v with Some s => [(k, s)] | None => [] end.
Definition mn_params (latitude longitude : string) (start end_ : option when) (parameters : texts_arg) (tilt azimuth : string) (time_step : option string) (horizon : texts_arg) (more : list (string * string)) : list (string * string) :=
  [("lat", latitude); ("lon", longitude)]%string ++ optional "start" (option_map mn_time start) ++ optional "end" (option_map mn_time end_) ++
  [("parameters", mn_parameters parameters); ("surface_tilt", tilt); ("surface_azimuth", azimuth); ("horizon", mn_joined horizon)]%string ++
  optional "frequency" (option_map (get_or mn_steps) time_step) ++ [("response_format", "json")]%string ++ more.
(** meteonorm.py:402-530; (response_format is given twice with the same value: once here) *)
Definition mn_tmy_params (latitude longitude : string) (parameters : texts_arg) (tilt azimuth : string) (time_step : option string) (horizon : texts_arg) (terrain_situation : string) (albedo : option texts_arg) (turbidity : texts_arg)
    (random_seed : option string) (clear_sky_radiation_model : string) (future_scenario future_year : option string) : list (string * string) :=
  mn_params latitude longitude None None parameters tilt azimuth time_step horizon
    ([("situation", terrain_situation); ("turbidity", mn_joined turbidity); ("clear_sky_radiation_model", clear_sky_radiation_model)]%string ++ optional "random_seed" random_seed ++
     optional "future_scenario" future_scenario ++ optional "future_year" future_year).
(** meteonorm.py:593-631: the answer (None: not ok) with the columns, of which some are null, the periods in minutes and the metadata *)
Definition mn_parse (answer : option (list (string * option (list fl)) * list (R * R) * dict)) (interval_index map_variables : bool) : res (list (R * R) * table * dict) :=
  match answer with
  | None => Err HttpError
  | Some (values, periods, meta) =>
      let t := flat_map (fun c => match snd c with Some v => [(fst c, v)] | None => [] end) values in
      let index := if interval_index then periods else map (fun p => let m := ((fst p + snd p) / 2)%R in (m, m)) periods in
      if map_variables then
        let* d := move "lat" "latitude" meta in let* d := move "lon" "longitude" d in Ok (index, rename_columns mn_map t, d)
      else Ok (index, t, meta)
  end.
