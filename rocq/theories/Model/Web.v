(** Weather services: iotools/nasa_power.py, solcast.py, solargis.py, merra2.py, era5.py.  The answers as tables (named columns); times in minutes; requests and their
    transport not modelled *)
From Verif Require Import Base.Fl Base.Py Base.PyStr Base.Calendar Model.Bsrn Model.Tmy.
From Coq Require Import Reals List String Ascii Bool ZArith.
Import ListNotations.
Open Scope list_scope.
Open Scope Z_scope.

Definition table : Type := list (string * list fl).
Definition columns (t : table) : list string := map fst t.
(** df.rename(columns=m) *)
Definition rename_columns (m : list (string * string)) (t : table) : table := map (fun c => (match lookup (fst c) m with Some n => n | None => fst c end, snd c)) t.
(** df.replace(x, nan); nan is not replaced by itself *)
Definition replace_nan (x : fl) (t : table) : table := map (fun c => (fst c, map (fun v => if feqb v x then NaN else v) (snd c))) t.
(** df[name] = f(df[name]), where there are such columns *)
Definition convert (name : string) (f : fl -> fl) (t : table) : table := map (fun c => if String.eqb (fst c) name then (fst c, map f (snd c)) else c) t.
(** {v: k for k, v in d.items()}: the last key of a value counts *)
Definition reversed (d : list (string * string)) : list (string * string) := fold_left (fun r kv => dict_set (snd kv) (fst kv) r) d [].
Definition get_or (d : list (string * string)) (k : string) : string := match lookup k d with Some v => v | None => k end.

(** ** nasa_power.py *)
(** nasa_power.py:13-30 *)
Definition nasa_map : list (string * string) :=
  [("ALLSKY_SFC_SW_DWN", "ghi"); ("ALLSKY_SFC_SW_DIFF", "dhi"); ("ALLSKY_SFC_SW_DNI", "dni"); ("ALLSKY_SRF_ALB", "albedo"); ("ALLSKY_SFC_LW_DWN", "longwave_down"); ("CLRSKY_SFC_SW_DIFF", "dhi_clear");
   ("CLRSKY_SFC_SW_DNI", "dni_clear"); ("CLRSKY_SFC_SW_DWN", "ghi_clear"); ("PS", "pressure"); ("RH2M", "relative_humidity"); ("T2M", "temp_air"); ("T2MDEW", "temp_dew"); ("TQV", "precipitable_water");
   ("TOA_SW_DWN", "ghi_extra"); ("WS2M", "wind_speed_2m"); ("WS10M", "wind_speed")]%string.
(** nasa_power.py:122-123 *)
Definition nasa_parameters (parameters : list string) : list string := map (get_or (reversed nasa_map)) parameters.
(** nasa_power.py:161-172 *)
Definition nasa_data (map_variables : bool) (fill_value : fl) (t : table) : table :=
  let t := replace_nan fill_value t in
  if map_variables then convert "precipitable_water" (fun x => x / #10)%fl (convert "pressure" (fun x => x * #1000)%fl (rename_columns nasa_map t)) else t.
(** nasa_power.py:157-159: (longitude, latitude, altitude) *)
Definition nasa_place (coordinates : list fl) : res (fl * fl * fl) := match coordinates with a :: b :: c :: _ => Ok (a, b, c) | _ => Err IndexError end.

(** ** solcast.py, solargis.py: rename and convert one variable after the other *)
Record parameter_map := ParameterMap { p_from : string; p_to : string; p_conversion : fl -> fl }.
Definition same (x : fl) : fl := x.
Definition apply_parameter (p : parameter_map) (t : table) : table :=
  if mem (p_from p) (columns t) then convert (p_to p) (p_conversion p) (rename_columns [(p_from p, p_to p)] t) else t.
Definition apply_parameters (ps : list parameter_map) (t : table) : table := fold_left (fun t p => apply_parameter p t) ps t.
(** solcast.py:20-46 *)
Definition solcast_map : list parameter_map :=
  [ParameterMap "air_temp" "temp_air" same; ParameterMap "surface_pressure" "pressure" (fun x => x * #100)%fl; ParameterMap "dewpoint_temp" "temp_dew" same; ParameterMap "gti" "poa_global" same;
   ParameterMap "wind_speed_10m" "wind_speed" same; ParameterMap "wind_direction_10m" "wind_direction" same; ParameterMap "azimuth" "solar_azimuth" (fun x => fmod (- x) #360)%fl;
   ParameterMap "precipitable_water" "precipitable_water" (fun x => x / #10)%fl; ParameterMap "zenith" "solar_zenith" same; ParameterMap "clearsky_dhi" "dhi_clear" same;
   ParameterMap "clearsky_dni" "dni_clear" same; ParameterMap "clearsky_ghi" "ghi_clear" same; ParameterMap "clearsky_gti" "poa_global_clear" same].
(** solcast.py:403-430: rows with period_end and period in minutes *)
Definition solcast2pvlib (periods : list (R * R)) (t : table) : list R * table := (map (fun p => (fst p - snd p / 2)%R) periods, apply_parameters solcast_map t).
(** solcast.py:115-120, 217-226, 299-..., the query of the four functions (the key goes into a header): tmy, forecast and live with the place, historic with start, end,
    duration and the key as well *)
Definition solcast_params (historic : bool) (latitude longitude start end_ duration api_key : string) (kwargs : list (string * string)) : list (string * string) :=
  [("latitude", latitude); ("longitude", longitude)]%string ++ (if historic then [("start", start); ("end", end_); ("duration", duration); ("api_key", api_key)]%string else []) ++ [("format", "json")]%string ++ kwargs.

(** solargis.py:26-53 *)
Definition solargis_map : list parameter_map :=
  [ParameterMap "GHI" "ghi" same; ParameterMap "GHI_C" "ghi_clear" same; ParameterMap "GHIc" "ghi_clear" same; ParameterMap "DNI" "dni" same; ParameterMap "DNI_C" "dni_clear" same;
   ParameterMap "DNIc" "dni_clear" same; ParameterMap "DIF" "dhi" same; ParameterMap "GTI" "poa_global" same; ParameterMap "GTI_C" "poa_global_clear" same; ParameterMap "GTIc" "poa_global_clear" same;
   ParameterMap "SE" "solar_elevation" same; ParameterMap "SA" "solar_azimuth" (fun x => x + #180)%fl; ParameterMap "TEMP" "temp_air" same; ParameterMap "TD" "temp_dew" same;
   ParameterMap "AP" "pressure" (fun x => x * #100)%fl; ParameterMap "RH" "relative_humidity" same; ParameterMap "WS" "wind_speed" same; ParameterMap "WD" "wind_direction" same;
   ParameterMap "INC" "aoi" same; ParameterMap "PWAT" "precipitable_water" (fun x => x / #10)%fl].
(** solargis.py:62-63 *)
Definition na_9_columns : list string := ["GHI"; "GHIc"; "DNI"; "DNIc"; "DIF"; "GTI"; "GIc"; "KT"; "PAR"; "PREC"; "PWAT"; "SDWE"; "SFWE"]%string.
(** solargis.py:198-212 *)
Definition solargis_data (map_variables : bool) (t : table) : table :=
  let t := map (fun c => if mem (fst c) na_9_columns then (fst c, map (fun v => if feqb v #(-9) then NaN else v) (snd c)) else c) t in
  if map_variables then apply_parameters solargis_map t else t.
(** solargis.py:11-15, 161: minutes or a duration *)
Inductive resolution := Minutes (n : Z) | Duration (s : string).
Definition resolution_minutes : list (Z * string) := [(5, "MIN_5"); (10, "MIN_10"); (15, "MIN_15"); (30, "MIN_30"); (60, "HOURLY")]%string.
Definition resolution_durations : list (string * string) :=
  [("PT05M", "MIN_5"); ("PT5M", "MIN_5"); ("PT10M", "MIN_10"); ("PT15M", "MIN_15"); ("PT30", "MIN_30"); ("PT60M", "HOURLY"); ("PT1H", "HOURLY"); ("P1D", "DAILY"); ("P1M", "MONTHLY"); ("P1Y", "YEARLY")]%string.
Definition upper_ascii (c : ascii) : ascii := let n := nat_of_ascii c in if (Nat.leb 97 n && Nat.leb n 122)%bool then ascii_of_nat (n - 32) else c.
Fixpoint upper (s : string) : string := match s with EmptyString => EmptyString | String c s' => String (upper_ascii c) (upper s') end.
Fixpoint zlookup {A} (k : Z) (d : list (Z * A)) : option A := match d with [] => None | (k', v) :: d' => if k =? k' then Some v else zlookup k d' end.
Definition summarization (r : resolution) : res string :=
  match r with
  | Minutes n => match zlookup n resolution_minutes with Some s => Ok (upper s) | None => Err AttributeError end
  | Duration s => Ok (upper (get_or resolution_durations s))
  end.
(** solargis.py:174-186; ':'.join(line.split(':')[1:]) is what follows the first colon *)
Section SolargisMeta.
Variable py_float : string -> option fl.
Definition metadata_fields : list string := ["issued"; "site name"; "latitude"; "longitude"; "elevation"; "summarization type"; "summarization period"]%string.
Fixpoint after_colon (s : string) : string := match s with EmptyString => EmptyString | String c s' => if Ascii.eqb c ":" then s' else after_colon s' end.
Definition before_colon (s : string) : string := match split_on ":" s with k :: _ => k | [] => s end.
Definition meta_line (meta : list (string * string)) (line : string) : list (string * string) :=
  let line := strip line in
  if has_char ":" line then let key := lower (before_colon line) in if mem key metadata_fields then dict_set key (after_colon line) meta else meta else meta.
Definition solargis_meta_texts (text : string) : list (string * string) := fold_left meta_line (split_on "#" text) [].
(** str.replace(needle, '') for a needle whose first character occurs in it once *)
Fixpoint remove_all (needle : string) (fuel : nat) (s : string) : string :=
  match fuel, s with
  | S f, String c s' => if String.prefix needle s then remove_all needle f (substring (String.length needle) (String.length s - String.length needle) s) else String c (remove_all needle f s')
  | _, _ => s
  end.
Definition remove_text (needle s : string) : string := remove_all needle (String.length s) s.
(** (latitude, longitude, altitude, the other texts) *)
Definition solargis_meta (text : string) : res (fl * fl * fl * list (string * string)) :=
  let meta := solargis_meta_texts text in
  let* lat := to_float py_float (lookup "latitude" meta) in
  let* lon := to_float py_float (lookup "longitude" meta) in
  let* alt := to_float py_float (option_map (remove_text "m a.s.l.") (lookup "elevation" meta)) in
  Ok (lat, lon, alt, filter (fun kv => negb (mem (fst kv) ["latitude"; "longitude"; "elevation"]%string)) meta).
End SolargisMeta.

(** ** merra2.py *)
(** merra2.py:7-26 *)
Definition merra2_map : list (string * string) :=
  [("SWGDN", "ghi"); ("SWGDNCLR", "ghi_clear"); ("ALBEDO", "albedo"); ("LWGNT", "longwave_net"); ("LWGAB", "longwave_down"); ("T2M", "temp_air"); ("PS", "pressure"); ("TOTEXTTAU", "aod550"); ("TQV", "precipitable_water")]%string.
Definition k_to_c (x : fl) : fl := (x - #273.15)%fl.
(** an answer: the header lines and the data *)
Record merra2_answer := Answer { a_header : list (string * string); a_data : list fl }.
Section Merra2.
Variable py_float : string -> option fl.
Variable fetch : string -> merra2_answer.
(** dataset.replace('.', '_') + '_' + variable *)
Fixpoint underscores (s : string) : string := match s with EmptyString => EmptyString | String c s' => String (if Ascii.eqb c "." then "_"%char else c) (underscores s') end.
Definition merra2_name (dataset variable : string) : string := (underscores dataset ++ "_" ++ variable)%string.
(** merra2.py:170-189; data[variable] = ... *)
Fixpoint merra2_fetch (pairs : list (string * string)) (data : table) (meta : option (list (string * string))) : res (table * option (list (string * string))) :=
  match pairs with
  | [] => Ok (data, meta)
  | (variable, dataset) :: rest =>
      let a := fetch (merra2_name dataset variable) in
      let* undef := to_float py_float (lookup "undef" (a_header a)) in
      merra2_fetch rest (dict_set variable (map (fun v => if feqb v undef then NaN else v) (a_data a)) data) (Some (a_header a))
  end.
(** merra2.py:155-207: one dataset for all variables or a list of datasets; (latitude, longitude, table); the header of the last variable *)
Inductive datasets := Single (d : string) | Several (ds : list string).
Definition get_merra2 (dataset : datasets) (variables : list string) (map_variables : bool) : res (fl * fl * table) :=
  let ds := match dataset with Single d => repeat d (List.length variables) | Several ds => ds end in
  let* dm := merra2_fetch (combine variables ds) [] None in
  match snd dm with
  | None => Err UnboundLocalError
  | Some h => let* lat := to_float py_float (lookup "lat" h) in
              let* lon := to_float py_float (lookup "lon" h) in
              Ok (lat, lon, if map_variables then rename_columns merra2_map (convert "T2M" k_to_c (fst dm)) else fst dm)
  end.
End Merra2.
(** merra2.py:180-183: the header lines up to the first blank one *)
Fixpoint merra2_header (fuel : nat) (s : string) (meta : list (string * string)) : res (list (string * string) * string) :=
  match fuel with
  | O => Ok (meta, s)
  | S f => let (line, rest) := read_line s in
           let line := rstrip is_ws line in
           if String.eqb line "" then Ok (meta, rest)
           else if has_char "," line then merra2_header f rest (dict_set (match split_on "," line with k :: _ => k | [] => line end)
                  (match split_on "," line with k :: _ => substring (S (String.length k)) (String.length line - S (String.length k)) line | [] => line end) meta)
           else Err ValueError
  end.

(** ** era5.py *)
(** era5.py:8-26 *)
Definition era5_map : list (string * string) :=
  [("d2m", "temp_dew"); ("t2m", "temp_air"); ("sp", "pressure"); ("ssrd", "ghi"); ("fdir", "bhi"); ("tp", "precipitation"); ("strd", "longwave_down");
   ("2m_dewpoint_temperature", "temp_dew"); ("2m_temperature", "temp_air"); ("surface_pressure", "pressure"); ("surface_solar_radiation_downwards", "ghi");
   ("total_sky_direct_solar_radiation_at_surface", "bhi"); ("total_precipitation", "precipitation"); ("surface_thermal_radiation_downwards", "longwave_down")]%string.
Definition era5_variables (variables : list string) : list string := map (get_or (reversed era5_map)) variables.
(** era5.py:45-60 *)
Definition era5_unit (name : string) : fl -> fl :=
  if mem name ["d2m"; "t2m"; "sst"; "skt"]%string then k_to_c
  else if mem name ["ssrd"; "fdir"; "strd"]%string then (fun j => j / #3600)%fl
  else if mem name ["tp"]%string then (fun m => m * #100)%fl
  else same.
(** era5.py:203-208 *)
Definition era5_data (map_variables : bool) (t : table) : table :=
  if map_variables then rename_columns era5_map (map (fun c => (fst c, map (era5_unit (fst c)) (snd c))) t) else t.
(** era5.py:152-177: the k-th answer of the server, k = 0, 1, ...; the fuel timeout + 1 is never used up *)
Inductive polled := Ready (polls : nat) | Failed (polls : nat) | TimedOut (polls : nat).
Fixpoint era5_poll (timeout : Z) (status : nat -> string) (fuel num_polls : nat) : polled :=
  if String.eqb (status num_polls) "successful" then Ready (S num_polls)
  else if String.eqb (status num_polls) "failed" then Failed (S num_polls)
  else if timeout <? Z.of_nat (S num_polls) then TimedOut (S num_polls)
  else match fuel with O => TimedOut (S num_polls) | S f => era5_poll timeout status f (S num_polls) end.
Definition era5_wait (timeout : Z) (status : nat -> string) : polled := era5_poll timeout status (Z.to_nat (timeout + 1)) 0.
