(** Readers after pandas' parser: iotools/midc.py (read_midc, read_midc_raw_data_from_nrel's request), iotools/crn.py (read_crn), pvsystem.py _parse_raw_sam_df,
    and the wrapper bifacial/pvfactors.py.  Times in minutes (Base/Calendar.v), to_datetime as in Base/Strptime.v. *)
From Coq Require Import Reals List String Ascii Bool ZArith.
From Verif Require Import Base.Fl Base.Py Base.PyStr Base.Calendar Base.Strptime Model.Bsrn Model.Stations Model.Tools.
Import ListNotations.
Open Scope list_scope.
Open Scope Z_scope.

(** a cell of a table, a missing one being the number nan; a table is a list of distinct column names with columns of the same length *)
Inductive rcell := RText (s : string) | RInt (z : Z) | RNum (x : fl).
Definition table := list (string * list rcell).
(** DataFrame.rename(columns=m) *)
Definition rename_columns (m : list (string * string)) (data : table) : table :=
  map (fun c => (match lookup (fst c) m with Some n => n | None => fst c end, snd c)) data.

(** characters of a text, for Base/Strptime.v: a digit is its value, a dash is -1, every other character below -1 *)
Definition code (c : ascii) : Z :=
  let n := Z.of_nat (nat_of_ascii c) in if (48 <=? n) && (n <=? 57) then n - 48 else if n =? 45 then dash else -2 - n.
Fixpoint codes (s : string) : list Z := match s with EmptyString => [] | String c s' => code c :: codes s' end.
Definition slash : Z := -49.
Definition colon : Z := -60.
(** pd.to_datetime(text, format='%m/%d/%Y%H:%M'); Python's %d also accepts a blank before a single digit, which is not modelled *)
Definition midc_format : list item := [fm; Lit slash; fd; Lit slash; fY; fH; Lit colon; fM].
Definition mdy_time (o : option (list Z)) : res Z :=
  match o with Some [m; d; y; h; mi] => if valid_dateb (Date y m d) then Ok (instant (Date y m d) h mi) else Err ValueError | _ => Err ValueError end.

(** midc.py:104-107 *)
Definition midc_tz_map : list (string * string) := [("PST", "Etc/GMT+8"); ("CST", "Etc/GMT+6")]%string.
Definition midc_zone (tz_raw : string) : string := match lookup tz_raw midc_tz_map with Some t => t | None => tz_raw end.
Definition getcol (data : table) (name : string) : res (list rcell) := match lookup name data with Some c => Ok c | None => Err KeyError end.
Definition as_int (c : rcell) : res Z := match c with RInt z => Ok z | _ => Err ValueError end.

Section Midc.
  (** tz_localize: the instants of local times in a zone, or pytz's exception *)
  Context {T : Type}.
  Variable localize : string -> list Z -> res (list T).
  (** midc.py:110-131 _format_index; columns that are not of texts are simplified to a TypeError *)
  Definition midc_add (p : rcell * rcell) : res string := match p with (RText a, RText b) => Ok (a ++ b)%string | _ => Err TypeError end.
  Definition format_index (data : table) : res (list T * table) :=
    match data with
    | _ :: (tz_raw, _) :: _ =>
        let* dates := getcol data "DATE (MM/DD/YYYY)" in
        let* times := getcol data tz_raw in
        let* texts := mapM midc_add (combine dates times) in
        let* datetime := mapM (fun s => mdy_time (strptime midc_format (codes s))) texts in
        let* index := localize (midc_zone tz_raw) datetime in
        Ok (index, data)
    | _ => Err IndexError
    end.
  (** midc.py:134-157 _format_index_raw; columns that are not of integers are simplified to a ValueError *)
  Definition format_index_raw (data : table) : res (list T * table) :=
    match data with
    | _ :: _ :: _ :: (tz_raw, _) :: _ =>
        let* year := match lookup "Year" data with Some c => Ok c | None => Err AttributeError end in
        let* jday := match lookup "DOY" data with Some c => Ok c | None => Err AttributeError end in
        let* time := getcol data tz_raw in
        let* year := mapM as_int year in
        let* jday := mapM as_int jday in
        let* time := mapM as_int time in
        let* datetime := midc_raw_index (combine (combine year jday) time) in
        let* index := localize (midc_zone tz_raw) datetime in
        Ok (index, data)
    | _ => Err IndexError
    end.
  (** midc.py:160-212 read_midc *)
  Definition read_midc (data : table) (variable_map : list (string * string)) (raw_data : bool) : res (list T * table) :=
    let* r := if raw_data then format_index_raw data else format_index data in
    Ok (fst r, rename_columns variable_map (snd r)).
End Midc.
(** midc.py:254-256: site, begin and end of the request, as digits YYYYMMDD *)
Definition midc_request (site : string) (start end_ : date) : string * list Z * list Z :=
  let strf d := zpad 4 (Calendar.yr d) ++ zpad 2 (mo d) ++ zpad 2 (dy d) in (site, strf start, strf end_).

(** ** CRN *)
Inductive crn_dtype := DInt | DFloat | DStr | DObj.
(** crn.py:8-13, 50-55 *)
Definition crn_columns : list (string * crn_dtype) :=
  [("WBANNO", DInt); ("UTC_DATE", DInt); ("UTC_TIME", DInt); ("LST_DATE", DInt); ("LST_TIME", DInt); ("CRX_VN", DStr); ("LONGITUDE", DFloat); ("LATITUDE", DFloat);
   ("AIR_TEMPERATURE", DFloat); ("PRECIPITATION", DFloat); ("SOLAR_RADIATION", DFloat); ("SR_FLAG", DInt); ("SURFACE_TEMPERATURE", DFloat); ("ST_TYPE", DObj); ("ST_FLAG", DInt);
   ("RELATIVE_HUMIDITY", DFloat); ("RH_FLAG", DInt); ("SOIL_MOISTURE_5", DFloat); ("SOIL_TEMPERATURE_5", DFloat); ("WETNESS", DInt); ("WET_FLAG", DInt); ("WIND_1_5", DFloat);
   ("WIND_FLAG", DInt)]%string.
(** crn.py:27-38 *)
Definition crn_nan : list (string * Z) :=
  [("CRX_VN", -99999); ("AIR_TEMPERATURE", -9999); ("PRECIPITATION", -9999); ("SOLAR_RADIATION", -99999); ("SURFACE_TEMPERATURE", -9999); ("RELATIVE_HUMIDITY", -9999);
   ("SOIL_MOISTURE_5", -99); ("SOIL_TEMPERATURE_5", -9999); ("WETNESS", -9999); ("WIND_1_5", -99)]%string.
(** crn.py:15-25 *)
Definition crn_variable_map : list (string * string) :=
  [("LONGITUDE", "longitude"); ("LATITUDE", "latitude"); ("AIR_TEMPERATURE", "temp_air"); ("SOLAR_RADIATION", "ghi"); ("SR_FLAG", "ghi_flag"); ("RELATIVE_HUMIDITY", "relative_humidity");
   ("RH_FLAG", "relative_humidity_flag"); ("WIND_1_5", "wind_speed"); ("WIND_FLAG", "wind_speed_flag")]%string.
(** crn.py:40, six NUL characters *)
Definition six_nuls : string := let n := ascii_of_nat 0 in String n (String n (String n (String n (String n (String n EmptyString))))).
Section Crn.
  Variable py_float : string -> option fl.
  Variable py_int : string -> option Z.
  (** crn.py:124 astype of a text or a missing value; str of a missing value is 'nan' *)
  Definition crn_cast (t : crn_dtype) (o : option string) : res rcell :=
    match t, o with
    | DInt, Some s => match py_int s with Some z => Ok (RInt z) | None => Err ValueError end
    | DInt, None => Err ValueError
    | DFloat, Some s => match py_float s with Some x => Ok (RNum x) | None => Err ValueError end
    | DFloat, None => Ok (RNum NaN)
    | DStr, Some s => Ok (RText s)
    | DStr, None => Ok (RText "nan")
    | DObj, Some s => Ok (RText s)
    | DObj, None => Ok (RNum NaN)
    end.
  (** crn.py:127 replace(NAN_DICT, value=nan): a text is no number *)
  Definition crn_replace (name : string) (c : rcell) : rcell :=
    match lookup name crn_nan with
    | None => c
    | Some v => match c with
                | RInt z => if z =? v then RNum NaN else c
                | RNum x => if feqb x (Fin (IZR v)) then RNum NaN else c
                | RText s => if String.eqb s six_nuls then RNum NaN else c
                end
    end.
  (** crn.py:110-140 read_crn, from the rows of 23 texts that pandas' fixed-width reader gives, None being a missing value *)
  Definition read_crn (rows : list (list (option string))) (map_variables : bool) : res (list Z * table) :=
    let rows := filter (fun r => existsb (fun o => match o with Some _ => true | None => false end) r) rows in
    let* data := mapM (fun jc => let '(j, (name, t)) := jc in let* col := mapM (fun r => crn_cast t (nth j r None)) rows in Ok (name, col)) (combine (seq 0 23) crn_columns) in
    let data := map (fun c => (fst c, map (crn_replace (fst c)) (snd c))) data in
    let* dates := getcol data "UTC_DATE" in
    let* times := getcol data "UTC_TIME" in
    let* dates := mapM as_int dates in
    let* times := mapM as_int times in
    let* index := crn_index (combine dates times) in
    Ok (index, if map_variables then rename_columns crn_variable_map data else data).
End Crn.

(** ** _parse_raw_sam_df *)
(** str.replace(' ', '_') *)
Fixpoint blanks_to_underscores (s : string) : string :=
  match s with EmptyString => EmptyString | String c s' => String (if Ascii.eqb c " " then "_"%char else c) (blanks_to_underscores s') end.
(** x.strip(' []') *)
Definition is_bracket (c : ascii) : bool := Ascii.eqb c " " || Ascii.eqb c "[" || Ascii.eqb c "]".
Inductive samcell := SText (s : string) | SNum (x : fl) | SList (l : list fl).
Section Sam.
  Variable py_float : string -> option fl.
  Variable normalize : list string -> list string.   (* _normalize_sam_product_names, Pvsystem.v *)
  (** pvsystem.py:2233-2235; a number, as a missing cell is, has no strip *)
  Definition adr_coefficients (c : samcell) : res samcell :=
    match c with
    | SText s => let* l := mapM (fun w => match py_float w with Some x => Ok x | None => Err ValueError end) (split_ws (rstrip is_bracket (lstrip is_bracket s))) in Ok (SList l)
    | _ => Err AttributeError
    end.
  (** pvsystem.py:2218-2237: the parsed csv as columns of cells, and the names of its rows; the result as (columns, index, rows) after transposing *)
  Definition parse_raw_sam_df (names : list string) (data : list (string * list samcell)) : res (list string * list (string * list samcell)) :=
    let index := map (fun c => (blanks_to_underscores (fst c), snd c)) data in
    let columns := normalize names in
    let* rows := mapM (fun r => if String.eqb (fst r) "ADRCoefficients" then let* l := mapM adr_coefficients (snd r) in Ok (fst r, l) else Ok r) index in
    Ok (columns, rows).
End Sam.

(** ** pvfactors_timeseries *)
(** a numpy array of dimension 0 or 1: whether its type is integer, whether it is of dimension 0, and its values *)
Record ndarray := { nd_integer : bool; nd_scalar : bool; nd_values : list fl }.
Section Pvfactors.
  Variable bad_cast : fl -> Z.   (* the integer of a nan or infinity, which depends on the machine *)
  Definition to_integer (x : fl) : fl := match x with Fin r => Fin (IZR (ftrunc r)) | _ => Fin (IZR (bad_cast x)) end.
  (** np.full_like(a, v): shape and type of a, v broadcast and cast to them *)
  Definition full_like (a v : ndarray) : res ndarray :=
    let n := List.length (nd_values a) in
    let* values := match nd_values v with
                   | [x] => Ok (repeat x n)
                   | l => if nd_scalar a then Err ValueError else if Nat.eqb (List.length l) n then Ok l else Err ValueError
                   end in
    Ok {| nd_integer := nd_integer a; nd_scalar := nd_scalar a; nd_values := if nd_integer a then map to_integer values else values |}.
  (** what run_timeseries_engine gets (pvfactors.py:108-117, 131-134) *)
  Record engine_call := { ec_n_pvrows : Z; ec_axis_azimuth : fl; ec_pvrow_height : fl; ec_pvrow_width : fl; ec_gcr : fl; ec_rho_front : fl; ec_rho_back : fl; ec_horizon_band_angle : fl;
    ec_timestamps : list Z; ec_dni : ndarray; ec_dhi : ndarray; ec_solar_zenith : ndarray; ec_solar_azimuth : ndarray; ec_surface_tilt : ndarray; ec_surface_azimuth : ndarray; ec_albedo : fl }.
  Inductive side := Front | Back.
  (** the calculated array: its rows, and the weighted parameter of a side of a row over time; the engine is an argument *)
  Variable pvarray pvrow : Type.
  Variable ts_pvrows : pvarray -> list pvrow.
  Variable get_param_weighted : pvrow -> side -> string -> list fl.
  Variable run_timeseries : engine_call -> res pvarray.
  (** l[i] with an integer i, negative ones from the end *)
  Definition py_item {A} (l : list A) (i : Z) : res A :=
    let n := Z.of_nat (List.length l) in
    if (0 <=? i) && (i <? n) || (i <? 0) && (- n <=? i) then match nth_error l (Z.to_nat (if i <? 0 then i + n else i)) with Some x => Ok x | None => Err IndexError end else Err IndexError.
  (** pvfactors.py:120-128, with run_timeseries_engine applying it to the calculated array; the lists for total_inc_back, total_inc_front, total_abs_back, total_abs_front *)
  Definition build_report (index_observed_pvrow : Z) (p : pvarray) : res (list (string * list fl)) :=
    let* r := py_item (ts_pvrows p) index_observed_pvrow in
    Ok [("total_inc_back", get_param_weighted r Back "qinc"); ("total_inc_front", get_param_weighted r Front "qinc");
        ("total_abs_back", get_param_weighted r Back "qabs"); ("total_abs_front", get_param_weighted r Front "qabs")]%string.
  (** pvfactors.py:95-140 pvfactors_timeseries; each result a series over the timestamps *)
  Definition pvfactors_timeseries (solar_azimuth solar_zenith surface_azimuth surface_tilt : ndarray) (axis_azimuth : fl) (timestamps : list Z) (dni dhi : ndarray)
      (gcr pvrow_height pvrow_width albedo : fl) (n_pvrows index_observed_pvrow : Z) (rho_front_pvrow rho_back_pvrow horizon_band_angle : fl) :
      res (list (Z * fl) * list (Z * fl) * list (Z * fl) * list (Z * fl)) :=
    let* surface_tilt := full_like solar_zenith surface_tilt in
    let* surface_azimuth := full_like solar_zenith surface_azimuth in
    let* p := run_timeseries {| ec_n_pvrows := n_pvrows; ec_axis_azimuth := axis_azimuth; ec_pvrow_height := pvrow_height; ec_pvrow_width := pvrow_width; ec_gcr := gcr;
      ec_rho_front := rho_front_pvrow; ec_rho_back := rho_back_pvrow; ec_horizon_band_angle := horizon_band_angle; ec_timestamps := timestamps; ec_dni := dni; ec_dhi := dhi;
      ec_solar_zenith := solar_zenith; ec_solar_azimuth := solar_azimuth; ec_surface_tilt := surface_tilt; ec_surface_azimuth := surface_azimuth; ec_albedo := albedo |} in
    let* report := build_report index_observed_pvrow p in
    if forallb (fun c => Nat.eqb (List.length (snd c)) (List.length timestamps)) report then
      let* inc_front := getitem report "total_inc_front" in
      let* inc_back := getitem report "total_inc_back" in
      let* abs_front := getitem report "total_abs_front" in
      let* abs_back := getitem report "total_abs_back" in
      Ok (combine timestamps inc_front, combine timestamps inc_back, combine timestamps abs_front, combine timestamps abs_back)
    else Err ValueError.
End Pvfactors.
