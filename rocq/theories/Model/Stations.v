(** Readers of measurement stations: iotools/srml.py, surfrad.py, solrad.py, crn.py, midc.py.  Tables as read by pandas (rows of integers, columns of numbers); times in minutes
    (Base/Calendar.v); texts of digits and to_datetime as in Base/Strptime.v. *)
From Verif Require Import Base.Fl Base.Py Base.PyStr Base.Calendar Base.Strptime.
From Coq Require Import Reals List String Ascii Bool ZArith.
Import ListNotations.
Open Scope list_scope.
Open Scope Z_scope.

(** datetime of day j of year y *)
Definition on_day (y j h m : Z) : Z := (days_before_year y + j) * 1440 + 60 * h + m.
(** str(x) *)
Definition str (x : Z) : list Z := zpad 1 x.
(** pd.to_datetime with the formats used below; the value of the parsed fields *)
Definition doy_time (o : option (list Z)) : res Z := match o with Some [y; j; h; m] => Ok (on_day y j h m) | _ => Err ValueError end.
Definition ymd_time (o : option (list Z)) : res Z :=
  match o with Some [y; m; d; h; mi] => if valid_dateb (Date y m d) then Ok (instant (Date y m d) h mi) else Err ValueError | _ => Err ValueError end.

(** surfrad.py:165-186: (year, jday, hour, minute) *)
Definition surfrad_index (rows : list (Z * Z * Z * Z)) : res (list Z) :=
  mapM (fun r => let '(y, j, h, m) := r in doy_time (strptime [fY; fj; fH; fM] (str y ++ zpad 3 j ++ zpad 2 h ++ zpad 2 m))) rows.
(** midc.py:134-157: (Year, DOY, HHMM) *)
Definition midc_raw_index (rows : list (Z * Z * Z)) : res (list Z) :=
  mapM (fun r => let '(y, j, t) := r in doy_time (strptime [fY; fj; fH; fM] (str y ++ zpad 3 j ++ zpad 4 t))) rows.
(** solrad.py:133-141: (year, month, day, hour, minute) *)
Definition solrad_index (rows : list (Z * Z * Z * Z * Z)) : res (list Z) :=
  mapM (fun r => let '(y, m, d, h, mi) := r in ymd_time (strptime [fY; fm; fd; fH; fM] (str y ++ zpad 2 m ++ zpad 2 d ++ zpad 2 h ++ zpad 2 mi))) rows.
(** crn.py:129-135: (UTC_DATE YYYYMMDD, UTC_TIME HHMM) *)
Definition crn_index (rows : list (Z * Z)) : res (list Z) :=
  mapM (fun r => let '(d, t) := r in ymd_time (strptime [fY; fm; fd; fH; fM] (str d ++ zpad 4 t))) rows.

(** srml.py:125-170 _format_index: year = the name of the second column; rows (day of year, HHMM); df[col][1] on fewer than two rows raises KeyError *)
Definition srml_shift (interval_length t : Z) : Z :=
  let df_time := t - interval_length in
  if interval_length =? 100 then df_time else if 60 <? df_time mod 100 then df_time - 40 else df_time.
Definition srml_index (year : Z) (rows : list (Z * Z)) : res (list Z) :=
  match rows with
  | (_, t0) :: (_, t1) :: _ =>
      let interval_length := t1 - t0 in
      mapM (fun r => let '(doy, t) := r in
                     doy_time (strptime [fY; Lit dash; fj; Lit dash; fH; fM] (str year ++ dash :: zpad 3 doy ++ dash :: zpad 4 (srml_shift interval_length t)))) rows
  | _ => Err KeyError
  end.

(** srml.py:15-25 *)
Definition srml_variable_map : list (string * string) :=
  [("100", "ghi"); ("201", "dni"); ("300", "dhi"); ("920", "wind_direction"); ("921", "wind_speed"); ("930", "temp_air"); ("931", "temp_dew"); ("933", "relative_humidity"); ("937", "temp_cell")]%string.
(** srml.py:97-122 _map_columns *)
Definition srml_map_column (col : string) : string :=
  match lookup (if String.prefix "7" col then col else substring 0 3 col) srml_variable_map with
  | Some name => if String.prefix "7" col then name else (name ++ "_" ++ substring 3 (String.length col) col)%string
  | None => col
  end.
(** every second element from the first, from the second *)
Fixpoint evens {A} (l : list A) : list A := match l with [] => [] | [x] => [x] | x :: _ :: l' => x :: evens l' end.
Fixpoint odds {A} (l : list A) : list A := match l with [] => [] | [_] => [] | _ :: y :: l' => y :: odds l' end.
(** columns.get_loc, names being distinct *)
Fixpoint get_loc (name : string) (columns : list string) : nat := match columns with [] => 0%nat | c :: cs => if String.eqb c name then 0%nat else S (get_loc name cs) end.
Definition rename (m : list (string * string)) (data : list (string * list fl)) : list (string * list fl) :=
  map (fun c => (match lookup (fst c) m with Some n => n | None => fst c end, snd c)) data.
(** srml.py:68-94 read_srml on the columns after the first two *)
Definition srml_mask (data : list (string * list fl)) (col : string) : res (list (string * list fl)) :=
  match lookup (col ++ "_flag")%string data with
  | None => Err KeyError
  | Some flags => Ok (map (fun c => if String.eqb (fst c) col then (fst c, map (fun p => if feqb (snd p) #99 then NaN else fst p) (combine (snd c) flags)) else c) data)
  end.
Fixpoint srml_mask_all (data : list (string * list fl)) (cols : list string) : res (list (string * list fl)) :=
  match cols with [] => Ok data | c :: cs => let* data := srml_mask data c in srml_mask_all data cs end.
Definition srml_columns (map_variables : bool) (data : list (string * list fl)) : res (list (string * list fl)) :=
  let data := if map_variables then map (fun c => (srml_map_column (fst c), snd c)) data else data in
  let columns := map fst data in
  let flag_label_map := map (fun flag => (flag, nth (get_loc flag columns - 1) columns "" ++ "_flag")%string) (odds columns) in
  srml_mask_all (rename flag_label_map data) (evens columns).

(** surfrad.py:157-158: missing values *)
Definition surfrad_missing (x : fl) : fl := if feqb x #(- (9999.9)) then NaN else x.

Section Meta.
Variable py_float : string -> option fl.
Variable py_int : string -> option Z.
Definition cell_float (o : option string) : res fl := match o with None => Err IndexError | Some s => match py_float s with Some x => Ok x | None => Err ValueError end end.
Definition cell_int (o : option string) : res Z := match o with None => Err IndexError | Some s => match py_int s with Some x => Ok x | None => Err ValueError end end.
(** surfrad.py:139-150: station line, and the second line split at white space: (name, latitude, longitude, elevation, version) *)
Definition surfrad_meta (station : string) (metadata_list : list string) : res (string * fl * fl * fl * Z) :=
  let* latitude := cell_float (nth_error metadata_list 0) in
  let* longitude := cell_float (nth_error metadata_list 1) in
  let* elevation := cell_float (nth_error metadata_list 2) in
  let* version := cell_int (nth_error (rev metadata_list) 0) in
  Ok (strip station, latitude, longitude, elevation, version).
(** solrad.py:121-127 *)
Definition solrad_meta (station : string) (meta_line : list string) : res (string * fl * fl * fl * Z) :=
  let* latitude := cell_float (nth_error meta_line 0) in
  let* longitude := cell_float (nth_error meta_line 1) in
  let* altitude := cell_float (nth_error meta_line 2) in
  let* tz := cell_int (nth_error meta_line 3) in
  Ok (strip station, latitude, longitude, altitude, tz).
End Meta.

(** what reading one remote file gives: a table and site data, not found (HTTPError), or another exception *)
Inductive fetched (D M : Type) := Found (d : D) (m : M) | NotFound | Raises (e : exc).
Arguments Found {D M}. Arguments NotFound {D M}. Arguments Raises {D M}.
Section Fetch.
Context {D M : Type}.
(** the loops surfrad.py:257-266, solrad.py:205-211, srml.py:245-251: tables, site data of the last one found, names warned about *)
Fixpoint fetch (read : string -> fetched D M) (file_metadata : option M) (filenames : list string) : res (list D * option M * list string) :=
  match filenames with
  | [] => Ok ([], file_metadata, [])
  | f :: fs =>
      match read f with
      | Found d m => let* r := fetch read (Some m) fs in let '(dfs, meta, warned) := r in Ok (d :: dfs, meta, warned)
      | NotFound => let* r := fetch read file_metadata fs in let '(dfs, meta, warned) := r in Ok (dfs, meta, f :: warned)
      | Raises e => Err e
      end
  end.
(** the texts of digits *)
Definition text (l : list Z) : string := fold_right (fun c s => String (if c =? dash then "-"%char else ascii_of_nat (48 + Z.to_nat c)) s) ""%string l.
(** surfrad.py:249, solrad.py:198: the days from start's day on whose midnight is not after end; times in minutes *)
Fixpoint days (n : nat) (d : date) : list date := match n with O => [] | S n' => d :: days n' (next_day d) end.
Definition day_range (start_date : date) (end_ : Z) : list date := days (Z.to_nat (end_ / 1440 - ordinal start_date + 1)) start_date.
(** surfrad.py:252-255, solrad.py:200-203 (station in lower case) *)
Definition day_file (station : string) (d : date) : string :=
  (station ++ "/" ++ text (str (Calendar.yr d)) ++ "/" ++ station ++ text (zpad 2 (Calendar.yr d mod 100)) ++ text (zpad 3 (day_of_year d)) ++ ".dat")%string.
(** surfrad.py:189-282: (tables in order, site data, file names), and the warnings; pd.concat is the list of tables *)
Definition get_surfrad (read_surfrad : bool -> string -> fetched D M) (station : string) (start_date : date) (end_ : Z) (map_variables : bool) : res (list D * option M * list string * list string) :=
  let filenames := map (day_file station) (day_range start_date end_) in
  let* r := fetch (read_surfrad true) None filenames in
  let '(dfs, meta, warned) := r in
  match dfs with [] => Err ValueError | _ => Ok (dfs, meta, filenames, warned) end.
(** solrad.py:146-221: pd.concat([]) raises ValueError *)
Definition get_solrad (read_solrad : string -> fetched D M) (station : string) (start_date : date) (end_ : Z) : res (list D * option M * list string * list string) :=
  let filenames := map (day_file station) (day_range start_date end_) in
  let* r := fetch read_solrad None filenames in
  let '(dfs, meta, warned) := r in
  match dfs with [] => Err ValueError | _ => Ok (dfs, meta, filenames, warned) end.
(** srml.py:234-243: the months (counted from year 0) from that of start to that of end *)
Definition month_range (start_month end_month : Z) : list Z := map (fun i => start_month + Z.of_nat i) (seq 0 (Z.to_nat (end_month - start_month + 1))).
Definition month_file (station filetype : string) (m : Z) : string := (station ++ filetype ++ text (zpad 2 (m / 12 mod 100)) ++ text (zpad 2 (m mod 12 + 1)) ++ ".txt")%string.
(** srml.py:173-259 *)
Definition get_srml (read_srml : bool -> string -> fetched D M) (station filetype : string) (start_month end_month : Z) (map_variables : bool) : res (list D * list string * list string) :=
  let filenames := map (month_file station filetype) (month_range start_month end_month) in
  let* r := fetch (read_srml map_variables) None filenames in
  let '(dfs, _, warned) := r in
  match dfs with [] => Err ValueError | _ => Ok (dfs, filenames, warned) end.
End Fetch.
