(** iotools/sodapro.py: CAMS.  The table after pandas' parsing: observation periods in minutes and named columns; Python's float() as argument; requests not modelled *)
From Verif Require Import Base.Fl Base.Py Base.PyStr Base.Calendar Model.Bsrn Model.Tmy Model.Web.
From Coq Require Import Reals List String Ascii Bool ZArith.
Import ListNotations.
Open Scope list_scope.
Open Scope Z_scope.

(** s.split(': ', 1) where ': ' occurs *)
Fixpoint cut (s : string) : option (string * string) :=
  match s with
  | EmptyString => None
  | String c s' => if String.prefix ": " s then Some (EmptyString, substring 2 (String.length s - 2) s)
                   else match cut s' with Some (a, b) => Some (String c a, b) | None => None end
  end.
Definition is_hash (c : ascii) : bool := Ascii.eqb c "#" || Ascii.eqb c " ".
(** s.split(': ')[1], given what follows the first ': ' *)
Definition up_to_cut (s : string) : string := match cut s with Some (a, _) => a | None => s end.
(** sodapro.py:295-305; at the end of the file readline() returns '' for ever: None when the fuel is used up.  (names, metadata, what follows) *)
Fixpoint cams_header (fuel : nat) (s : string) (meta : list (string * string)) : option (list string * list (string * string) * string) :=
  match fuel with
  | O => None
  | S f => let (line, rest) := read_line s in
           let line := rstrip is_newline line in
           if String.prefix "# Observation period" line then Some (split_on ";" (lstrip is_hash line), meta, rest)
           else match cut line with
                | Some (k, v) => cams_header f rest (dict_set (lstrip is_hash k) (up_to_cut v) meta)
                | None => cams_header f rest meta
                end
  end.
Inductive entry := Text (s : string) | Number (x : fl).
Definition remove_key {A} (k : string) (d : list (string * A)) : list (string * A) := filter (fun kv => negb (String.eqb (fst kv) k)) d.
Section Meta.
Variable py_float : string -> option fl.
Definition entry_float (o : option entry) : res fl :=
  match o with None => Err KeyError | Some (Number x) => Ok x | Some (Text s) => match py_float s with Some x => Ok x | None => Err ValueError end end.
(** k_old.lstrip().split(' ')[0].lower() *)
Definition short_key (k : string) : string := lower (match split_on " " (lstrip is_ws k) with w :: _ => w | [] => EmptyString end).
Definition places : list string := ["latitude"; "longitude"; "altitude"]%string.
(** sodapro.py:310-314 *)
Fixpoint cams_places (keys : list string) (d : list (string * entry)) : res (list (string * entry)) :=
  match keys with
  | [] => Ok d
  | k :: ks => if mem (short_key k) places then let* x := entry_float (lookup k d) in cams_places ks (dict_set (short_key k) (Number x) (remove_key k d)) else cams_places ks d
  end.
Definition texts (meta : list (string * string)) : list (string * entry) := map (fun kv => (fst kv, Text (snd kv))) meta.
(** sodapro.py:41-45 *)
Definition summation_periods : list (string * string) :=
  [("0 year 0 month 0 day 0 h 1 min 0 s", "1min"); ("0 year 0 month 0 day 0 h 15 min 0 s", "15min"); ("0 year 0 month 0 day 1 h 0 min 0 s", "1h"); ("0 year 0 month 1 day 0 h 0 min 0 s", "1d"); ("0 year 1 month 0 day 0 h 0 min 0 s", "1M")]%string.
(** sodapro.py:310-322 *)
Definition cams_meta (integrated : bool) (meta : list (string * string)) : res (string * list (string * entry)) :=
  let* d := cams_places (map fst meta) (texts meta) in
  let d := dict_set "radiation_unit" (Text (if integrated then "Wh/m^2" else "W/m^2")) d in
  match lookup "Summarization (integration) period" d with
  | Some (Text s) => match lookup s summation_periods with Some step => Ok (step, dict_set "time_step" (Text step) d) | None => Err KeyError end
  | _ => Err KeyError
  end.
End Meta.

(** the index: instants in minutes, UTC; dates as instants of midnight without time zone; or the running numbers of the rows *)
Inductive stamps := Instants (l : list Z) | Dates (l : list Z) | Numbers.
(** sodapro.py:324-340 *)
Definition cams_index (label : option string) (time_step : string) (periods : list (Z * Z)) : res stamps :=
  let monthly := String.eqb time_step "1M" in
  let left := match label with Some l => String.eqb l "left" | None => false end in
  let right := match label with Some l => String.eqb l "right" | None => false end in
  let none := match label with Some _ => false | None => true end in
  let idx := if left || (none && negb monthly) then Some (map fst periods) else if right || (none && monthly) then Some (map snd periods) else None in
  if String.eqb time_step "1d" || monthly then
    match idx with
    | None => Err AttributeError
    | Some l => let days := map (fun t => 1440 * (t / 1440)) l in Ok (Dates (if monthly && negb left then map (fun t => t - 1440) days else days))
    end
  else Ok (match idx with Some l => Instants l | None => Numbers end).
(** sodapro.py:16-19, 39 *)
Definition integrated_columns : list string :=
  ["TOA"; "Clear sky GHI"; "Clear sky BHI"; "Clear sky DHI"; "Clear sky BNI"; "GHI"; "BHI"; "DHI"; "BNI"; "GHI no corr"; "BHI no corr"; "DHI no corr"; "BNI no corr"]%string.
Definition step_hours (time_step : string) : res fl :=
  if String.eqb time_step "1min" then Ok (#1 / #60)%fl else if String.eqb time_step "15min" then Ok (#15 / #60)%fl else if String.eqb time_step "1h" then Ok #1 else if String.eqb time_step "1d" then Ok #24 else Err KeyError.
(** sodapro.py:342-354 *)
Definition cams_power (time_step : string) (periods : list (Z * Z)) (t : table) : res table :=
  let* hours := if String.eqb time_step "1M" then Ok (map (fun p => (#(IZR (60 * (snd p - fst p))) / #60 / #60)%fl) periods)
                else let* h := step_hours time_step in Ok (map (fun _ => h) periods) in
  Ok (map (fun c => if mem (fst c) integrated_columns then (fst c, map (fun vh => (fst vh / snd vh)%fl) (combine (snd c) hours)) else c) t).
(** sodapro.py:22-33 *)
Definition cams_map : list (string * string) :=
  [("TOA", "ghi_extra"); ("Clear sky GHI", "ghi_clear"); ("Clear sky BHI", "bhi_clear"); ("Clear sky DHI", "dhi_clear"); ("Clear sky BNI", "dni_clear"); ("GHI", "ghi"); ("BHI", "bhi"); ("DHI", "dhi"); ("BNI", "dni"); ("sza", "solar_zenith")]%string.
(** sodapro.py:254-359, after the header and the csv parser *)
Definition read_cams (py_float : string -> option fl) (meta : list (string * string)) (periods : list (Z * Z)) (t : table) (integrated : bool) (label : option string) (map_variables : bool)
  : res (stamps * table * list (string * entry)) :=
  let* sm := cams_meta py_float integrated meta in
  let* idx := cams_index label (fst sm) periods in
  let* t := if integrated then Ok t else cams_power (fst sm) periods t in
  Ok (idx, if map_variables then rename_columns cams_map t else t, snd sm).

(** sodapro.py:36-37 *)
Definition time_steps : list (string * string) := [("1min", "PT01M"); ("15min", "PT15M"); ("1h", "PT01H"); ("1d", "P01D"); ("1M", "P01M")]%string.
Fixpoint replace_char (c : ascii) (by_ s : string) : string :=
  match s with EmptyString => EmptyString | String x s' => if Ascii.eqb x c then (by_ ++ replace_char c by_ s')%string else String x (replace_char c by_ s') end.
(** sodapro.py:181-230; numbers and dates as the texts they are printed as.  (a warning was issued, DataInputs, Identifier) *)
Definition cams_request (latitude longitude start end_ email identifier : string) (altitude : option string) (time_step time_ref : string) (verbose : bool) : res (bool * string * string) :=
  match lookup time_step time_steps with
  | None => Err ValueError
  | Some step =>
      let off := verbose && (negb (String.eqb time_step "1min") || negb (String.eqb time_ref "UT")) in
      let verbose := if off then false else verbose in
      if negb (mem identifier ["mcclear"; "cams_radiation"]%string) then Err ValueError
      else Ok (off, String.concat ";" (map (fun kv => fst kv ++ "=" ++ snd kv)%string
             [("latitude", latitude); ("longitude", longitude); ("altitude", match altitude with Some a => a | None => "-999" end); ("date_begin", start); ("date_end", end_); ("time_ref", time_ref);
              ("summarization", step); ("username", replace_char "@" "%2540" email); ("verbose", if verbose then "true" else "false")]%string), ("get_" ++ lower identifier)%string)
  end.
