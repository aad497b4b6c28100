(** iotools/tmy.py and the time index of iotools/epw.py.  Rows of the table as read by pandas; local time in minutes (Base/Calendar.v). *)
From Verif Require Import Base.Fl Base.Py Base.PyStr Base.Calendar.
From Coq Require Import Reals List String Ascii Bool ZArith.
Import ListNotations.
Open Scope Z_scope.

(** a row of a TMY3 file: the date column and the time column HH:MM *)
Record stamp := Stamp { s_date : date; s_hour : Z; s_min : Z }.

(** tmy.py:211-214: midnight written 24:00 belongs to the next day *)
Definition shift_midnight (s : stamp) : date := if s_hour s =? 24 then next_day (s_date s) else s_date s.
(** tmy.py:219-221: February 29 becomes March 1 *)
Definition skip_leap_day (d : date) : date := if (mo d =? 2) && (dy d =? 29) then next_day d else d.
Definition with_year (y : Z) (d : date) : date := Date y (mo d) (dy d).
(** tmy.py:226, the last row *)
Fixpoint on_last {A} (f : A -> A) (l : list A) : list A := match l with [] => [] | [x] => [f x] | x :: l' => x :: on_last f l' end.
(** tmy.py:207-230; an unreadable date or, on an empty table, iloc[-1] raises (to_datetime: ValueError; IndexError) *)
Definition tmy3_index (rows : list stamp) (coerce_year : option Z) : res (list Z) :=
  if forallb (fun s => valid_dateb (s_date s)) rows then
    let data_ymd := map (fun s => skip_leap_day (shift_midnight s)) rows in
    let* data_ymd := match coerce_year with
                     | None => Ok data_ymd
                     | Some y => match rows with [] => Err IndexError | _ => Ok (on_last (with_year (y + 1)) (map (with_year y) data_ymd)) end
                     end in
    Ok (map (fun p => instant (fst p) (s_hour (snd p) mod 24) (s_min (snd p))) (combine data_ymd rows))
  else Err ValueError.

Section Meta.
Variable py_float : string -> option fl.
Variable py_int : string -> option Z.
Definition to_float (o : option string) : res fl := match o with None => Err KeyError | Some s => match py_float s with Some x => Ok x | None => Err ValueError end end.
Definition to_int (o : option string) : res Z := match o with None => Err KeyError | Some s => match py_int s with Some x => Ok x | None => Err ValueError end end.
Record tmy3_meta := Tmy3Meta { t3_usaf : Z; t3_name : option string; t3_state : option string; t3_tz : fl; t3_latitude : fl; t3_longitude : fl; t3_altitude : fl }.
Definition tmy3_head : list string := ["USAF"; "Name"; "State"; "TZ"; "latitude"; "longitude"; "altitude"]%string.
Definition is_newline (c : ascii) : bool := Nat.eqb (nat_of_ascii c) 10.
(** tmy.py:189, 198-204: dict(zip(head, firstline.rstrip('\n').split(','))), then conversions in this order *)
Definition tmy3_header (firstline : string) : res tmy3_meta :=
  let meta := combine tmy3_head (split_on "," (rstrip is_newline firstline)) in
  let* altitude := to_float (lookup "altitude" meta) in
  let* latitude := to_float (lookup "latitude" meta) in
  let* longitude := to_float (lookup "longitude" meta) in
  let* tz := to_float (lookup "TZ" meta) in
  let* usaf := to_int (lookup "USAF" meta) in
  Ok (Tmy3Meta usaf (lookup "Name" meta) (lookup "State" meta) tz latitude longitude altitude).

Record epw_meta := EpwMeta { e_texts : list (string * string); e_latitude : fl; e_longitude : fl; e_tz : fl; e_altitude : fl }.
Definition epw_head : list string := ["loc"; "city"; "state-prov"; "country"; "data_type"; "WMO_code"; "latitude"; "longitude"; "TZ"; "altitude"]%string.
(** epw.py:263-272; e_texts are the first six entries with their names *)
Definition epw_header (firstline : string) : res epw_meta :=
  let meta := combine epw_head (split_on "," (rstrip is_newline firstline)) in
  let* altitude := to_float (lookup "altitude" meta) in
  let* latitude := to_float (lookup "latitude" meta) in
  let* longitude := to_float (lookup "longitude" meta) in
  let* tz := to_float (lookup "TZ" meta) in
  Ok (EpwMeta (firstn 6 meta) latitude longitude tz altitude).

(** rawmeta[i] *)
Definition tok (i : nat) (rawmeta : list string) : res string := match nth_error rawmeta i with Some s => Ok s | None => Err IndexError end.
Definition tok_float (i : nat) (rawmeta : list string) : res fl := let* s := tok i rawmeta in match py_float s with Some x => Ok x | None => Err ValueError end.
Record tmy2_meta := Tmy2Meta { t2_texts : list string; t2_tz : Z; t2_latitude : fl; t2_longitude : fl; t2_altitude : fl }.
(** tmy.py:379-410 _parsemeta_tmy2; rawmeta = the header line split at white space.  The local names longitude and latitude are interchanged in the source, the order of
    the results is not *)
Definition tmy2_coordinate (degrees minutes : fl) (positive : bool) : fl := ((degrees + minutes / #60) * (if positive then #1 else #(-1)))%fl.
Definition tmy2_header (rawmeta : list string) : res tmy2_meta :=
  let* s := tok 3 rawmeta in
  let* tz := match py_int s with Some x => Ok x | None => Err ValueError end in
  let* d := tok_float 5 rawmeta in
  let* m := tok_float 6 rawmeta in
  let* letter := tok 4 rawmeta in
  let latitude := tmy2_coordinate d m (String.eqb letter "N") in
  let* d := tok_float 8 rawmeta in
  let* m := tok_float 9 rawmeta in
  let* letter := tok 7 rawmeta in
  let longitude := tmy2_coordinate d m (String.eqb letter "E") in
  let* altitude := tok_float 10 rawmeta in
  Ok (Tmy2Meta (firstn 3 rawmeta) tz latitude longitude altitude).
(** tmy.py:425-458: the values of a line: consecutive fields from the second character on, numbers where the format says so *)
Inductive tmy2_value := Num (x : fl) | Text (s : string).
Fixpoint tmy2_values (cursor : nat) (string_ : list (nat * bool)) (line : string) : res (list tmy2_value) :=
  match string_ with
  | [] => Ok []
  | (increment, number) :: rest =>
      let val := substring cursor increment line in
      let* v := if number then match py_float val with Some x => Ok (Num x) | None => Err ValueError end else Ok (Text val) in
      let* vs := tmy2_values (cursor + increment) rest line in
      Ok (v :: vs)
  end.
End Meta.

(** int(): truncation towards zero *)
Definition trunc (x : R) : Z := if Rle_dec 0 x then Int_part x else - Int_part (- x).
(** tmy.py:235, epw.py:308: the UTC offset of the index in seconds *)
Definition utc_offset (tz : R) : Z := trunc (tz * 3600).

(** tmy.py:370: the format string as (width, is a number), and the column names *)
Definition tmy2_format : list (nat * bool) :=
  [(2, true); (2, true); (2, true); (2, true); (4, true); (4, true); (4, true); (1, false); (1, true); (4, true); (1, false); (1, true); (4, true); (1, false); (1, true); (4, true); (1, false); (1, true); (4, true); (1, false); (1, true); (4, true); (1, false); (1, true); (4, true); (1, false); (1, true); (2, true); (1, false); (1, true); (2, true); (1, false); (1, true); (4, true); (1, false); (1, true); (4, true); (1, false); (1, true); (3, true); (1, false); (1, true); (4, true); (1, false); (1, true); (3, true); (1, false); (1, true); (3, true); (1, false); (1, true); (4, true); (1, false); (1, true); (5, true); (1, false); (1, true); (10, true); (3, true); (1, false); (1, true); (3, true); (1, false); (1, true); (3, true); (1, false); (1, true); (2, true); (1, false); (1, true)]%nat.
Definition tmy2_columns : list string :=
  ["year"; "month"; "day"; "hour"; "ETR"; "ETRN"; "GHI"; "GHISource"; "GHIUncertainty"; "DNI"; "DNISource"; "DNIUncertainty"; "DHI"; "DHISource"; "DHIUncertainty"; "GHillum"; "GHillumSource"; "GHillumUncertainty"; "DNillum"; "DNillumSource"; "DNillumUncertainty"; "DHillum"; "DHillumSource"; "DHillumUncertainty"; "Zenithlum"; "ZenithlumSource"; "ZenithlumUncertainty"; "TotCld"; "TotCldSource"; "TotCldUncertainty"; "OpqCld"; "OpqCldSource"; "OpqCldUncertainty"; "DryBulb"; "DryBulbSource"; "DryBulbUncertainty"; "DewPoint"; "DewPointSource"; "DewPointUncertainty"; "RHum"; "RHumSource"; "RHumUncertainty"; "Pressure"; "PressureSource"; "PressureUncertainty"; "Wdir"; "WdirSource"; "WdirUncertainty"; "Wspd"; "WspdSource"; "WspdUncertainty"; "Hvis"; "HvisSource"; "HvisUncertainty"; "CeilHgt"; "CeilHgtSource"; "CeilHgtUncertainty"; "PresentWeather"; "Pwat"; "PwatSource"; "PwatUncertainty"; "AOD"; "AODSource"; "AODUncertainty"; "SnowDepth"; "SnowDepthSource"; "SnowDepthUncertainty"; "LastSnowfall"; "LastSnowfallSource"; "LastSnowfallUncertaint"]%string.
(** tmy.py:460-471: (two-digit year, month, day, hour) of each row; the year of the first row is used for all *)
Definition tmy2_index (rows : list (Z * Z * Z * Z)) : res (list Z) :=
  match rows with
  | [] => Err UnboundLocalError
  | (y0, _, _, _) :: _ =>
      mapM (fun r => let '(_, m, d, h) := r in let dt := Date (y0 + 1900) m d in
                     if valid_dateb dt && (0 <=? h - 1) && (h - 1 <=? 23) then Ok (instant dt (h - 1) 0) else Err ValueError) rows
  end.

(** epw.py:299-308: (year, month, day, hour) of each row *)
Definition epw_index (rows : list (Z * Z * Z * Z)) (coerce_year : option Z) : res (list Z) :=
  mapM (fun r => let '(y, m, d, h) := r in let dt := Date (match coerce_year with Some c => c | None => y end) m d in
                 if valid_dateb dt && (0 <=? h - 1) && (h - 1 <=? 23) then Ok (instant dt (h - 1) 0) else Err ValueError) rows.
