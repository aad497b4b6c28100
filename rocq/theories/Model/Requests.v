(** Model of the times in the requests of pvlib/iotools/era5.py:119-126,139 get_era5 and pvlib/iotools/merra2.py:133-141,163 get_merra2.  A time as in Model/Services.v: a text that
    pandas cannot read, or date, hour, minute and second with the UTC offset in minutes (less than a day), if it has one.  Fractions of a second are not modelled. *)
From Coq Require Import ZArith List Bool String Ascii.
From Verif Require Import Base.Fl Base.Py Base.Calendar Base.Strptime Model.Services.
Import ListNotations.
Open Scope Z_scope.

(** the day before *)
Definition previous_day (d : date) : date :=
  if 1 <? dy d then Date (Calendar.yr d) (mo d) (dy d - 1)
  else if 1 <? mo d then Date (Calendar.yr d) (mo d - 1) (days_in_month (Calendar.yr d) (mo d - 1))
  else Date (Calendar.yr d - 1) 12 31.
(** era5.py:119-123, merra2.py:133-138: pd.to_datetime, then tz_convert("UTC") if there is a time zone: date, hour, minute, second *)
Definition to_utc (t : when) : res (date * Z * Z * Z) :=
  match t with
  | Verbatim _ => Err ValueError
  | Moment d h mi s None => Ok (d, h, mi, s)
  | Moment d h mi s (Some o) =>
      let m := h * 60 + mi - o in
      let '(d, m) := if m <? 0 then (previous_day d, m + 1440) else if m <? 1440 then (d, m) else (next_day d, m - 1440) in
      Ok (d, m / 60, m mod 60, s)
  end.
Definition two (x : Z) : string := digits_text (zpad 2 x).
(** strftime("%Y-%m-%d") *)
Definition date_text (d : date) : string := (digits_text (zpad 4 (Calendar.yr d)) ++ "-" ++ two (mo d) ++ "-" ++ two (dy d))%string.
(** isoformat() of a time without zone *)
Definition isoformat (d : date) (h mi s : Z) : string := (date_text d ++ "T" ++ two h ++ ":" ++ two mi ++ ":" ++ two s)%string.
(** era5.py:125-126, 139 *)
Definition era5_date (start end_ : when) : res string :=
  let* (d, _, _, _) := to_utc start in
  let* (d', _, _, _) := to_utc end_ in
  Ok (date_text d ++ "/" ++ date_text d')%string.
(** merra2.py:140-141, 163 *)
Definition merra2_time (start end_ : when) : res string :=
  let* (d, h, mi, s) := to_utc start in
  let* (d', h', mi', s') := to_utc end_ in
  Ok (isoformat d h mi s ++ "/" ++ isoformat d' h' mi' s')%string.
