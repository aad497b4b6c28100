(** iotools/pvgis.py.  A file is its text; float() and int() are arguments; times in minutes UTC (Base/Calendar.v). *)
From Verif Require Import Base.Fl Base.Py Base.PyStr Base.Calendar Base.Strptime Model.Bsrn Model.Tmy.
From Coq Require Import Reals List String Ascii Bool ZArith.
Import ListNotations.
Open Scope list_scope.
Open Scope Z_scope.

(** pvgis.py:29-43 *)
Definition pvgis_variable_map : list (string * string) :=
  [("G(h)", "ghi"); ("Gb(n)", "dni"); ("Gd(h)", "dhi"); ("G(i)", "poa_global"); ("Gb(i)", "poa_direct"); ("Gd(i)", "poa_sky_diffuse"); ("Gr(i)", "poa_ground_diffuse");
   ("H_sun", "solar_elevation"); ("T2m", "temp_air"); ("RH", "relative_humidity"); ("SP", "pressure"); ("WS10m", "wind_speed"); ("WD10m", "wind_direction")]%string.
Definition pvgis_name (map_variables : bool) (c : string) : string := if map_variables then match lookup c pvgis_variable_map with Some n => n | None => c end else c.

(** ** pvgis.py:408-431 _coerce_and_roll_tmy *)
(** a row: date, hour and minute in UTC, and its data *)
Record row (A : Type) := Row { r_date : date; r_hour : Z; r_min : Z; r_data : A }.
Arguments Row {A}. Arguments r_date {A}. Arguments r_hour {A}. Arguments r_min {A}. Arguments r_data {A}.
(** np.roll(a, k): element i of the result is element (i - k) mod n of a *)
Definition roll {A} (k : Z) (l : list A) : list A :=
  match l with
  | [] => []
  | x :: _ => let n := Z.of_nat (List.length l) in map (fun i => nth (Z.to_nat ((Z.of_nat i - k) mod n)) l x) (seq 0 (List.length l))
  end.
(** the zones Etc/GMT-14 ... Etc/GMT+12 exist (ZoneInfoNotFoundError is a KeyError); Etc/GMT-h is h hours ahead of UTC *)
Definition etc_gmt (tz : Z) : res Z := if (-12 <=? tz) && (tz <=? 14) then Ok tz else Err KeyError.
(** timestamp.replace(year, tzinfo), the instant in UTC minutes; the years pandas.Timestamp cannot represent are not modelled *)
Definition replaced {A} (year offset : Z) (r : row A) : res Z :=
  let d := Date year (mo (r_date r)) (dy (r_date r)) in
  if valid_dateb d then Ok (instant d (r_hour r) (r_min r) - 60 * offset) else Err ValueError.
Definition coerce_and_roll {A} (rows : list (row A)) (tz : option Z) (year : Z) : res (list (Z * A)) :=
  let tz := match tz with Some t => t | None => 0 end in
  let* offset := if tz =? 0 then Ok 0 else etc_gmt tz in
  let* new_index := mapM (replaced year offset) rows in
  Ok (combine new_index (roll tz (map r_data rows))).
(** the index as parsed *)
Definition as_parsed {A} (rows : list (row A)) : list (Z * A) := map (fun r => (instant (r_date r) (r_hour r) (r_min r), r_data r)) rows.

(** ** pvgis.py:535-558 the end of get_pvgis_tmy: parse(format) is the parser of that format applied to the response; renaming of the columns is an argument *)
Section Get.
Context {A M : Type}.
Variable parse : string -> res (list (row A) * M).
Variable rename : A -> A.
Definition renamed (map_variables : bool) (rows : list (row A)) : list (row A) :=
  if map_variables then map (fun r => Row (r_date r) (r_hour r) (r_min r) (rename (r_data r))) rows else rows.
Definition get_pvgis_tmy (outputformat : string) (map_variables : bool) (roll_utc_offset coerce_year : option Z) : res (list (Z * A) * M) :=
  if mem outputformat ["json"; "csv"; "epw"]%string then
    let* dm := parse outputformat in
    let data := renamed map_variables (fst dm) in
    match roll_utc_offset, coerce_year with
    | None, None => Ok (as_parsed data, snd dm)
    | _, _ => let year := match coerce_year with Some y => if y =? 0 then 1990 else y | None => 1990 end in
              let* d := coerce_and_roll data roll_utc_offset year in Ok (d, snd dm)
    end
  else if String.eqb outputformat "basic" then Err ValueError
  (* data = (None, None): tuple.rename; iteration over the method tuple.index (after the zone is looked up); meta is unbound *)
  else if map_variables then Err AttributeError
  else match roll_utc_offset, coerce_year with
       | None, None => Err UnboundLocalError
       | _, _ => let tz := match roll_utc_offset with Some t => t | None => 0 end in
                 let* _ := if tz =? 0 then Ok 0 else etc_gmt tz in Err TypeError
       end.
(** pvgis.py:668-718 read_pvgis_tmy with pvgis_format given *)
Definition read_pvgis_tmy (pvgis_format : string) (map_variables : bool) : res (list (Z * A) * M) :=
  if mem pvgis_format ["json"; "csv"; "epw"]%string then let* dm := parse pvgis_format in Ok (as_parsed (renamed map_variables (fst dm)), snd dm) else Err ValueError.
End Get.

(** ** pvgis.py:764-771 *)
Definition pvgis_horizon (profile : list (R * R)) : list (R * R) := filter (fun p => if Rlt_dec (fst p) 360 then true else false) (map (fun p => (fst p + 180, snd p)%R) profile).

(** ** the texts *)
Section Csv.
Variable py_float : string -> option fl.
Variable py_int : string -> option Z.
(** line.split(c)[1] *)
Definition part1 (c : ascii) (line : string) : res string := match split_on c line with _ :: s :: _ => Ok s | _ => Err IndexError end.
Definition part0 (c : ascii) (line : string) : string := match split_on c line with s :: _ => s | [] => line end.
Definition float_after (c : ascii) (line : string) : res fl := let* s := part1 c line in to_float py_float (Some s).
(** a character as a symbol of Base/Strptime.v *)
Definition code (c : ascii) : Z := let n := Z.of_nat (nat_of_ascii c) in if (48 <=? n) && (n <=? 57) then n - 48 else if n =? 45 then dash else - n - 2.
Fixpoint codes (s : string) : list Z := match s with EmptyString => [] | String c s' => code c :: codes s' end.
(** pd.to_datetime(format='%Y%m%d:%H%M'); the empty text is NaT for pandas, here an error *)
Definition pvgis_time_format : list item := [fY; fm; fd; Lit (code ":"); fH; fM].
Definition pvgis_time (s : string) : res (date * Z * Z) :=
  match strptime pvgis_time_format (codes s) with
  | Some [y; m; d; h; mi] => if valid_dateb (Date y m d) then Ok (Date y m d, h, mi) else Err ValueError
  | _ => Err ValueError
  end.

Record hourly_meta := HourlyMeta { h_latitude : fl; h_longitude : fl; h_elevation : fl; h_database : string; h_inputs : list (string * string); h_descriptions : list (string * string) }.
(** pvgis.py:277-288: the remaining metadata and the column names; the later metadata lines may overwrite an entry (of latitude, ... too: not modelled, the keys written
    by the four first lines are not PVGIS texts) *)
Fixpoint hourly_inputs (fuel : nat) (s : string) (inputs : list (string * string)) : res (list (string * string) * list string * string) :=
  match fuel with
  | O => Err ValueError
  | S fuel' =>
      let (line, rest) := read_line s in
      if String.prefix "time," line then Ok (inputs, split_on "," (strip line), rest)
      else if negb (String.eqb (strip line) "") then let* v := part1 ":" line in hourly_inputs fuel' rest (dict_set (part0 ":" line) (strip v) inputs)
      else if String.eqb line "" then Err ValueError
      else hourly_inputs fuel' rest inputs
  end.
(** pvgis.py:291-297 *)
Fixpoint data_lines (fuel : nat) (s : string) : list (list string) * string :=
  match fuel with
  | O => ([], s)
  | S fuel' => let (line, rest) := read_line s in
               if String.eqb (strip line) "" then ([], rest) else let (ls, r) := data_lines fuel' rest in (split_on "," (strip line) :: ls, r)
  end.
(** pvgis.py:307-311, 612-617 (strip: the line is stripped first) *)
Fixpoint descriptions (fuel : nat) (strip_first : bool) (s : string) (d : list (string * string)) : list (string * string) :=
  match fuel with
  | O => d
  | S fuel' => let (line, rest) := read_line s in
               if String.eqb line "" then d
               else let line := if strip_first then strip line else line in
                    descriptions fuel' strip_first rest (match split_on ":" line with k :: v :: _ => dict_set k (strip v) d | _ => d end)
  end.
(** astype(float).astype({'Int': 'int'}): the column Int must exist and hold no nan *)
Definition to_int_cell (x : fl) : res fl := match x with Fin r => Ok (Fin (IZR (trunc r))) | _ => Err ValueError end.
Definition hourly_cell (name : string) (x : string) : res (string * fl) :=
  let* v := to_float py_float (Some x) in
  if String.eqb name "Int" then let* i := to_int_cell v in Ok (name, i) else Ok (name, v).
(** pvgis.py:298-305 for a table whose rows all have as many cells as there are names (pandas completes shorter rows: not modelled); names are distinct *)
Definition hourly_row (map_variables : bool) (names cells : list string) : res (row (list (string * fl))) :=
  match names, cells with
  | _ :: ns, t :: cs =>
      let* tm := pvgis_time t in
      let* vs := mapM (fun p => hourly_cell (pvgis_name map_variables (fst p)) (snd p)) (combine ns cs) in
      Ok (Row (fst (fst tm)) (snd (fst tm)) (snd tm) vs)
  | _, _ => Err ValueError
  end.
Definition hourly_table (map_variables : bool) (names : list string) (lines : list (list string)) : res (list (row (list (string * fl)))) :=
  if forallb (fun l => Nat.eqb (List.length l) (List.length names)) lines then
    let* rows := mapM (hourly_row map_variables names) lines in
    if mem "Int" (map (pvgis_name map_variables) (tl names)) then Ok rows else Err KeyError
  else Err ValueError.
(** pvgis.py:262-312 *)
Definition pvgis_hourly_csv (map_variables : bool) (text : string) : res (list (row (list (string * fl))) * hourly_meta) :=
  let (l1, s) := read_line text in let* latitude := float_after ":" l1 in
  let (l2, s) := read_line s in let* longitude := float_after ":" l2 in
  let (l3, s) := read_line s in let* elevation := float_after ":" l3 in
  let (l4, s) := read_line s in let* database := part1 ":" l4 in
  let* ins := hourly_inputs (S (String.length s)) s [] in
  let '(inputs, names, s) := ins in
  let (lines, s) := data_lines (S (String.length s)) s in
  let* data := hourly_table map_variables names lines in
  Ok (data, HourlyMeta latitude longitude elevation (strip database) inputs (descriptions (S (String.length s)) false s [])).

Record tmy_meta := TmyMeta { t_latitude : fl; t_longitude : fl; t_elevation : fl; t_offset : option fl; t_months : list (Z * Z); t_descriptions : list (string * string) }.
(** pvgis.py:595-598 *)
Fixpoint months_selected (k : nat) (month : Z) (s : string) : res (list (Z * Z) * string) :=
  match k with
  | O => Ok ([], s)
  | S k' => let (line, rest) := read_line s in
            let* y := part1 "," line in let* year := to_int py_int (Some y) in
            let* r := months_selected k' (month + 1) rest in Ok ((month + 1, year) :: fst r, snd r)
  end.
Fixpoint tmy_lines (k : nat) (s : string) : list (list string) * string :=
  match k with O => ([], s) | S k' => let (line, rest) := read_line s in let (ls, r) := tmy_lines k' rest in (split_on "," line :: ls, r) end.
(** pvgis.py:604-610: rows of as many cells as headers, time(UTC) among them *)
Fixpoint split_time (names cells : list string) : res (string * list (string * string)) :=
  match names, cells with
  | n :: ns, c :: cs => if String.eqb n "time(UTC)" then Ok (c, combine ns cs) else let* r := split_time ns cs in Ok (fst r, (n, c) :: snd r)
  | _, _ => Err KeyError
  end.
Definition tmy_row (names cells : list string) : res (row (list (string * fl))) :=
  if Nat.eqb (List.length cells) (List.length names) then
    let* tc := split_time names cells in
    let* tm := pvgis_time (fst tc) in
    let* vs := mapM (fun p => let* v := to_float py_float (Some (snd p)) in Ok (fst p, v)) (snd tc) in
    Ok (Row (fst (fst tm)) (snd (fst tm)) (snd tm) vs)
  else Err ValueError.
(** pvgis.py:575-618; hours = 8760 *)
Definition pvgis_tmy_csv (hours : nat) (text : string) : res (list (row (list (string * fl))) * tmy_meta) :=
  let (l1, s) := read_line text in let* latitude := float_after ":" l1 in
  let (l2, s) := read_line s in let* longitude := float_after ":" l2 in
  let (l3, s) := read_line s in let* elevation := float_after ":" l3 in
  let (line, s) := read_line s in
  let* off := (if String.prefix "Irradiance Time Offset" line then let* x := float_after ":" line in Ok (Some x, snd (read_line s)) else Ok (None, s)) in
  let* ms := months_selected 12 0 (snd off) in
  let (hl, s) := read_line (snd ms) in
  let headers := map strip (split_on "," hl) in
  let (lines, s) := tmy_lines hours s in
  let* data := mapM (tmy_row headers) lines in
  Ok (data, TmyMeta latitude longitude elevation (fst off) (fst ms) (descriptions (S (String.length s)) true s [])).
End Csv.
