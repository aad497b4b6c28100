(** iotools/bsrn.py.  A file is its lines; float(), int() and pandas' conversion of a field are arguments; times in minutes (Base/Calendar.v). *)
From Verif Require Import Base.Fl Base.Py Base.PyStr Base.Calendar.
From Coq Require Import Reals List String Ascii Bool ZArith.
Import ListNotations.
Open Scope list_scope.
Open Scope Z_scope.

(** ** text streams: fbuf.readline() and fbuf.readline(n) *)
Definition nl : ascii := chr 10.
Fixpoint read_line (s : string) : string * string :=
  match s with
  | EmptyString => (EmptyString, EmptyString)
  | String c s' => if Ascii.eqb c nl then (String c EmptyString, s') else let (l, r) := read_line s' in (String c l, r)
  end.
Fixpoint read_upto (n : nat) (s : string) : string * string :=
  match n, s with
  | S n', String c s' => if Ascii.eqb c nl then (String c EmptyString, s') else let (l, r) := read_upto n' s' in (String c l, r)
  | _, _ => (EmptyString, s)
  end.
(** line.split() *)
Fixpoint split_ws (s : string) : list string :=
  match s with
  | EmptyString => []
  | String c s' => if is_ws c then split_ws s'
                   else match s' with
                        | EmptyString => [String c EmptyString]
                        | String d _ => if is_ws d then String c EmptyString :: split_ws s' else match split_ws s' with w :: ws => String c w :: ws | [] => [String c EmptyString] end
                        end
  end.

Record bsrn_meta := BsrnMeta { b_start : date; b_station : Z; b_version : Z; b_changed : string; b_surface : Z; b_topography : Z; b_address : string; b_telephone : string; b_fax : string;
  b_ip : string; b_email : string; b_latitude_bsrn : fl; b_latitude : fl; b_longitude_bsrn : fl; b_longitude : fl; b_altitude : Z; b_synop : string; b_horizon_changed : string; b_horizon : list (Z * Z) }.
Fixpoint insert_azimuth (p : Z * Z) (l : list (Z * Z)) : list (Z * Z) := match l with [] => [p] | q :: l' => if fst p <=? fst q then p :: q :: l' else q :: insert_azimuth p l' end.
Fixpoint sort_azimuth (l : list (Z * Z)) : list (Z * Z) := match l with [] => [] | p :: l' => insert_azimuth p (sort_azimuth l') end.
Fixpoint evens {A} (l : list A) : list A := match l with [] => [] | [x] => [x] | x :: _ :: l' => x :: evens l' end.
Fixpoint odds {A} (l : list A) : list A := match l with [] => [] | [_] => [] | _ :: y :: l' => y :: odds l' end.
(** bsrn.py:286-287: pd.Series(values, index): ValueError if the lengths differ; drop(-1); sort_index *)
Definition bsrn_horizon (horizon : list Z) : res (list (Z * Z)) :=
  if Nat.eqb (List.length (odds horizon)) (List.length (evens horizon)) then Ok (sort_azimuth (filter (fun p => negb (fst p =? -1)) (combine (evens horizon) (odds horizon))))
  else Err ValueError.

Section Meta.
Variable py_float : string -> option fl.
Variable py_int : string -> option Z.
Definition to_float (s : string) : res fl := match py_float s with Some x => Ok x | None => Err ValueError end.
Definition to_int (s : string) : res Z := match py_int s with Some x => Ok x | None => Err ValueError end.
(** bsrn.py:279-285 *)
Fixpoint horizon_values (fuel : nat) (s : string) : res (list Z) :=
  match fuel with
  | O => Ok []
  | S fuel' => let (line, rest) := read_line s in
      if has_char "*" line || String.eqb line "" then Ok []
      else let* v := mapM to_int (split_ws line) in let* vs := horizon_values fuel' rest in Ok (v ++ vs)
  end.
(** bsrn.py:258-262: the branch on line == '' is never taken, iteration over a file yields no empty line *)
Fixpoint after_lr0004 (fuel : nat) (s : string) : string :=
  match fuel with
  | O => s
  | S fuel' => let (line, rest) := read_line s in if String.eqb line "" then EmptyString else if String.eqb (substring 2 4 line) "0004" then rest else after_lr0004 fuel' rest
  end.
(** bsrn.py:247-289; the length of the text bounds the two loops over lines; the years pandas.Timestamp cannot represent are not modelled *)
Definition bsrn_header (text : string) : res bsrn_meta :=
  let (l0, s) := read_line text in
  let (date_line, s) := read_line s in
  let* year := to_int (substring 7 4 date_line) in
  let* month := to_int (substring 3 3 date_line) in
  if negb ((1 <=? month) && (month <=? 12)) then Err ValueError else
  let* station := to_int (substring 0 3 date_line) in
  let* version := match rev (split_ws date_line) with w :: _ => to_int w | [] => Err IndexError end in
  let s := after_lr0004 (S (String.length s)) s in
  let (l1, s) := read_line s in
  let (l2, s) := read_upto 3 s in let* surface := to_int l2 in
  let (l3, s) := read_line s in let* topography := to_int l3 in
  let (l4, s) := read_line s in
  let (l5, s) := read_upto 20 s in
  let (l6, s) := read_line s in
  let (l7, s) := read_upto 15 s in
  let (l8, s) := read_line s in
  let (l9, s) := read_upto 8 s in let* latitude := to_float l9 in
  let (l10, s) := read_upto 8 s in let* longitude := to_float l10 in
  let (l11, s) := read_upto 5 s in let* altitude := to_int l11 in
  let (l12, s) := read_line s in
  let (l13, s) := read_line s in
  let* values := horizon_values (S (String.length s)) s in
  let* horizon := bsrn_horizon values in
  Ok (BsrnMeta (Date year month 1) station version (strip l1) surface topography (strip l4) (strip l5) (strip l6) (strip l7) (strip l8)
        latitude (latitude - #90)%fl longitude (longitude - #180)%fl altitude (strip l12) (strip l13) horizon).
End Meta.

(** ** bsrn.py:291-302: starting line and number of lines of each logical record; lr is unbound before the first record *)
Definition is_record (line : string) : bool := String.prefix "*" line.
Definition record_number (line : string) : string := substring 2 4 line.
Record scan := Scan { lr_startrow : list (string * Z); lr_nrows : list (string * Z); lr : option string }.
Definition dict_get (k : string) (d : list (string * Z)) : Z := match lookup k d with Some v => v | None => 0 end.
Definition scan_line (st : scan) (num : Z) (line : string) : scan :=
  if is_record line then
    let nrows := match lr st with Some l => dict_set l (num - dict_get l (lr_startrow st) - 1) (lr_nrows st) | None => lr_nrows st end in
    Scan (dict_set (record_number line) num (lr_startrow st)) nrows (Some (record_number line))
  else st.
Fixpoint scan_lines (st : scan) (num : Z) (lines : list string) : scan := match lines with [] => st | l :: ls => scan_lines (scan_line st num l) (num + 1) ls end.
Definition locate_records (lines : list string) : res (list (string * Z) * list (string * Z)) :=
  let st := scan_lines (Scan [] [] None) 0 lines in
  match lr st with
  | None => Err UnboundLocalError
  | Some l => Ok (lr_startrow st, dict_set l (Z.of_nat (List.length lines) - 1 - dict_get l (lr_startrow st)) (lr_nrows st))
  end.
(** skiprows, nrows of the calls of pd.read_fwf *)
Definition rows_of (r : string) (startrow nrows : list (string * Z)) (lines : list string) : list string :=
  firstn (Z.to_nat (dict_get r nrows)) (skipn (Z.to_nat (dict_get r startrow + 1)) lines).

(** ** the tables *)
(** bsrn.py:17-50 *)
Definition col_specs_0100 : list (nat * nat) := [(0, 3); (4, 9); (10, 16); (16, 22); (22, 27); (27, 32); (32, 39); (39, 45); (45, 50); (50, 55); (55, 64); (64, 70); (70, 75)]%nat.
Definition col_specs_0300 : list (nat * nat) := [(1, 3); (4, 9); (10, 16); (16, 22); (22, 27); (27, 31); (31, 38); (38, 44); (44, 49); (49, 54); (54, 61); (61, 67); (67, 72); (72, 78)]%nat.
Definition col_specs_0500 : list (nat * nat) := [(0, 3); (3, 8); (8, 14); (14, 20); (20, 26); (26, 32); (32, 38); (38, 44); (44, 50); (50, 56); (56, 62); (62, 68); (68, 74); (74, 80)]%nat.
Definition columns_0100 : list string := ["day"; "minute"; "ghi"; "ghi_std"; "ghi_min"; "ghi_max"; "dni"; "dni_std"; "dni_min"; "dni_max"; "empty"; "empty"; "empty"; "empty"; "empty";
  "dhi"; "dhi_std"; "dhi_min"; "dhi_max"; "lwd"; "lwd_std"; "lwd_min"; "lwd_max"; "temp_air"; "relative_humidity"; "pressure"]%string.
Definition columns_0300 : list string := ["day"; "minute"; "gri"; "gri_std"; "gri_min"; "gri_max"; "lwu"; "lwu_std"; "lwu_min"; "lwu_max"; "net_radiation"; "net_radiation_std"; "net_radiation_min"; "net_radiation_max"]%string.
Definition columns_0500 : list string := ["day"; "minute"; "uva_global"; "uva_global_std"; "uva_global_min"; "uva_global_max"; "uvb_direct"; "uvb_direct_std"; "uvb_direct_min"; "uvb_direct_max";
  "empty"; "empty"; "empty"; "empty"; "empty"; "empty"; "uvb_global"; "uvb_global_std"; "uvb_global_min"; "uvb_global_max"; "uvb_diffuse"; "uvb_diffuse_std"; "uvb_diffuse_min"; "uvb_diffuse_max";
  "uvb_reflected"; "uvb_reflected_std"; "uvb_reflected_min"; "uvb_reflected_max"]%string.
Section Tables.
(** pandas' conversion of a field (blank: nan) *)
Variable cell : string -> fl.
Definition field (na : list R) (line : string) (spec : nat * nat) : fl :=
  let v := cell (substring (fst spec) (snd spec - fst spec) line) in if existsb (fun m => feqb v (Fin m)) na then NaN else v.
Definition line_fields (na : list R) (specs : list (nat * nat)) (line : string) : list fl := map (field na line) specs.
(** bsrn.py:318-321, 350-353: the two lines of a minute side by side; a last line alone is completed with nan *)
Fixpoint unstack (width : nat) (rows : list (list fl)) : list (list fl) :=
  match rows with
  | a :: b :: rest => (a ++ b) :: unstack width rest
  | [a] => [a ++ repeat NaN width]
  | [] => []
  end.
(** bsrn.py:324-327, 338-340, 355-357: the label (start date + (day - 1) days + minute, in minutes) and the named values of a row, without 'empty', 'day', 'minute' *)
Definition bsrn_label (start : date) (day minute : fl) : fl := (Fin (IZR (instant start 0 0)) + (day - #1) * #1440 + minute)%fl.
Definition bsrn_row (start : date) (columns : list string) (row : list fl) : fl * list (string * fl) :=
  let cells := combine columns row in
  let get k := match lookup k cells with Some v => v | None => NaN end in
  (bsrn_label start (get "day"%string) (get "minute"%string),
   filter (fun p => negb (String.eqb (fst p) "empty" || String.eqb (fst p) "day" || String.eqb (fst p) "minute")) cells).
(** a record of one line has no second block of columns: the 26 (28) names do not fit *)
Definition paired (width : nat) (rows : list (list fl)) : res (list (list fl)) := match rows with [_] => Err ValueError | _ => Ok (unstack width rows) end.
Definition table_0100 (start : date) (lines : list string) : res (list (fl * list (string * fl))) :=
  let* rows := paired 13 (map (line_fields [-999; - (99.9)]%R col_specs_0100) lines) in Ok (map (bsrn_row start columns_0100) rows).
Definition table_0300 (start : date) (lines : list string) : res (list (fl * list (string * fl))) :=
  Ok (map (fun l => bsrn_row start columns_0300 (line_fields [-999; - (99.9)]%R col_specs_0300 l)) lines).
Definition table_0500 (start : date) (lines : list string) : res (list (fl * list (string * fl))) :=
  let* rows := paired 14 (map (line_fields [- (99.9)]%R col_specs_0500) lines) in Ok (map (bsrn_row start columns_0500) rows).
(** bsrn.py:56-63 *)
Definition empty_columns (logical_records : list string) : res (list string) :=
  let* cols := mapM (fun r => match lookup r [("0100", columns_0100); ("0300", columns_0300); ("0500", columns_0500)]%string with Some c => Ok (skipn 2 c) | None => Err KeyError end) logical_records in
  Ok (filter (fun c => negb (String.eqb c "empty")) (List.concat cols)).

(** bsrn.py:247-365: the tables (0100, 0300, 0500 in this order) before pandas' concat along the columns, or the names of an empty frame; a record without lines and blank lines inside a record are not modelled *)
Definition is_supported (r : string) : bool := mem r ["0100"; "0300"; "0500"]%string.
Definition present (r : string) (startrow : list (string * Z)) : bool := match lookup r startrow with Some _ => true | None => false end.
Inductive bsrn_data := BsrnTables (meta : bsrn_meta) (tables : list (list (fl * list (string * fl)))) | BsrnEmpty (columns : list string).
Fixpoint lines_of (fuel : nat) (s : string) : list string :=
  match fuel with O => [] | S fuel' => let (line, rest) := read_line s in if String.eqb line "" then [] else line :: lines_of fuel' rest end.
Definition parse_bsrn (py_float : string -> option fl) (py_int : string -> option Z) (text : string) (logical_records : list string) : res bsrn_data :=
  let* meta := bsrn_header py_float py_int text in
  let lines := lines_of (S (String.length text)) text in
  let* loc := locate_records lines in
  let (startrow, nrows) := loc in
  if negb (forallb is_supported logical_records) then Err ValueError else
  let wanted r := present r startrow && mem r logical_records in
  let part (r : string) (table : date -> list string -> res (list (fl * list (string * fl)))) := if wanted r then let* t := table (b_start meta) (rows_of r startrow nrows lines) in Ok [t] else Ok [] in
  let* t1 := part "0100"%string table_0100 in
  let* t3 := part "0300"%string table_0300 in
  let* t5 := part "0500"%string table_0500 in
  match t1 ++ t3 ++ t5 with
  | [] => let* cols := empty_columns logical_records in Ok (BsrnEmpty cols)
  | tables => Ok (BsrnTables meta tables)
  end.
End Tables.

(** ** get_bsrn (bsrn.py:156-218): the server answers each file name with a body, '550 Failed to open file.' or another error *)
Inductive ftp_answer (T : Type) := FtpFile (body : T) | FtpMissing | FtpRefused (e : exc).
Arguments FtpFile {T}. Arguments FtpMissing {T}. Arguments FtpRefused {T}.
(** first days of the months from (y, m) on: pd.date_range(start.date().replace(day=1), end, freq='1MS'); e: the month of end *)
Definition months_between (y0 m0 y1 m1 : Z) : list (Z * Z) :=
  map (fun k => let t := (12 * y0 + (m0 - 1) + Z.of_nat k)%Z in (t / 12, t mod 12 + 1)) (seq 0 (Z.to_nat (12 * y1 + m1 - (12 * y0 + m0) + 1))).
Section Get.
Context {T D M : Type}.
Variable server : Z * Z -> ftp_answer T.
Variable parse : T -> res (D * M).
Fixpoint bsrn_fetch (files : list (Z * Z)) : res (list (D * M) * list (Z * Z)) :=
  match files with
  | [] => Ok ([], [])
  | f :: fs =>
      let* here := match server f with FtpFile b => let* p := parse b in Ok ([p], []) | FtpMissing => Ok ([], [f]) | FtpRefused e => Err e end in
      let* rest := bsrn_fetch fs in Ok (fst here ++ fst rest, snd here ++ snd rest)
  end.
(** warning: None, Some [] (no file available) or Some l (the files not found) *)
Definition get_bsrn (station_exists : bool) (y0 m0 y1 m1 : Z) : res (list D * option M * option (list (Z * Z))) :=
  if negb station_exists then Err KeyError else
  let* r := bsrn_fetch (months_between y0 m0 y1 m1) in
  let (dfs, missing) := r in
  Ok (map fst dfs, match rev dfs with p :: _ => Some (snd p) | [] => None end,
      match dfs, missing with [], _ => Some [] | _, [] => None | _, _ => Some missing end).
End Get.
