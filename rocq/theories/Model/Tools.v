(** Model of pvlib/tools.py. *)
From Verif Require Import Base.Fl Base.Py Base.Round.
Open Scope R_scope.

(** tools.py:342-424 _golden_sect_DataFrame.  One element of the arrays: the bracket and the objective as a
    function of the searched variable ([func(df, key)] on that element).  The [while] loop is unrolled [fuel] times;
    None means it is still running. *)
Record gs_row := GsRow { gs_lo : fl; gs_hi : fl; gs_obj : fl -> fl }.
(** bool * float *)
Definition fbool (b : bool) : fl := if b then Fin 1 else Fin 0.
Definition phim1 : fl := Fin ((sqrt 5 - 1) / 2).
Definition gs_V1 (r : gs_row) : fl := (gs_lo r + phim1 * (gs_hi r - gs_lo r))%fl.
Definition gs_V2 (r : gs_row) : fl := (gs_hi r - phim1 * (gs_hi r - gs_lo r))%fl.
Definition gs_flag (r : gs_row) : bool := fgtb (gs_obj r (gs_V1 r)) (gs_obj r (gs_V2 r)).
Definition gs_next (r : gs_row) : gs_row :=
  GsRow (gs_V2 r * fbool (gs_flag r) + gs_lo r * fbool (negb (gs_flag r)))%fl
        (gs_V1 r * fbool (negb (gs_flag r)) + gs_hi r * fbool (gs_flag r))%fl (gs_obj r).
Definition gs_err (r : gs_row) : fl := fabs (fsub (gs_V2 r) (gs_V1 r)).
(** np.all(err[~np.isnan(err)] < atol) *)
Definition gs_converged (atol : fl) (rows : list gs_row) : bool :=
  forallb (fun e => fltb e atol) (filter (fun e => negb (isnan e)) (map gs_err rows)).
(** the rows at the top of the last iteration *)
Fixpoint gs_loop (fuel : nat) (atol : fl) (rows : list gs_row) : option (list gs_row) :=
  match fuel with
  | O => None
  | S n => if gs_converged atol rows then Some rows else gs_loop n atol (map gs_next rows)
  end.
Definition gs_out (r : gs_row) : fl * fl :=
  let m := (#0.5 * (gs_V1 r + gs_V2 r))%fl in
  let fr := gs_obj r m in
  (fr, if isnan fr then NaN else m).
Definition golden_sect (fuel : nat) (rows : list gs_row) (atol : fl) : res (option (list (fl * fl))) :=
  if existsb (fun r => fltb (gs_hi r - gs_lo r)%fl #0) rows then Err ValueError
  else Ok (option_map (map gs_out) (gs_loop fuel atol rows)).

(** tools.py:448-503 _degrees_to_index *)
Inductive coord := Latitude | Longitude | OtherCoord.
Definition degrees_to_index (degrees : fl) (c : coord) : res Z :=
  let go (inputmin inputmax outputmax : R) (omax : Z) :=
    let inputrange := inputmax - inputmin in
    let scale := outputmax / inputrange in
    let center := inputmin + 1 / scale / 2 in
    let om := outputmax - 1 in
    let index := ((degrees - #center) * #scale)%fl in
    if fgtb index #om then
      if fleb (index - #om)%fl #0.500001 then Ok omax else Err ValueError
    else if fltb index #0 then
      if fleb (- index)%fl #0.500001 then Ok 0%Z else Err ValueError
    else match index with
         | Fin i => Ok (round_even i)
         | _ => Err ValueError   (* int(np.around(nan)) raises ValueError *)
         end in
  match c with
  | Latitude => go 90 (-90) 2160 2159%Z
  | Longitude => go (-180) 180 4320 4319%Z
  | OtherCoord => Err ValueError
  end.

(** datetimes: wall-clock microseconds since 1970-01-01T00:00 and the utc offset (microseconds) at that time;
    None for naive *)
Record datetime := Dt { wall : Z; offset : option Z }.
Definition us_per_day : Z := 86400000000.
(** dt.datetime(1899, 12, 31, 12, tzinfo=utc) is 25567.5 days before the epoch *)
Definition djd_start : Z := (- (51135 * (us_per_day / 2)))%Z.
(** a zone gives its offset at each instant; astimezone keeps the instant *)
Definition zone := Z -> Z.
Definition utc_instant (t : datetime) : Z := match offset t with None => wall t | Some o => (wall t - o)%Z end.
(** tools.py:150-173 datetime_to_djd; float rounding is not modelled *)
Definition datetime_to_djd (t : datetime) : R := IZR (utc_instant t - djd_start) / 1000000 * 1 / (60 * 60 * 24).
(** tools.py:176-196 djd_to_datetime; timedelta(days=x) rounds half-even to microseconds *)
Definition djd_to_datetime (djd : R) (z : zone) : datetime :=
  let utc := (djd_start + round_even (djd * IZR us_per_day))%Z in
  Dt (utc + z utc) (Some (z utc)).

(** tools.py:287-309 _build_kwargs: keep the requested keys that are present, in the order of [keys] *)
Definition build_kwargs {A} (keys : list string) (d : list (string * A)) : list (string * A) :=
  flat_map (fun k => match lookup k d with Some v => [(k, v)] | None => [] end) keys.
(** tools.py:312-335 _build_args *)
Definition build_args {A} (keys : list string) (d : list (string * A)) : res (list A) := mapM (getitem d) keys.

(** tools.py:427-445 _get_sample_intervals; [deltas] and [freq_inferred] come from the index, in minutes.
    The .seconds attribute drops whole days; int() truncates. *)
Definition ftrunc (x : R) : Z := if Rltb x 0 then (- Int_part (- x))%Z else Int_part x.
Definition get_sample_intervals (freq_inferred : bool) (deltas : list R) (win_length : R) : res (R * Z) :=
  match deltas with
  | d :: ds =>
      if freq_inferred && forallb (fun x => Reqb x d) ds then
        let sample_interval := Rmodp (d * 60) 86400 / 60 in
        if Reqb sample_interval 0 then Err ZeroDivisionError else
        Ok (sample_interval, ftrunc (win_length / sample_interval))
      else Err NotImplementedError
  | [] => Err NotImplementedError
  end.

(** tools.py:510-514 _first_order_centered_difference *)
Definition centered_difference (f : R -> R) (x0 dx : R) : R := (f (x0 + dx) - f (x0 - dx)) / 2 / dx.
(** tools.py:539-563 normalize_max2one on one numpy vector *)
Definition normalize_max2one (a : list fl) : list fl :=
  match a with [] => [] | x :: l => map (fun y => fdiv y (fold_left fmax (map fabs l) (fabs x))) a end.
