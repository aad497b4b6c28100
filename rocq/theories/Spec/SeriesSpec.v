(** Recurrences that the time-series models are claimed to follow. *)
From Coq Require Import Reals List.
Import ListNotations.
Open Scope R_scope.

(** Snow coverage: 1 on new snowfall, otherwise what is left after sliding. *)
Fixpoint snow_recurrence (prev : R) (l : list (bool * R)) : list R :=
  match l with
  | [] => []
  | (new, slide) :: l' =>
      let c := if new then 1 else Rmax 0 (prev - slide) in c :: snow_recurrence c l'
  end.

(** Accumulation with resets: 0 at a cleaning, otherwise previous plus growth. *)
Fixpoint reset_recurrence (prev : R) (l : list (bool * R)) : list R :=
  match l with
  | [] => []
  | (clean, growth) :: l' =>
      let c := if clean then 0 else prev + growth in c :: reset_recurrence c l'
  end.

(** ** Snow: one row of weather and the (new snow, slide) sequence it gives *)
From Verif Require Import Base.Fl.
Record weather := Weather { w_time : R; w_snow : fl; w_poa : fl; w_temp : fl; w_depth : fl }.
Section Snow.
  Variables (use_depth : bool) (thr_snow thr_depth cs_coef : fl) (slide_per_hour : R).
  (** enough snow on the ground, when the depth is known *)
  Definition deep (w : weather) : bool := negb use_depth || fleb thr_depth (w_depth w).
  Definition bare (w : weather) : bool := use_depth && fltb (w_depth w) thr_depth.
  Definition new_snow (rate : fl) (w : weather) : bool := fltb thr_snow rate && deep w.
  Definition slides (w : weather) : bool := fltb (fdiv (w_poa w) cs_coef) (w_temp w).
  Fixpoint snow_rows_after (prev : R) (l : list weather) : list (bool * R) :=
    match l with
    | [] => []
    | w :: l' =>
        let dt := w_time w - prev in
        let new := new_snow (fdiv (w_snow w) (Fin dt)) w in
        (new, if bare w then 1 else if new then 0 else if slides w then slide_per_hour * dt else 0)
        :: snow_rows_after (w_time w) l'
    end.
  (** the first row uses the inferred frequency and does not slide *)
  Definition snow_rows (freq : option R) (l : list weather) : list (bool * R) :=
    match l with
    | [] => []
    | w :: l' =>
        let rate := match freq with Some h => fdiv (w_snow w) (Fin h) | None => Fin 0 end in
        (new_snow rate w, if bare w then 1 else 0) :: snow_rows_after (w_time w) l'
    end.
End Snow.

(** ** Soiling: rain in the window (t - period, t], unknown values skipped *)
Record rainrow := RainRow { r_time : R; r_rain : option R; r_wash : bool; r_pm25 : R; r_pm10 : R }.
Definition in_win (period t t' : R) : bool := Rltb (t - period) t' && Rleb t' t.
Fixpoint rain_in_window (period t : R) (l : list rainrow) : R :=
  match l with
  | [] => 0
  | r :: l' => (if in_win period t (r_time r) then match r_rain r with Some x => x | None => 0 end else 0)
               + rain_in_window period t l'
  end.
(** a row is damp if a heavy-rain row lies in the grace window ending at it *)
Definition heavy (period thr : R) (rows : list rainrow) (r : rainrow) : bool :=
  Rltb thr (rain_in_window period (r_time r) rows).
Definition damp (period thr grace : R) (rows : list rainrow) (r : rainrow) : bool :=
  existsb (fun r' => in_win grace (r_time r) (r_time r') && heavy period thr rows r') rows.
(** total soiling before the cap *)
Definition kimber_rows (period thr rate_per_day grace_days init : R) (rows : list rainrow) : list (bool * R) :=
  let clean r := damp period thr (grace_days * 24) rows r || r_wash r in
  match rows with
  | r0 :: (r1 :: _) as rest =>
      (clean r0, init) :: map (fun r => (clean r, rate_per_day * ((r_time r1 - r_time r0) / 24))) rest
  | _ => []
  end.
(** deposited mass per step *)
Fixpoint hsu_after (period thr v25 v10 costilt prev : R) (all l : list rainrow) : list (bool * R) :=
  match l with
  | [] => []
  | r :: l' => (Rleb thr (rain_in_window period (r_time r) all),
                (r_pm25 r * v25 + Rmax (r_pm10 r - r_pm25 r) 0 * v10) * (r_time r - prev) * costilt)
               :: hsu_after period thr v25 v10 costilt (r_time r) all l'
  end.
(** the first step is taken to be as long as the second *)
Definition hsu_rows (period thr v25 v10 costilt : R) (rows : list rainrow) : list (bool * R) :=
  match rows with
  | r0 :: r1 :: _ => hsu_after period thr v25 v10 costilt (r_time r0 - (r_time r1 - r_time r0)) rows rows
  | _ => []
  end.

(** ** Townsend: the published monthly equation on finite inputs (units as in the pvlib docstring) *)
Definition eff_snow_in (total_cm events : R) : R :=
  if Rlt_dec 0 events then 0.5 * (total_cm / 2.54) * (1 + 1 / Rmax events 1) else 0.
Definition townsend_equation (s_prev s_cur : R) (* effective snow, inches *)
    (tilt rh temp_c poa_wh slant_m edge_m string_factor repose front : R) : R :=
  let s := s_prev / 3 + 2 * s_cur / 3 in
  let gamma := 2 * (slant_m * 39.37) * s * cosD tilt * tanD repose / Rmax ((edge_m * 39.37) ^ 2 - s ^ 2) 0.1 in
  57000 * s * cosD tilt ^ 2 * (1 - 0.51 * exp (- gamma)) * (rh / 100) / (temp_c + 273.15) ^ 2
  / Rpower (poa_wh / 1000) 0.67 * string_factor * front.
