(** Model of pvlib/soiling.py.  Times are seconds (hsu) or hours (kimber) of a strictly increasing index. *)
From Verif Require Import Base.Fl Base.Py Base.Series.
Open Scope R_scope.

(** soiling.py:13-113 hsu.  [erf] is scipy.special.erf, a parameter.  pm2_5 and pm10 are series (a scalar is
    broadcast, 102).  The two deposition velocities are reals. *)
Definition horiz_rate (v25 v10 p25 p10 dt : R) : R := (p25 * v25 + Rmax (p10 - p25) 0 * v10) * dt.
Definition hsu (erf : R -> R) (times : list R) (rainfall : list fl) (cleaning_threshold : fl) (surface_tilt : R)
    (pm2_5 pm10 : list R) (v25 v10 : R) (rain_accum_period : R) : res (list fl) :=
  let accum_rain := rolling_sum rain_accum_period times rainfall in
  let cleaning := map (fun a => fgeb a cleaning_threshold) accum_rain in
  let dt_diff := match times with [] => [] | t0 :: l => diffs_from t0 l end in
  match dt_diff with
  | [] => Err IndexError
  | d0 :: _ =>
    let dt_sec := d0 :: dt_diff in
    let tilted_mass_rate :=
      zip_with (fun p dt => horiz_rate v25 v10 (fst p) (snd p) dt * cosD surface_tilt) (combine pm2_5 pm10) dt_sec in
    let mass_no_cleaning := cumsum tilted_mass_rate in
    let mass_removed := set_first (Some 0) (map (fun _ => None) times) in
    let mass_removed :=
      zip_with (fun (c : bool) rm => if c then Some (fst rm) else snd rm) cleaning (combine mass_no_cleaning mass_removed) in
    let accum_mass := zip_with (fun m r => m - match r with Some x => x | None => 0 end)
                               mass_no_cleaning (ffill mass_removed) in
    Ok (map (fun m => fsub #1 (fmul #0.3437
           (match fmul #0.17 (fpow #m #0.8473) with Fin x => Fin (erf x) | PInf => #1 | NInf => #(-1) | NaN => NaN end)))
         accum_mass)
  end.

(** default deposition velocities, soiling.py:80-81 *)
Definition hsu_v25 : R := 0.0009.
Definition hsu_v10 : R := 0.004.

(** soiling.py:116-229 kimber.  Periods in hours; [wash] says for each row whether its time is one of the
    manual wash dates (a date missing from the index raises KeyError: [wash_known] = false). *)
Definition kimber (times : list R) (rainfall : list fl) (cleaning_threshold : fl)
    (soiling_loss_rate : R) (grace_period_days : R) (max_soiling : R) (wash : list bool) (wash_known : bool)
    (initial_soiling : R) (rain_accum_period : R) : res (list R) :=
  match times with
  | t0 :: t1 :: _ =>
    let day_fraction := (t1 - t0) / 24 in
    let accumulated_rainfall := rolling_sum rain_accum_period times rainfall in
    let soiling := map (fun _ => 1 * soiling_loss_rate * day_fraction) times in
    let soiling := set_first initial_soiling soiling in
    let soiling := cumsum soiling in
    let rain_events := map (fun a => fgtb a cleaning_threshold) accumulated_rainfall in
    let grace_windows :=
      map (fun s => fgtb s #0)
          (rolling_sum (grace_period_days * 24) times (map (fun b : bool => if b then #1 else #0) rain_events)) in
    let cleaning := set_first (Some 0) (map (fun _ => None) times) in
    let cleaning := zip_with (fun (g : bool) sc => if g then Some (fst sc) else snd sc) grace_windows (combine soiling cleaning) in
    if negb wash_known then Err KeyError else
    let cleaning := zip_with (fun (w : bool) sc => if w then Some (fst sc) else snd sc) wash (combine soiling cleaning) in
    let soiling := zip_with (fun s c => s - match c with Some x => x | None => 0 end) soiling (ffill cleaning) in
    Ok (map (fun s => if Rltb s max_soiling then s else max_soiling) soiling)
  | _ => Err IndexError
  end.
