(** Model of the whole of gti_dirint (pvlib/irradiance.py:2404-2528, 2541-2656, 2658-2736): the evaluations of the loop of IrradDecomp.v (2590-2616)
    with the concrete DISC, DIRINT and transposition models, the AOI >= 90 part, and their combination. *)
From Coq Require Import ZArith Reals.
From Verif Require Import Base.Fl Base.Py Model.Tools Model.Atmosphere Model.Irradiance Model.IrradDecomp Model.Datetimes.
Open Scope list_scope.

(** one time of the series.  Scalar arguments are the same in every row.  The times are increasing, so that pandas' alignment is by position. *)
Record gti_row := { gr_time : datetime; gr_poa : fl; gr_aoi : fl; gr_zenith : fl; gr_azimuth : fl; gr_tilt : fl; gr_surface_azimuth : fl;
                    gr_pressure : fl; gr_dew : fl; gr_albedo : fl }.
Record gti_vals := { gv_ghi : fl; gv_dni : fl; gv_dhi : fl; gv_kt_prime : fl }.
Definition gti_row0 : gti_row := {| gr_time := Dt 0 None; gr_poa := NaN; gr_aoi := NaN; gr_zenith := NaN; gr_azimuth := NaN; gr_tilt := NaN; gr_surface_azimuth := NaN;
                                    gr_pressure := NaN; gr_dew := NaN; gr_albedo := NaN |}.
Definition gti_nan : gti_vals := {| gv_ghi := NaN; gv_dni := NaN; gv_dhi := NaN; gv_kt_prime := NaN |}.

Section Series.
  Variable f : nat -> nat -> fl -> fl.   (* the spline of perez-driesse, see Irradiance.v *)
  Variables model model_perez : string.
  Variable dew_given : bool.             (* temp_dew is not None *)
  Variable use_delta_kt_prime : bool.
  Variable rows : list gti_row.
  Let n := List.length rows.
  Let row (i : nat) := nth i rows gti_row0.

  (** 2551, 2695 get_extra_radiation(times, 1370, 'spencer'), as in Datetimes.v *)
  Definition gti_I0 (r : gti_row) : fl := fmul #1370 (spencer_factor (Fin (IZR (pandas_to_doy (gr_time r))))).
  (** 2553-2554 *)
  Definition gti_I0h (r : gti_row) : fl := fmul (gti_I0 r) (fmax #0.065 (cosd (gr_zenith r))).
  (** 2556-2557, 2696-2697 *)
  Definition gti_airmass (r : gti_row) : fl := get_absolute_airmass (am_kasten1966 (airmass_z (gr_zenith r))) (gr_pressure r).
  (** 2591 *)
  Definition gti_kt (p : list fl) (i : nat) : fl := clearness_index (nth i p NaN) (gr_aoi (row i)) (gti_I0 (row i)) #0.065 #2.
  (** 2592, 2699 np.maximum(_disc_kn(kt, airmass)[0] * I0, 0) *)
  Definition gti_disc (r : gti_row) (kt : fl) : fl := fmax (fmul (fst (disc_kn kt (gti_airmass r) #12)) (gti_I0 r)) #0.
  (** 2593 *)
  Definition gti_kt_prime (p : list fl) (i : nat) : fl := clearness_index_zenith_independent (gti_kt p i) (gti_airmass (row i)) #2.
  (** 2162-2166; the coefficient is never an IndexError (C13) *)
  Definition gti_coefficient (r : gti_row) (kt_prime delta : fl) : fl :=
    match dirint_coeff kt_prime (gr_zenith r) (temp_dew_dirint (if dew_given then Some (gr_dew r) else None)) delta with Ok c => c | Err _ => NaN end.
  (** 2591-2606 *)
  Definition gti_guess (p : list fl) (i : nat) : gti_vals :=
    let r := row i in
    let kt := gti_kt p i in
    let disc_dni := gti_disc r kt in
    let kt_prime := gti_kt_prime p i in
    let delta := nth i (delta_kt_prime_dirint (map (gti_kt_prime p) (seq 0 n)) use_delta_kt_prime) NaN in
    let dni := fmul disc_dni (gti_coefficient r kt_prime delta) in
    let ghi := fmul kt (gti_I0h r) in
    let dhi := fsub ghi (fmul dni (cosd (gr_zenith r))) in
    {| gv_dni := fmax dni #0; gv_ghi := fmax ghi #0; gv_dhi := fmax dhi #0; gv_kt_prime := kt_prime |}.
  (** 2611-2616 *)
  Definition gti_transposed (r : gti_row) (v : gti_vals) : res fl :=
    rmap poa_global (get_total_irradiance f (gr_tilt r) (gr_surface_azimuth r) (gr_zenith r) (gr_azimuth r) (gv_dni v) (gv_ghi v) (gv_dhi v)
      (Some (gti_I0 r)) (Some (gti_airmass r)) (gr_albedo r) None model model_perez false).
  Definition gti_modelled (p : list fl) (i : nat) : fl := match gti_transposed (row i) (gti_guess p i) with Ok v => v | Err _ => NaN end.
  Definition gti_evaluate (p : list fl) : list gti_vals * list fl := (map (gti_guess p) (seq 0 n), map (gti_modelled p) (seq 0 n)).
  Definition gti_measured : list fl := map gr_poa rows.
  (** 2490 *)
  Definition gti_lt_90 : list bool := map (fun r => fltb (gr_aoi r) #90) rows.
  (** 2646-2653 the else clause of the loop, which warns, is reached when no coefficient is left *)
  Fixpoint gti_exhausted (first : bool) (coeffs : list R) (s : @gti_state gti_vals) : bool :=
    match coeffs with
    | [] => true
    | c :: cs => if gti_converged gti_lt_90 s then false else gti_exhausted false cs (gti_iter gti_evaluate gti_measured first c s)
    end.
  Definition gti_warns (max_iterations : nat) : bool := gti_exhausted true (gti_coeffs max_iterations) (gti_init gti_measured).
  (** 2541-2656; the transposition only fails on the names of the models, hence in the first evaluation or never (PGti.v) *)
  Definition gti_first (max_iterations : nat) : res (list gti_vals) :=
    match max_iterations with
    | O => Err UnboundLocalError
    | S _ => let* _ := mapM (fun i => gti_transposed (row i) (gti_guess gti_measured i)) (seq 0 n) in
             gti_dirint_lt_90 gti_evaluate gti_measured gti_lt_90 max_iterations
    end.

  (** 2713-2734 _gti_dirint_gte_90_kt_prime: times.date is the local date *)
  Definition gti_date (r : gti_row) : Z := (wall (gr_time r) / us_per_day)%Z.
  Definition gti_65_80 (r : gti_row) : bool := fgtb (gr_aoi r) #65 && fltb (gr_aoi r) #80.
  Definition gti_back (r : gti_row) : bool := fltb (gr_zenith r) #90 && fgeb (gr_aoi r) #90.
  Definition gti_morning (r : gti_row) : bool := fltb (gr_azimuth r) #180.
  Definition gti_afternoon (r : gti_row) : bool := fgtb (gr_azimuth r) #180.
  Definition gti_average (best : list gti_vals) (half : gti_row -> bool) (d : Z) : fl :=
    nanmean (map (fun j => gv_kt_prime (nth j best gti_nan)) (filter (fun j => Z.eqb (gti_date (row j)) d && (gti_65_80 (row j) && half (row j))) (seq 0 n))).
  Definition gti_kt_prime_gte_90 (best : list gti_vals) (i : nat) : fl :=
    let r := row i in
    if gti_back r && gti_afternoon r then gti_average best gti_afternoon (gti_date r)
    else if gti_back r && gti_morning r then gti_average best gti_morning (gti_date r) else NaN.
  (** 2658-2689 _gti_dirint_gte_90; the coefficient is that of the kt_prime of the loop *)
  Definition gti_gte_90_vals (best : list gti_vals) (i : nat) : fl * fl * fl :=
    let r := row i in
    let kt := fmul (gti_kt_prime_gte_90 best i) (kt_kt_prime_factor (gti_airmass r)) in
    let dni := fmul (gti_disc r kt) (gti_coefficient r (gv_kt_prime (nth i best gti_nan)) #(-1)) in
    let '(ghi, dhi) := gti_gte_90 (gr_poa r) dni (gr_zenith r) (gr_tilt r) (gr_albedo r) in (ghi, dni, dhi).
  (** 2486-2528 gti_dirint; each row (ghi, dni, dhi) *)
  Definition gti_dirint_series (calculate_gt_90 : bool) (max_iterations : nat) : res (list (fl * fl * fl)) :=
    if existsb (fun b => b) gti_lt_90 then
      let* best := gti_first max_iterations in
      Ok (map (fun i => let v := nth i best gti_nan in
            if nth i gti_lt_90 false then (gv_ghi v, gv_dni v, gv_dhi v)
            else if calculate_gt_90 then gti_gte_90_vals best i else (NaN, NaN, NaN)) (seq 0 n))
    else Err ValueError.
End Series.
