(** pvlib/clearsky.py: ineichen, Linke turbidity, haurwitz, simplified_solis, bird. *)
From Verif Require Import Base.Fl Base.Py Base.Series Model.Atmosphere Model.Tools.
From Coq Require Import ZArith List.
Import ListNotations.
Local Open Scope fl_scope.

Record clear_out := { cs_ghi : fl; cs_dni : fl; cs_dhi : fl }.

(** clearsky.py:19-149 ineichen *)
Definition ineichen (apparent_zenith airmass_absolute linke_turbidity altitude dni_extra : fl) (perez_enhancement : bool) : clear_out :=
  let cos_zenith := fmax (cosd apparent_zenith) #0 in
  let tl := linke_turbidity in
  let fh1 := fexp (- altitude / #8000) in
  let fh2 := fexp (- altitude / #1250) in
  let cg1 := #5.09e-05 * altitude + #0.868 in
  let cg2 := #3.92e-05 * altitude + #0.0387 in
  let ghi := fexp (- cg2 * airmass_absolute * (fh1 + fh2 * (tl - #1))) in
  let ghi := if perez_enhancement then ghi * fexp (#0.01 * fpow airmass_absolute #1.8) else ghi in
  let ghi := cg1 * dni_extra * cos_zenith * tl / tl * nfmax ghi #0 in
  let b := #0.664 + #0.163 / fh1 in
  let bnci := b * fexp (#(-0.09) * airmass_absolute * (tl - #1)) in
  let bnci := dni_extra * nfmax bnci #0 in
  let bnci_2 := (#1 - (#0.1 - #0.2 * fexp (- tl)) / (#0.1 + #0.882 / fh1)) / cos_zenith in
  let bnci_2 := ghi * nfmin (nfmax bnci_2 #0) #1e20 in
  let dni := fmin bnci bnci_2 in
  {| cs_ghi := ghi; cs_dni := dni; cs_dhi := ghi - dni * cos_zenith |}.

(** calendar.mdays[1:], clearsky.py:264-279 _calendar_month_middles; [leap] is calendar.isleap(year) *)
Definition mdays : list R := [31; 28; 31; 30; 31; 30; 31; 31; 30; 31; 30; 31]%R.
Definition set_nth {A} (i : nat) (v : A) (l : list A) : list A := (firstn i l ++ match skipn i l with [] => [] | _ :: t => v :: t end)%list.
Definition calendar_month_middles (leap : bool) : list R :=
  (let m := if leap then set_nth 1 (28 + 1) mdays else mdays in
   let ydays := if leap then 366 else 365 in
   [- 31 / 2] ++ zip_with (fun c d => c - d / 2) (cumsum m) m ++ [ydays + 31 / 2])%R%list.

(** np.interp(x, xp, fp): constant outside the nodes *)
Fixpoint interp_clamped_from (x x0 y0 : R) (l : list (R * R)) : R :=
  (match l with
   | [] => y0
   | (x1, y1) :: l' => if Rltb x x1 then y0 + (y1 - y0) / (x1 - x0) * (x - x0) else interp_clamped_from x x1 y1 l'
   end)%R.
Definition np_interp (x : R) (xp fp : list R) : R :=
  match combine xp fp with
  | [] => 0%R
  | (x0, y0) :: l => if Rltb x x0 then y0 else interp_clamped_from x x0 y0 l
  end.

(** clearsky.py:223-261 _interpolate_turbidity for one time stamp (UTC day of year, leap year) *)
Definition interpolate_turbidity (lts : list R) (leap : bool) (dayofyear : R) : R :=
  let lts_concat := ([last lts 0%R] ++ lts ++ [hd 0%R lts])%list in
  let lt_leap := np_interp dayofyear (calendar_month_middles true) lts_concat in
  let lt_no_leap := np_interp dayofyear (calendar_month_middles false) lts_concat in
  where_ leap lt_leap lt_no_leap.

(** clearsky.py:152-220 lookup_linke_turbidity for one UTC time stamp; [table] is the content of the HDF5 file *)
Definition lookup_linke_turbidity (table : Z -> Z -> list R) (latitude longitude : fl) (interp_turbidity leap : bool)
    (dayofyear : R) (month : nat) : res R :=
  let* latitude_index := degrees_to_index latitude Latitude in
  let* longitude_index := degrees_to_index longitude Longitude in
  let lts := table latitude_index longitude_index in
  let linke_turbidity := if interp_turbidity then interpolate_turbidity lts leap dayofyear else nth (month - 1) lts 0%R in
  Ok (linke_turbidity / 20)%R.

(** clearsky.py:282-328 haurwitz *)
Definition haurwitz (apparent_zenith : fl) : fl :=
  let cos_zenith := cosd apparent_zenith in
  if fgtb cos_zenith #0 then #1098 * cos_zenith * fexp (#(-0.059) / cos_zenith) else #0.

(** clearsky.py:422-524, the coefficients of simplified_solis; the array handling of _calc_taud (masks with
    coefficient pairs, one of which is multiplied by 0) is written as a choice of the pair *)
Definition p0 : fl := #101325.
Definition calc_i0p (i0 w aod700 p : fl) : fl :=
  let io0 := #1.08 * fpow w #0.0051 in
  let i01 := #0.97 * fpow w #0.032 in
  let i02 := #0.12 * fpow w #0.56 in
  i0 * (i02 * fpown aod700 2 + i01 * aod700 + io0 + #0.071 * fln (p / p0)).
Definition calc_taub (w aod700 p : fl) : fl :=
  let tb1 := #1.82 + #0.056 * fln w + #0.0071 * fpown (fln w) 2 in
  let tb0 := #0.33 + #0.045 * fln w + #0.0096 * fpown (fln w) 2 in
  let tbp := #0.0089 * w + #0.13 in
  tb1 * aod700 + tb0 + tbp * fln (p / p0).
Definition calc_b (w aod700 : fl) : fl :=
  let b1 := #0.00925 * fpown aod700 2 + #0.0148 * aod700 - #0.0172 in
  let b0 := #(-0.7565) * fpown aod700 2 + #0.5057 * aod700 + #0.4557 in
  b1 * fln w + b0.
Definition calc_taug (w aod700 p : fl) : fl :=
  let tg1 := #1.24 + #0.047 * fln w + #0.0061 * fpown (fln w) 2 in
  let tg0 := #0.27 + #0.043 * fln w + #0.0090 * fpown (fln w) 2 in
  let tgp := #0.0079 * w + #0.1 in
  tg1 * aod700 + tg0 + tgp * fln (p / p0).
Definition calc_g (w aod700 : fl) : fl :=
  #(-0.0147) * fln w - #0.3079 * fpown aod700 2 + #0.2846 * aod700 + #0.3798.
Definition calc_taud (w aod700 p : fl) : fl :=
  let low := fltb aod700 #0.05 in
  let td4 := where_ low (#86 * w - #13800) (#(-0.21) * w + #11.6) in
  let td3 := where_ low (#(-3.11) * w + #79.4) (#0.27 * w - #20.7) in
  let td2 := where_ low (#(-0.23) * w + #74.8) (#(-0.134) * w + #15.5) in
  let td1 := where_ low (#0.092 * w - #8.86) (#0.0554 * w - #5.71) in
  let td0 := where_ low (#0.0042 * w + #3.12) (#0.0057 * w + #2.94) in
  let tdp := where_ low (#(-0.83) * fpow (#1 + aod700) #(-17.2)) (#(-0.71) * fpow (#1 + aod700) #(-15.0)) in
  td4 * fpown aod700 4 + td3 * fpown aod700 3 + td2 * fpown aod700 2 + td1 * aod700 + td0 + tdp * fln (p / p0).
Definition calc_d (aod700 p : fl) : fl :=
  let dp := #1 / (#18 + #152 * aod700) in
  #(-0.337) * fpown aod700 2 + #0.63 * aod700 + #0.116 + dp * fln (p / p0).
(** clearsky.py:331-419 simplified_solis *)
Definition simplified_solis (apparent_elevation aod700 precipitable_water pressure dni_extra : fl) : clear_out :=
  let p := pressure in
  let w := fmax precipitable_water #0.2 in
  let i0p := calc_i0p dni_extra w aod700 p in
  let taub := calc_taub w aod700 p in
  let b := calc_b w aod700 in
  let taug := calc_taug w aod700 p in
  let g := calc_g w aod700 in
  let taud := calc_taud w aod700 p in
  let d := calc_d aod700 p in
  let sin_elev := fmax #1e-30 (fsin (fradians apparent_elevation)) in
  {| cs_dni := i0p * fexp (- taub / fpow sin_elev b);
     cs_ghi := i0p * fexp (- taug / fpow sin_elev g) * sin_elev;
     cs_dhi := i0p * fexp (- taud / fpow sin_elev d) |}.

(** clearsky.py:928-1050 bird *)
Record bird_out := { bd_direct_horizontal : fl; bd_ghi : fl; bd_dni : fl; bd_dhi : fl }.
Definition bird (zenith airmass_relative aod380 aod500 precipitable_water ozone pressure dni_extra asymmetry albedo : fl) : bird_out :=
  let etr := dni_extra in
  let ze_rad := fradians zenith in
  let airmass := airmass_relative in
  let am_press := get_absolute_airmass airmass pressure in
  let t_rayleigh := fexp (#(-0.0903) * fpow am_press #0.84 * (#1 + am_press - fpow am_press #1.01)) in
  let am_o3 := ozone * airmass in
  let t_ozone := #1 - #0.1611 * am_o3 * fpow (#1 + #139.48 * am_o3) #(-0.3034) -
                 #0.002715 * am_o3 / (#1 + #0.044 * am_o3 + #0.0003 * fpown am_o3 2) in
  let t_gases := fexp (#(-0.0127) * fpow am_press #0.26) in
  let am_h2o := airmass * precipitable_water in
  let t_water := #1 - #2.4959 * am_h2o / (fpow (#1 + #79.034 * am_h2o) #0.6828 + #6.385 * am_h2o) in
  let bird_huldstrom := bird_hulstrom80_aod_bb aod380 aod500 in
  let t_aerosol := fexp (- fpow bird_huldstrom #0.873 * (#1 + bird_huldstrom - fpow bird_huldstrom #0.7088) * fpow airmass #0.9108) in
  let taa := #1 - #0.1 * (#1 - airmass + fpow airmass #1.06) * (#1 - t_aerosol) in
  let rs := #0.0685 + (#1 - asymmetry) * (#1 - t_aerosol / taa) in
  let id_ := #0.9662 * etr * t_aerosol * t_water * t_gases * t_ozone * t_rayleigh in
  let ze_cos := where_ (fltb zenith #90) (fcos ze_rad) #0 in
  let id_nh := id_ * ze_cos in
  let ias := etr * ze_cos * #0.79 * t_ozone * t_gases * t_water * taa *
             (#0.5 * (#1 - t_rayleigh) + asymmetry * (#1 - t_aerosol / taa)) / (#1 - airmass + fpow airmass #1.02) in
  let gh := (id_nh + ias) / (#1 - albedo * rs) in
  {| bd_direct_horizontal := id_nh; bd_ghi := gh; bd_dni := id_; bd_dhi := gh - id_nh |}.

(** ** detect_clearsky *)
(** the windows: H[:, j] = j, ..., j + spw - 1 (scipy.linalg.hankel), clearsky.py:842-843 *)
Definition window {A} (spw j : nat) (l : list A) : list A := firstn spw (skipn j l).
Definition windows (n spw : nat) : list nat := seq 0 (n - spw + 1).
Definition fmean (l : list fl) : fl := fsum l / #(INR (length l)).
Definition fmaxl (l : list fl) : fl := match l with [] => NaN | x :: l' => fold_left fmax l' x end.
(** np.std(ddof=1) *)
Definition fstd1 (l : list fl) : fl :=
  let m := fmean l in fsqrt (fsum (map (fun x => fpown (x - m) 2) l) / #(INR (length l) - 1)).
Fixpoint fdiffs (l : list fl) : list fl := match l with x :: ((y :: _) as l') => (y - x) :: fdiffs l' | _ => [] end.
(** clearsky.py:605-609 _to_centered_series *)
Definition to_centered (n spw : nat) (vals : list fl) : list fl :=
  firstn n (repeat NaN (spw / 2) ++ vals ++ repeat NaN (n - length vals)).
(** clearsky.py:527-582 _calc_stats (without the unused slope output), 585-589 _slope_nstd_windowed *)
Definition win_mean (spw : nat) (data : list fl) : list fl :=
  to_centered (length data) spw (map (fun j => fmean (window spw j data)) (windows (length data) spw)).
Definition win_max (spw : nat) (data : list fl) : list fl :=
  to_centered (length data) spw (map (fun j => fmaxl (window spw j data)) (windows (length data) spw)).
Definition win_slope_nstd (spw : nat) (sample_interval : fl) (data : list fl) : list fl :=
  let slopes := map (fun d => d / sample_interval) (fdiffs data) in
  to_centered (length data) spw
    (map (fun j => fstd1 (window (spw - 1) j slopes) / fmean (window spw j data)) (windows (length data) spw)).
(** clearsky.py:592-595 _max_diff_windowed *)
Definition win_max_diff (spw : nat) (data : list fl) : list fl :=
  let raw := fdiffs data in
  to_centered (length data) spw (map (fun j => fmaxl (map fabs (window (spw - 1) j raw))) (windows (length data) spw)).
(** clearsky.py:598-602 _line_length_windowed *)
Definition win_line_length (spw : nat) (sample_interval : fl) (data : list fl) : list fl :=
  let raw := map (fun d => fsqrt (fpown d 2 + fpown sample_interval 2)) (fdiffs data) in
  to_centered (length data) spw (map (fun j => fsum (window (spw - 1) j raw)) (windows (length data) spw)).
(** clearsky.py:612-636 _clear_sample_index: the samples of the windows flagged clear, as a mask *)
Definition clear_mask (n spw : nat) (clear_windows : list bool) : list bool :=
  let flagged := filter (fun j => nth (j + spw / 2) clear_windows false) (windows n spw) in
  map (fun i => existsb (fun j => Nat.leb j i && Nat.ltb i (j + spw)) flagged) (seq 0 n).
(** clearsky.py:639-666 _clearsky_get_threshold *)
Record limits := { l_window_length : R; l_mean_diff : R; l_max_diff : R; l_lower_line_length : R; l_upper_line_length : R;
                   l_var_diff : R; l_slope_dev : R }.
Definition clearsky_get_threshold (sample_interval : R) : res limits :=
  (if Rltb sample_interval 1 || Rltb 30 sample_interval then Err ValueError else
   let data_freq := [1; 5; 15; 30] in
   Ok {| l_window_length := np_interp sample_interval data_freq [50; 60; 90; 120];
         l_mean_diff := np_interp sample_interval data_freq [75; 75; 75; 75];
         l_max_diff := np_interp sample_interval data_freq [60; 65; 75; 90];
         l_lower_line_length := np_interp sample_interval data_freq [-45; -45; -45; -45];
         l_upper_line_length := np_interp sample_interval data_freq [80; 80; 80; 80];
         l_var_diff := np_interp sample_interval data_freq [0.005; 0.01; 0.032; 0.07];
         l_slope_dev := np_interp sample_interval data_freq [50; 60; 75; 96] |})%R.
(** the state after one pass of the loop, and the components returned, clearsky.py:862-923 *)
Record detection := { d_samples : list bool; d_c1 : list bool; d_c2 : list bool; d_c3 : list bool; d_c4 : list bool; d_c5 : list bool;
                      d_c6 : list bool; d_windows : list bool; d_line_length : list fl; d_slope_max : list fl; d_slope_nstd : list fl;
                      d_mean_diff : list fl; d_max_diff : list fl; d_alpha : fl; d_converged : bool }.
Definition zip6 (c1 c2 c3 c4 c5 c6 : list bool) : list bool :=
  zip_with andb (zip_with andb (zip_with andb (zip_with andb (zip_with andb c1 c2) c3) c4) c5) c6.
(** pandas sum skips nan *)
Definition nansum (l : list fl) : fl := fsum (filter (fun x => negb (isnan x)) l).
Definition pick (mask : list bool) (l : list fl) : list fl := map snd (filter fst (combine mask l)).
(** round() of a numpy float *)
Definition py_round (x : fl) : res Z :=
  match x with Fin r => Ok (Round.round_even r) | NaN => Err ValueError | _ => Err OverflowError end.
Definition detect_pass (lim : limits) (sample_interval : fl) (spw : nat) (meas clear : list fl) (alpha : fl) : res detection :=
  let n := length meas in
  let meas_mean := win_mean spw meas in
  let meas_max := win_max spw meas in
  let meas_slope_nstd := win_slope_nstd spw sample_interval meas in
  let meas_line_length := win_line_length spw sample_interval meas in
  let clear_mean := win_mean spw clear in
  let clear_max := win_max spw clear in
  let scaled_clear := map (fun x => alpha * x) clear in
  let clear_line_length := win_line_length spw sample_interval scaled_clear in
  let line_diff := zip_with fsub meas_line_length clear_line_length in
  let slope_max_diff := win_max_diff spw (zip_with fsub meas scaled_clear) in
  let c1 := zip_with (fun m c => fltb (fabs (m - alpha * c)) #(l_mean_diff lim)) meas_mean clear_mean in
  let c2 := zip_with (fun m c => fltb (fabs (m - alpha * c)) #(l_max_diff lim)) meas_max clear_max in
  let c3 := map (fun d => fgtb d #(l_lower_line_length lim) && fltb d #(l_upper_line_length lim)) line_diff in
  let c4 := map (fun s => fltb s #(l_var_diff lim)) meas_slope_nstd in
  let c5 := map (fun s => fltb s #(l_slope_dev lim)) slope_max_diff in
  let c6 := map (fun c => fneqb c #0 && negb (isnan c)) clear_mean in
  let clear_windows := zip6 c1 c2 c3 c4 c5 c6 in
  let clear_samples := clear_mask n spw clear_windows in
  let clear_meas := pick clear_samples meas in
  let clear_clear := pick clear_samples clear in
  let C := nansum (map (fun x => fpown x 2) clear_clear) in
  let alpha' := if negb (isnan C || feqb C #0) then nansum (zip_with fmul clear_meas clear_clear) / C else alpha in
  let* r := py_round (alpha' * #10000) in
  let* r0 := py_round (alpha * #10000) in
  Ok {| d_samples := clear_samples; d_c1 := c1; d_c2 := c2; d_c3 := c3; d_c4 := c4; d_c5 := c5; d_c6 := c6; d_windows := clear_windows;
        d_line_length := line_diff; d_slope_max := slope_max_diff; d_slope_nstd := meas_slope_nstd;
        d_mean_diff := zip_with (fun m c => fabs (m - alpha' * c)) meas_mean clear_mean;
        d_max_diff := zip_with (fun m c => fabs (m - alpha' * c)) meas_max clear_max; d_alpha := alpha'; d_converged := Z.eqb r r0 |}.
(** clearsky.py:862-901: at most [k] further passes; d_converged = false is the RuntimeWarning *)
Fixpoint detect_loop (lim : limits) (sample_interval : fl) (spw : nat) (meas clear : list fl) (alpha : fl) (k : nat) (previous : option detection)
    : res detection :=
  match k with
  | O => match previous with Some d => Ok d | None => Err UnboundLocalError end
  | S k' => let* d := detect_pass lim sample_interval spw meas clear alpha in
            if d_converged d then Ok d else detect_loop lim sample_interval spw meas clear (d_alpha d) k' (Some d)
  end.
(** clearsky.py:669-925 detect_clearsky; measured and clear-sky series with one common index described by [freq_inferred], [deltas] (minutes) *)
Definition detect_clearsky (freq_inferred : bool) (deltas : list R) (meas clear : list fl) (infer_limits : bool) (user : limits) (max_iterations : nat)
    : res detection :=
  let* (sample_interval, samples_per_window) := get_sample_intervals freq_inferred deltas (l_window_length user) in
  let* lim := if infer_limits then clearsky_get_threshold sample_interval else Ok user in
  let* (sample_interval, samples_per_window) := get_sample_intervals freq_inferred deltas (l_window_length lim) in
  if Z.ltb samples_per_window 3 then Err ValueError else
  if Z.ltb (Z.of_nat (length meas)) samples_per_window then Err ValueError else
  detect_loop lim #sample_interval (Z.to_nat samples_per_window) meas clear #1 max_iterations None.
