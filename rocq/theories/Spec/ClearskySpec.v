(** Clear-sky models and clear-sky detection as published, on real numbers; independent of the model of the code. *)
From Coq Require Import Reals List.
Import ListNotations.
Open Scope R_scope.

(** ** Ineichen-Perez.  [m] absolute airmass, [tl] Linke turbidity, [h] altitude, [i0] extraterrestrial irradiance, [c] cosine of zenith *)
Definition ip_ghi (enhanced : bool) (c m tl h i0 : R) : R :=
  (5.09e-05 * h + 0.868) * i0 * c *
  exp (- (3.92e-05 * h + 0.0387) * m * (exp (- h / 8000) + exp (- h / 1250) * (tl - 1))) *
  (if enhanced then exp (0.01 * Rpower m 1.8) else 1).
Definition ip_beam (m tl h i0 : R) : R := (0.664 + 0.163 / exp (- h / 8000)) * i0 * exp (-0.09 * m * (tl - 1)).
(** the share of ghi that beam may have *)
Definition ip_beam_share (tl h : R) : R := 1 - (0.1 - 0.2 * exp (- tl)) / (0.1 + 0.882 / exp (- h / 8000)).
(** beam irradiance when 1/c is capped at [cap] *)
Definition ip_dni (cap : R) (enhanced : bool) (c m tl h i0 : R) : R :=
  Rmin (ip_beam m tl h i0) (ip_ghi enhanced c m tl h i0 * Rmin (ip_beam_share tl h / c) cap).

(** ** the middle of each month as a day of the year, from the length of the months *)
Definition month_lengths (leap : bool) : list R := [31; if leap then 29 else 28; 31; 30; 31; 30; 31; 31; 30; 31; 30; 31].
Definition days_before (leap : bool) (month : nat) : R := fold_right Rplus 0 (firstn month (month_lengths leap)).
Definition middle_of_month (leap : bool) (month : nat) : R := days_before leap month + nth month (month_lengths leap) 0 / 2.

(** ** simplified Solis *)
Definition solis_optical_depths (w aod lp : R) : R * R * R * R :=
  (0.12 * Rpower w 0.56 * aod ^ 2 + 0.97 * Rpower w 0.032 * aod + 1.08 * Rpower w 0.0051 + 0.071 * lp,
   (1.82 + 0.056 * ln w + 0.0071 * (ln w) ^ 2) * aod + (0.33 + 0.045 * ln w + 0.0096 * (ln w) ^ 2) + (0.0089 * w + 0.13) * lp,
   (1.24 + 0.047 * ln w + 0.0061 * (ln w) ^ 2) * aod + (0.27 + 0.043 * ln w + 0.0090 * (ln w) ^ 2) + (0.0079 * w + 0.1) * lp,
   if Rlt_dec aod 0.05 then
     (86 * w - 13800) * aod ^ 4 + (-3.11 * w + 79.4) * aod ^ 3 + (-0.23 * w + 74.8) * aod ^ 2 + (0.092 * w - 8.86) * aod + (0.0042 * w + 3.12)
     + -0.83 * Rpower (1 + aod) (-17.2) * lp
   else
     (-0.21 * w + 11.6) * aod ^ 4 + (0.27 * w - 20.7) * aod ^ 3 + (-0.134 * w + 15.5) * aod ^ 2 + (0.0554 * w - 5.71) * aod + (0.0057 * w + 2.94)
     + -0.71 * Rpower (1 + aod) (-15.0) * lp).
Definition solis_exponents (w aod lp : R) : R * R * R :=
  ((0.00925 * aod ^ 2 + 0.0148 * aod - 0.0172) * ln w + (-0.7565 * aod ^ 2 + 0.5057 * aod + 0.4557),
   -0.0147 * ln w - 0.3079 * aod ^ 2 + 0.2846 * aod + 0.3798,
   -0.337 * aod ^ 2 + 0.63 * aod + 0.116 + 1 / (18 + 152 * aod) * lp).

(** ** Bird transmittances *)
Definition bird_rayleigh (m' : R) : R := exp (-0.0903 * Rpower m' 0.84 * (1 + m' - Rpower m' 1.01)).
Definition bird_ozone (x : R) : R := 1 - 0.1611 * x * Rpower (1 + 139.48 * x) (-0.3034) - 0.002715 * x / (1 + 0.044 * x + 0.0003 * x ^ 2).
Definition bird_gases (m' : R) : R := exp (-0.0127 * Rpower m' 0.26).
Definition bird_water (x : R) : R := 1 - 2.4959 * x / (Rpower (1 + 79.034 * x) 0.6828 + 6.385 * x).
Definition bird_aerosol (aod m : R) : R := exp (- Rpower aod 0.873 * (1 + aod - Rpower aod 0.7088) * Rpower m 0.9108).
Definition bird_absorption (m ta : R) : R := 1 - 0.1 * (1 - m + Rpower m 1.06) * (1 - ta).

(** ** clear-sky detection: series are functions of the sample number, windows start at [j] and have [w] samples *)
Definition sum_over (f : nat -> R) (w : nat) : R := fold_right Rplus 0 (map f (seq 0 w)).
Definition mean_over (f : nat -> R) (w : nat) : R := sum_over f w / INR w.
Definition std_over (f : nat -> R) (w : nat) : R := sqrt (sum_over (fun i => (f i - mean_over f w) ^ 2) w / (INR w - 1)).
Definition largest_over (f : nat -> R) (w : nat) (M : R) : Prop := (exists i, (i < w)%nat /\ f i = M) /\ forall i, (i < w)%nat -> f i <= M.
Definition from (f : nat -> R) (j : nat) : nat -> R := fun i => f (j + i)%nat.
Definition step (f : nat -> R) : nat -> R := fun i => f (S i) - f i.
(** length of the polyline through the samples, time step dt *)
Definition line_length (f : nat -> R) (dt : R) (w : nat) : R := sum_over (fun i => sqrt (step f i ^ 2 + dt ^ 2)) (w - 1).
(** standard deviation of the slopes, relative to the mean *)
Definition slope_variation (f : nat -> R) (dt : R) (w : nat) : R := std_over (fun i => step f i / dt) (w - 1) / mean_over f w.
(** the six criteria for the window of [w] samples starting at [j], the clear-sky series scaled by [a] *)
Definition window_is_clear (mean_diff max_diff lower upper var_diff slope_dev dt : R) (w : nat) (meas clear : nat -> R) (a : R) (j : nat) : Prop :=
  let m := from meas j in let c := from clear j in
  Rabs (mean_over m w - a * mean_over c w) < mean_diff /\
  (exists M C, largest_over m w M /\ largest_over c w C /\ Rabs (M - a * C) < max_diff) /\
  lower < line_length m dt w - line_length (fun i => a * c i) dt w < upper /\
  mean_over m w <> 0 /\ slope_variation m dt w < var_diff /\
  (forall i, (i < w - 1)%nat -> Rabs (step m i - a * step c i) < slope_dev) /\
  mean_over c w <> 0.
(** squared deviation of the measurements from the clear-sky series scaled by [a], over the samples selected by [sel] among 0..n-1 *)
Definition squared_deviation (sel : nat -> bool) (n : nat) (meas clear : nat -> R) (a : R) : R :=
  fold_right Rplus 0 (map (fun i => (meas i - a * clear i) ^ 2) (filter sel (seq 0 n))).
(** the straight line through (x0, y0) and (x1, y1) *)
Definition on_line (x0 y0 x1 y1 x : R) : R := y0 + (y1 - y0) * (x - x0) / (x1 - x0).
Definition days_in_year (leap : bool) : R := if leap then 366 else 365.
(** a sample is clear when it lies in a window of [w] samples, all present in both series, that meets the six criteria *)
Definition sample_is_clear (mean_diff max_diff lower upper var_diff slope_dev dt : R) (w n : nat) (pm pc : nat -> bool) (meas clear : nat -> R) (a : R) (i : nat) : Prop :=
  exists j, (j <= i < j + w)%nat /\ (j + w <= n)%nat /\ (forall k, (j <= k < j + w)%nat -> pm k = true /\ pc k = true) /\
  window_is_clear mean_diff max_diff lower upper var_diff slope_dev dt w meas clear a j.
(** the factor that fits the clear-sky series best to the measurements over the selected samples; the old one when they do not determine it *)
Definition best_scale (sel : nat -> bool) (n : nat) (meas clear : nat -> R) (a a' : R) : Prop :=
  ((forall i, (i < n)%nat -> sel i = true -> clear i = 0) /\ a' = a) \/
  ((exists i, (i < n)%nat /\ sel i = true /\ clear i <> 0) /\ forall b, b <> a' -> squared_deviation sel n meas clear a' < squared_deviation sel n meas clear b).
(** thresholds by sample interval (minutes): window length, mean, max, lower and upper line length, slope variation, slope deviation *)
Definition published_limits : list (R * list R) :=
  [(1, [50; 75; 60; -45; 80; 0.005; 50]); (5, [60; 75; 65; -45; 80; 0.01; 60]); (15, [90; 75; 75; -45; 80; 0.032; 75]); (30, [120; 75; 90; -45; 80; 0.07; 96])].
