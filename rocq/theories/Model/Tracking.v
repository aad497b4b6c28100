(** Model of pvlib/tracking.py, one array element at a time.  Not modelled: the ndim check at 135-136 and
    the pandas/dict packaging of the outputs. *)
From Verif Require Import Base.Fl Model.Shading Model.IrradTables Model.Irradiance.
Open Scope fl_scope.

(** tracking.py:214-254 _unit_normal *)
Definition unit_normal (axis_azimuth axis_tilt theta : fl) : fl * fl * fl :=
  let cA := cosd (- axis_azimuth) in let sA := sind (- axis_azimuth) in
  let cT := cosd (- axis_tilt) in let sT := sind (- axis_tilt) in
  let cTh := cosd theta in
  let sTh := sind theta in
  let x := sA * sT * cTh + cA * sTh in
  let y := sA * sTh - cA * sT * cTh in
  let z := cT * cTh in
  (x, y, z).

(** tracking.py:257-313 calc_surface_orientation: (surface_tilt, surface_azimuth) *)
Definition calc_surface_orientation (tracker_theta axis_tilt axis_azimuth : fl) : fl * fl :=
  let surface_tilt := acosd (cosd tracker_theta * cosd axis_tilt) in
  let '(x, y, _) := unit_normal axis_azimuth axis_tilt tracker_theta in
  let surface_azimuth := fdegrees (fatan2 x y) in
  let surface_azimuth := where_ (feqb surface_tilt #0) (axis_azimuth - #90) surface_azimuth in
  let surface_azimuth := fmod surface_azimuth #360 in
  (surface_tilt, surface_azimuth).

(** the max_angle argument: a scalar or a (min, max) pair (tracking.py:187-190) *)
Inductive angle_limit := Lim (max_angle : fl) | LimPair (min_angle max_angle : fl).
Definition lim_min (l : angle_limit) : fl := match l with Lim m => - m | LimPair a _ => a end.
Definition lim_max (l : angle_limit) : fl := match l with Lim m => m | LimPair _ b => b end.

Record tracker := Tracker { t_theta : fl; t_aoi : fl; t_surface_azimuth : fl; t_surface_tilt : fl }.

(** tracking.py:10-211 singleaxis *)
Definition singleaxis (apparent_zenith solar_azimuth axis_tilt axis_azimuth : fl) (max_angle : angle_limit)
    (backtrack : bool) (gcr cross_axis_tilt : fl) : tracker :=
  let omega_ideal := projected_solar_zenith_angle apparent_zenith solar_azimuth axis_tilt axis_azimuth in
  let zen_gt_90 := fgtb apparent_zenith #90 in
  let omega_ideal := where_ zen_gt_90 NaN omega_ideal in
  let tracker_theta :=
    if backtrack then
      let axes_distance := #1 / (gcr * cosd cross_axis_tilt) in
      let temp := fabs (axes_distance * cosd (omega_ideal - cross_axis_tilt)) in
      let omega_correction := fdegrees (- fsign omega_ideal * facos temp) in
      omega_ideal + where_ (fltb temp #1) omega_correction #0
    else omega_ideal in
  let tracker_theta := fclip tracker_theta (lim_min max_angle) (lim_max max_angle) in
  let '(surface_tilt, surface_azimuth) :=
    calc_surface_orientation tracker_theta axis_tilt axis_azimuth in
  let aoi := aoi surface_tilt surface_azimuth apparent_zenith solar_azimuth in
  let mask v := where_ zen_gt_90 NaN v in
  Tracker (mask tracker_theta) (mask aoi) (mask surface_azimuth) (mask surface_tilt).

(** tracking.py:316-355 calc_axis_tilt *)
Definition calc_axis_tilt (slope_azimuth slope_tilt axis_azimuth : fl) : fl :=
  let delta_gamma := axis_azimuth - slope_azimuth in
  let tan_axis_tilt := cosd delta_gamma * tand slope_tilt in
  fdegrees (fatan tan_axis_tilt).

(** tracking.py:358-384 _calc_tracker_norm *)
Definition calc_tracker_norm (ba bg dg : fl) : fl * fl * fl :=
  let cos_ba := cosd ba in
  let cos_bg := cosd bg in
  let sin_bg := sind bg in
  let sin_dg := sind dg in
  let vx := sin_dg * cos_ba * cos_bg in
  let vy := sind ba * sin_bg + cosd dg * cos_ba * cos_bg in
  let vz := - sin_dg * sin_bg * cos_ba in
  (vx, vy, vz).

(** tracking.py:387-408 _calc_beta_c *)
Definition calc_beta_c (v : fl * fl * fl) (dg ba : fl) : fl :=
  let '(v0, v1, v2) := v in
  let vnorm := fsqrt (v0 * v0 + v1 * v1 + v2 * v2) in
  fasin (((v0 * cosd dg - v1 * sind dg) * sind ba + v2 * cosd ba) / vnorm).

(** tracking.py:411-466 calc_cross_axis_tilt *)
Definition calc_cross_axis_tilt (slope_azimuth slope_tilt axis_azimuth axis_tilt : fl) : fl :=
  let delta_gamma := axis_azimuth - slope_azimuth in
  let v := calc_tracker_norm axis_tilt slope_tilt delta_gamma in
  let beta_c := calc_beta_c v delta_gamma axis_tilt in
  fdegrees beta_c.
