(** Model of pvlib/shading.py, one array element at a time. *)
From Verif Require Import Base.Fl.
Open Scope fl_scope.

(** shading.py:11-49 ground_angle *)
Definition ground_angle (surface_tilt gcr slant_height : fl) : fl :=
  let x1 := gcr * slant_height * sind surface_tilt in
  let x2 := gcr * slant_height * cosd surface_tilt + #1 in
  fdegrees (fatan2 x1 x2).

(** shading.py:52-99 masking_angle *)
Definition masking_angle (surface_tilt gcr slant_height : fl) : fl :=
  let numerator := gcr * (#1 - slant_height) * sind surface_tilt in
  let denominator := #1 - gcr * (#1 - slant_height) * cosd surface_tilt in
  fdegrees (fatan (numerator / denominator)).

(** shading.py:102-191 masking_angle_passias; the pandas re-wrapping at 188-189 is dropped *)
Definition masking_angle_passias (surface_tilt gcr : fl) : fl :=
  let beta := fradians surface_tilt in
  let sin_b := fsin beta in
  let cos_b := fcos beta in
  let X := #1 / gcr in
  let term1 := - X * sin_b * fln (fabs (#2 * X * cos_b - (X ^ 2 + #1))) / #2 in
  let term2 := (X * cos_b - #1) * fatan ((X * cos_b - #1) / (X * sin_b)) in
  let term3 := (#1 - X * cos_b) * fatan (cos_b / sin_b) in
  let term4 := X * fln X * sin_b in
  let psi_avg := term1 + term2 + term3 + term4 in
  fdegrees (where_ (isfinite psi_avg) psi_avg #0).

(** shading.py:194-234 sky_diffuse_passias *)
Definition sky_diffuse_passias (masking_angle : fl) : fl :=
  #1 - (cosd (masking_angle / #2)) ^ 2.

(** shading.py:237-344 projected_solar_zenith_angle *)
Definition projected_solar_zenith_angle (solar_zenith solar_azimuth axis_tilt axis_azimuth : fl) : fl :=
  let sind_solar_zenith := sind solar_zenith in
  let cosd_axis_azimuth := cosd axis_azimuth in
  let sind_axis_azimuth := sind axis_azimuth in
  let sind_axis_tilt := sind axis_tilt in
  let sx := sind_solar_zenith * sind solar_azimuth in
  let sy := sind_solar_zenith * cosd solar_azimuth in
  let sz := cosd solar_zenith in
  let sx_prime := sx * cosd_axis_azimuth - sy * sind_axis_azimuth in
  let sz_prime := sx * sind_axis_azimuth * sind_axis_tilt
                  + sy * sind_axis_tilt * cosd_axis_azimuth + sz * cosd axis_tilt in
  fdegrees (fatan2 sx_prime sz_prime).

(** shading.py:347-555 shaded_fraction1d *)
Definition shaded_fraction1d (solar_zenith solar_azimuth axis_azimuth shaded_row_rotation
    collector_width pitch axis_tilt surface_to_axis_offset cross_axis_slope : fl)
    (shading_row_rotation : option fl) : fl :=
  let shading_row_rotation :=
    match shading_row_rotation with Some r => r | None => shaded_row_rotation end in
  let projected_solar_zenith :=
    projected_solar_zenith_angle solar_zenith solar_azimuth axis_tilt axis_azimuth in
  let thetas_1_S_diff := shading_row_rotation - projected_solar_zenith in
  let thetas_2_S_diff := shaded_row_rotation - projected_solar_zenith in
  let thetaS_rotation_diff := projected_solar_zenith - cross_axis_slope in
  let cos_theta_2_S_diff_abs := fabs (cosd thetas_2_S_diff) in
  let t_asterisk :=
    #0.5
    + fabs (cosd thetas_1_S_diff) / cos_theta_2_S_diff_abs / #2
    + (fsign projected_solar_zenith * surface_to_axis_offset / collector_width
       / cos_theta_2_S_diff_abs * (sind thetas_2_S_diff - sind thetas_1_S_diff))
    - (pitch / collector_width * cosd thetaS_rotation_diff
       / cos_theta_2_S_diff_abs / cosd cross_axis_slope) in
  fclip t_asterisk #0 #1.

(** shading.py:558-694 direct_martinez *)
Definition direct_martinez (poa_global poa_direct shaded_fraction shaded_blocks total_blocks : fl) : fl :=
  let beam_factor := (#1 - shaded_fraction) * (#1 - fceil shaded_blocks / (#1 + total_blocks)) in
  #1 - (poa_direct * beam_factor + (poa_global - poa_direct)) / poa_global.
