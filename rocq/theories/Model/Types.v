(** Model of what integer-typed arrays do in pvlib/clearsky.py: numpy's zeros_like and full_like give arrays of the type of their first argument,
    and a float that is stored in an array of integers is cut towards zero.  Model/Clearsky.v has the same functions on floats. *)
From Verif Require Import Base.Fl Base.Py Model.Tools Model.Clearsky.
Import ListNotations.
Open Scope fl_scope.

(** storing a finite float in an array, [integer]: of integers *)
Definition store (integer : bool) (x : fl) : fl := match x with Fin r => if integer then Fin (IZR (ftrunc r)) else x | _ => x end.
(** clearsky.py:318-328 haurwitz: the column ghi; [integer]: the zeniths are of an integer type *)
Definition haurwitz_series (integer : bool) (apparent_zenith : list fl) : list fl := map (fun z => store integer (haurwitz z)) apparent_zenith.
(** clearsky.py:482-488 and 331-419: simplified_solis for an element of an array aod700 ([integer]: of an integer type) and a scalar precipitable water;
    in _calc_taud the water is np.full_like(aod700, w) *)
Definition simplified_solis_scalar_water (integer : bool) (apparent_elevation aod700 precipitable_water pressure dni_extra : fl) : clear_out :=
  let p := pressure in
  let w := fmax precipitable_water #0.2 in
  let i0p := calc_i0p dni_extra w aod700 p in
  let taub := calc_taub w aod700 p in
  let b := calc_b w aod700 in
  let taug := calc_taug w aod700 p in
  let g := calc_g w aod700 in
  let taud := calc_taud (store integer w) aod700 p in
  let d := calc_d aod700 p in
  let sin_elev := fmax #1e-30 (fsin (fradians apparent_elevation)) in
  {| cs_dni := i0p * fexp (- taub / fpow sin_elev b);
     cs_ghi := i0p * fexp (- taug / fpow sin_elev g) * sin_elev;
     cs_dhi := i0p * fexp (- taud / fpow sin_elev d) |}.
