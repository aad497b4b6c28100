(** Model of pvlib/irradiance.py, reverse transposition: ghi_from_poa_driesse_2024 and the scipy bisection it calls. *)
From Verif Require Import Base.Fl Base.Py Model.Irradiance Model.IrradDecomp.
Open Scope fl_scope.

(** ** scipy.optimize.bisect.  It is not part of /repo: this transcribes scipy's optimize/_zeros_py.py (bisect,
    _wrap_nan_raise, results_c) and optimize/Zeros/bisect.c for disp=False, full_output=True and the default rtol, 4 times
    numpy's eps.  The sign bit of zero is not modelled: a zero value ends the search before its sign is read.  A root found at an end point is
    given 0 iterations. *)
Record root := Root { r_root : fl; r_converged : bool; r_iterations : Z }.
Definition bisect_rtol : fl := Fin (4 / 2 ^ 52).
Definition call (f : fl -> res fl) (x : fl) : res fl := let* y := f x in if isnan y then Err ValueError else Ok y.
Definition signbit (x : fl) : bool := fltb x #0.
Fixpoint bisect_loop (f : fl -> res fl) (xtol fa xa dm : fl) (iterations : Z) (left : nat) : res root :=
  match left with
  | O => Ok (Root xa false iterations)
  | S left' =>
      let iterations := (iterations + 1)%Z in
      let dm := dm * #0.5 in
      let xm := xa + dm in
      let* fm := call f xm in
      let xa := if Bool.eqb (signbit fm) (signbit fa) then xm else xa in
      if feqb fm #0 || fltb (fabs dm) (xtol + bisect_rtol * fabs xm) then Ok (Root xm true iterations)
      else bisect_loop f xtol fa xa dm iterations left'
  end.
Definition bisect (f : fl -> res fl) (a b xtol : fl) (maxiter : nat) : res root :=
  if fleb xtol #0 then Err ValueError else
  let* fa := call f a in
  let* fb := call f b in
  if feqb fa #0 then Ok (Root a true 0)
  else if feqb fb #0 then Ok (Root b true 0)
  else if Bool.eqb (signbit fa) (signbit fb) then Err ValueError
  else bisect_loop f xtol fa a (b - a) 0 maxiter.

(** irradiance.py:1576-1599 _poa_from_ghi; [f] is the spline of perez_driesse *)
Definition poa_from_ghi (f : nat -> nat -> fl -> fl) (surface_tilt surface_azimuth solar_zenith solar_azimuth ghi dni_extra : fl) (airmass : option fl) (albedo : fl) : res fl :=
  let* erbsout := erbs_driesse ghi solar_zenith None (Some dni_extra) #0.065 #87 in
  let* irrads := get_total_irradiance f surface_tilt surface_azimuth solar_zenith solar_azimuth (d_dni erbsout) ghi (d_dhi erbsout)
                   (Some dni_extra) airmass albedo None "perez-driesse" "allsitescomposite1990" false in
  Ok (poa_global irrads).

(** one sample of the arguments *)
Record sample := Sample { s_surface_tilt : fl; s_surface_azimuth : fl; s_solar_zenith : fl; s_solar_azimuth : fl;
                          s_poa_global : fl; s_dni_extra : fl; s_airmass : option fl; s_albedo : fl }.
(** irradiance.py:1621-1626 poa_error *)
Definition poa_error (f : nat -> nat -> fl -> fl) (s : sample) (ghi : fl) : res fl :=
  let* poa_hat := poa_from_ghi f (s_surface_tilt s) (s_surface_azimuth s) (s_solar_zenith s) (s_solar_azimuth s) ghi (s_dni_extra s) (s_airmass s) (s_albedo s) in
  Ok (poa_hat - s_poa_global s).
(** irradiance.py:1602-1651 _ghi_from_poa: ghi, conv, niter *)
Definition ghi_from_poa (f : nat -> nat -> fl -> fl) (s : sample) (xtol : fl) : res (fl * bool * Z) :=
  if isnan (s_poa_global s) then Ok (NaN, false, 0%Z)
  else if fleb (s_poa_global s) #0 then Ok (#0, true, 0%Z)
  else
    let ghi_clear := s_dni_extra s * cosd (s_solar_zenith s) in
    let ghi_high := fmax #10 (#1.25 * ghi_clear) in
    match bisect (poa_error f s) #0 ghi_high xtol 25 with
    | Err ValueError => Ok (NaN, false, (-1)%Z)
    | Err e => Err e
    | Ok r => Ok (r_root r, r_converged r, r_iterations r)
    end.
(** irradiance.py:1654-1753 ghi_from_poa_driesse_2024: numpy's vectorize, which raises ValueError when there are no elements; the three
    outputs, with and without full_output *)
Definition ghi_from_poa_driesse_2024 (f : nat -> nat -> fl -> fl) (samples : list sample) (xtol : fl) : res (list (fl * bool * Z)) :=
  if fleb xtol #0 then Err ValueError
  else match samples with [] => Err ValueError | _ => mapM (fun s => ghi_from_poa f s xtol) samples end.
