(** Model of pvlib/spectrum/mismatch.py, one sample at a time. *)
From Verif Require Import Base.Fl Base.Py Model.Atmosphere Model.Iam.
Open Scope R_scope.

(** spectrum/mismatch.py:252-264 coefficient sets of First Solar *)
Definition firstsolar_coefficients : list (string * list R) :=
  [ ("cdte", [0.86273; -0.038948; -0.012506; 0.098871; 0.084658; -0.0042948]);
    ("monosi", [0.85914; -0.020880; -0.0058853; 0.12029; 0.026814; -0.0017810]);
    ("xsi", [0.85914; -0.020880; -0.0058853; 0.12029; 0.026814; -0.0017810]);
    ("polysi", [0.84090; -0.027539; -0.0079224; 0.13570; 0.038024; -0.0021218]);
    ("multisi", [0.84090; -0.027539; -0.0079224; 0.13570; 0.038024; -0.0021218]);
    ("cigs", [0.85252; -0.022314; -0.0047216; 0.13666; 0.013342; -0.0008945]);
    ("asi", [1.12094; -0.047620; -0.0083627; -0.10443; 0.098382; -0.0033818]) ]%string.
(** [coeff[i]]: IndexError when the list is too short *)
Definition coef (l : list R) (i : nat) : res R := match nth_error l i with Some c => Ok c | None => Err IndexError end.

(** the branches 266-275: either a module type or coefficients *)
Definition pick_coefficients (table : list (string * list R)) (both_or_none : exc) (module_type : option string)
    (coefficients : option (list R)) : res (list R) :=
  match module_type, coefficients with
  | Some m, None => getitem table (lower m)
  | None, Some c => Ok c
  | None, None => Err both_or_none
  | Some _, Some _ => Err both_or_none
  end.

(** spectrum/mismatch.py:115-283 spectral_factor_firstsolar *)
Definition spectral_factor_firstsolar (precipitable_water airmass_absolute : fl) (module_type : option string)
    (coefficients : option (list R)) (min_pw max_pw min_am max_am : fl) : res fl :=
  let pw := fmax precipitable_water min_pw in
  let pw := where_ (fgtb pw max_pw) NaN pw in
  let ama := fmin airmass_absolute max_am in
  let ama := fmax ama min_am in
  let* c := pick_coefficients firstsolar_coefficients TypeError module_type coefficients in
  let* c0 := coef c 0 in let* c1 := coef c 1 in let* c2 := coef c 2 in
  let* c3 := coef c 3 in let* c4 := coef c 4 in let* c5 := coef c 5 in
  Ok (#c0 + #c1 * ama + #c2 * pw + #c3 * fsqrt ama + #c4 * fsqrt pw + #c5 * ama / fsqrt pw)%fl.
(** the documented default limits, 117-120 *)
Definition firstsolar_default (pw am : fl) (module_type : option string) (coefficients : option (list R)) : res fl :=
  spectral_factor_firstsolar pw am module_type coefficients #0.1 #8 #0.58 #10.

(** the coefficients A0..A4 of a SAPM module *)
Record sapm_a := SapmA { A0 : fl; A1 : fl; A2 : fl; A3 : fl; A4 : fl }.
(** spectrum/mismatch.py:286-364 spectral_factor_sapm *)
Definition spectral_factor_sapm (airmass_absolute : fl) (m : sapm_a) : fl :=
  let spectral_loss := polyval [A4 m; A3 m; A2 m; A1 m; A0 m] airmass_absolute in
  let spectral_loss := where_ (isnan spectral_loss) #0 spectral_loss in
  fmax #0 spectral_loss.

(** spectrum/mismatch.py:434-452 *)
Definition caballero_coefficients : list (string * list R) :=
  [ ("cdte", [1.0044; 0.0095; -0.0037; 0.0002; 0.0000; -0.0046; -0.0182; 0; 0.0095; 0.0068; 0; 1]);
    ("monosi", [0.9706; 0.0377; -0.0123; 0.0025; -0.0002; 0.0159; -0.0165; 0; -0.0016; -0.0027; 1; 0]);
    ("multisi", [0.9836; 0.0254; -0.0085; 0.0016; -0.0001; 0.0094; -0.0132; 0; -0.0002; -0.0011; 1; 0]);
    ("cigs", [0.9801; 0.0283; -0.0092; 0.0019; -0.0001; 0.0117; -0.0126; 0; -0.0011; -0.0019; 1; 0]);
    ("asi", [1.1060; -0.0848; 0.0302; -0.0076; 0.0006; -0.1283; 0.0986; -0.0254; 0.0156; 0.0146; 1; 0]);
    ("perovskite", [1.0637; -0.0491; 0.0180; -0.0047; 0.0004; -0.0773; 0.0583; -0.0159; 0.01251; 0.0109; 1; 0]) ]%string.
(** spectrum/mismatch.py:367-484 spectral_factor_caballero; the module type is not lower-cased *)
Definition spectral_factor_caballero (precipitable_water airmass_absolute aod500 : fl) (module_type : option string)
    (coefficients : option (list R)) : res fl :=
  let* c := match module_type, coefficients with
            | None, None => Err ValueError
            | Some _, Some _ => Err ValueError
            | Some m, None => getitem caballero_coefficients m
            | None, Some c => Ok c
            end in
  let ama := airmass_absolute in
  let* c0 := coef c 0 in let* c1 := coef c 1 in let* c2 := coef c 2 in let* c3 := coef c 3 in
  let* c4 := coef c 4 in let* c5 := coef c 5 in let* c10 := coef c 10 in let* c6 := coef c 6 in
  let* c11 := coef c 11 in let* c7 := coef c 7 in let* c8 := coef c 8 in let* c9 := coef c 9 in
  let f_AM := (#c0 + #c1 * ama + #c2 * ama ^ 2 + #c3 * ama ^ 3 + #c4 * ama ^ 4)%fl in
  let f_AOD := ((aod500 - #0.084) * (#c5 + #c10 * #c6 * ama + #c11 * #c6 * fln ama + #c7 * ama ^ 2))%fl in
  let f_PW := ((precipitable_water - #1.4164) * (#c8 + #c9 * fln ama))%fl in
  Ok (f_AM + f_AOD + f_PW)%fl.

(** spectrum/mismatch.py:564-570 *)
Definition pvspec_coefficients : list (string * list R) :=
  [ ("multisi", [0.9847; -0.05237; 0.03034]); ("monosi", [0.9845; -0.05169; 0.03034]);
    ("fs4-2", [1.002; -0.07108; 0.02465]); ("fs4-1", [0.9981; -0.05776; 0.02336]);
    ("cigs", [0.9791; -0.03904; 0.03096]); ("asi", [1.051; -0.1033; 0.009838]) ]%string.
(** spectrum/mismatch.py:487-590 spectral_factor_pvspec *)
Definition spectral_factor_pvspec (airmass_absolute clearsky_index : fl) (module_type : option string)
    (coefficients : option (list R)) : res fl :=
  let* c := pick_coefficients pvspec_coefficients ValueError module_type coefficients in
  let* c0 := coef c 0 in let* c1 := coef c 1 in let* c2 := coef c 2 in
  Ok (#c0 * fpow clearsky_index #c1 * fpow airmass_absolute #c2)%fl.

(** spectrum/mismatch.py:672-679: normalised by the reference short-circuit currents *)
Definition jrc_coefficients : list (string * list R) :=
  [ ("multisi", [0.00172 / 0.00348; 0.000508 / 0.00348; 0.00000357 / 0.00348]);
    ("cdte", [0.000643 / 0.001150; 0.000130 / 0.001150; 0.0000108 / 0.001150]) ]%string.
(** spectrum/mismatch.py:593-700 spectral_factor_jrc *)
Definition spectral_factor_jrc (airmass clearsky_index : fl) (module_type : option string)
    (coefficients : option (list R)) : res fl :=
  let* c := pick_coefficients jrc_coefficients ValueError module_type coefficients in
  let* c0 := coef c 0 in let* c1 := coef c 1 in let* c2 := coef c 2 in
  Ok (#1 + #c0 * (fexp (- clearsky_index) - fexp #(-1)) + #c1 * (clearsky_index - #1) + #c2 * (airmass - #1.5))%fl.

(** spectrum/mismatch.py:778-789; the albedo coefficients follow the six others *)
Definition polo_coefficients : list (string * list R) :=
  [ ("cdte", [-0.0009; 46.80; 49.20; -0.87; 0.00041; 0.053; 0.0021; -0.01; 1.01]);
    ("monosi", [0.0027; 10.34; 9.48; 0.31; 0.00077; 0.006; 0; -0.003; 1.0]);
    ("cigs", [0.0017; 2.33; 1.30; 0.11; 0.00098; -0.018; -0.0009; -0.0003; 1]);
    ("asi", [0.0024; 7.32; 7.09; -0.72; -0.0013; 0.089; 0.0056; -0.020; 1.014]) ]%string.
(** spectrum/mismatch.py:703-801 spectral_factor_polo *)
Definition spectral_factor_polo (precipitable_water airmass_absolute aod500 aoi pressure : fl)
    (module_type : option string) (coefficients : option (list R)) (albedo : fl) : res fl :=
  let* _ := match module_type, coefficients with
            | None, None => Err ValueError
            | Some _, Some _ => Err ValueError
            | _, _ => Ok tt
            end in
  let aoi := fmin aoi #90 in
  let f_aoi_rel := am_kastenyoung1989 (airmass_z aoi) in
  let f_aoi := get_absolute_airmass f_aoi_rel pressure in
  let Ram := (f_aoi / airmass_absolute)%fl in
  let* c := match module_type, coefficients with
            | Some m, _ => getitem polo_coefficients m
            | None, Some c => Ok c
            | None, None => Err ValueError
            end in
  let* c0 := coef c 0 in let* c1 := coef c 1 in let* c2 := coef c 2 in
  let* c3 := coef c 3 in let* c4 := coef c 4 in let* c5 := coef c 5 in
  let smm := (#c0 * Ram + #c1 / (#c2 + fpow Ram #c3) + #c4 / aod500 + #c5 * fsqrt precipitable_water)%fl in
  let* d0 := coef c 6 in let* d1 := coef c 7 in let* d2 := coef c 8 in
  let g := (#d0 * (albedo / #0.2) ^ 2 + #d1 * (albedo / #0.2) + #d2)%fl in
  Ok (g * smm)%fl.

(** ** Spectral mismatch from spectra, spectrum/mismatch.py:15-112 calc_spectral_mismatch_field.
    A spectrum or response is a list of (wavelength, value) with increasing wavelengths. *)
Definition spectrum := list (R * R).
(** scipy.integrate.trapezoid(y, x) *)
Fixpoint trapezoid (l : spectrum) : R :=
  match l with
  | (x0, y0) :: (((x1, y1) :: _) as l') => (x1 - x0) * (y0 + y1) / 2 + trapezoid l'
  | _ => 0
  end.
(** np.interp(x, xp, fp, left=0, right=0) *)
Fixpoint interp_from (x x0 y0 : R) (l : spectrum) : R :=
  match l with
  | [] => if Reqb x x0 then y0 else 0
  | (x1, y1) :: l' => if Rltb x x1 then y0 + (y1 - y0) / (x1 - x0) * (x - x0) else interp_from x x1 y1 l'
  end.
Definition np_interp0 (x : R) (l : spectrum) : R :=
  match l with [] => 0 | (x0, y0) :: l' => if Rltb x x0 then 0 else interp_from x x0 y0 l' end.
(** 103-104: integrate(e * sr(lambda)) / integrate(e) *)
Definition usable_fraction (sr e : spectrum) : fl :=
  fdiv #(trapezoid (map (fun p => (fst p, snd p * np_interp0 (fst p) sr)) e)) #(trapezoid e).
Definition calc_spectral_mismatch_field (sr e_sun e_ref : spectrum) : fl :=
  fdiv (usable_fraction sr e_sun) (usable_fraction sr e_ref).

(** spectrum/irradiance.py:120-211 average_photon_energy for one spectrum of finite values; [h], [c] and [q] are scipy.constants.
    [spectra < 0].any() raises. *)
Definition average_photon_energy (h c q : R) (e : spectrum) : res fl :=
  if existsb (fun p => Rltb (snd p) 0) e then Err ValueError
  else let pfd := map (fun p => (fst p, snd p / (h * c / (fst p * 1e-9)))) e in
       Ok (#(1 / q) * #(trapezoid e) / #(trapezoid pfd))%fl.

(** spectrum/response.py:83-179 sr_to_qe and 182-278 qe_to_sr: [kq] is the constant of lines 12-17.
    [index] is the index of a pandas argument, [wavelength] the optional argument. *)
Definition wavelengths_of (index wavelength : option (list fl)) : res (list fl) :=
  match wavelength with Some w => Ok w | None => match index with Some i => Ok i | None => Err TypeError end end.
Definition sr_to_qe (kq : R) (normalize_max2one : list fl -> list fl) (sr : list fl) (index wavelength : option (list fl)) (normalize : bool) : res (list fl) :=
  let* w := wavelengths_of index wavelength in
  let qe := map (fun p => (fst p / snd p * #kq)%fl) (combine sr w) in
  Ok (if normalize then normalize_max2one qe else qe).
Definition qe_to_sr (kq : R) (normalize_max2one : list fl -> list fl) (qe : list fl) (index wavelength : option (list fl)) (normalize : bool) : res (list fl) :=
  let* w := wavelengths_of index wavelength in
  let sr := map (fun p => (fst p * snd p / #kq)%fl) (combine qe w) in
  Ok (if normalize then normalize_max2one sr else sr).
