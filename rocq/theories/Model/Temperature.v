(** Model of pvlib/temperature.py.  Element-wise models on one sample; prilliman and fuentes on lists. *)
From Verif Require Import Base.Fl Base.Py Base.Series Model.Tools.
From Coq Require Import ZArith.
Open Scope R_scope.

(** temperature.py:15-25 TEMPERATURE_MODEL_PARAMETERS *)
Definition temperature_model_parameters : list (string * list (string * list (string * R))) :=
  [ ("sapm", [ ("open_rack_glass_glass", [("a", -3.47); ("b", -0.0594); ("deltaT", 3)]);
               ("close_mount_glass_glass", [("a", -2.98); ("b", -0.0471); ("deltaT", 1)]);
               ("open_rack_glass_polymer", [("a", -3.56); ("b", -0.0750); ("deltaT", 3)]);
               ("insulated_back_glass_polymer", [("a", -2.81); ("b", -0.0455); ("deltaT", 0)]) ]);
    ("pvsyst", [ ("freestanding", [("u_c", 29.0); ("u_v", 0)]);
                 ("insulated", [("u_c", 15.0); ("u_v", 0)]);
                 ("semi_integrated", [("u_c", 20.0); ("u_v", 0)]) ]) ]%string.
(** temperature.py:45-54 _temperature_model_params *)
Definition temperature_model_params (model parameter_set : string) : res (list (string * R)) :=
  let* params := getitem temperature_model_parameters model in
  getitem params parameter_set.

(** temperature.py:164-244 sapm_module *)
Definition sapm_module (poa_global temp_air wind_speed a b : fl) : fl := (poa_global * fexp (a + b * wind_speed) + temp_air)%fl.
(** temperature.py:247-326 sapm_cell_from_module *)
Definition sapm_cell_from_module (module_temperature poa_global deltaT irrad_ref : fl) : fl :=
  (module_temperature + (poa_global / irrad_ref) * deltaT)%fl.
(** temperature.py:57-161 sapm_cell *)
Definition sapm_cell (poa_global temp_air wind_speed a b deltaT irrad_ref : fl) : fl :=
  sapm_cell_from_module (sapm_module poa_global temp_air wind_speed a b) poa_global deltaT irrad_ref.
(** temperature.py:329-431 pvsyst_cell *)
Definition pvsyst_cell (poa_global temp_air wind_speed u_c u_v module_efficiency alpha_absorption : fl) : fl :=
  (let total_loss_factor := u_c + u_v * wind_speed in
   let heat_input := poa_global * alpha_absorption * (#1 - module_efficiency) in
   temp_air + heat_input / total_loss_factor)%fl.
(** temperature.py:434-508 faiman *)
Definition faiman (poa_global temp_air wind_speed u0 u1 : fl) : fl :=
  (temp_air + poa_global / (u0 + u1 * wind_speed))%fl.
(** temperature.py:511-617 faiman_rad; sigma is scipy.constants.Stefan_Boltzmann *)
Definition stefan_boltzmann : R := 5.670374419 / 10 ^ 8.
Definition faiman_rad (poa_global temp_air wind_speed : fl) (ir_down : option fl) (u0 u1 sky_view emissivity : fl) : fl :=
  (let qrad_sky := match ir_down with
     | None => #0
     | Some ird => let ir_up := #stefan_boltzmann * ((temp_air - #(-273.15)) ^ 4) in emissivity * sky_view * (ir_up - ird)
     end in
   let heat_input := poa_global - qrad_sky in
   temp_air + heat_input / (u0 + u1 * wind_speed))%fl.
(** temperature.py:620-712 ross *)
Definition ross (poa_global temp_air : fl) (noct k : option fl) : res fl :=
  match noct, k with
  | None, None => Err ValueError
  | Some _, Some _ => Err ValueError
  | Some noct, None => Ok (temp_air + (noct - #20) / #80 * poa_global * #0.1)%fl
  | None, Some k => Ok (temp_air + k * poa_global)%fl
  end.
(** temperature.py:930-937 _adj_for_mounting_standoff; np.piecewise gives 0 when no condition holds (nan) *)
Definition adj_for_mounting_standoff (x : fl) : fl :=
  if fgtb x #3.5 then #0
  else if fgeb x #2.5 && fleb x #3.5 then #2
  else if fgeb x #1.5 && fltb x #2.5 then #6
  else if fgeb x #0.5 && fltb x #1.5 then #11
  else if fgtb x #0 && fltb x #0.5 then #18
  else #0.
(** temperature.py:940-1033 noct_sam *)
Definition noct_sam (poa_global temp_air wind_speed noct module_efficiency : fl) (effective_irradiance : option fl)
    (transmittance_absorptance array_height mount_standoff : fl) : res fl :=
  (let irr_ratio := match effective_irradiance with None => #1 | Some e => e / poa_global end in
   let* wind_adj := if feqb array_height #1 then Ok (#0.51 * wind_speed)
                    else if feqb array_height #2 then Ok (#0.61 * wind_speed) else Err ValueError in
   let noct_adj := noct + adj_for_mounting_standoff mount_standoff in
   let tau_alpha := transmittance_absorptance * irr_ratio in
   let cell_temp_init := poa_global / #800 * (noct_adj - #20) in
   let heat_loss := #1 - module_efficiency / tau_alpha in
   let wind_loss := #9.5 / (#5.7 + #3.8 * wind_adj) in
   Ok (temp_air + cell_temp_init * heat_loss * wind_loss))%fl.
(** temperature.py:1190-1243 generic_linear *)
Definition generic_linear (poa_global temp_air wind_speed u_const du_wind module_efficiency absorptance : fl) : fl :=
  (let heat_input := poa_global * (absorptance - module_efficiency) in
   temp_air + heat_input / (u_const + du_wind * wind_speed))%fl.

(** temperature.py:1246-1603 GenericLinearModel: the object's fields and its methods as state transformers *)
Record glm := GLM { u_const : fl; du_wind : fl; eta : fl; alpha : fl }.
Definition glm_init (module_efficiency absorptance : fl) : glm := GLM NaN NaN module_efficiency absorptance.
Definition or_else (o : option fl) (d : fl) : fl := match o with Some x => x | None => d end.
Definition glm_call (m : glm) (poa_global temp_air wind_speed : fl) (module_efficiency : option fl) : fl :=
  generic_linear poa_global temp_air wind_speed (u_const m) (du_wind m) (or_else module_efficiency (eta m)) (alpha m).
Definition use_faiman (m : glm) (u0 u1 : fl) : glm :=
  let net := fsub (alpha m) (eta m) in GLM (fmul u0 net) (fmul u1 net) (eta m) (alpha m).
Definition to_faiman (m : glm) : fl * fl :=
  let net := fsub (alpha m) (eta m) in (fdiv (u_const m) net, fdiv (du_wind m) net).
Definition use_pvsyst (m : glm) (u_c u_v : fl) (module_efficiency alpha_absorption : option fl) : glm :=
  (let e := or_else module_efficiency (eta m) in
   let a := or_else alpha_absorption (alpha m) in
   let net_glm := a - e in
   let net_pvsyst := a * (#1 - e) in
   let ratio := net_glm / net_pvsyst in
   GLM (u_c * ratio) (u_v * ratio) e a)%fl.
Definition to_pvsyst (m : glm) : fl * fl * fl * fl :=
  (let net_glm := alpha m - eta m in
   let net_pvsyst := alpha m * (#1 - eta m) in
   let ratio := net_glm / net_pvsyst in
   (u_const m / ratio, du_wind m / ratio, eta m, alpha m))%fl.
Definition use_noct_sam (m : glm) (noct : fl) (module_efficiency transmittance_absorptance : option fl) : glm :=
  (let e := or_else module_efficiency (eta m) in
   let a := or_else transmittance_absorptance (alpha m) in
   let u_noct := #800 * a / (noct - #20) in
   GLM (u_noct * #0.6) (u_noct * #0.4 * #0.51) e a)%fl.
Definition to_noct_sam (m : glm) : fl * fl * fl :=
  (let u_noct := u_const m + du_wind m / #0.51 in
   (#20 + (#800 * alpha m) / u_noct, eta m, alpha m))%fl.
Definition use_sapm (m : glm) (a b wind_fit_low wind_fit_high : fl) : glm :=
  (let u_low := #1 / fexp (a + b * wind_fit_low) in
   let u_high := #1 / fexp (a + b * wind_fit_high) in
   let du := (u_high - u_low) / (wind_fit_high - wind_fit_low) in
   let uc := u_low - du * wind_fit_low in
   let net := alpha m - eta m in
   GLM (uc * net) (du * net) (eta m) (alpha m))%fl.
Definition to_sapm (m : glm) (wind_fit_low wind_fit_high : fl) : fl * fl :=
  (let net := alpha m - eta m in
   let uc := u_const m / net in
   let du := du_wind m / net in
   let u_low := uc + du * wind_fit_low in
   let u_high := uc + du * wind_fit_high in
   let b := - ((fln u_high - fln u_low) / (wind_fit_high - wind_fit_low)) in
   let a := - (fln u_low + b * wind_fit_low) in
   (a, b))%fl.

(** temperature.py:1036-1187 prilliman.  The matrix [subsets] has row j = prefixed[j .. j+w-1] (the Hankel index
    matrix of 1114-1118 is i+j); sampling information comes from _get_sample_intervals with a 20-minute window. *)
Definition nansum (l : list fl) : fl := fsum (filter (fun x => negb (isnan x)) l).
Definition prilliman_coeffs : list R := [0.0046; 0.00046; -0.00023; -0.000016].
Definition prilliman_row (p : fl) (sample_interval : R) (subset : list fl) : fl :=
  let w := length subset in
  let timedeltas := map (fun i => INR (w - i) * sample_interval * 60) (seq 0 w) in
  let weights := zip_with (fun (x : fl) td => if isnan x then #0 else fexp (fmul (fneg p) #td)) subset timedeltas in
  fdiv (nansum (zip_with fmul subset weights)) (fsum weights).
Definition prilliman (freq_inferred : bool) (deltas : list R) (temp_cell wind_speed : list fl) (unit_mass : fl)
    (coefficients : option (fl * fl * fl * fl)) : res (list fl) :=
  let* si := get_sample_intervals freq_inferred deltas 20 in
  let sample_interval := fst si in
  if Rleb 20 sample_interval then Ok temp_cell else
  let w := Nat.min (Z.to_nat (snd si)) (length temp_cell) in
  let prefixed := repeat NaN w ++ temp_cell in
  let '(a0, a1, a2, a3) := match coefficients with
     | Some c => c | None => (#0.0046, #0.00046, #(-0.00023), #(-0.000016)) end in
  let row (j : nat) (ws : fl) : fl :=
    let subset := map (fun i => nth (i + j) prefixed NaN) (seq 0 w) in
    let p := (a0 + a1 * ws + a2 * unit_mass + a3 * ws * unit_mass)%fl in
    prilliman_row p sample_interval subset in
  match temp_cell with
  | [] => Err IndexError
  | t0 :: _ => Ok (set_first t0 (zip_with row (seq 0 (length temp_cell)) wind_speed))
  end.

(** temperature.py:715-737 _fuentes_hconv; constants 0.71**0.4 and 0.71**0.67 are powers *)
Definition fuentes_hconv (tave windmod temp_delta xlen tilt : fl) (check_reynold : bool) : fl :=
  (let densair := #0.003484 * #101325 / tave in
   let visair := #(0.24237 / 10 ^ 6) * fpow tave #0.76 / densair in
   let condair := #(2.1695 / 10 ^ 4) * fpow tave #0.84 in
   let reynold := windmod * xlen / visair in
   let hforce := if check_reynold && fgtb reynold #120000
     then #0.0282 / fpow reynold #0.2 * densair * windmod * #1007 / fpow #0.71 #0.4
     else #0.8600 / fpow reynold #0.5 * densair * windmod * #1007 / fpow #0.71 #0.67 in
   let grashof := #9.8 / tave * temp_delta * xlen ^ 3 / visair ^ 2 * sind tilt in
   let hfree := #0.21 * fpow (grashof * #0.71) #0.32 * condair / xlen in
   fpow (hfree ^ 3 + hforce ^ 3) #(1/3))%fl.
(** temperature.py:740-742 _hydraulic_diameter *)
Definition hydraulic_diameter (width height : fl) : fl := (#2 * (width * height) / (width + height))%fl.
Definition boltz : R := 5.669 / 10 ^ 8.
(** temperature.py:825-861: (xlen, tgrat, convrat, cap).  A negative base under **0.25 is nan here, complex in python. *)
Definition fuentes_setup (noct_installed emissivity absorption surface_tilt module_width module_length : fl) : fl * fl * fl * fl :=
  (let emiss := emissivity in let absorp := absorption in
   let xlen := hydraulic_diameter module_width module_length in
   let cap0 := #11000 in
   let tinoct := noct_installed + #273.15 in
   let windmod := #1 in
   let tave := (tinoct + #293.15) / #2 in
   let hconv := fuentes_hconv tave windmod (tinoct - #293.15) xlen surface_tilt false in
   let hground := emiss * #boltz * (tinoct ^ 2 + #293.15 ^ 2) * (tinoct + #293.15) in
   let backrat := (absorp * #800 - emiss * #boltz * (tinoct ^ 4 - #282.21 ^ 4) - hconv * (tinoct - #293.15))
                  / ((hground + hconv) * (tinoct - #293.15)) in
   let tground := fpow (tinoct ^ 4 - backrat * (tinoct ^ 4 - #293.15 ^ 4)) #0.25 in
   let tground := fclip tground #293.15 tinoct in
   let tgrat := (tground - #293.15) / (tinoct - #293.15) in
   let convrat := (absorp * #800 - emiss * #boltz * (#2 * tinoct ^ 4 - #282.21 ^ 4 - tground ^ 4)) / (hconv * (tinoct - #293.15)) in
   let cap := if fgtb tinoct #321.15 then cap0 * (#1 + (tinoct - #321.15) / #12) else cap0 in
   (xlen, tgrat, convrat, cap))%fl.
(** temperature.py:895-922: one pass of the inner loop *)
Definition fuentes_inner (emiss xlen tgrat convrat cap tilt tamb sun windmod tsky dtime tmod0 sun0 tmod : fl) : fl :=
  (let tave := (tmod + tamb) / #2 in
   let hconv := convrat * fuentes_hconv tave windmod (fabs (tmod - tamb)) xlen tilt true in
   let hsky := emiss * #boltz * (tmod ^ 2 + tsky ^ 2) * (tmod + tsky) in
   let tground := tamb + tgrat * (tmod - tamb) in
   let hground := emiss * #boltz * (tmod ^ 2 + tground ^ 2) * (tmod + tground) in
   let eigen := - (hconv + hsky + hground) / cap * dtime * #3600 in
   let ex := if fgtb eigen #(-10) then fexp eigen else #0 in
   tmod0 * ex + ((#1 - ex) * (hconv * tamb + hsky * tsky + hground * tground + sun0 + (sun - sun0) / eigen) + sun - sun0)
                / (hconv + hsky + hground))%fl.
Fixpoint repeat_fun {A} (n : nat) (f : A -> A) (x : A) : A := match n with O => x | S n' => repeat_fun n' f (f x) end.
(** temperature.py:889-925: the loop over the series; rows are (temp_air, poa_global, wind_speed, hours since previous) *)
Record frow_in := FRow { fr_temp : fl; fr_poa : fl; fr_wind : fl; fr_dt : fl }.
Fixpoint fuentes_loop (emiss absorp xlen tgrat convrat cap tilt windfac : fl) (tmod0 sun0 : fl) (rows : list frow_in) : list fl :=
  match rows with
  | [] => []
  | r :: rows' =>
      let tamb := (fr_temp r + #273.15)%fl in
      let sun := (fr_poa r * absorp)%fl in
      let tsky := (#0.68 * (#0.0552 * fpow tamb #1.5) + #0.32 * tamb)%fl in
      let windmod := (fr_wind r * windfac + #0.0001)%fl in
      let tmod := repeat_fun 10 (fuentes_inner emiss xlen tgrat convrat cap tilt tamb sun windmod tsky (fr_dt r) tmod0 sun0) tmod0 in
      tmod :: fuentes_loop emiss absorp xlen tgrat convrat cap tilt windfac tmod sun rows'
  end.
(** temperature.py:745-927 fuentes; [times] in hours *)
Definition fuentes (times : list R) (poa_global temp_air wind_speed : list fl)
   (noct_installed module_height wind_height emissivity absorption surface_tilt module_width module_length : fl) : res (list fl) :=
  match times with
  | t0 :: t1 :: ts =>
      let dt := (t1 - t0) :: diffs_from t0 (t1 :: ts) in
      let '(xlen, tgrat, convrat, cap) := fuentes_setup noct_installed emissivity absorption surface_tilt module_width module_length in
      let rows := zip_with (fun tp wd => FRow (fst tp) (snd tp) (fst wd) #(snd wd)) (combine temp_air poa_global) (combine wind_speed dt) in
      let windfac := fpow (fdiv module_height wind_height) #0.2 in
      Ok (map (fun t => fsub t #273.15) (fuentes_loop emissivity absorption xlen tgrat convrat cap surface_tilt windfac #293.15 #0 rows))
  | _ => Err IndexError
  end.
