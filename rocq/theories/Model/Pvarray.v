(** Model of pvlib/pvarray.py.  Scalar samples; scipy.optimize.curve_fit is an argument. *)
From Verif Require Import Base.Fl Base.Py Model.Irradiance Model.SingleDiode.
Open Scope R_scope.
Open Scope list_scope.

(** scipy.special.exp10 *)
Definition fexp10 (x : fl) : fl := fpow #10 x.

(** pvarray.py:18-138 pvefficiency_adr *)
Definition pvefficiency_adr (effective_irradiance temp_cell k_a k_d tc_d k_rs k_rsh : fl) : fl :=
  (let s := effective_irradiance / #1000 in
   let dt := temp_cell - #25 in
   let s_o := fexp10 (k_d + dt * tc_d) in
   let s_o_ref := fexp10 k_d in
   let v := fln (s / s_o + #1) / fln (#1 / s_o_ref + #1) in
   k_a * ((#1 + k_rs + k_rsh) * v - k_rs * s - k_rsh * v ^ 2))%fl.

(** pvarray.py:195 P_NAMES *)
Definition adr_names : list string := ["k_a"; "k_d"; "tc_d"; "k_rs"; "k_rsh"]%string.
(** the options handed to curve_fit, 195-212 *)
Record fit_options := FO { fo_p0 : list fl; fo_lower : list fl; fo_upper : list fl; fo_method : string; fo_x_scale : list fl;
                           fo_loss : string; fo_f_scale : fl; fo_sigma : list fl }.
(** np.max propagates nan; ValueError on an empty array *)
Definition np_max (l : list fl) : res fl := match l with [] => Err ValueError | x :: l' => Ok (fold_left fmax l' x) end.
Definition adr_options (irradiance : list fl) (eta_max : fl) : fit_options :=
  {| fo_p0 := [eta_max; #(-6); #0.0; #1e-3; #1e-3];
     fo_lower := [#0; #(-12); #(-0.1); #0.0; #0.0];
     fo_upper := [PInf; #0; #0.1; #1; #1];
     fo_method := "trf"; fo_x_scale := [eta_max; #10; #0.1; #1.0; #1.0];
     fo_loss := "soft_l1"; fo_f_scale := (eta_max * #0.05)%fl;
     fo_sigma := map (fun i => #1 / fsqrt (i / #1000))%fl irradiance |}.
(** the model function handed over, 214-215: the parameters are unpacked positionally (TypeError for another number) *)
Definition adr_wrapper (it : fl * fl) (params : list fl) : res fl :=
  match params with
  | [k_a; k_d; tc_d; k_rs; k_rsh] => Ok (pvefficiency_adr (fst it) (snd it) k_a k_d tc_d k_rs k_rsh)
  | _ => Err TypeError
  end.
(** pvarray.py:141-227 fit_pvefficiency_adr.  [curve_fit f xdata ydata options] returns the parameter list.  User kwargs are a
    function on the options.  Some pairs: the dict; the flag is dict_output. *)
Definition fit_pvefficiency_adr (curve_fit : (fl * fl -> list fl -> res fl) -> list (fl * fl) -> list fl -> fit_options -> res (list fl))
    (kwargs : fit_options -> fit_options) (effective_irradiance temp_cell eta : list fl) : res (list (string * fl) * list fl) :=
  let* eta_max := np_max eta in
  let opts := kwargs (adr_options effective_irradiance eta_max) in
  let* popt := curve_fit adr_wrapper (combine effective_irradiance temp_cell) eta opts in
  Ok (combine adr_names popt, popt).

(** pvarray.py:254-269 the two coefficient tables *)
Definition huld_pvgis5 : list (string * list R) :=
  [("csi"%string, [-0.017237; -0.040465; -0.004702; 0.000149; 0.000170; 0.000005]);
   ("cis"%string, [-0.005554; -0.038724; -0.003723; -0.000905; -0.001256; 0.000001]);
   ("cdte"%string, [-0.046689; -0.072844; -0.002262; 0.000276; 0.000159; -0.000006])].
Definition huld_pvgis6 : list (string * list R) :=
  [("csi"%string, [-0.0067560; -0.016444; -0.003015; -0.000045; -0.000043; 0.0]);
   ("cis"%string, [-0.011001; -0.029734; -0.002887; 0.000217; -0.000163; 0.0]);
   ("cdte"%string, [-0.020644; -0.035136; -0.003406; 0.000073; -0.000141; 0.000002])].
(** pvarray.py:230-274 _infer_k_huld *)
Definition infer_k_huld (cell_type : string) (pdc0 : fl) (k_version : string) : res (list fl) :=
  let* huld_params := if String.eqb (lower k_version) "pvgis5" then Ok huld_pvgis5
                      else if String.eqb (lower k_version) "pvgis6" then Ok huld_pvgis6 else Err ValueError in
  let* row := getitem huld_params (lower cell_type) in
  Ok (map (fun x => fmul (Fin x) pdc0) row).
(** [k[i]] *)
Definition kget (k : list fl) (i : nat) : res fl := match nth_error k i with Some x => Ok x | None => Err IndexError end.
(** pvarray.py:277-398 huld *)
Definition huld (effective_irradiance temp_mod pdc0 : fl) (k : option (list fl)) (cell_type : option string) (k_version : string) : res fl :=
  let* k := match k with
            | Some k => Ok k
            | None => match cell_type with Some c => infer_k_huld c pdc0 k_version | None => Err ValueError end
            end in
  let gprime := (effective_irradiance / #1000)%fl in
  let tprime := (temp_mod - #25)%fl in
  let logGprime := if fgtb gprime #0 then fln gprime else #0 in
  let* k0 := kget k 0 in let* k1 := kget k 1 in let* k2 := kget k 2 in
  let* k3 := kget k 3 in let* k4 := kget k 4 in let* k5 := kget k 5 in
  Ok (gprime * (pdc0 + k0 * logGprime + k1 * logGprime ^ 2 + k2 * tprime + k3 * tprime * logGprime
                + k4 * tprime * logGprime ^ 2 + k5 * tprime ^ 2))%fl.

(** pvarray.py:401-516 batzelis *)
Record five := Five { f_p_mp : fl; f_i_mp : fl; f_v_mp : fl; f_i_sc : fl; f_v_oc : fl }.
Definition pv_batzelis (effective_irradiance temp_cell v_mp i_mp v_oc i_sc alpha_sc beta_voc : fl) : five :=
  (let alpha_sc := alpha_sc / i_sc in
   let beta_voc := beta_voc / v_oc in
   let t0 := #298.15 in
   let delT := temp_cell - (t0 - #273.15) in
   let lamT := (temp_cell + #273.15) / t0 in
   let g := effective_irradiance / #1000 in
   let lnG := if fgtb g #0 then fln g else #(-9e9) in
   let lnG := if isfinite g then lnG else NaN in
   let del0 := (#1 - beta_voc * t0) / (#50.1 - alpha_sc * t0) in
   let w0 := lambertw_pvlib (fexp (#1 / del0 + #1)) in
   let alpha_imp := alpha_sc + (beta_voc - #1 / t0) / (w0 - #1) in
   let beta_vmp := (v_oc / v_mp) * (beta_voc / (#1 + del0) + (del0 * (w0 - #1) - #1 / (#1 + del0)) / t0) in
   let eps0 := (del0 / (#1 + del0)) * (v_oc / v_mp) in
   let eps1 := del0 * (w0 - #1) * (v_oc / v_mp) - #1 in
   let isc := g * i_sc * (#1 + alpha_sc * delT) in
   let voc := v_oc * (#1 + del0 * lamT * lnG + beta_voc * delT) in
   let imp := g * i_mp * (#1 + alpha_imp * delT) in
   let vmp := v_mp * (#1 + eps0 * lamT * lnG + eps1 * (#1 - g) + beta_vmp * delT) in
   let vmp := fmax vmp #0 in
   let voc := fmax voc #0 in
   {| f_p_mp := vmp * imp; f_i_mp := imp; f_v_mp := vmp; f_i_sc := isc; f_v_oc := voc |})%fl.
