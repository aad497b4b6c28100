(** ivtools/sdm/pvsyst.py: fit_pvsyst_iec61853_sandia_2025 with its helpers, and pvsyst_temperature_coeff.  The measurements are finite
    reals, one record per test condition; numpy's Polynomial.fit (degree 1) and lstsq are arguments (their failures on data with nan are
    not modelled). *)
From Verif Require Import Base.Fl Base.Py Base.Series Model.SingleDiode Model.Pvsystem Model.Clearsky.
From Coq Require Import String.
Open Scope R_scope.
Open Scope list_scope.

(** effective_irradiance, temp_cell, i_sc, v_oc, i_mp, v_mp of one condition *)
Record meas := Meas { g_ : R; t_ : R; isc_ : R; voc_ : R; imp_ : R; vmp_ : R }.
(** R_sh_ref, R_sh_0, R_sh_exp, R_s, cells_in_series *)
Record resist := Resist { s_ref : fl; s_0 : fl; s_exp : fl; s_rs : fl; s_cells : fl }.

Section Iec.
(** constants.k, constants.e *)
Variables kJ qe : R.
(** Polynomial.fit(x, y, deg=1).convert().coef: (intercept, slope); an empty x raises TypeError *)
Variable polyfit : list (fl * fl) -> fl * fl.
Variable lstsq : list (list fl) -> list fl -> list fl.
Definition polyfit1 (pts : list (fl * fl)) : res (fl * fl) := match pts with [] => Err TypeError | _ => Ok (polyfit pts) end.
(** coeff[i] *)
Definition coeff (l : list fl) (i : nat) : res fl := match nth_error l i with Some x => Ok x | None => Err IndexError end.

(** pvsyst.py:486-491: pairs (temp_cell, value) *)
Definition fit_tempco (pts : list (fl * fl)) (temp_cell_ref : fl) : res fl :=
  let* c := polyfit1 pts in
  let '(intercept, slope) := c in
  let value_ref := (intercept + slope * temp_cell_ref)%fl in
  Ok (slope / value_ref)%fl.
(** pvsyst.py:494-527 *)
Definition rsh_est (beta_v_mp r_coeff : fl) (m : meas) : fl :=
  ((#(vmp_ m) / (#1 + beta_v_mp * (#(t_ m) - #25))) / (r_coeff * (#(isc_ m) - #(imp_ m))))%fl.
Definition fit_shunt_resistances (ms : list meas) (beta_v_mp r_coeff : fl) (min_irradiance : option fl) : res (fl * fl * fl) :=
  let min_irradiance := match min_irradiance with None => #0 | Some x => x end in
  let ms := filter (fun m => fgeb #(g_ m) min_irradiance) ms in
  let rshexp := #5.5 in
  let* c := polyfit1 (map (fun m => (fexp (- rshexp * #(g_ m) / #1000)%fl, rsh_est beta_v_mp r_coeff m)) ms) in
  let '(base, slope) := c in
  let r0 := (slope + base)%fl in
  let e := fexp (- rshexp)%fl in
  Ok (base * (#1 - e) + r0 * e, r0, rshexp)%fl.
(** pvsyst.py:530-539 *)
Definition fit_series_resistance (ms : list meas) : res fl :=
  coeff (lstsq (map (fun m => [#1; #(imp_ m); fln #(imp_ m); #(vmp_ m)]) ms) (map (fun m => #(voc_ m)) ms)) 1.
Definition rsh_at (s : resist) (m : meas) : fl := pvsyst_Rsh #(g_ m) (s_ref s) (s_0 s) (s_exp s) #1000.
(** pvsyst.py:542-559 *)
Definition ideality_x (s : resist) (m : meas) : fl :=
  (let nsvth := pvsyst_nNsVth kJ qe #(t_ m) #1 (s_cells s) in
   let rsh := rsh_at s m in
   let term1 := #(isc_ m) * (#1 + s_rs s / rsh) - #(voc_ m) / rsh in
   let term2 := (#(isc_ m) - #(imp_ m)) * (#1 + s_rs s / rsh) - #(vmp_ m) / rsh in
   nsvth * fln (term2 / term1))%fl.
Definition fit_diode_ideality_factor (ms : list meas) (s : resist) : res (fl * fl) :=
  let* g := coeff (lstsq (map (fun m => [ideality_x s m]) ms) (map (fun m => (#(vmp_ m) + #(imp_ m) * s_rs s - #(voc_ m))%fl) ms)) 0 in
  Ok (g, #0).
(** pvsyst.py:562-577 *)
Definition io_est (s : resist) (gamma_ref mu_gamma : fl) (m : meas) : fl :=
  (let rsh := rsh_at s m in
   let gamma := pvsyst_gamma #(t_ m) gamma_ref mu_gamma #25 in
   let nnsvth := pvsyst_nNsVth kJ qe #(t_ m) gamma (s_cells s) in
   (#(isc_ m) * (#1 + s_rs s / rsh) - #(voc_ m) / rsh) / fexpm1 (#(voc_ m) / nnsvth))%fl.
Definition fit_saturation_current (ms : list meas) (s : resist) (gamma_ref mu_gamma EgRef : fl) : fl :=
  fexp (fmean (map (fun m => (fln (io_est s gamma_ref mu_gamma m) - fln (pvsyst_Io kJ qe #(t_ m) (pvsyst_gamma #(t_ m) gamma_ref mu_gamma #25) #1 EgRef #25))%fl) ms)).
(** pvsyst.py:580-597 *)
Definition il_est (s : resist) (gamma_ref mu_gamma I_o_ref EgRef : fl) (m : meas) : fl :=
  (let rsh := rsh_at s m in
   let gamma := pvsyst_gamma #(t_ m) gamma_ref mu_gamma #25 in
   let io := pvsyst_Io kJ qe #(t_ m) gamma I_o_ref EgRef #25 in
   let nnsvth := pvsyst_nNsVth kJ qe #(t_ m) gamma (s_cells s) in
   #(isc_ m) + io * fexpm1 (#(isc_ m) * s_rs s / nnsvth) + #(isc_ m) * s_rs s / rsh)%fl.
Definition fit_photocurrent (ms : list meas) (s : resist) (alpha_sc gamma_ref mu_gamma I_o_ref EgRef : fl) : res fl :=
  coeff (lstsq (map (fun m => [(#(g_ m) / #1000)%fl]) ms)
               (map (fun m => (il_est s gamma_ref mu_gamma I_o_ref EgRef m - #(g_ m) / #1000 * alpha_sc * (#(t_ m) - #25))%fl) ms)) 0.
(** pvsyst.py:601-632 *)
Definition gamma_est (s : resist) (alpha_sc I_L_ref I_o_ref EgRef : fl) (m : meas) : fl :=
  (let rsh := rsh_at s m in
   let il := pvsyst_IL #(g_ m) #(t_ m) I_L_ref alpha_sc #1000 #25 in
   let nsvth := pvsyst_nNsVth kJ qe #(t_ m) #1 (s_cells s) in
   let tref := #25 + #273.15 in
   let tcell := #(t_ m) + #273.15 in
   let numerator := (#qe * EgRef / #kJ) * (#1 / tref - #1 / tcell) + (#(vmp_ m) + #(imp_ m) * s_rs s) / nsvth in
   let denominator := fln ((il - #(imp_ m) - (#(vmp_ m) + #(imp_ m) * s_rs s) / rsh) / I_o_ref) - #3 * fln (tcell / tref) in
   numerator / denominator)%fl.
Definition fit_diode_ideality_factor_post (ms : list meas) (s : resist) (alpha_sc I_L_ref I_o_ref EgRef : fl) : res (fl * fl) :=
  match lstsq (map (fun m => [#1; (#(t_ m) - #25)%fl]) ms) (map (gamma_est s alpha_sc I_L_ref I_o_ref EgRef) ms) with
  | [g; mu] => Ok (g, mu)
  | _ => Err ValueError
  end.

(** pvsyst.py:313-483 fit_pvsyst_iec61853_sandia_2025; np.isclose with rtol=0 *)
Definition default {A} (x : option A) (d : res A) : res A := match x with Some v => Ok v | None => d end.
Definition fit_pvsyst_iec61853 (ms : list meas) (cells_in_series EgRef : fl) (alpha_sc beta_mp R_s : option fl) (r_sh_coeff : fl) (min_Rsh_irradiance : option fl)
    (irradiance_tolerance temperature_tolerance : R) : res (list (string * fl)) :=
  let is_g_stc m := Rleb (Rabs (g_ m - 1000)) irradiance_tolerance in
  let is_t_stc m := Rleb (Rabs (t_ m - 25)) temperature_tolerance in
  let pairs f := map (fun m => (#(t_ m), #(f m))) (filter is_g_stc ms) in
  let* alpha_sc := default alpha_sc
    (let* mu := fit_tempco (pairs isc_) #25 in
     match filter (fun m => (is_g_stc m && is_t_stc m)%bool) ms with [m] => Ok (mu * #(isc_ m))%fl | _ => Err ValueError end) in
  let* beta_mp := default beta_mp (fit_tempco (pairs vmp_) #25) in
  let* sh := fit_shunt_resistances ms beta_mp r_sh_coeff min_Rsh_irradiance in
  let '(R_sh_ref, R_sh_0, R_sh_exp) := sh in
  let* R_s := default R_s (fit_series_resistance ms) in
  let s := Resist R_sh_ref R_sh_0 R_sh_exp R_s cells_in_series in
  let* gm := fit_diode_ideality_factor (filter is_t_stc ms) s in
  let '(gamma_ref, mu_gamma) := gm in
  let I_o_ref := fit_saturation_current ms s gamma_ref mu_gamma EgRef in
  let* I_L_ref := fit_photocurrent ms s alpha_sc gamma_ref mu_gamma I_o_ref EgRef in
  let* gm := fit_diode_ideality_factor_post ms s alpha_sc I_L_ref I_o_ref EgRef in
  Ok [("alpha_sc", alpha_sc); ("gamma_ref", fst gm); ("mu_gamma", snd gm); ("I_L_ref", I_L_ref); ("I_o_ref", I_o_ref);
      ("R_sh_ref", R_sh_ref); ("R_sh_0", R_sh_0); ("R_sh_exp", R_sh_exp); ("R_s", R_s); ("cells_in_series", cells_in_series); ("EgRef", EgRef)]%string.

(** pvsyst.py:224-310 pvsyst_temperature_coeff; [pmp] is bishop88_mpp(...)[2], [dx] is the step (tools.py:506-514, the cube root of the machine epsilon) *)
Definition pvsyst_temperature_coeff (dx : R) (pmp : sdparams -> fl) (alpha_sc gamma_ref mu_gamma I_L_ref I_o_ref R_sh_ref R_sh_0 R_s cells_in_series R_sh_exp EgRef irrad_ref temp_ref : fl) : fl :=
  (let maxp t := pmp (calcparams_pvsyst kJ qe irrad_ref t alpha_sc gamma_ref mu_gamma I_L_ref I_o_ref R_sh_ref R_sh_0 R_s cells_in_series R_sh_exp EgRef irrad_ref temp_ref) in
   ((maxp (temp_ref + #dx) - maxp (temp_ref - #dx)) / #2 / #dx) / maxp temp_ref)%fl.
End Iec.
