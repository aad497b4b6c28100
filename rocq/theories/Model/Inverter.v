(** Model of pvlib/inverter.py (sandia, sandia_multi, adr, pvwatts, pvwatts_multi) and
    pvlib/transformer.py, one time stamp at a time.  The pandas re-wrapping of results is dropped. *)
From Verif Require Import Base.Fl Base.Py.
Open Scope fl_scope.

(** the keys of the inverter dict that the Sandia functions read *)
Record sandia_params := SandiaParams {
  Paco : fl; Pdco : fl; Vdco : fl; C0 : fl; C1 : fl; C2 : fl; C3 : fl; Pso : fl; Pnt : fl }.

(** inverter.py:18-35 _sandia_eff *)
Definition sandia_eff (v_dc p_dc : fl) (inv : sandia_params) : fl :=
  let A := Pdco inv * (#1 + C1 inv * (v_dc - Vdco inv)) in
  let B := Pso inv * (#1 + C2 inv * (v_dc - Vdco inv)) in
  let C := C0 inv * (#1 + C3 inv * (v_dc - Vdco inv)) in
  (Paco inv / (A - B) - C * (A - B)) * (p_dc - B) + C * (p_dc - B) ^ 2.

(** inverter.py:38-50 _sandia_limits *)
Definition sandia_limits (power_ac p_dc paco pnt pso : fl) : fl :=
  let power_ac := fmin paco power_ac in
  let min_ac_power := #(-1) * fabs pnt in
  if fltb p_dc pso then min_ac_power else power_ac.

(** inverter.py:53-137 sandia *)
Definition sandia (v_dc p_dc : fl) (inv : sandia_params) : fl :=
  sandia_limits (sandia_eff v_dc p_dc inv) p_dc (Paco inv) (Pnt inv) (Pso inv).

(** inverter.py:140-201 sandia_multi; the loop at 197-198 as a left fold *)
Definition sandia_multi (v_dc p_dc : list fl) (inv : sandia_params) : res fl :=
  if negb (Nat.eqb (length p_dc) (length v_dc)) then Err ValueError
  else
    let power_dc := fsum p_dc in
    let power_ac :=
      fold_left (fun acc vp => acc + snd vp / power_dc * sandia_eff (fst vp) power_dc inv)
                (combine v_dc p_dc) (#0 * power_dc) in
    Ok (sandia_limits power_ac power_dc (Paco inv) (Pnt inv) (Pso inv)).

(** the keys of the inverter dict that adr reads *)
Record adr_params := AdrParams {
  a_Pnom : fl; a_Vnom : fl; a_Pacmax : fl; a_Pnt : fl; a_coef : list fl;
  a_Vmax : fl; a_Vmin : fl; a_Vdcmax : fl; a_MPPTHi : fl; a_MPPTLow : fl }.

(** np.nanmax of a list: nan entries are ignored *)
Definition nanmax (l : list fl) : fl := fold_left nfmax l NaN.
(** np.dot *)
Definition fdot (a b : list fl) : fl := fsum (map (fun p => fst p * snd p) (combine a b)).

(** inverter.py:204-333 adr; [x**0] is 1 for every x.  A coefficient list of a length other than 9 raises
    ValueError in np.dot and is outside the model. *)
Definition adr (v_dc p_dc : fl) (inv : adr_params) (vtol : fl) : fl :=
  let v_lim_upper := nanmax [a_Vmax inv; a_Vdcmax inv; a_MPPTHi inv] * (#1 + vtol) in
  let v_lim_lower := nanmax [a_Vmin inv; a_MPPTLow inv] * (#1 - vtol) in
  let pdc := p_dc / a_Pnom inv in
  let vdc := v_dc / a_Vnom inv in
  let poly := [#1; pdc; pdc ^ 2; vdc - #1; pdc * (vdc - #1); pdc ^ 2 * (vdc - #1);
               #1 / vdc - #1; pdc * (#1 / vdc - #1); pdc ^ 2 * (#1 / vdc - #1)] in
  let p_loss := fdot (a_coef inv) poly in
  let power_ac := a_Pnom inv * (pdc - p_loss) in
  let p_nt := #(-1) * fabs (a_Pnt inv) in
  let invalid := fltb v_lim_upper v_dc || fltb v_dc v_lim_lower in
  let power_ac := where_ invalid NaN power_ac in
  let power_ac := where_ (feqb vdc #0) p_nt power_ac in
  let power_ac := fmax power_ac p_nt in
  fmin power_ac (a_Pacmax inv).

(** inverter.py:336-412 pvwatts *)
Definition pvwatts (pdc pdc0 eta_inv_nom eta_inv_ref : fl) : fl :=
  let pac0 := eta_inv_nom * pdc0 in
  let zeta := pdc / pdc0 in
  let recip := where_ (negb (feqb pdc #0)) (#0.0059 / zeta) #0 in
  let eta := eta_inv_nom / eta_inv_ref * (#(-0.0162) * zeta - recip + #0.9858) in
  let power_ac := eta * pdc in
  let power_ac := fmin pac0 power_ac in
  fmax #0 power_ac.
Definition pvwatts_default_nom : fl := #0.96.
Definition pvwatts_default_ref : fl := #0.9637.

(** inverter.py:415-445 pvwatts_multi *)
Definition pvwatts_multi (pdc : list fl) (pdc0 eta_inv_nom eta_inv_ref : fl) : fl :=
  pvwatts (fsum pdc) pdc0 eta_inv_nom eta_inv_ref.

(** transformer.py:8-120 simple_efficiency.  [x**0.5] is the real square root (nan for negative x; pure
    Python floats would give a complex number there). *)
Definition simple_efficiency (input_power no_load_loss load_loss transformer_rating : fl) : fl :=
  let input_power_normalized := input_power / transformer_rating in
  let a := load_loss in
  let b := #1 in
  let c := no_load_loss - input_power_normalized in
  let disc := fsqrt (b * b - #4 * a * c) in
  let output_power_normalized := #2 * c / (- b - disc) in
  output_power_normalized * transformer_rating.
