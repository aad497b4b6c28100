(** inverter.py:448-553 fit_sandia.  numpy.polynomial.polynomial.polyfit of degree 2 and of degree 1 (coefficients from the constant upwards) are arguments; both raise
    TypeError on an empty vector.  Data are arrays of equal length, one row per data point. *)
From Verif Require Import Base.Fl Base.Py Model.Inverter Model.Clearsky.
From Coq Require Import Reals List String.
Import ListNotations.
Open Scope fl_scope.

(** one data point: ac_power, dc_power, dc_voltage, dc_voltage_level *)
Record test_point := TestPoint { t_ac : fl; t_dc : fl; t_v : fl; t_level : string }.

Section Fit.
Variable quadfit : list (fl * fl) -> fl * fl * fl.
Variable linefit : list (fl * fl) -> fl * fl.

(** x[dc_voltage_level == d] *)
Definition at_level (d : string) (rows : list test_point) : list test_point := filter (fun r => String.eqb (t_level r) d) rows.
(** inverter.py:513-515; the mean of no values is nan *)
Definition level_voltage (rows : list test_point) (d : string) : fl := fmean (map t_v (at_level d rows)).
(** inverter.py:524-525 solve_quad *)
Definition solve_quad (a b c : fl) : fl := (- b + fsqrt (b ^ 2 - #4 * a * c)) / (#2 * a).
(** inverter.py:533-545, one pass of the loop: (a, p_dc, p_s0) *)
Definition level_coeffs (rows : list test_point) (p_ac_0 : fl) (d : string) : res (fl * fl * fl) :=
  match at_level d rows with
  | [] => Err TypeError
  | sel => let '(c, b, a) := quadfit (map (fun r => (t_dc r, t_ac r)) sel) in
           Ok (a, solve_quad a b (c - p_ac_0), solve_quad a b c)
  end.
(** inverter.py:528-531 extract_c: (beta0, c) *)
Definition extract_c (x_d add : list fl) : fl * fl :=
  let '(beta0, beta1) := linefit (combine x_d add) in (beta0, beta1 / beta0).
Definition voltage_levels : list string := ["Vmin"; "Vnom"; "Vmax"]%string.
(** inverter.py:507-559 *)
Definition fit_sandia (rows : list test_point) (p_ac_0 p_nt : fl) : res sandia_params :=
  let v_d := map (level_voltage rows) voltage_levels in
  let v_nom := nth 1 v_d NaN in
  let x_d := map (fun v => v - v_nom) v_d in
  let* coeffs := mapM (level_coeffs rows p_ac_0) voltage_levels in
  let '(b_dc0, c1) := extract_c x_d (map (fun k => snd (fst k)) coeffs) in
  let '(b_s0, c2) := extract_c x_d (map snd coeffs) in
  let '(b_c0, c3) := extract_c x_d (map (fun k => fst (fst k)) coeffs) in
  Ok (SandiaParams p_ac_0 b_dc0 v_nom b_c0 c1 c2 c3 b_s0 p_nt).
End Fit.
