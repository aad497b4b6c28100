(** Independent specification for pvlib.pvarray: the published formulas on real numbers. *)
From Coq Require Import Reals List.
Import ListNotations.
Open Scope R_scope.

(** *** ADR (Driesse and Stein 2021): normalised diode voltage and efficiency *)
(** the "dark irradiance" s_o: 10^(k_d + tc_d (T - 25)) suns *)
Definition dark_suns (k_d tc_d t : R) : R := Rpower 10 (k_d + tc_d * (t - 25)).
(** the voltage-like variable, 1 at 1000 W/m2 and 25 C *)
Definition adr_v (k_d tc_d g t : R) : R := ln (1 + g / 1000 / dark_suns k_d tc_d t) / ln (1 + 1 / dark_suns k_d tc_d 25).
(** efficiency: a linear and two loss terms that vanish at the reference point *)
Definition adr_eta (k_a k_d tc_d k_rs k_rsh g t : R) : R :=
  let v := adr_v k_d tc_d g t in k_a * ((1 + k_rs + k_rsh) * v - k_rs * (g / 1000) - k_rsh * v ^ 2).
(** one fitted parameter set and the box it has to stay in *)
Record adr_params := AP { ap_a : R; ap_d : R; ap_tc : R; ap_rs : R; ap_rsh : R }.
Definition adr_box (p : adr_params) : Prop :=
  0 <= ap_a p /\ -12 <= ap_d p <= 0 /\ -0.1 <= ap_tc p <= 0.1 /\ 0 <= ap_rs p <= 1 /\ 0 <= ap_rsh p <= 1.
Definition adr_at (p : adr_params) (g t : R) : R := adr_eta (ap_a p) (ap_d p) (ap_tc p) (ap_rs p) (ap_rsh p) g t.
(** scipy's robust loss: the sum over the samples of rho of the squared, weighted and scaled residual, rho z = 2 (sqrt (1+z) - 1); the weight of a
    sample is the square root of its irradiance in suns *)
Definition soft_l1 (z : R) : R := 2 * (sqrt (1 + z) - 1).
Definition adr_loss (scale : R) (samples : list (R * R * R)) (p : adr_params) : R :=
  fold_right (fun s acc => let '(g, t, e) := s in soft_l1 (((adr_at p g t - e) * sqrt (g / 1000) / scale) ^ 2) + acc) 0 samples.

(** *** Huld (2011): power of irradiance (suns) and module temperature excess *)
Definition huld_power (p0 k1 k2 k3 k4 k5 k6 g t : R) : R :=
  g * (p0 + k1 * ln g + k2 * ln g ^ 2 + k3 * t + k4 * t * ln g + k5 * t * ln g ^ 2 + k6 * t ^ 2).
(** published PVGIS coefficients: rows are k1..k6 per watt of rated power *)
Inductive pvgis := V5 | V6.
Inductive tech := CSI | CIS | CDTE.
Definition huld_k (v : pvgis) (t : tech) : R * R * R * R * R * R :=
  match v, t with
  | V5, CSI => (-0.017237, -0.040465, -0.004702, 0.000149, 0.000170, 0.000005)
  | V5, CIS => (-0.005554, -0.038724, -0.003723, -0.000905, -0.001256, 0.000001)
  | V5, CDTE => (-0.046689, -0.072844, -0.002262, 0.000276, 0.000159, -0.000006)
  | V6, CSI => (-0.0067560, -0.016444, -0.003015, -0.000045, -0.000043, 0.0)
  | V6, CIS => (-0.011001, -0.029734, -0.002887, 0.000217, -0.000163, 0.0)
  | V6, CDTE => (-0.020644, -0.035136, -0.003406, 0.000073, -0.000141, 0.000002)
  end.

(** *** Batzelis (2017): datasheet extrapolation.  [a], [b] are the temperature coefficients of i_sc and v_oc per kelvin *relative* to
    the rated values, [w] is Lambert's W of exp (1/d + 1), [g] irradiance in suns, [lg] its logarithm, [t] in degrees C. *)
Definition bz_d (a b : R) : R := (1 - b * 298.15) / (50.1 - a * 298.15).
Definition bz_lam (t : R) : R := (t + 273.15) / 298.15.
Definition bz_isc (isc0 a g t : R) : R := g * isc0 * (1 + a * (t - 25)).
Definition bz_voc (voc0 a b lg t : R) : R := voc0 * (1 + bz_d a b * bz_lam t * lg + b * (t - 25)).
Definition bz_imp (imp0 a b w g t : R) : R := g * imp0 * (1 + (a + (b - 1 / 298.15) / (w - 1)) * (t - 25)).
Definition bz_vmp (vmp0 voc0 a b w g lg t : R) : R :=
  let d := bz_d a b in let k := voc0 / vmp0 in
  vmp0 * (1 + d / (1 + d) * k * bz_lam t * lg + (d * (w - 1) * k - 1) * (1 - g)
          + k * (b / (1 + d) + (d * (w - 1) - 1 / (1 + d)) / 298.15) * (t - 25)).
