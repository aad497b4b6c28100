(** Published inverter formulas on reals, independent of the model. *)
From Coq Require Import Reals List.
Import ListNotations.
Open Scope R_scope.

Fixpoint Rsum (l : list R) : R := match l with [] => 0 | x :: l => x + Rsum l end.

(** the power curve on reals *)
Definition curve (pa A B C p : R) : R := (pa / (A - B) - C * (A - B)) * (p - B) + C * (p - B) ^ 2.

Record adr_fin := AdrFin { r_pnom : R; r_vnom : R; r_pacmax : R; r_pnt : R;
  k0 : R; k1 : R; k2 : R; k3 : R; k4 : R; k5 : R; k6 : R; k7 : R; k8 : R;
  r_vmax : R; r_vmin : R; r_vdcmax : R; r_hi : R; r_low : R }.

Definition adr_upper (r : adr_fin) (vtol : R) : R := Rmax (Rmax (r_vmax r) (r_vdcmax r)) (r_hi r) * (1 + vtol).
Definition adr_lower (r : adr_fin) (vtol : R) : R := Rmax (r_vmin r) (r_low r) * (1 - vtol).
(** normalised loss, published formula *)
Definition adr_loss (r : adr_fin) (p v : R) : R :=
  (k0 r + k1 r * p + k2 r * p ^ 2)
  + (k3 r + k4 r * p + k5 r * p ^ 2) * (v - 1)
  + (k6 r + k7 r * p + k8 r * p ^ 2) * (1 / v - 1).

(** PVWatts efficiency times the load fraction *)
Definition pw (z : R) : R := -0.0162 * z * z - 0.0059 + 0.9858 * z.
