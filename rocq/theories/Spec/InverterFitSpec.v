(** What is asked of the external polynomial fits, and the test data of an inverter that follows the Sandia model *)
From Verif Require Import Base.Fl Spec.InverterSpec.
From Coq Require Import Reals List.
Import ListNotations.
Open Scope R_scope.

(** a parabola c + b x + a x^2 through points with at least three different abscissas is found *)
Definition exact_parabola (fit : list (fl * fl) -> fl * fl * fl) : Prop := forall (pts : list (R * R)) c b a,
  (exists p q r, In p pts /\ In q pts /\ In r pts /\ fst p <> fst q /\ fst p <> fst r /\ fst q <> fst r) ->
  Forall (fun p => snd p = c + b * fst p + a * fst p ^ 2) pts -> fit (map (fun p => (Fin (fst p), Fin (snd p))) pts) = (Fin c, Fin b, Fin a).

(** an inverter: rated AC power, then the three voltage-dependent quantities of the Sandia model: DC power at rated output, start-up DC power, curvature *)
Record inverter := Inverter { i_pa : R; i_pd : R; i_vd : R; i_c0 : R; i_c1 : R; i_c2 : R; i_c3 : R; i_ps : R; i_pn : R }.
Definition dc_rated (I : inverter) (v : R) : R := i_pd I * (1 + i_c1 I * (v - i_vd I)).
Definition dc_start (I : inverter) (v : R) : R := i_ps I * (1 + i_c2 I * (v - i_vd I)).
Definition curvature (I : inverter) (v : R) : R := i_c0 I * (1 + i_c3 I * (v - i_vd I)).
Definition ac_power (I : inverter) (v p : R) : R := curve (i_pa I) (dc_rated I v) (dc_start I v) (curvature I v) p.
(** slopes of the AC power over the DC power at start-up and at rated power *)
Definition slope_start (I : inverter) (v : R) : R := i_pa I / (dc_rated I v - dc_start I v) - curvature I v * (dc_rated I v - dc_start I v).
Definition slope_rated (I : inverter) (v : R) : R := i_pa I / (dc_rated I v - dc_start I v) + curvature I v * (dc_rated I v - dc_start I v).
(** at voltage v the curve is properly curved and does not fall, neither at start-up nor at rated power *)
Definition regular (I : inverter) (v : R) : Prop := dc_start I v < dc_rated I v /\ curvature I v <> 0 /\ 0 <= slope_start I v /\ 0 <= slope_rated I v.
Definition three_values (l : list R) : Prop := exists x y z, In x l /\ In y l /\ In z l /\ x <> y /\ x <> z /\ y <> z.
