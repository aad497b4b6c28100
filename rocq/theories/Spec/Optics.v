(** Optics of a single cover, De Soto et al. (2006) form; angles in radians. *)
From Coq Require Import Reals.
Open Scope R_scope.
(** Fresnel reflectances for angle of incidence th and of refraction thr (tan^2/tan^2 written with sin and cos) *)
Definition refl_perp (th thr : R) : R := (sin (thr - th) / sin (thr + th)) ^ 2.
Definition refl_par (th thr : R) : R := (sin (thr - th) * cos (thr + th) / (sin (thr + th) * cos (thr - th))) ^ 2.
(** transmittance with Bouguer absorption over a path of KL / cos thr *)
Definition tau_desoto (KL th thr : R) : R := exp (- (KL / cos thr)) * (1 - (refl_perp th thr + refl_par th thr) / 2).
Definition tau_desoto_normal (n KL : R) : R := exp (- KL) * (1 - ((n - 1) / (n + 1)) ^ 2).
(** two interfaces (air to coating, coating to glass) with multiple reflections between them *)
Definition through_both (r12 r23 : R) : R := (1 - r12) * (1 - r23) / (1 - r12 * r23).
Definition tau_coated (KL th thc thg : R) : R :=
  exp (- (KL / cos thg)) * ((through_both (refl_perp th thc) (refl_perp thc thg) + through_both (refl_par th thc) (refl_par thc thg)) / 2).
Definition tau_coated_normal (nc n KL : R) : R := exp (- KL) * through_both (((nc - 1) / (nc + 1)) ^ 2) (((n - nc) / (n + nc)) ^ 2).
