(** The sun seen in the cross-section of rows, and the shadow of the row in front. *)
From Coq Require Import Reals.
From Verif Require Import Base.Fl Spec.Geometry Spec.BifacialSpec.
Open Scope R_scope.

(** the direction to the sun in the plane perpendicular to rows facing the compass direction [az]: x towards the back, y up *)
Definition sun_in_section (zenith azimuth az : R) : R * R :=
  (- dot (dirvec zenith azimuth) (V3 (sinD az) (cosD az) 0), up (dirvec zenith azimuth)).
(** the ray from the point at [x] of the slant height towards the sun meets the row in front *)
Definition blocked (tilt gcr : R) (sun : R * R) (x : R) : Prop :=
  exists y k, 0 <= y <= 1 /\ 0 <= k /\
    fst (row_point tilt x) + k * fst sun = fst (front_row_point tilt gcr y) /\
    snd (row_point tilt x) + k * snd sun = snd (front_row_point tilt gcr y).
(** the common length of [a, b] and [c, d] *)
Definition common (a b c d : R) : R := Rmax 0 (Rmin b d - Rmax a c).
(** irradiance on the horizontal from the beam and the rest of the sky *)
Definition on_horizontal (dni dhi zenith : R) : R := dhi + dni * cosD zenith.
