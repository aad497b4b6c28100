(** Two neighbouring tracker rows in the plane perpendicular to their axes: x to the side given by the lateral direction, y up.
    Written from the geometry of Anderson and Jensen (2024), not from its closed formula. *)
From Coq Require Import Reals.
From Verif Require Import Base.Fl.
Open Scope R_scope.

Definition pt : Type := R * R.
(** unit vectors at the rotation or projected zenith [a] degrees: normal of a row or direction to the sun, and along the row's width *)
Definition facing (a : R) : pt := (sinD a, cosD a).
Definition across (a : R) : pt := (cosD a, - sinD a).
Definition shift (p : pt) (k : R) (d : pt) : pt := (fst p + k * fst d, snd p + k * snd d).
(** the point of a row at [x] widths from its middle: the surface is [off] above the axis along the normal *)
Definition on_row (axis : pt) (rotation off width x : R) : pt :=
  shift (shift axis off (facing rotation)) (x * width) (across rotation).
(** the axis of the neighbour on the side of the sun; the ground between the axes slopes by [slope] degrees
    and [pitch] is the horizontal distance of the axes *)
Definition neighbour_axis (side pitch slope : R) : pt := shift (0, 0) (side * (pitch / cosD slope)) (across slope).
(** the line through [p] towards the sun meets the neighbouring row *)
Definition in_shadow (sun : R) (p axis : pt) (rotation off width : R) : Prop :=
  exists x k, -1/2 <= x <= 1/2 /\ on_row axis rotation off width x = shift p k (facing sun).
(** +1 or -1: the side of the sun *)
Definition side_of (sun : R) : R := if Rlt_dec 0 sun then 1 else -1.
Definition signum (x : R) : R := if Rlt_dec 0 x then 1 else -1.
