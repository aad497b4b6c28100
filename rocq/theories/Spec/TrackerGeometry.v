(** Specification of single-axis tracker geometry in local East-North-Up coordinates. *)
From Coq Require Import Reals.
From Verif Require Import Base.Fl Spec.Geometry.
Open Scope R_scope.

(** Unit vector along the tracker axis: it points to compass azimuth [az] and dips below the horizontal by
    [tilt] (a positive axis tilt makes the unrotated collectors face [az]). *)
Definition axis_dir (tilt az : R) : vec3 := V3 (cosD tilt * sinD az) (cosD tilt * cosD az) (- sinD tilt).
(** Collector normal at zero rotation: perpendicular to the axis, in the vertical plane of the axis. *)
Definition rest_normal (tilt az : R) : vec3 := dirvec tilt az.
(** Horizontal unit vector 90 degrees clockwise of the axis azimuth. *)
Definition lateral (az : R) : vec3 := V3 (cosD az) (- sinD az) 0.
(** Collector normal after rotating by [th] about the axis (right-handed). *)
Definition collector_normal (tilt az th : R) : vec3 :=
  rotate (axis_dir tilt az) th (rest_normal tilt az).

(** Row cross-section in units of the row pitch.  Row number [n] has its bottom edge at (n, 0) and slants
    back at [tilt]; [row_point gcr tilt n x] is its point at the fraction [x] of the slant height. *)
Definition row_point (gcr tilt n x : R) : R * R :=
  (n - gcr * x * cosD tilt, gcr * x * sinD tilt).
(** the elevation angle (degrees) of point q seen from p is th *)
Definition sees_at_elevation (p q : R * R) (th : R) : Prop :=
  -90 < th < 90 /\ exists r, 0 < r /\ fst q - fst p = r * cosD th /\ snd q - snd p = r * sinD th.
