(** Specification vocabulary: unit vectors in local East-North-Up coordinates, angles in degrees. *)
From Coq Require Import Reals.
From Verif Require Import Base.Fl.
Open Scope R_scope.

Record vec3 := V3 { east : R; north : R; up : R }.
Definition dot (u v : vec3) : R := east u * east v + north u * north v + up u * up v.
Definition norm2 (u : vec3) : R := dot u u.
Definition vadd (u v : vec3) : vec3 := V3 (east u + east v) (north u + north v) (up u + up v).
Definition vscale (k : R) (u : vec3) : vec3 := V3 (k * east u) (k * north u) (k * up u).
Definition cross (u v : vec3) : vec3 :=
  V3 (north u * up v - up u * north v) (up u * east v - east u * up v)
     (east u * north v - north u * east v).

(** The unit vector whose angle from the vertical is [zen] and whose compass azimuth (clockwise from
    North, i.e. East = 90) is [az].  It is the normal of a plane of tilt [zen] facing [az], and also the
    direction of the sun at zenith [zen] and azimuth [az]. *)
Definition dirvec (zen az : R) : vec3 :=
  V3 (sinD zen * sinD az) (sinD zen * cosD az) (cosD zen).

(** Rotation of [v] by the angle [th] (degrees, right-handed) about the unit vector [k] (Rodrigues). *)
Definition rotate (k : vec3) (th : R) (v : vec3) : vec3 :=
  vadd (vadd (vscale (cosD th) v) (vscale (sinD th) (cross k v)))
       (vscale (dot k v * (1 - cosD th)) k).
