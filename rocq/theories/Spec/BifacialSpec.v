(** Rows of modules seen in the plane perpendicular to them: x towards the back of a row, y up.  Written from the geometry, not
    from the closed formulas.  A view factor of a flat element is half the integral of the sine of the angle from its surface over
    the directions it sees (Lambert's law for infinitely long rows). *)
From Coq Require Import Reals ZArith List.
From Verif Require Import Base.Fl.
Open Scope R_scope.

(** ** A row of slant height 1 whose lower edge is at the origin, tilted by [tilt] degrees and facing -x *)
(** up the slope, and the normal on the side the row faces *)
Definition upslope (tilt : R) : R * R := (cosD tilt, sinD tilt).
Definition outward (tilt : R) : R * R := (- sinD tilt, cosD tilt).
Definition row_point (tilt x : R) : R * R := (x * cosD tilt, x * sinD tilt).
(** the row in front is the same row moved by the pitch, 1/gcr *)
Definition front_row_point (tilt gcr x : R) : R * R := (x * cosD tilt - 1 / gcr, x * sinD tilt).
Definition length2 (p : R * R) : R := sqrt (fst p * fst p + snd p * snd p).
(** [q] is seen from [p] at the angle [a] from the upslope direction, turning towards the outward normal *)
Definition seen_at (tilt : R) (p q : R * R) (a : R) : Prop :=
  exists r, 0 < r /\
    fst q - fst p = r * (cos a * fst (upslope tilt) + sin a * fst (outward tilt)) /\
    snd q - snd p = r * (cos a * snd (upslope tilt) + sin a * snd (outward tilt)).

(** ** Infinitely many rows over flat ground: row [k] is centred at (k pitch, height), [width] wide, rotated by [rotation] *)
Definition sheds_point (rotation width height pitch : R) (k : Z) (t : R) : R * R :=
  (IZR k * pitch + t * width * cosD rotation, height + t * width * sinD rotation).
(** the beam reaching the ground at [s] crosses row [k]: the sun's rays run along (tan phi, -1) *)
Definition shades (rotation width height pitch phi : R) (k : Z) (s : R) : Prop :=
  exists t, -1/2 <= t <= 1/2 /\
    s = fst (sheds_point rotation width height pitch k t) + snd (sheds_point rotation width height pitch k t) * tanD phi.
Definition ground_in_shade (rotation width height pitch phi s : R) : Prop :=
  exists k : Z, shades rotation width height pitch phi k s.
(** row [k] hides the sky in the direction [a] (radians from +x) from the ground point [s] *)
Definition hides (rotation width height pitch s : R) (k : Z) (a : R) : Prop :=
  exists t r, -1/2 <= t <= 1/2 /\ 0 < r /\
    fst (sheds_point rotation width height pitch k t) = s + r * cos a /\
    snd (sheds_point rotation width height pitch k t) = r * sin a.
(** from the ground point [s], [q] is seen in the direction [a] *)
Definition sees (s : R) (q : R * R) (a : R) : Prop :=
  0 < a < PI /\ exists r, 0 < r /\ fst q = s + r * cos a /\ snd q = r * sin a.
(** [a] is the direction closest to +x hidden by row [k] *)
Definition first_hidden (rotation width height pitch s : R) (k : Z) (a : R) : Prop :=
  0 < a < PI /\ hides rotation width height pitch s k a /\
  forall b, 0 < b < PI -> hides rotation width height pitch s k b -> a <= b.
(** no two of the points [marks] of neighbouring rows -rows .. rows + 1 are almost, but not quite, in line with [s]:
    directions differ by nothing or by more than 1e-8 radians *)
Definition no_grazing (marks : list R) (rotation width height pitch : R) (rows : nat) (s : R) : Prop :=
  forall i j t u a b, (- Z.of_nat rows <= i <= Z.of_nat rows + 1)%Z -> (- Z.of_nat rows <= j <= Z.of_nat rows + 1)%Z -> (Z.abs (i - j) <= 1)%Z ->
    In t marks -> In u marks ->
    sees s (sheds_point rotation width height pitch i t) a -> sees s (sheds_point rotation width height pitch j u) b ->
    a = b \/ 1e-8 < Rabs (a - b).
