(** Specification of GHI decomposition, independent of pvlib's code. *)
From Verif Require Import Base.Fl.
Open Scope R_scope.

(** dni and dhi split ghi [g] at zenith [z]: closure, no negative dni, everything diffuse above [mz],
    diffuse between 0 and ghi *)
Definition closes (g z mz : R) (dni dhi : fl) : Prop := exists n h,
  dni = #n /\ dhi = #h /\ 0 <= n /\ g = h + n * cosD z /\
  (mz < z -> n = 0 /\ h = g) /\ (0 <= g -> 0 < cosD z \/ mz < z -> 0 <= h <= g).

(** published diffuse fractions *)
Definition erbs_fraction (k : R) : R :=
  if Rle_dec k 0.22 then 1 - 0.09 * k
  else if Rle_dec k 0.8 then 0.9511 - 0.1604 * k + 4.388 * k ^ 2 - 16.638 * k ^ 3 + 12.336 * k ^ 4
  else 0.165.
Definition erbs_driesse_poly (k : R) : R :=
  12.26911439571261000 * k ^ 4 - 16.47050842469730700 * k ^ 3 + 4.24692671521831700 * k ^ 2
  - 0.11390583806313881 * k + 0.94629663357100100.
Definition erbs_driesse_fraction (k : R) : R :=
  if Rle_dec k 0.216 then 1 - 0.09 * k
  else if Rle_dec k 0.792 then erbs_driesse_poly k
  else 0.165.
Definition orgill_hollands_fraction (k : R) : R :=
  if Rlt_dec k 0.35 then 1 - 0.249 * k
  else if Rle_dec k 0.75 then 1.557 - 1.84 * k
  else 0.177.
Definition boland_fraction (a b k : R) : R := 1 / (1 + exp (a * (k - b))).

(** daytime: dhi and dni follow from a diffuse fraction in (0,1] of clearness [k] *)
Definition by_fraction (frac : R -> R) (k g z : R) (kt dni dhi : fl) : Prop :=
  kt = #k /\ 0 < frac k <= 1 /\ dhi = #(frac k * g) /\ dni = #(g * (1 - frac k) / cosD z).

(** the published DISC quasi-physical model (Maxwell 1987): transmittance of the beam from clearness [k] and airmass [m] *)
Definition disc_transmittance (k m : R) : R :=
  let clear := 0.866 - 0.122 * m + 0.0121 * m ^ 2 - 0.000653 * m ^ 3 + 0.000014 * m ^ 4 in
  let '(a, b, c) :=
    if Rle_dec k 0.6 then
      (0.512 - 1.56 * k + 2.286 * k ^ 2 - 2.222 * k ^ 3, 0.370 + 0.962 * k, -0.280 + 0.932 * k - 2.048 * k ^ 2)
    else
      (-5.743 + 21.77 * k - 27.49 * k ^ 2 + 11.56 * k ^ 3, 41.40 - 118.5 * k + 66.05 * k ^ 2 + 31.90 * k ^ 3,
       -47.01 + 184.2 * k - 222.0 * k ^ 2 + 73.81 * k ^ 3) in
  clear - (a + b * exp (c * m)).
