(** Independent specification of sun position geometry: direction vectors in the local east / north / up frame. *)
From Coq Require Import Reals ZArith.
Open Scope R_scope.

(** *** the sun at declination [d] and hour angle [h] (radians, positive in the afternoon) seen from latitude [p] *)
Definition sun_east (p d h : R) : R := - cos d * sin h.
Definition sun_north (p d h : R) : R := cos p * sin d - sin p * cos d * cos h.
Definition sun_up (p d h : R) : R := sin p * sin d + cos p * cos d * cos h.
(** the direction with azimuth [az] (clockwise from north) and elevation [el], radians *)
Definition points_to (az el e n u : R) : Prop := cos el * sin az = e /\ cos el * cos az = n /\ sin el = u.

(** *** ecliptic to equatorial to horizontal by rotations: a body at ecliptic longitude [l] and latitude [b] *)
(** equatorial axes: x to the equinox, z to the pole; the ecliptic is tilted by [eps] about x *)
Definition eq_x (l b eps : R) : R := cos b * cos l.
Definition eq_y (l b eps : R) : R := cos b * sin l * cos eps - sin b * sin eps.
Definition eq_z (l b eps : R) : R := cos b * sin l * sin eps + sin b * cos eps.
(** the same vector seen by an observer at latitude [p] when the local sidereal time is [th] *)
Definition loc_east (x y z p th : R) : R := - x * sin th + y * cos th.
Definition loc_north (x y z p th : R) : R := - sin p * (x * cos th + y * sin th) + cos p * z.
Definition loc_up (x y z p th : R) : R := cos p * (x * cos th + y * sin th) + sin p * z.

(** *** clocks: hour angle in degrees of the mean sun, corrected by the equation of time (minutes), at a real instant in hours UTC *)
Definition solar_hour_angle (utc_hours longitude eot : R) : R := 15 * (utc_hours - 12) + longitude + eot / 4.
(** equal up to whole turns *)
Definition same_angle (a b : R) : Prop := exists k : Z, a = b + 360 * IZR k.

(** *** Kepler's equation in degrees *)
Definition kepler_eq (mean ecc e : R) : Prop := e = mean + ecc * (180 / PI) * sin (e * PI / 180).
(** the direction of a body on an ellipse of eccentricity [e] at eccentric anomaly [ea], seen from the focus (radians from perihelion) *)
Definition on_orbit (e ea nu : R) : Prop :=
  cos nu = (cos ea - e) / (1 - e * cos ea) /\ sin nu = sqrt (1 - e * e) * sin ea / (1 - e * cos ea).

(** *** calendar: the number of the day in the proleptic Gregorian calendar (1 January of year 1 is day 1) *)
Definition gregorian_day (year dayofyear : Z) : Z := (365 * (year - 1) + (year - 1) / 4 - (year - 1) / 100 + (year - 1) / 400 + dayofyear)%Z.
(** days since 1900 January 0.5 *)
Definition days_since_1900 (year dayofyear : Z) (utc_hours : R) : R :=
  IZR (gregorian_day year dayofyear - gregorian_day 1900 1) + 0.5 + utc_hours / 24.
(** Newcomb's sidereal time at Greenwich in seconds of time, [t] centuries since 1900 January 0.5 at 0h UT, plus the turn since 0h *)
Definition sidereal_seconds (t : R) : R := 6 * 3600 + 38 * 60 + 45.836 + 8640184.542 * t + 0.0929 * t ^ 2.
(** the two analytical day-number series: day angle of day [n] *)
Definition year_angle (n : R) : R := 2 * PI * (n - 1) / 365.
