(** Independent specification of the NREL solar position algorithm: series, reference frames, observer on the ellipsoid, time scales. *)
From Verif Require Import Base.Fl Model.SpaTables Spec.SolarSpec.
From Coq Require Import ZArith.
Open Scope R_scope.

(** *** polynomials and periodic series *)
Definition poly (cs : list R) (t : R) : R := fold_right (fun c acc => c + t * acc) 0 cs.
Definition total (xs : list R) : R := fold_right Rplus 0 xs.
Definition periodic (terms : list (R * R * R)) (t : R) : R := total (map (fun row => match row with (a, b, c) => a * cos (b + c * t) end) terms).
(** heliocentric earth: longitude and latitude in radians, distance in AU; [t] is the ephemeris millennium *)
Definition earth_longitude (t : R) : R := poly (map (fun T => periodic T t) [L0_terms; L1_terms; L2_terms; L3_terms; L4_terms; L5_terms]) t / 10 ^ 8.
Definition earth_latitude (t : R) : R := poly (map (fun T => periodic T t) [B0_terms; B1_terms]) t / 10 ^ 8.
Definition earth_distance (t : R) : R := poly (map (fun T => periodic T t) [R0_terms; R1_terms; R2_terms; R3_terms; R4_terms]) t / 10 ^ 8.

(** *** time scales: days since J2000.0 in UT and in terrestrial time, from Unix seconds *)
Definition ut_days (unixtime : R) : R := unixtime / 86400 + 2440587.5 - 2451545.
Definition tt_days (unixtime delta_t : R) : R := ut_days (unixtime + delta_t).
Definition centuries (days : R) : R := days / 36525.
Definition millennia (days : R) : R := days / 365250.

(** *** nutation (degrees): the five fundamental arguments (degrees) as polynomials in [T] centuries, 0.0001 arc second tables *)
Definition elongation_moon (T : R) : R := poly [297.85036; 445267.111480; -0.0019142; / 189474] T.
Definition anomaly_sun (T : R) : R := poly [357.52772; 35999.050340; -0.0001603; - / 300000] T.
Definition anomaly_moon (T : R) : R := poly [134.96298; 477198.867398; 0.0086972; / 56250] T.
Definition latitude_moon (T : R) : R := poly [93.27191; 483202.017538; -0.0036825; / 327270] T.
Definition node_moon (T : R) : R := poly [125.04452; -1934.136261; 0.0020708; / 450000] T.
Definition nutation_argument (y : R * R * R * R * R) (T : R) : R := match y with (y0, y1, y2, y3, y4) =>
  (y0 * elongation_moon T + y1 * anomaly_sun T + y2 * anomaly_moon T + y3 * latitude_moon T + y4 * node_moon T) * PI / 180 end.
Definition nutation_longitude (T : R) : R :=
  total (map (fun row => match row with (y, (a, b, _, _)) => (a + b * T) * sin (nutation_argument y T) end) (combine nutation_yterm nutation_abcd))
  / 36000000.
Definition nutation_obliquity (T : R) : R :=
  total (map (fun row => match row with (y, (_, _, c, d)) => (c + d * T) * cos (nutation_argument y T) end) (combine nutation_yterm nutation_abcd))
  / 36000000.
(** true obliquity of the ecliptic, degrees *)
Definition obliquity (t T : R) : R :=
  poly [84381.448; -4680.93; -1.55; 1999.25; -51.38; -249.67; -39.05; 7.12; 27.87; 5.79; 2.45] (t / 10) / 3600 + nutation_obliquity T.
(** apparent longitude of the sun, degrees: opposite to the earth, with nutation and aberration *)
Definition sun_longitude (t T : R) : R := earth_longitude t * 180 / PI + 180 + nutation_longitude T - 20.4898 / (3600 * earth_distance t).
Definition sun_latitude (t : R) : R := - earth_latitude t.
(** apparent sidereal time at Greenwich, degrees; [d] UT days since J2000.0 *)
Definition sidereal_time (d t T : R) : R :=
  280.46061837 + 360.98564736629 * d + 0.000387933 * centuries d ^ 2 - centuries d ^ 3 / 38710000 + nutation_longitude T * cos (obliquity t T * PI / 180).

(** *** the observer, in equatorial radii, in the meridian plane (axis [px] in the equator, [py] to the pole): at height [h] metres along the
    normal from the point of the ellipsoid with polar radius 0.99664719 whose outward normal makes the angle [lat] (radians) with the equator *)
Definition observer (lat h px py : R) : Prop := let b := 0.99664719 in
  exists qx qy, qx ^ 2 + (qy / b) ^ 2 = 1 /\ 0 < qx /\ qx * sin lat = qy / b ^ 2 * cos lat /\
    px = qx + h / 6378140 * cos lat /\ py = qy + h / 6378140 * sin lat.
(** the vector from the observer to the sun, in units of the distance of the sun from the centre of the earth; [s] is the equatorial radius in the
    same unit, [th] the local sidereal time (radians) *)
Definition topo_x (X s px th : R) : R := X - s * px * cos th.
Definition topo_y (Y s px th : R) : R := Y - s * px * sin th.
Definition topo_z (Z s py : R) : R := Z - s * py.
(** azimuth and elevation (radians) point along the vector (east, north, up), whatever its length *)
Definition points_along (az el e n u : R) : Prop := exists r, 0 < r /\ points_to az el (e / r) (n / r) (u / r).

(** sine of the equatorial horizontal parallax of the sun *)
Definition parallax_sine (t : R) : R := sin (8.794 / (3600 * earth_distance t) * PI / 180).
(** azimuth [az] and elevation [e0] (degrees) of the line from the observer to the apparent sun at Unix time [u] with TT - UT = [dt] *)
Definition spa_pointing (u dt lat lon px py az e0 : R) : Prop :=
  let d := ut_days u in let t := millennia (tt_days u dt) in let T := centuries (tt_days u dt) in
  let l := sun_longitude t T * PI / 180 in let b := sun_latitude t in let eps := obliquity t T * PI / 180 in
  let th := (sidereal_time d t T + lon) * PI / 180 in let p := lat * PI / 180 in let s := parallax_sine t in
  let X := topo_x (eq_x l b eps) s px th in let Y := topo_y (eq_y l b eps) s px th in let Z := topo_z (eq_z l b eps) s py in
  points_along (az * PI / 180) (e0 * PI / 180) (loc_east X Y Z p th) (loc_north X Y Z p th) (loc_up X Y Z p th).
(** mean longitude of the sun, degrees *)
Definition mean_longitude (t : R) : R := poly [280.4664567; 360007.6982779; 0.03032028; / 49931; - / 15300; - / 2000000] t.

(** *** numpy.array_split into [k] sections *)
Definition even_split {A} (k : nat) (l : list A) (parts : list (list A)) : Prop :=
  length parts = k /\ concat parts = l /\ forall p q, In p parts -> In q parts -> (length p <= S (length q))%nat.

(** *** the published piecewise polynomials for TT - UT, by year; [y] is the decimal year *)
Definition deltat_piece (year : Z) (y : R) : R :=
  let u := (y - 1820) / 100 in
  if (year <? -500)%Z then -20 + 32 * u ^ 2
  else if (year <? 500)%Z then poly [10583.6; -1014.41; 33.78311; -5.952053; -0.1798452; 0.022174192; 0.0090316521] (y / 100)
  else if (year <? 1600)%Z then poly [1574.2; -556.01; 71.23472; 0.319781; -0.8503463; -0.005050998; 0.0083572073] ((y - 1000) / 100)
  else if (year <? 1700)%Z then poly [120; -0.9808; -0.01532; / 7129] (y - 1600)
  else if (year <? 1800)%Z then poly [8.83; 0.1603; -0.0059285; 0.00013336; - / 1174000] (y - 1700)
  else if (year <? 1860)%Z then poly [13.72; -0.332447; 0.0068612; 0.0041116; -0.00037436; 0.0000121272; -0.0000001699; 0.000000000875] (y - 1800)
  else if (year <? 1900)%Z then poly [7.62; 0.5737; -0.251754; 0.01680668; -0.0004473624; / 233174] (y - 1860)
  else if (year <? 1920)%Z then poly [-2.79; 1.494119; -0.0598939; 0.0061966; -0.000197] (y - 1900)
  else if (year <? 1941)%Z then poly [21.20; 0.84493; -0.076100; 0.0020936] (y - 1920)
  else if (year <? 1961)%Z then poly [29.07; 0.407; - / 233; / 2547] (y - 1950)
  else if (year <? 1986)%Z then poly [45.45; 1.067; - / 260; - / 718] (y - 1975)
  else if (year <? 2005)%Z then poly [63.86; 0.3345; -0.060374; 0.0017275; 0.000651814; 0.00002373599] (y - 2000)
  else if (year <? 2050)%Z then poly [62.92; 0.32217; 0.005589] (y - 2000)
  else if (year <? 2150)%Z then -20 + 32 * u ^ 2 - 0.5628 * (2150 - y)
  else -20 + 32 * u ^ 2.

(** *** calendar: days before each month in a Gregorian year *)
Definition leap (year : Z) : bool := ((year mod 4 =? 0) && (negb (year mod 100 =? 0) || (year mod 400 =? 0)))%Z.
Definition days_before_month (year month : Z) : Z :=
  (nth (Z.to_nat (month - 1)) [0; 31; 59; 90; 120; 151; 181; 212; 243; 273; 304; 334]%Z 0 + (if leap year && (3 <=? month) then 1 else 0))%Z.
Definition gregorian_date (year month day : Z) : Z := gregorian_day year (days_before_month year month + day).

(** *** rise, set and transit *)
(** the quadratic through the values at -1, 0 and 1 *)
Definition through3 (am a0 ap n : R) : R := am * (n * (n - 1) / 2) + a0 * (1 - n ^ 2) + ap * (n * (n + 1) / 2).
(** the reduction the algorithm prescribes for a daily difference of more than 2 degrees: its fractional part *)
Definition limited (x y : R) : Prop := (Rabs x <= 2 /\ y = x) \/ (2 < Rabs x /\ 0 <= y < 1 /\ exists k : Z, x = y + IZR k).
(** [al] and [de] (degrees) are the right ascension and declination of the apparent sun *)
Definition equatorial (u dt al de : R) : Prop :=
  let t := millennia (tt_days u dt) in let T := centuries (tt_days u dt) in
  let l := sun_longitude t T * PI / 180 in let b := sun_latitude t in let eps := obliquity t T * PI / 180 in let a := al * PI / 180 in let d := de * PI / 180 in
  cos d * cos a = eq_x l b eps /\ cos d * sin a = eq_y l b eps /\ sin d = eq_z l b eps /\ 0 <= al < 360 /\ -90 < de < 90.
(** [x] and [y] differ by a whole number *)
Definition same_fraction (x y : R) : Prop := exists k : Z, x = y + IZR k.
(** altitude in degrees of the sun at declination [de] and hour angle [ha], from latitude [lat] (degrees) *)
Definition altitude (lat de ha : R) : R := asin (sun_up (lat * PI / 180) (de * PI / 180) (ha * PI / 180)) * 180 / PI.
(** the fraction of a day by which a first approximation with declination [de] and hour angle [ha] is moved towards altitude -0.8333 degrees *)
Definition refinement (lat de ha : R) : R :=
  (altitude lat de ha + 0.8333) / (360 * cos (de * PI / 180) * cos (lat * PI / 180) * sin (ha * PI / 180)).
