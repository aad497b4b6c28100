(** Model of pvlib/spa.py and of the SPA wrappers in pvlib/solarposition.py.  Functions of time alone are over R (times are finite);
    functions of the site are over [fl].  One sample at a time; arrays, chunks and threads are modelled at the end. *)
From Verif Require Import Base.Fl Base.Py Model.SpaTables Model.SolarPosition.
From Coq Require Import ZArith.
Open Scope R_scope.
Open Scope list_scope.

(** spa.py:404-420.  int(x) truncates toward zero; 365.25 and 30.6001 are taken as the exact decimals. *)
Definition julian_day_dt (year month day hour minute second microsecond : Z) : R :=
  let '(year, month) := if (month <=? 2)%Z then (year - 1, month + 12)%Z else (year, month) in
  let a := Z.quot year 100 in
  let b := (2 - a + Z.quot a 4)%Z in
  let frac_of_day := (IZR microsecond / 1e6 + IZR (second + minute * 60 + hour * 3600)) * 1 / IZR (3600 * 24) in
  let d := IZR day + frac_of_day in
  let jd := IZR (Z.quot (1461 * (year + 4716)) 4) + IZR (Z.quot (306001 * (month + 1)) 10000) + d - 1524.5 in
  if Rltb 2299160 jd then jd + IZR b else jd.
(** spa.py:423-450 *)
Definition julian_day (unixtime : R) : R := unixtime * 1 / 86400 + 2440587.5.
Definition julian_ephemeris_day (julian_day delta_t : R) : R := julian_day + delta_t * 1 / 86400.
Definition julian_century (julian_day : R) : R := (julian_day - 2451545) * 1 / 36525.
Definition julian_ephemeris_century (jde : R) : R := (jde - 2451545) * 1 / 36525.
Definition julian_ephemeris_millennium (jce : R) : R := jce * 1 / 10.
(** spa.py:456-462 *)
Definition sum_mult_cos_add_mult (arr : list (R * R * R)) (x : R) : R :=
  fold_left (fun s row => let '(a, b, c) := row in s + a * cos (b + c * x)) arr 0.
(** spa.py:464-497 *)
Definition heliocentric_longitude (jme : R) : R :=
  let l0 := sum_mult_cos_add_mult L0_terms jme in let l1 := sum_mult_cos_add_mult L1_terms jme in
  let l2 := sum_mult_cos_add_mult L2_terms jme in let l3 := sum_mult_cos_add_mult L3_terms jme in
  let l4 := sum_mult_cos_add_mult L4_terms jme in let l5 := sum_mult_cos_add_mult L5_terms jme in
  let l_rad := (l0 + l1 * jme + l2 * jme ^ 2 + l3 * jme ^ 3 + l4 * jme ^ 4 + l5 * jme ^ 5) / 10 ^ 8 in
  Rmodp (Rdeg l_rad) 360.
Definition heliocentric_latitude (jme : R) : R :=
  let b0 := sum_mult_cos_add_mult B0_terms jme in let b1 := sum_mult_cos_add_mult B1_terms jme in
  Rdeg ((b0 + b1 * jme) / 10 ^ 8).
Definition heliocentric_radius_vector (jme : R) : R :=
  let r0 := sum_mult_cos_add_mult R0_terms jme in let r1 := sum_mult_cos_add_mult R1_terms jme in
  let r2 := sum_mult_cos_add_mult R2_terms jme in let r3 := sum_mult_cos_add_mult R3_terms jme in
  let r4 := sum_mult_cos_add_mult R4_terms jme in
  (r0 + r1 * jme + r2 * jme ^ 2 + r3 * jme ^ 3 + r4 * jme ^ 4) / 10 ^ 8.
(** spa.py:500-509 *)
Definition geocentric_longitude (heliocentric_longitude : R) : R := Rmodp (heliocentric_longitude + 180) 360.
Definition geocentric_latitude (heliocentric_latitude : R) : R := -1 * heliocentric_latitude.
(** spa.py:512-554 *)
Definition mean_elongation (jce : R) : R := 297.85036 + 445267.111480 * jce - 0.0019142 * jce ^ 2 + jce ^ 3 / 189474.
Definition mean_anomaly_sun (jce : R) : R := 357.52772 + 35999.050340 * jce - 0.0001603 * jce ^ 2 - jce ^ 3 / 300000.
Definition mean_anomaly_moon (jce : R) : R := 134.96298 + 477198.867398 * jce + 0.0086972 * jce ^ 2 + jce ^ 3 / 56250.
Definition moon_argument_latitude (jce : R) : R := 93.27191 + 483202.017538 * jce - 0.0036825 * jce ^ 2 + jce ^ 3 / 327270.
Definition moon_ascending_longitude (jce : R) : R := 125.04452 - 1934.136261 * jce + 0.0020708 * jce ^ 2 + jce ^ 3 / 450000.
(** spa.py:557-586 -> (delta_psi, delta_eps) *)
Definition longitude_obliquity_nutation (jce x0 x1 x2 x3 x4 : R) : R * R :=
  let '(psi, eps) := fold_left (fun acc row =>
      let '((y0, y1, y2, y3, y4), (a, b, c, d)) := row in
      let arg := Rrad (y0 * x0 + y1 * x1 + y2 * x2 + y3 * x3 + y4 * x4) in
      (fst acc + (a + b * jce) * sin arg, snd acc + (c + d * jce) * cos arg))
    (combine nutation_yterm nutation_abcd) (0, 0) in
  (psi * 1 / 36000000, eps * 1 / 36000000).
(** spa.py:589-604 *)
Definition mean_ecliptic_obliquity (jme : R) : R :=
  let U := 1 * jme / 10 in
  84381.448 - 4680.93 * U - 1.55 * U ^ 2 + 1999.25 * U ^ 3 - 51.38 * U ^ 4 - 249.67 * U ^ 5 - 39.05 * U ^ 6 + 7.12 * U ^ 7 + 27.87 * U ^ 8
  + 5.79 * U ^ 9 + 2.45 * U ^ 10.
Definition true_ecliptic_obliquity (e0 deleps : R) : R := e0 * 1 / 3600 + deleps.
(** spa.py:607-617 *)
Definition aberration_correction (earth_radius_vector : fl) : fl := (#(-20.4898) / (#3600 * earth_radius_vector))%fl.
Definition apparent_sun_longitude (geocentric_longitude longitude_nutation : R) (aberration_correction : fl) : fl :=
  (#geocentric_longitude + #longitude_nutation + aberration_correction)%fl.
(** spa.py:620-632 *)
Definition mean_sidereal_time (julian_day julian_century : R) : R :=
  Rmodp (280.46061837 + 360.98564736629 * (julian_day - 2451545) + 0.000387933 * julian_century ^ 2 - julian_century ^ 3 / 38710000) 360.
Definition apparent_sidereal_time (mean_sidereal_time longitude_nutation true_ecliptic_obliquity : R) : R :=
  mean_sidereal_time + longitude_nutation * cos (Rrad true_ecliptic_obliquity).
(** spa.py:635-661 *)
Definition geocentric_sun_right_ascension (lamd : fl) (epsilon beta : R) : fl :=
  (let e := fradians #epsilon in let l := fradians lamd in
   let num := fsin l * fcos e - ftan (fradians #beta) * fsin e in
   fmod (fdegrees (fatan2 num (fcos l))) #360)%fl.
Definition geocentric_sun_declination (lamd : fl) (epsilon beta : R) : fl :=
  (let b := fradians #beta in let e := fradians #epsilon in
   fdegrees (fasin (fsin b * fcos e + fcos b * fsin e * fsin (fradians lamd))))%fl.
(** spa.py:664-669 *)
Definition local_hour_angle (v : R) (observer_longitude alpha : fl) : fl := fmod (#v + observer_longitude - alpha)%fl #360.
(** spa.py:672-695 *)
Definition equatorial_horizontal_parallax (r : fl) : fl := (#8.794 / (#3600 * r))%fl.
Definition uterm (observer_latitude : fl) : fl := fatan (#0.99664719 * ftan (fradians observer_latitude))%fl.
Definition xterm (u observer_latitude observer_elevation : fl) : fl :=
  (fcos u + observer_elevation / #6378140 * fcos (fradians observer_latitude))%fl.
Definition yterm (u observer_latitude observer_elevation : fl) : fl :=
  (#0.99664719 * fsin u + observer_elevation / #6378140 * fsin (fradians observer_latitude))%fl.
(** spa.py:698-745 *)
Definition parallax_sun_right_ascension (x xi H delta : fl) : fl :=
  (let xi_r := fradians xi in let h := fradians H in
   let num := - x * fsin xi_r * fsin h in
   let denom := fcos (fradians delta) - x * fsin xi_r * fcos h in
   fdegrees (fatan2 num denom))%fl.
Definition topocentric_sun_declination (delta x y xi delta_alpha H : fl) : fl :=
  (let d := fradians delta in let xi_r := fradians xi in
   let num := (fsin d - y * fsin xi_r) * fcos (fradians delta_alpha) in
   let denom := fcos d - x * fsin xi_r * fcos (fradians H) in
   fdegrees (fatan2 num denom))%fl.
Definition topocentric_local_hour_angle (H delta_alpha : fl) : fl := (H - delta_alpha)%fl.
(** spa.py:748-761 *)
Definition topocentric_elevation_angle_without_atmosphere (observer_latitude delta_prime H_prime : fl) : fl :=
  (let p := fradians observer_latitude in let d := fradians delta_prime in
   fdegrees (fasin (fsin p * fsin d + fcos p * fcos d * fcos (fradians H_prime))))%fl.
(** spa.py:764-776: the boolean switch multiplies as 0 or 1 *)
Definition atmospheric_refraction_correction (local_pressure local_temp e0 atmos_refract : fl) : fl :=
  (let switch := fgeb e0 (#(-1) * (#0.26667 + atmos_refract)) in
   ((local_pressure / #1010) * (#283 / (#273 + local_temp)) * #1.02 / (#60 * ftan (fradians (e0 + #10.3 / (e0 + #5.11)))))
   * (if switch then #1 else #0))%fl.
(** spa.py:779-790 *)
Definition topocentric_elevation_angle (e0 delta_e : fl) : fl := (e0 + delta_e)%fl.
Definition topocentric_zenith_angle (e : fl) : fl := (#90 - e)%fl.
(** spa.py:793-811 *)
Definition topocentric_astronomers_azimuth (H_prime delta_prime observer_latitude : fl) : fl :=
  (let h := fradians H_prime in let p := fradians observer_latitude in
   let num := fsin h in
   let denom := fcos h * fsin p - ftan (fradians delta_prime) * fcos p in
   fmod (fdegrees (fatan2 num denom)) #360)%fl.
Definition topocentric_azimuth_angle (gamma : fl) : fl := fmod (gamma + #180)%fl #360.
(** spa.py:814-837 *)
Definition sun_mean_longitude (jme : R) : R :=
  280.4664567 + 360007.6982779 * jme + 0.03032028 * jme ^ 2 + jme ^ 3 / 49931 - jme ^ 4 / 15300 - jme ^ 5 / 2000000.
Definition spa_equation_of_time (m : R) (alpha : fl) (delta_psi epsilon : R) : fl :=
  (let E := #m - #0.0057183 - alpha + #delta_psi * fcos (fradians #epsilon) in
   let E := fmod E #360 in
   let E := E * #4 in
   let flag (b : bool) := if b then #1 else #0 in
   flag (fgtb E #20) * (E - #1440) + flag (fltb E #(-20)) * (E + #1440) + flag (fleb E #20 && fgeb E #(-20)) * E)%fl.

(** spa.py:853-890 and 976-1006: the part of the calculation that does not depend on the site *)
Record spa_time := SpaTime { spa_jme : R; spa_r : R; spa_lamd : fl; spa_beta : R; spa_epsilon : R; spa_dpsi : R; spa_v : R; spa_alpha : fl; spa_delta : fl }.
Definition spa_of_time (unixtime delta_t : R) : spa_time :=
  let jd := julian_day unixtime in
  let jde := julian_ephemeris_day jd delta_t in
  let jc := julian_century jd in
  let jce := julian_ephemeris_century jde in
  let jme := julian_ephemeris_millennium jce in
  let R := heliocentric_radius_vector jme in
  let L := heliocentric_longitude jme in
  let B := heliocentric_latitude jme in
  let Theta := geocentric_longitude L in
  let beta := geocentric_latitude B in
  let x0 := mean_elongation jce in
  let x1 := mean_anomaly_sun jce in
  let x2 := mean_anomaly_moon jce in
  let x3 := moon_argument_latitude jce in
  let x4 := moon_ascending_longitude jce in
  let '(delta_psi, delta_epsilon) := longitude_obliquity_nutation jce x0 x1 x2 x3 x4 in
  let epsilon0 := mean_ecliptic_obliquity jme in
  let epsilon := true_ecliptic_obliquity epsilon0 delta_epsilon in
  let delta_tau := aberration_correction #R in
  let lamd := apparent_sun_longitude Theta delta_psi delta_tau in
  let v0 := mean_sidereal_time jd jc in
  let v := apparent_sidereal_time v0 delta_psi epsilon in
  let alpha := geocentric_sun_right_ascension lamd epsilon beta in
  let delta := geocentric_sun_declination lamd epsilon beta in
  SpaTime jme R lamd beta epsilon delta_psi v alpha delta.
Record site := Site { s_lat : fl; s_lon : fl; s_elev : fl; s_pressure : fl; s_temp : fl; s_refract : fl }.
Record spa_out := SpaOut { o_theta : fl; o_theta0 : fl; o_e : fl; o_e0 : fl; o_phi : fl; o_eot : fl }.
(** spa.py:891-916 and 1007-1026 *)
Definition spa_at (s : site) (w : spa_time) : spa_out :=
  let lat := s_lat s in
  let m := sun_mean_longitude (spa_jme w) in
  let eot := spa_equation_of_time m (spa_alpha w) (spa_dpsi w) (spa_epsilon w) in
  let H := local_hour_angle (spa_v w) (s_lon s) (spa_alpha w) in
  let xi := equatorial_horizontal_parallax #(spa_r w) in
  let u := uterm lat in
  let x := xterm u lat (s_elev s) in
  let y := yterm u lat (s_elev s) in
  let delta_alpha := parallax_sun_right_ascension x xi H (spa_delta w) in
  let delta_prime := topocentric_sun_declination (spa_delta w) x y xi delta_alpha H in
  let H_prime := topocentric_local_hour_angle H delta_alpha in
  let e0 := topocentric_elevation_angle_without_atmosphere lat delta_prime H_prime in
  let delta_e := atmospheric_refraction_correction (s_pressure s) (s_temp s) e0 (s_refract s) in
  let e := topocentric_elevation_angle e0 delta_e in
  let theta := topocentric_zenith_angle e in
  let theta0 := topocentric_zenith_angle e0 in
  let gamma := topocentric_astronomers_azimuth H_prime delta_prime lat in
  let phi := topocentric_azimuth_angle gamma in
  SpaOut theta theta0 e e0 phi eot.

(** *** arrays and threads *)
(** which of the three results is asked for (sst, esd; no caller sets both) *)
Inductive spa_mode := Full | Sst | Esd.
Definition spa_dims (m : spa_mode) : nat := match m with Full => 6 | Sst => 3 | Esd => 1 end.
(** one column of the result, top to bottom *)
Definition spa_column (m : spa_mode) (s : site) (unixtime delta_t : R) : list fl :=
  let w := spa_of_time unixtime delta_t in
  match m with
  | Esd => [#(spa_r w)]
  | Sst => [#(spa_v w); spa_alpha w; spa_delta w]
  | Full => let o := spa_at s w in [o_theta o; o_theta0 o; o_e o; o_e0 o; o_phi o; o_eot o]
  end.
(** spa.py:969-1026 solar_position_numpy: the columns *)
Definition solar_position_numpy (m : spa_mode) (s : site) (samples : list (R * R)) : list (list fl) :=
  map (fun p => spa_column m s (fst p) (snd p)) samples.
(** a write to cell (row, column) of the shared result array *)
Record write := Write { w_row : nat; w_col : nat; w_val : fl }.
(** spa.py:840-916 solar_position_loop on a chunk that starts at column [start] of the result: the writes it makes, in order *)
Fixpoint loop_writes (m : spa_mode) (s : site) (start : nat) (chunk : list (R * R)) : list write :=
  match chunk with
  | [] => []
  | (t, dt) :: rest =>
    map (fun p => Write (fst p) start (snd p)) (combine (seq 0 (spa_dims m)) (spa_column m s t dt)) ++ loop_writes m s (S start) rest
  end.
(** numpy.array_split: n items in k sections, the first n mod k of them one longer *)
Definition split_sizes (n k : nat) : list nat := repeat (S (Nat.div n k)) (Nat.modulo n k) ++ repeat (Nat.div n k) (Nat.sub k (Nat.modulo n k)).
Fixpoint split_at {A} (start : nat) (sizes : list nat) (l : list A) : list (nat * list A) :=
  match sizes with
  | [] => []
  | n :: rest => (start, firstn n l) :: split_at (Nat.add start n) rest (skipn n l)
  end.
Definition array_split {A} (l : list A) (k : nat) : list (nat * list A) := split_at 0 (split_sizes (length l) k) l.
(** spa.py:919-966 solar_position_numba: the writes of each thread; one entry when the loop runs in the calling thread *)
Definition numba_threads (m : spa_mode) (s : site) (samples : list (R * R)) (numthreads : nat) : list (list write) :=
  let ulength := length samples in
  let numthreads := if (ulength <? numthreads)%nat then ulength else numthreads in
  if (numthreads <=? 1)%nat then [loop_writes m s 0 samples]
  else map (fun c => loop_writes m s (fst c) (snd c)) (array_split samples numthreads).
(** the threads' writes reach memory in some order that respects each thread's own *)
Inductive interleaving {A} : list (list A) -> list A -> Prop :=
| inter_nil : forall ts, Forall (fun t => t = []) ts -> interleaving ts []
| inter_step : forall before w t after rest, interleaving (before ++ t :: after) rest -> interleaving (before ++ (w :: t) :: after) (w :: rest).
Definition memory := nat -> nat -> fl.
Definition store (mem : memory) (w : write) : memory :=
  fun r c => if ((r =? w_row w) && (c =? w_col w))%nat then w_val w else mem r c.
Definition run (mem : memory) (ws : list write) : memory := fold_left store ws mem.

(** *** spa.py:1248-1373 calculate_deltat for a numeric year and month *)
Definition calculate_deltat (year : Z) (month : R) : R :=
  let Y := IZR year in
  let y := Y + (month - 0.5) / 12 in
  let deltat := if Rltb Y (-500) then -20 + 32 * ((y - 1820) / 100) ^ 2 else 0 in
  let deltat := if Rleb (-500) Y && Rltb Y 500 then
      10583.6 - 1014.41 * (y / 100) + 33.78311 * (y / 100) ^ 2 - 5.952053 * (y / 100) ^ 3 - 0.1798452 * (y / 100) ^ 4
      + 0.022174192 * (y / 100) ^ 5 + 0.0090316521 * (y / 100) ^ 6 else deltat in
  let deltat := if Rleb 500 Y && Rltb Y 1600 then
      1574.2 - 556.01 * ((y - 1000) / 100) + 71.23472 * ((y - 1000) / 100) ^ 2 + 0.319781 * ((y - 1000) / 100) ^ 3
      - 0.8503463 * ((y - 1000) / 100) ^ 4 - 0.005050998 * ((y - 1000) / 100) ^ 5 + 0.0083572073 * ((y - 1000) / 100) ^ 6 else deltat in
  let deltat := if Rleb 1600 Y && Rltb Y 1700 then
      120 - 0.9808 * (y - 1600) - 0.01532 * (y - 1600) ^ 2 + (y - 1600) ^ 3 / 7129 else deltat in
  let deltat := if Rleb 1700 Y && Rltb Y 1800 then
      8.83 + 0.1603 * (y - 1700) - 0.0059285 * (y - 1700) ^ 2 + 0.00013336 * (y - 1700) ^ 3 - (y - 1700) ^ 4 / 1174000 else deltat in
  let deltat := if Rleb 1800 Y && Rltb Y 1860 then
      13.72 - 0.332447 * (y - 1800) + 0.0068612 * (y - 1800) ^ 2 + 0.0041116 * (y - 1800) ^ 3 - 0.00037436 * (y - 1800) ^ 4
      + 0.0000121272 * (y - 1800) ^ 5 - 0.0000001699 * (y - 1800) ^ 6 + 0.000000000875 * (y - 1800) ^ 7 else deltat in
  let deltat := if Rleb 1860 Y && Rltb Y 1900 then
      7.62 + 0.5737 * (y - 1860) - 0.251754 * (y - 1860) ^ 2 + 0.01680668 * (y - 1860) ^ 3 - 0.0004473624 * (y - 1860) ^ 4
      + (y - 1860) ^ 5 / 233174 else deltat in
  let deltat := if Rleb 1900 Y && Rltb Y 1920 then
      -2.79 + 1.494119 * (y - 1900) - 0.0598939 * (y - 1900) ^ 2 + 0.0061966 * (y - 1900) ^ 3 - 0.000197 * (y - 1900) ^ 4 else deltat in
  let deltat := if Rleb 1920 Y && Rltb Y 1941 then
      21.20 + 0.84493 * (y - 1920) - 0.076100 * (y - 1920) ^ 2 + 0.0020936 * (y - 1920) ^ 3 else deltat in
  let deltat := if Rleb 1941 Y && Rltb Y 1961 then
      29.07 + 0.407 * (y - 1950) - (y - 1950) ^ 2 / 233 + (y - 1950) ^ 3 / 2547 else deltat in
  let deltat := if Rleb 1961 Y && Rltb Y 1986 then
      45.45 + 1.067 * (y - 1975) - (y - 1975) ^ 2 / 260 - (y - 1975) ^ 3 / 718 else deltat in
  let deltat := if Rleb 1986 Y && Rltb Y 2005 then
      63.86 + 0.3345 * (y - 2000) - 0.060374 * (y - 2000) ^ 2 + 0.0017275 * (y - 2000) ^ 3 + 0.000651814 * (y - 2000) ^ 4
      + 0.00002373599 * (y - 2000) ^ 5 else deltat in
  let deltat := if Rleb 2005 Y && Rltb Y 2050 then 62.92 + 0.32217 * (y - 2000) + 0.005589 * (y - 2000) ^ 2 else deltat in
  let deltat := if Rleb 2050 Y && Rltb Y 2150 then -20 + 32 * ((y - 1820) / 100) ^ 2 - 0.5628 * (2150 - y) else deltat in
  let deltat := if Rleb 2150 Y then -20 + 32 * ((y - 1820) / 100) ^ 2 else deltat in
  deltat.

(** *** spa.py:1108-1211 transit_sunrise_sunset.  [sst t dt] is (v, alpha, delta) from solar_position(..., sst=True). *)
Definition wrap2 (a : fl) : fl := if fgtb (fabs a) #2 then fmod a #1 else a.
(** 1175-1190: alpha_prime, delta_prime, Hp, h at the day fraction [m]; [b] and [a] are the limited differences *)
Definition srs_prime (x0 a b delta_t m : fl) : fl := (let n := m + delta_t / #86400 in x0 + (n * (a + b + (b - a) * n)) / #2)%fl.
Definition srs_hp (v lon m alpha_prime : fl) : fl :=
  (let Hp := fmod (v + #360.985647 * m + lon - alpha_prime) #360 in if fgeb Hp #180 then Hp - #360 else Hp)%fl.
Definition srs_h (lat delta_prime Hp : fl) : fl :=
  fdegrees (fasin (fsin (fradians lat) * fsin (fradians delta_prime) + fcos (fradians lat) * fcos (fradians delta_prime) * fcos (fradians Hp)))%fl.
(** 1192-1205: sunrise or sunset from the approximate fraction *)
Definition srs_corr (lat m delta_prime Hp h : fl) : fl :=
  ((m + (h + #0.8333) / (#360 * fcos (fradians delta_prime) * fcos (fradians lat) * fsin (fradians Hp))) * #86400)%fl.
Definition srs_day (sst : R -> R -> fl * fl * fl) (lat lon : fl) (date delta_t : R) : fl * fl * fl :=
  (let utday := (Rfloor (date / 86400) * 86400)%R in
   let ttday0 := (utday - delta_t)%R in
   let ttdayn1 := (ttday0 - 86400)%R in
   let ttdayp1 := (ttday0 + 86400)%R in
   let v := fst (fst (sst utday delta_t)) in
   let '(_, alpha0, delta0) := sst ttday0 delta_t in
   let '(_, alphan, deltan) := sst ttdayn1 delta_t in
   let '(_, alphap, deltap) := sst ttdayp1 delta_t in
   let m0 := (alpha0 - lon - v) / #360 in
   let cos_arg := (fsin (fradians #(-0.8333)) - fsin (fradians lat) * fsin (fradians delta0)) / (fcos (fradians lat) * fcos (fradians delta0)) in
   let cos_arg := if fgtb (fabs cos_arg) #1 then NaN else cos_arg in
   let H0 := fmod (fdegrees (facos cos_arg)) #180 in
   let mt := fmod m0 #1 in
   let mr := mt - H0 / #360 in
   let ms := mt + H0 / #360 in
   let add_a_day := fgeb ms #1 in
   let sub_a_day := fltb mr #0 in
   let mr := fmod mr #1 in
   let ms := fmod ms #1 in
   let a := wrap2 (alpha0 - alphan) in
   let ap := wrap2 (delta0 - deltan) in
   let b := wrap2 (alphap - alpha0) in
   let bp := wrap2 (deltap - delta0) in
   let alpha_prime := srs_prime alpha0 a b #delta_t in
   let delta_prime := srs_prime delta0 ap bp #delta_t in
   let Hp m := srs_hp v lon m (alpha_prime m) in
   let corr m := srs_corr lat m (delta_prime m) (Hp m) (srs_h lat (delta_prime m) (Hp m)) in
   let T := (mt - Hp mt / #360) * #86400 in
   let R := corr mr in
   let S := corr ms in
   let S := if add_a_day then S + #86400 else S in
   let R := if sub_a_day then R - #86400 else R in
   (T + #utday, R + #utday, S + #utday))%fl.
Definition spa_sst (unixtime delta_t : R) : fl * fl * fl :=
  let w := spa_of_time unixtime delta_t in (#(spa_v w), spa_alpha w, spa_delta w).
(** 1134-1135: the check is over the whole array *)
Definition transit_sunrise_sunset (dates : list (R * R)) (lat lon : fl) : res (list (fl * fl * fl)) :=
  if existsb (fun d => negb (Reqb (Rmodp (fst d) 86400) 0)) dates then Err ValueError
  else Ok (map (fun d => srs_day spa_sst lat lon (fst d) (snd d)) dates).

(** *** wrappers in solarposition.py *)
(** solarposition.py:238-265 _spa_python_import and spa.py:18-35.  State of the process: the environment variable PVLIB_USE_NUMBA and
    the flag of the imported module; [numba] tells whether numba can be imported. *)
Record pystate := PyState { env_use_numba : option string; module_numba : bool }.
Definition reload_spa (numba : bool) (env : option string) : bool :=
  match env with
  | None => false
  | Some v => if String.eqb v "0" then false else numba
  end.
Definition spa_python_import (numba : bool) (how : string) (st : pystate) : res pystate :=
  if String.eqb how "numpy" && module_numba st then Ok (PyState None (reload_spa numba (Some "0"%string)))
  else if String.eqb how "numba" && negb (module_numba st) then Ok (PyState None (reload_spa numba (Some "1"%string)))
  else if negb (String.eqb how "numba") && negb (String.eqb how "numpy") then Err ValueError
  else Ok st.
(** solarposition.py:281-390 spa_python for one sample: [delta_t] None means the estimate for the UTC year and month; atmos_refract None
    and 0 are both replaced.  [calc] is solar_position. *)
Definition spa_python_site (latitude longitude altitude pressure temperature : fl) (atmos_refract : option fl) : site :=
  let refract := match atmos_refract with None => #0.5667 | Some r => if feqb r #0 then #0.5667 else r end in
  Site latitude longitude altitude (pressure / #100)%fl temperature refract.
Definition default_deltat (delta_t : option R) (utc_year : Z) (utc_month : R) : R :=
  match delta_t with Some d => d | None => calculate_deltat utc_year utc_month end.
Record spa_frame := SpaFrame { f_apparent_zenith : fl; f_zenith : fl; f_apparent_elevation : fl; f_elevation : fl; f_azimuth : fl; f_equation_of_time : fl }.
Definition spa_python_at (latitude longitude altitude pressure temperature : fl) (delta_t : option R) (atmos_refract : option fl)
    (unixtime : R) (utc_year : Z) (utc_month : R) : spa_frame :=
  let o := spa_at (spa_python_site latitude longitude altitude pressure temperature atmos_refract)
                  (spa_of_time unixtime (default_deltat delta_t utc_year utc_month)) in
  SpaFrame (o_theta o) (o_theta0 o) (o_e o) (o_e0 o) (o_phi o) (o_eot o).
(** solarposition.py:393-484 sun_rise_set_transit_spa for one time stamp [t] (ns): (sunrise, sunset, transit) in ns *)
Definition sun_rise_set_transit_spa (tz : option zone) (t : Z) (latitude longitude : fl) (delta_t : option R) (utc_year : Z) (utc_month : R)
    : res (fl * fl * fl) :=
  match tz with
  | None => Err ValueError
  | Some z =>
    let unixtime := IZR (wall_midnight z t) / 1000000000 in
    let* r := transit_sunrise_sunset [(unixtime, default_deltat delta_t utc_year utc_month)] latitude longitude in
    match r with
    | [(transit, sunrise, sunset)] => Ok (sunrise * #1e9, sunset * #1e9, transit * #1e9)%fl
    | _ => Err ValueError
    end
  end.
(** solarposition.py:978-1034 and spa.py:1214-1245 *)
Definition nrel_earthsun_distance (unixtime : R) (delta_t : option R) (utc_year : Z) (utc_month : R) : R :=
  spa_r (spa_of_time unixtime (default_deltat delta_t utc_year utc_month)).
