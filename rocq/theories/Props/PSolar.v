(** C103-C107: solar position (analytical, clocks, ephemeris, dispatch). *)
From Verif Require Import Base.Fl Base.FlFacts Base.Py Base.Trig Model.Atmosphere Model.SolarPosition Spec.SolarSpec Proofs.SolarP Proofs.EphemP.
From Coq Require Import ZArith Psatz.
Open Scope R_scope.

Lemma Ok_inj {A} (a b : A) : Ok a = Ok b -> a = b. Proof. congruence. Qed.

(** ** C103: analytical zenith and azimuth are the direction of the sun *)
Theorem C103_zenith : forall p d h, exists z, solar_zenith_analytical #p #h #d = #z /\ 0 <= z <= PI /\ cos z = sun_up p d h.
Proof.
  intros p d h. exists (acos (sun_up p d h)). split; [apply zenith_fin|]. split; [apply acos_bound|]. apply cos_acos, sun_up_bound.
Qed.
Print Assumptions C103_zenith.
(** morning and afternoon, away from the snapping at due north and due south *)
Theorem C103_azimuth : forall p d h z, 0 < cos p -> 0 <= cos d -> - PI < h < PI -> h <> 0 ->
  solar_zenith_analytical #p #h #d = #z -> 1e-8 < sin z * cos p -> -1 + 1e-8 < sun_north p d h / sin z < 1 - 1e-8 ->
  exists az, solar_azimuth_analytical #p #h #d #z = #az /\ 0 <= az <= 2 * PI /\
  points_to az (PI / 2 - z) (sun_east p d h) (sun_north p d h) (sun_up p d h).
Proof.
  intros p d h z P D Hh H0 Z S R1. rewrite zenith_fin in Z. apply Fin_inj in Z. subst z.
  eexists. split; [rewrite <- zenith_fin; apply (azimuth_of_sun p d h P S)|]. split; [apply az_range|].
  destruct (az_exact p d h S H0 R1) as [N E].
  unfold points_to. rewrite cos_shift, sin_shift. repeat split.
  - rewrite E. rewrite (east_sgn p d h 1) by (exact D || (rewrite sgn_sin by exact Hh; ring)). ring.
  - exact N.
  - apply cos_acos, sun_up_bound.
Qed.
Print Assumptions C103_azimuth.
(** with the snapping: never off by more than the tolerance it introduces *)
Theorem C103_azimuth_tolerance : forall p d h z, 0 < cos p -> 0 <= cos d -> - PI < h < PI -> h <> 0 ->
  solar_zenith_analytical #p #h #d = #z -> 1e-8 < sin z * cos p ->
  exists az, solar_azimuth_analytical #p #h #d #z = #az /\ 0 <= az <= 2 * PI /\
  Rabs (sin z * cos az - sun_north p d h) <= 1e-8 /\ Rabs (sin z * sin az - sun_east p d h) <= 0.00015.
Proof.
  intros p d h z P D Hh H0 Z S. rewrite zenith_fin in Z. apply Fin_inj in Z. subst z.
  eexists. split; [rewrite <- zenith_fin; apply (azimuth_of_sun p d h P S)|]. split; [apply az_range|].
  split; [apply (az_near p d h S H0)|].
  set (z := acos (sun_up p d h)) in *. set (N := sun_north p d h) in *. set (E := sun_east p d h).
  pose proof (sin_z_pos p d h S) as Zp. fold z in Zp.
  assert (SQ : sin z * sin z = E * E + N * N) by apply sin_z_sqr.
  assert (SB : sin z <= 1) by apply SIN_bound.
  assert (Snapped : snap (- (N / sin z)) = - (N / sin z) \/ (sin (acos (snap (- (N / sin z)))) = 0 /\ E * E <= 2e-8)).
  { assert (Q : sin z * (N / sin z) = N) by (field; lra). set (c := N / sin z) in *.
    assert (Ec : E * E = sin z * sin z * (1 - c * c)) by (rewrite <- Q in SQ; lra).
    assert (Z2 : 0 < sin z * sin z <= 1) by (split; nra).
    unfold snap. destruct (Rleb_spec (Rabs (- c - 1)) 1e-8) as [K|K].
    - right. rewrite acos_1, sin_0. split; [reflexivity|]. apply Rabs_le_inv in K.
      assert (1 - c * c <= 2e-8) by nra. rewrite Ec. destruct (Rle_lt_dec 0 (1 - c * c)); nra.
    - destruct (Rleb_spec (Rabs (- c - -1)) 1e-8) as [L|L]; [|left; reflexivity]. right.
      replace (-1) with (- (1)) by ring. rewrite acos_opp, acos_1. replace (PI - 0) with PI by ring. rewrite sin_PI. split; [reflexivity|]. apply Rabs_le_inv in L.
      assert (1 - c * c <= 2e-8) by nra. rewrite Ec. destruct (Rle_lt_dec 0 (1 - c * c)); nra. }
  rewrite neg_sin, sin_sgn. destruct Snapped as [-> | [-> EE]].
  - pose proof (sin_part p d h S) as SP. fold z N E in SP.
    replace (sin z * - (sgn h * sin (acos (- (N / sin z))))) with (- (sgn h * Rabs E)) by (rewrite <- SP; ring).
    unfold E. rewrite (east_sgn p d h 1) by (exact D || (rewrite sgn_sin by exact Hh; ring)).
    rewrite Rmult_1_l, Rminus_diag_eq, Rabs_R0 by reflexivity. lra.
  - replace (sin z * - (sgn h * 0) - E) with (- E) by ring. rewrite Rabs_Ropp. apply Rabs_le. split; nra.
Qed.
Print Assumptions C103_azimuth_tolerance.
Theorem C103_azimuth_vertical : forall p h d z, Rabs (sin z * cos p) <= 1e-8 -> solar_azimuth_analytical #p #h #d #z = #PI.
Proof. exact azimuth_vertical. Qed.
Print Assumptions C103_azimuth_vertical.
Theorem C103_azimuth_range : forall p h d z, within #0 #(2 * PI) (solar_azimuth_analytical #p #h #d #z).
Proof. exact azimuth_range. Qed.
Print Assumptions C103_azimuth_range.
Theorem C103_nan : forall p h d z,
  solar_zenith_analytical NaN h d = NaN /\ solar_zenith_analytical p NaN d = NaN /\ solar_zenith_analytical p h NaN = NaN /\
  solar_azimuth_analytical NaN h d z = NaN /\ solar_azimuth_analytical p NaN d z = NaN /\ solar_azimuth_analytical p h d NaN = NaN.
Proof.
  assert (NL : forall x, fmul x NaN = NaN) by (intros []; reflexivity). assert (AL : forall x, fadd x NaN = NaN) by (intros []; reflexivity).
  assert (DL : forall x, fdiv x NaN = NaN) by (intros []; reflexivity).
  assert (IC : forall x, isclose8 NaN x = false) by (intros []; reflexivity).
  intros p h d z. unfold solar_zenith_analytical, solar_azimuth_analytical, fsub. cbn [fcos fsin fsign]. cbv zeta.
  rewrite ?NL, ?AL. cbn [fmul fadd]. rewrite ?NL, ?AL. cbn [fneg fadd fdiv]. rewrite ?DL, ?IC. unfold where_. rewrite ?IC. cbn [facos]. rewrite ?NL.
  repeat split; try reflexivity.
Qed.
Print Assumptions C103_nan.
(** at solar noon the function always answers "south" *)
Theorem C103_noon : forall p d z, 0 < cos p -> solar_zenith_analytical #p #0 #d = #z -> solar_azimuth_analytical #p #0 #d #z = #PI.
Proof.
  intros p d z P Z. rewrite zenith_fin in Z. apply Fin_inj in Z. subst z.
  destruct (Rle_lt_dec (Rabs (sin (acos (sun_up p d 0)) * cos p)) 1e-8) as [K|K].
  - apply azimuth_vertical, K.
  - rewrite Rabs_right in K by (apply Rle_ge, Rmult_le_pos; [apply sin_z_nonneg | lra]).
    rewrite <- zenith_fin. rewrite (azimuth_of_sun p d 0 P K). f_equal. unfold sgn. rewrite !Rltb_f by lra. ring.
Qed.
Print Assumptions C103_noon.
(** ... which is wrong when the noon sun stands in the north *)
Theorem C103_noon_north_refuted : ~ (forall p d z, 0 < cos p -> 0 <= cos d -> solar_zenith_analytical #p #0 #d = #z -> 1e-8 < sin z * cos p ->
  exists az, solar_azimuth_analytical #p #0 #d #z = #az /\ sin z * cos az = sun_north p d 0).
Proof.
  intros H. pose proof PI_3141 as P.
  specialize (H 0 0.4 (acos (sun_up 0 0.4 0))). rewrite cos_0 in H.
  assert (U : sun_up 0 0.4 0 = cos 0.4) by (unfold sun_up; rewrite sin_0, !cos_0; ring).
  assert (A : acos (sun_up 0 0.4 0) = 0.4) by (rewrite U; apply acos_cos; lra).
  assert (S : 0.2 < sin 0.4).
  { pose proof (SIN_bound 0.4). assert (T : 0.4 * cos 0.4 <= sin 0.4).
    { pose proof (tan_ge 0.4 ltac:(lra)) as T. unfold tan in T. assert (C : 0 < cos 0.4) by (apply cos_gt_0; lra).
      apply Rmult_le_compat_r with (r := cos 0.4) in T; [|lra]. unfold Rdiv in T. rewrite Rmult_assoc, Rinv_l, Rmult_1_r in T by lra. exact T. }
    assert (C : cos (PI / 3) < cos 0.4) by (apply cos_decreasing_1; lra). rewrite cos_PI3 in C. lra. }
  destruct H as (az & E & F).
  - lra.
  - apply cos_ge_0; lra.
  - rewrite zenith_fin. reflexivity.
  - rewrite A. lra.
  - assert (E2 : solar_azimuth_analytical #0 #0 #0.4 #(acos (sun_up 0 0.4 0)) = #PI).
    { apply C103_noon; [rewrite cos_0; lra | apply zenith_fin]. }
    rewrite E2 in E. apply Fin_inj in E. subst az. rewrite A, cos_PI in F. unfold sun_north in F. rewrite sin_0, cos_0 in F. lra.
Qed.
Print Assumptions C103_noon_north_refuted.
(** hour angles past midnight (more than half a turn) give the mirror image *)
Theorem C103_past_midnight_mirrored : forall p d h z, 0 < cos p -> 0 <= cos d -> PI < h < 2 * PI ->
  solar_zenith_analytical #p #h #d = #z -> 1e-8 < sin z * cos p -> -1 + 1e-8 < sun_north p d h / sin z < 1 - 1e-8 ->
  exists az, solar_azimuth_analytical #p #h #d #z = #az /\
  points_to az (PI / 2 - z) (- sun_east p d h) (sun_north p d h) (sun_up p d h).
Proof.
  intros p d h z P D Hh Z S R1. rewrite zenith_fin in Z. apply Fin_inj in Z. subst z.
  eexists. split; [rewrite <- zenith_fin; apply (azimuth_of_sun p d h P S)|]. pose proof PI_RGT_0.
  destruct (az_exact p d h S) as [N E]; [lra | exact R1|].
  unfold points_to. rewrite cos_shift, sin_shift. repeat split.
  - rewrite E. rewrite (east_sgn p d h (-1)) by (exact D || (rewrite sgn_sin_far by exact Hh; ring)). ring.
  - exact N.
  - apply cos_acos, sun_up_bound.
Qed.
Print Assumptions C103_past_midnight_mirrored.
(** the hypotheses of C103_azimuth are met: equator, equinox, mid-afternoon with the sun north-west at declination 0.4 *)
Example C103_witness : let p := 0 in let d := PI / 4 in let h := PI / 4 in let z := acos (sun_up p d h) in
  solar_zenith_analytical #p #h #d = #z /\ 1e-8 < sin z * cos p /\ -1 + 1e-8 < sun_north p d h / sin z < 1 - 1e-8.
Proof.
  intros p d h z. split; [apply zenith_fin|].
  assert (C : cos (PI / 4) * cos (PI / 4) = / 2).
  { pose proof (sin2cos2 (PI / 4)) as T. rewrite <- sin_cos_PI4 in *. lra. }
  assert (U : sun_up p d h = / 2) by (unfold sun_up, p, d, h; rewrite sin_0, cos_0; lra).
  assert (Cz : cos z = / 2) by (unfold z; rewrite U; apply cos_acos; lra).
  assert (Sz : 0 <= sin z) by apply sin_z_nonneg.
  assert (S2 : sin z * sin z = 3 / 4) by (pose proof (sin2cos2 z) as T; rewrite Cz in T; lra).
  assert (Sb : 0.86 < sin z < 0.87) by (split; nra).
  assert (N2 : sun_north p d h * sun_north p d h = / 2).
  { unfold sun_north, p, d, h. rewrite sin_0, cos_0, sin_cos_PI4. lra. }
  assert (Np : 0 <= sun_north p d h).
  { unfold sun_north, p, d, h. rewrite sin_0, cos_0. assert (0 < sin (PI / 4)) by (pose proof PI_3141; apply sin_gt_0; lra). lra. }
  assert (Nb : 0.7 < sun_north p d h < 0.71) by (split; nra).
  unfold p at 1. rewrite cos_0. split; [lra|].
  set (n := sun_north p d h) in *. assert (Q : n / sin z * sin z = n) by (field; lra). set (q := n / sin z) in *. split; nra.
Qed.

(** ** C104: declination and equation of time *)
Theorem C104_published : forall n, let g := year_angle n in
  declination_cooper69 #n = #(23.45 * sin (2 * PI * (284 + n) / 365) * PI / 180) /\
  declination_spencer71 #n = #(0.006918 - 0.399912 * cos g + 0.070257 * sin g - 0.006758 * cos (2 * g) + 0.000907 * sin (2 * g)
                               - 0.002697 * cos (3 * g) + 0.00148 * sin (3 * g)) /\
  equation_of_time_spencer71 #n = #(1440 / 2 / PI * (0.0000075 + 0.001868 * cos g - 0.032077 * sin g - 0.014615 * cos (2 * g) - 0.040849 * sin (2 * g))) /\
  equation_of_time_pvcdrom #n = #(let b := 2 * PI / 365 * (n - 81) in 9.87 * sin (2 * b) - 7.53 * cos b - 1.5 * sin b).
Proof.
  intros n g. assert (G : g = gam n) by (unfold g, year_angle, gam; field). rewrite G.
  repeat split; [apply decl_cooper_fin | apply decl_spencer_fin | apply eot_spencer_fin | apply eot_pvcdrom_fin].
Qed.
Print Assumptions C104_published.
Theorem C104_bounds : forall n,
  (exists v, declination_cooper69 #n = #v /\ Rabs (v * 180 / PI) <= 23.45) /\
  (exists v, declination_spencer71 #n = #v /\ - 0.4091 <= v <= 0.4229) /\
  (exists v, equation_of_time_spencer71 #n = #v /\ Rabs v <= 17.4) /\
  (exists v, equation_of_time_pvcdrom #n = #v /\ Rabs v <= 17.6).
Proof.
  intros n. repeat split.
  - destruct (decl_cooper_bound n) as (v & E & B). exists (Rrad v). split; [exact E|]. change (Rrad v * 180 / PI) with (Rdeg (Rrad v)). rewrite Rdeg_rad. apply Rabs_le. lra.
  - apply decl_spencer_bound.
  - destruct (eot_spencer_bound n) as (v & E & B). exists v. split; [exact E|]. apply Rabs_le. lra.
  - destruct (eot_pvcdrom_bound n) as (v & E & B). exists v. split; [exact E|]. apply Rabs_le. lra.
Qed.
Print Assumptions C104_bounds.
Theorem C104_yearly : forall n,
  equation_of_time_spencer71 #(n + 365) = equation_of_time_spencer71 #n /\ equation_of_time_pvcdrom #(n + 365) = equation_of_time_pvcdrom #n /\
  declination_spencer71 #(n + 365) = declination_spencer71 #n /\ declination_cooper69 #(n + 365) = declination_cooper69 #n.
Proof. exact eot_decl_year. Qed.
Print Assumptions C104_yearly.
(** Cooper: equinoxes at days 81 and 263.5, northern summer between *)
Theorem C104_seasons : declination_cooper69 #81 = #0 /\ forall n v, declination_cooper69 #n = #v -> (81 < n < 263.5 -> 0 < v) /\ (263.5 < n < 446 -> v < 0).
Proof.
  pose proof PI_3141 as P. split.
  - rewrite decl_cooper_fin. f_equal. replace (2 * PI * (284 + 81) / 365) with (2 * PI) by field. rewrite sin_2PI, Rmult_0_r. apply Rrad_0.
  - intros n v E. rewrite decl_cooper_fin in E. apply Fin_inj in E. subst v.
    assert (A : sin (2 * PI * (284 + n) / 365) = sin (2 * PI / 365 * (n - 81))).
    { rewrite <- (sin_period (2 * PI / 365 * (n - 81)) 1). f_equal. simpl. field. }
    rewrite A. unfold Rrad. split; intros B.
    + assert (0 < sin (2 * PI / 365 * (n - 81))) by (apply sin_gt_0; nra). nra.
    + assert (sin (2 * PI / 365 * (n - 81)) < 0) by (apply sin_lt_0; nra). nra.
Qed.
Print Assumptions C104_seasons.

(** ** C105: hour angle, its inverse, and geometric sunrise, sunset and transit *)
(** the local clock has kept one offset from local midnight to [t]; [u] is the instant of local midnight *)
Definition steady (z : zone) (t u : Z) : Prop := (wall_midnight z t - u)%Z = utcoffset z t.
Theorem C105_naive : forall t lon eot lat dec h,
  hour_angle None t lon eot = Err ValueError /\ hour_angle_to_hours None t h lon eot = Err ValueError /\
  sun_rise_set_transit_geometric None t lat lon dec eot = Err ValueError.
Proof. repeat split. Qed.
Print Assumptions C105_naive.
Theorem C105_hour_angle : forall z t u lon eot, localize_forward z (wall_midnight z t) = Ok u -> steady z t u ->
  exists a, hour_angle (Some z) t #lon #eot = Ok #a /\ same_angle a (solar_hour_angle (hours t) lon eot).
Proof.
  intros z t u lon eot H S. destruct (hour_angle_eq z t lon eot u H) as (k & E). eexists. split; [exact E|]. exists k.
  unfold steady in S. rewrite S. ring.
Qed.
Print Assumptions C105_hour_angle.
(** in general the result is off by 15 degrees for every hour the clock was moved since midnight *)
Theorem C105_hour_angle_offset_change : forall z t u lon eot, localize_forward z (wall_midnight z t) = Ok u ->
  exists a, hour_angle (Some z) t #lon #eot = Ok #a /\
  same_angle a (solar_hour_angle (hours t) lon eot + 15 * (hours (wall_midnight z t - u) - hours (utcoffset z t))).
Proof.
  intros z t u lon eot H. destruct (hour_angle_eq z t lon eot u H) as (k & E). eexists. split; [exact E|]. exists k. reflexivity.
Qed.
Print Assumptions C105_hour_angle_offset_change.
(** US Mountain time on a spring-forward day: -7h until 09:00 UTC, -6h afterwards; t is 18:00 UTC *)
Definition dst_zone : zone :=
  let off t := (if t <? 9 * 3600000000000 then -7 * 3600000000000 else -6 * 3600000000000)%Z in
  Zone off (fun w => Ok (w + 7 * 3600000000000)%Z) (fun w => Ok (w + 7 * 3600000000000)%Z).
Theorem C105_dst_day_refuted : ~ (forall z t u lon eot, localize_forward z (wall_midnight z t) = Ok u ->
  (u + utcoffset z u = wall_midnight z t)%Z ->
  exists a, hour_angle (Some z) t #lon #eot = Ok #a /\ same_angle a (solar_hour_angle (hours t) lon eot)).
Proof.
  intros H. destruct (H dst_zone (18 * 3600000000000)%Z (7 * 3600000000000)%Z 0 0) as (a & E & k & K); [reflexivity | reflexivity |].
  destruct (hour_angle_eq dst_zone (18 * 3600000000000)%Z 0 0 (7 * 3600000000000)%Z eq_refl) as (j & E2).
  rewrite E2 in E. apply Ok_inj, Fin_inj in E. rewrite K in E. clear - E.
  assert (A : hours (wall_midnight dst_zone (18 * 3600000000000) - 7 * 3600000000000) - hours (utcoffset dst_zone (18 * 3600000000000)) = -1).
  { assert (W : (wall_midnight dst_zone (18 * 3600000000000) - 7 * 3600000000000 = -25200000000000)%Z) by reflexivity.
    assert (O : (utcoffset dst_zone (18 * 3600000000000) = -21600000000000)%Z) by reflexivity. rewrite W, O. unfold hours. lra. }
  rewrite A in E. assert (F : IZR (24 * j - 24 * k) = 1) by (rewrite minus_IZR, !mult_IZR; lra).
  apply eq_IZR in F. lia.
Qed.
Print Assumptions C105_dst_day_refuted.
(** hours since local midnight and hour angle are inverse to each other, whatever the zone does *)
Theorem C105_inverse : forall z t h a lon eot, times_to_hours_after_local_midnight (Some z) t = Ok h ->
  hour_angle (Some z) t #lon #eot = Ok #a -> hour_angle_to_hours (Some z) t #a #lon #eot = Ok #h.
Proof.
  intros z t h a lon eot H E. unfold hour_angle in E. rewrite H in E. cbv beta iota delta [bind] in E. autorewrite with flfin in E.
  rewrite fdiv_fin in E by lra. autorewrite with flfin in E. injection E as E. rewrite to_hours_fin. f_equal. f_equal. rewrite <- E. field.
Qed.
Print Assumptions C105_inverse.
(** sunrise and sunset are the instants of that local day at which the geometric sun is on the horizon, transit is at hour angle zero *)
Theorem C105_sunrise_sunset : forall z t u lat lon dec eot, localize_strict z (wall_midnight z t) = Ok u -> steady z t u ->
  cos dec <> 0 -> cos (lat * PI / 180) <> 0 -> (exists h, sun_up (lat * PI / 180) dec h = 0) ->
  exists rise set transit a, sun_rise_set_transit_geometric (Some z) t #lat #lon #dec #eot = Ok (#rise, #set, #transit) /\
  let ha x := solar_hour_angle (x / 3600000000000) lon eot in
  0 <= a <= 180 /\ same_angle (ha rise) (- a) /\ same_angle (ha set) a /\ same_angle (ha transit) 0 /\
  sun_up (lat * PI / 180) dec (ha rise * PI / 180) = 0 /\ sun_up (lat * PI / 180) dec (ha set * PI / 180) = 0 /\
  rise <= transit <= set /\ set - transit = transit - rise /\ set - rise = 2 * a / 15 * 3600000000000.
Proof.
  intros z t u lat lon dec eot H S D P X. change (lat * PI / 180) with (Rrad lat) in *.
  assert (B : Rabs (tan dec * tan (Rrad lat)) <= 1).
  { apply Rnot_lt_le. intros K. destruct X as (h & X). exact (proj2 (no_crossing _ _ P D) K h X). }
  pose proof (geometric_fin z t lat lon dec eot u H D P B) as E. cbv zeta in E.
  set (a0 := acos (- tan dec * tan (Rrad lat))) in *.
  assert (A0 : 0 <= a0 <= PI) by apply acos_bound.
  assert (Ab : 0 <= Rdeg a0 <= 180) by (rewrite <- Rdeg_PI, <- Rdeg_0; split; apply Rdeg_le; lra).
  assert (Ca : cos a0 = - tan dec * tan (Rrad lat)) by (apply Rabs_le_inv in B; apply cos_acos; lra).
  eexists _, _, _, (Rdeg a0). split; [exact E|]. cbv zeta. unfold steady in S.
  assert (SA : forall b, same_angle (solar_hour_angle ((IZR u + ((b - lon - eot / 4) / 15 + 12 + hours (utcoffset z t)) * 3600000000000) / 3600000000000) lon eot) b).
  { intros b. destruct (instant_angle z t b lon eot u) as (k & K). exists k. rewrite K, S. ring. }
  assert (UP : forall b x, (b = Rdeg a0 \/ b = - Rdeg a0) -> same_angle x b -> sun_up (Rrad lat) dec (x * PI / 180) = 0).
  { intros b x Eb Sx. change (x * PI / 180) with (Rrad x). destruct (same_angle_trig _ _ Sx) as [C _]. apply sunset_cos; [exact P | exact D|].
    rewrite C. destruct Eb as [-> | ->]; rewrite ?Rrad_opp, Rrad_deg, ?cos_neg; exact Ca. }
  split; [exact Ab|]. split; [apply SA|]. split; [apply SA|]. split; [apply SA|].
  split; [eapply UP; [right; reflexivity | apply SA]|]. split; [eapply UP; [left; reflexivity | apply SA]|].
  repeat split; lra.
Qed.
Print Assumptions C105_sunrise_sunset.
(** polar day and night: no sunrise and no sunset, transit still reported *)
Theorem C105_polar : forall z t u lat lon dec eot, localize_strict z (wall_midnight z t) = Ok u ->
  cos dec <> 0 -> cos (lat * PI / 180) <> 0 -> (forall h, sun_up (lat * PI / 180) dec h <> 0) ->
  exists transit, sun_rise_set_transit_geometric (Some z) t #lat #lon #dec #eot = Ok (NaN, NaN, #transit).
Proof.
  intros z t u lat lon dec eot H D P X. change (lat * PI / 180) with (Rrad lat) in *.
  apply geometric_nan with (u := u); [exact H | exact D | exact P|]. apply (no_crossing _ _ P D), X.
Qed.
Print Assumptions C105_polar.
(** a local day without a midnight: sunrise etc. fail with pandas' error, the hour angle does not *)
Theorem C105_missing_midnight : forall z t err lat lon dec eot, localize_strict z (wall_midnight z t) = Err err ->
  sun_rise_set_transit_geometric (Some z) t lat lon dec eot = Err err.
Proof.
  intros z t err lat lon dec eot H. unfold sun_rise_set_transit_geometric, hour_angle_to_hours. cbv beta iota zeta delta [bind].
  unfold local_times_from_hours_since_midnight. rewrite H. reflexivity.
Qed.
Print Assumptions C105_missing_midnight.
(** non-vacuity: UTC at the equator on an equinox *)
Definition utc : zone := Zone (fun _ => 0%Z) (fun w => Ok w) (fun w => Ok w).
Example C105_witness : forall t, steady utc t (wall_midnight utc t) /\ localize_strict utc (wall_midnight utc t) = Ok (wall_midnight utc t)
  /\ cos 0 <> 0 /\ exists h, sun_up (0 * PI / 180) 0 h = 0.
Proof.
  intros t. unfold steady. rewrite Z.sub_diag. repeat split; [rewrite cos_0; lra|]. exists (PI / 2). unfold sun_up. rewrite cos_PI2, sin_0. ring.
Qed.
Example C105_polar_witness : forall h, sun_up (PI / 3) (PI / 3) h <> 0.
Proof.
  apply no_crossing; try (rewrite cos_PI3; lra). unfold tan. rewrite sin_PI3, cos_PI3.
  replace (sqrt 3 / 2 / (1 / 2) * (sqrt 3 / 2 / (1 / 2))) with (sqrt 3 * sqrt 3) by field.
  rewrite sqrt_sqrt by lra. rewrite Rabs_right by lra. lra.
Qed.

(** ** C106: the ephemeris *)
(** the loop over Kepler's equation ends, after at most four turns for the whole array *)
Theorem C106_terminates : forall fuel times lat lon pressure temperature, (4 <= fuel)%nat -> Forall valid_stamp times ->
  exists r, ephemeris fuel times lat lon pressure temperature = Some r /\ length r = length times.
Proof.
  intros fuel times lat lon pressure temperature F V. rewrite Forall_forall in V.
  destruct (kepler_result fuel times F) as (r & E & S).
  - intros s Hs. pose proof (t1_range s (V s Hs)) as T. pose proof (eccen_range s ltac:(lra)). apply Rabs_le. lra.
  - unfold ephemeris. rewrite E. eexists. split; [reflexivity|]. rewrite map_length, combine_length.
    assert (L : length r = length times) by (clear - S; induction S; cbn [length]; congruence). lia.
Qed.
Print Assumptions C106_terminates.
(** every sample is the direction of a sun on the ecliptic: its longitude is perigee + true anomaly - aberration, the true anomaly is the
    orbit position for an eccentric anomaly within 2.1e-6 degrees of the solution of Kepler's equation; azimuth, elevation and solar time
    are those of that direction seen from the observer under the local sidereal time *)
Theorem C106_position : forall fuel times lat lon pressure temperature, (4 <= fuel)%nat -> Forall valid_stamp times ->
  exists r, ephemeris fuel times #lat #lon pressure temperature = Some r /\
  Forall2 (fun s x => exists ea exact nu L az el st,
    kepler_eq (mean_anom s) (eccen s) exact /\ Rabs (ea - exact) <= 0.0000021 /\ on_orbit (eccen s) (ea * PI / 180) (nu * PI / 180) /\
    same_angle L (ml_perigee s + nu - 20 / 3600) /\ sun_at s L lat lon az el st /\
    sp_azimuth x = #az /\ sp_elevation x = #el /\ sp_zenith x = #(90 - el) /\ sp_solar_time x = #st /\
    sp_apparent_elevation x = fadd #el (ephemeris_refraction #el pressure temperature) /\
    sp_apparent_zenith x = fsub #90 (sp_apparent_elevation x)) times r.
Proof.
  intros fuel times lat lon pressure temperature F V. rewrite Forall_forall in V.
  assert (EC : forall s, In s times -> 0.015 <= eccen s <= 0.02 /\ 23 <= obliquity s <= 24).
  { intros s Hs. pose proof (t1_range s (V s Hs)) as T. split; [apply eccen_range | apply obliquity_range]; lra. }
  destruct (kepler_result fuel times F) as (r & E & S).
  - intros s Hs. apply Rabs_le. pose proof (EC s Hs). lra.
  - unfold ephemeris. rewrite E. eexists. split; [reflexivity|]. clear E F V.
    induction S as [|s a l l' Sa S IH]; cbn [combine map]; constructor.
    + destruct (EC s (or_introl eq_refl)) as [E1 E2]. cbn [fst snd].
      assert (Ab : Rabs (eccen s) <= 0.02) by (apply Rabs_le; lra).
      destruct (kepler_root s Ab) as (x & X).
      destruct (ephemeris_at_sun s a lat lon pressure temperature) as (L & nu & az & el & st & O & SL & A1 & A2 & A3 & A4 & A5 & A6 & A7).
      * lra.
      * apply (cosD_pos (obliquity s)). lra.
      * exists a, x, nu, L, az, el, st. split; [exact X|]. split; [apply (solved_near s); assumption|].
        split; [exact O|]. split; [exact SL|]. split; [exact A7|]. repeat (split; [assumption|]). assumption.
    + apply IH. intros q Q. apply EC. right. exact Q.
Qed.
Print Assumptions C106_position.
Theorem C106_kepler_unique : forall s x y, valid_stamp s -> kepler_eq (mean_anom s) (eccen s) x -> kepler_eq (mean_anom s) (eccen s) y -> x = y.
Proof.
  intros s x y V. apply kepler_unique. pose proof (t1_range s V) as T. pose proof (eccen_range s ltac:(lra)). apply Rabs_le. lra.
Qed.
Print Assumptions C106_kepler_unique.
(** the time arguments: centuries, mean elements and sidereal time from the calendar, correct for 1901 to 2100 ... *)
Theorem C106_time_arguments : forall s, (1901 <= st_year s <= 2100)%Z ->
  epoch_date s = days_since_1900 (st_year s) (st_dayofyear s) (dec_hours s) /\
  (let t := days_since_1900 (st_year s) (st_dayofyear s) (dec_hours s) / 36525 in
   obliquity s = 23.452294 - 0.0130125 * t - 1.64e-06 * t ^ 2 + 5.03e-07 * t ^ 3 /\
   ml_perigee s = 281.22083 + 4.70684e-05 * (36525 * t) + 0.000453 * t ^ 2 + 3e-06 * t ^ 3 /\
   eccen s = 0.01675104 - 4.18e-05 * t - 1.26e-07 * t ^ 2 /\
   0 <= mean_anom s < 360 /\ same_angle (mean_anom s) (358.47583 + 0.985600267 * (36525 * t) - 0.00015 * t ^ 2 - 3e-06 * t ^ 3)) /\
  same_angle (gmst s) (sidereal_seconds (days_since_1900 (st_year s) (st_dayofyear s) 0 / 36525) / 240 + 360 * (1.0027379093 * dec_hours s / 24)).
Proof.
  intros s Y.
  assert (Z0 : ezero s = days_since_1900 (st_year s) (st_dayofyear s) 0).
  { rewrite ezero_days, days_agree by exact Y. unfold days_since_1900. rewrite plus_IZR. lra. }
  assert (E : epoch_date s = days_since_1900 (st_year s) (st_dayofyear s) (dec_hours s)).
  { unfold epoch_date. rewrite Z0. unfold days_since_1900. lra. }
  split; [exact E|]. split.
  - cbv zeta. rewrite <- E. fold (t1 s). replace (36525 * t1 s) with (epoch_date s) by (unfold t1; field).
    split; [reflexivity|]. split; [reflexivity|]. split; [reflexivity|]. split; [apply mean_anom_range|].
    unfold mean_anom. cbv zeta. destruct (Rmodp_spec (358.47583 + 0.985600267 * epoch_date s - 0.00015 * t1 s ^ 2 - 3e-06 * t1 s ^ 3) 360) as (_ & k & K); [lra|].
    exists (- k)%Z. rewrite opp_IZR. lra.
  - rewrite <- Z0. apply gmst_eq.
Qed.
Print Assumptions C106_time_arguments.
(** ... and one day off outside, e.g. in 1900 and in 2101 *)
Theorem C106_calendar_refuted : forall s, (st_year s = 1900 \/ st_year s = 2101)%Z ->
  epoch_date s <> days_since_1900 (st_year s) (st_dayofyear s) (dec_hours s).
Proof.
  intros s Y E. unfold epoch_date in E. rewrite ezero_days in E. unfold days_since_1900 in E.
  assert (F : IZR (365 * (st_year s - 1900) + (st_year s - 1901) / 4 + st_dayofyear s) = IZR (gregorian_day (st_year s) (st_dayofyear s) - gregorian_day 1900 1 + 1)) by (rewrite (plus_IZR (gregorian_day _ _ - _)%Z 1); lra).
  apply eq_IZR in F. unfold gregorian_day in F. destruct Y as [Y|Y]; rewrite Y in F; clear E Y.
  - change ((1900 - 1901) / 4)%Z with (-1)%Z in F. lia.
  - change ((2101 - 1901) / 4)%Z with 50%Z in F. change ((2101 - 1) / 4)%Z with 525%Z in F. change ((2101 - 1) / 100)%Z with 21%Z in F. change ((2101 - 1) / 400)%Z with 5%Z in F.
    change ((1900 - 1) / 4)%Z with 474%Z in F. change ((1900 - 1) / 100)%Z with 18%Z in F. change ((1900 - 1) / 400)%Z with 4%Z in F. lia.
Qed.
Print Assumptions C106_calendar_refuted.
(** refraction lifts the sun, by less than 0.6 degrees in standard conditions, only between -1 and 85 degrees *)
Theorem C106_refraction : forall el p t, -273 < t -> 0 <= p ->
  exists r, ephemeris_refraction #el #p #t = #r /\ 0 <= r <= 0.584 * (283 / (273 + t)) * (p / 101325) /\
  (-1 < el <= 85 -> 0 < p -> 0 < r) /\ (el <= -1 \/ 85 < el -> r = 0).
Proof.
  intros el p t T P. rewrite refraction_fin by lra. eexists. split; [reflexivity|].
  assert (A : 0 < 283 / (273 + t)) by (apply Rdiv_lt_0_compat; lra). set (a := 283 / (273 + t)) in *.
  set (b := p / 101325). assert (B : 0 <= b) by (unfold b; lra).
  assert (AB : 0 <= a * b) by (apply Rmult_le_pos; lra). pose proof (refr_range el) as R1.
  repeat split.
  - apply Rmult_le_pos; lra.
  - assert (refr el * (a * b) <= 2100 * (a * b)) by (apply Rmult_le_compat_r; lra). lra.
  - intros E P'. assert (B' : 0 < b) by (unfold b; lra). pose proof (refr_pos el E).
    assert (0 < a * b) by (apply Rmult_lt_0_compat; lra). apply Rmult_lt_0_compat; lra.
  - intros E. assert (Z : refr el = 0).
    { unfold refr. destruct E as [E|E].
      - rewrite (Rltb_f 5), (Rltb_f (-0.575)), (Rltb_f (-1)) by lra. reflexivity.
      - rewrite (Rleb_f el 85), (Rleb_f el 5), (Rleb_f el (-0.575)) by lra. rewrite !andb_false_r. reflexivity. }
    rewrite Z. ring.
Qed.
Print Assumptions C106_refraction.
(** the published three-piece formula (seconds of arc at 10 C, 101325 Pa), scaled by pressure and temperature *)
Theorem C106_refraction_formula : forall el p t, -273 < t ->
  let k := 283 / (273 + t) * (p / 101325) / 3600 in let tn := tan (el * PI / 180) in
  (5 < el <= 85 -> ephemeris_refraction #el #p #t = #((58.1 / tn - 0.07 / tn ^ 3 + 8.6e-05 / tn ^ 5) * k)) /\
  (-0.575 < el <= 5 -> ephemeris_refraction #el #p #t = #((1735 - 518.2 * el + 103.4 * el ^ 2 - 12.79 * el ^ 3 + 0.711 * el ^ 4) * k)) /\
  (-1 < el <= -0.575 -> ephemeris_refraction #el #p #t = #(-20.774 / tn * k)).
Proof.
  intros el p t T k tn. rewrite refraction_fin by lra. fold k. unfold refr. change (Rrad el) with (el * PI / 180). fold tn. repeat split; intros E.
  - rewrite (Rltb_t 5), (Rleb_t el 85) by lra. reflexivity.
  - rewrite (Rltb_f 5), (Rltb_t (-0.575)), (Rleb_t el 5) by lra. cbn [andb]. f_equal. f_equal.
    set (x := el). lra.
  - rewrite (Rltb_f 5), (Rltb_f (-0.575)), (Rltb_t (-1)), (Rleb_t el (-0.575)) by lra. reflexivity.
Qed.
Print Assumptions C106_refraction_formula.
Example C106_witness : valid_stamp (Stamp 2024 172 12 30 0 0). Proof. unfold valid_stamp. cbn. lia. Qed.

(** ** C107: get_solarposition *)
Definition known_methods : list string := ["nrel_c"; "nrel_numba"; "nrel_numpy"; "pyephem"; "ephemeris"]%string.
Theorem C107_errors : forall lat lon alt p m t, (exists e, get_solarposition lat lon alt p m t = Err e) <-> ~ In (lower m) known_methods.
Proof.
  intros lat lon alt p m t. unfold get_solarposition, known_methods.
  destruct alt as [a|], p as [q|]; cbv beta iota zeta;
  (destruct (String.eqb_spec (lower m) "nrel_c") as [A|A]; [split; [intros [e E]; discriminate | intros N; exfalso; apply N; rewrite A; cbn; tauto]|];
   destruct (String.eqb_spec (lower m) "nrel_numba") as [B|B]; [split; [intros [e E]; discriminate | intros N; exfalso; apply N; rewrite B; cbn; tauto]|];
   destruct (String.eqb_spec (lower m) "nrel_numpy") as [C|C]; [split; [intros [e E]; discriminate | intros N; exfalso; apply N; rewrite C; cbn; tauto]|];
   destruct (String.eqb_spec (lower m) "pyephem") as [D|D]; [split; [intros [e E]; discriminate | intros N; exfalso; apply N; rewrite D; cbn; tauto]|];
   destruct (String.eqb_spec (lower m) "ephemeris") as [E|E]; [split; [intros [e' E']; discriminate | intros N; exfalso; apply N; rewrite E; cbn; tauto]|];
   split; [intros _ [K|[K|[K|[K|[K|[]]]]]]; congruence | intros _; eexists; reflexivity]).
Qed.
Print Assumptions C107_errors.
Theorem C107_error_kind : forall lat lon alt p m t e, get_solarposition lat lon alt p m t = Err e -> e = ValueError.
Proof.
  intros lat lon alt p m t e. unfold get_solarposition. destruct alt as [a|], p as [q|]; cbv beta iota zeta;
  repeat (match goal with |- context [if ?b then _ else _] => destruct b; [discriminate|] end); congruence.
Qed.
Print Assumptions C107_error_kind.
(** the site altitude and pressure handed on: each is derived from the other when missing, sea level and 101325 Pa when both are *)
Theorem C107_dispatch : forall lat lon alt p t,
  let altitude := match alt, p with Some a, _ => a | None, Some q => pres2alt q | None, None => #0 end in
  let pressure := match p, alt with Some q, _ => q | None, Some a => alt2pres a | None, None => #101325 end in
  forall m,
  (lower m = "nrel_numpy"%string -> get_solarposition lat lon alt p m t = Ok (Call_spa_python lat lon altitude pressure t "numpy")) /\
  (lower m = "nrel_numba"%string -> get_solarposition lat lon alt p m t = Ok (Call_spa_python lat lon altitude pressure t "numba")) /\
  (lower m = "pyephem"%string -> get_solarposition lat lon alt p m t = Ok (Call_pyephem lat lon altitude pressure t)) /\
  (lower m = "ephemeris"%string -> get_solarposition lat lon alt p m t = Ok (Call_ephemeris lat lon pressure t)).
Proof.
  intros lat lon alt p t altitude pressure m. unfold get_solarposition, altitude, pressure.
  destruct alt as [a|], p as [q|]; cbv beta iota zeta; repeat split; intros ->; reflexivity.
Qed.
Print Assumptions C107_dispatch.
(** method='nrel_c' does not hand over the site altitude: the temperature goes where the altitude belongs and the temperature used is 12 *)
Theorem C107_nrel_c_altitude_refuted : ~ (forall lat lon a p t, get_solarposition lat lon (Some a) (Some p) "nrel_c" t = Ok (Call_spa_c lat lon p a t)).
Proof. intros H. specialize (H #0 #0 #1000 #90000 #20). cbv in H. injection H. intros. lra. Qed.
Print Assumptions C107_nrel_c_altitude_refuted.
Theorem C107_nrel_c : forall lat lon a p t, get_solarposition lat lon (Some a) (Some p) "nrel_c" t = Ok (Call_spa_c lat lon p t #12).
Proof. reflexivity. Qed.
Print Assumptions C107_nrel_c.
