(** Proofs about Model/SolarPosition.v: analytical position, declination and equation of time, clocks. *)
From Verif Require Import Base.Fl Base.FlFacts Base.Py Base.Trig Model.Atmosphere Model.Irradiance Model.SolarPosition Spec.SolarSpec.
From Coq Require Import ZArith Psatz.
Open Scope R_scope.

(** *** the unit vector *)
Lemma sun_norm p d h : sun_east p d h * sun_east p d h + sun_north p d h * sun_north p d h + sun_up p d h * sun_up p d h = 1.
Proof.
  unfold sun_east, sun_north, sun_up.
  pose proof (sin2cos2 p) as P. pose proof (sin2cos2 d) as D. pose proof (sin2cos2 h) as H.
  transitivity ((sin p * sin p + cos p * cos p) * (sin d * sin d + (cos d * cos d) * (cos h * cos h)) + (cos d * cos d) * (sin h * sin h)); [ring|].
  rewrite P. transitivity (sin d * sin d + cos d * cos d * (sin h * sin h + cos h * cos h)); [ring|]. rewrite H. lra.
Qed.
Lemma sun_up_bound p d h : -1 <= sun_up p d h <= 1.
Proof.
  pose proof (sun_norm p d h) as N. pose proof (Rle_0_sqr (sun_east p d h)) as A. pose proof (Rle_0_sqr (sun_north p d h)) as B.
  unfold Rsqr in A, B. assert (C : sun_up p d h * sun_up p d h <= 1) by lra. split; nra.
Qed.
Lemma zenith_fin p d h : solar_zenith_analytical #p #h #d = #(acos (sun_up p d h)).
Proof.
  unfold solar_zenith_analytical. autorewrite with flfin.
  replace (cos d * cos p * cos h + sin d * sin p) with (sun_up p d h) by (unfold sun_up; ring).
  apply facos_fin, sun_up_bound.
Qed.
Lemma numer_north p d h : sun_up p d h * sin p - sin d = - (cos p * sun_north p d h).
Proof.
  unfold sun_up, sun_north. pose proof (sin2cos2 p) as P.
  transitivity ((sin p * sin p) * sin d + cos p * sin p * cos d * cos h - sin d); [ring|].
  replace (sin p * sin p) with (1 - cos p * cos p) by lra. ring.
Qed.

Lemma fsign_fin h : fsign #h = #(if Rltb 0 h then 1 else if Rltb h 0 then -1 else 0).
Proof. unfold fsign, Rpos, Rneg. destruct (Rltb 0 h); [reflexivity|]. destruct (Rltb h 0); reflexivity. Qed.
Definition sgn (h : R) : R := if Rltb 0 h then 1 else if Rltb h 0 then -1 else 0.

Lemma isclose8_fin a b : isclose8 #a #b = Rleb (Rabs (a - b)) 1e-8. Proof. reflexivity. Qed.
(** the cosine after snapping to the nearest of -1 and 1 *)
Definition snap (c : R) : R := if Rleb (Rabs (c - 1)) 1e-8 then 1 else if Rleb (Rabs (c - -1)) 1e-8 then -1 else c.
Lemma azimuth_fin p h d z : 1e-8 < Rabs (sin z * cos p) ->
  solar_azimuth_analytical #p #h #d #z =
  (#(sgn h) * facos #(snap ((cos z * sin p - sin d) / (sin z * cos p))) + #PI)%fl.
Proof.
  intros H. unfold solar_azimuth_analytical. cbv zeta. autorewrite with flfin.
  assert (Nz : sin z * cos p <> 0) by (intros E; rewrite E, Rabs_R0 in H; lra).
  rewrite (fdiv_fin _ _ Nz), fsign_fin. fold (sgn h).
  set (c := (cos z * sin p - sin d) / (sin z * cos p)).
  rewrite (isclose8_fin (sin z * cos p) 0), Rminus_0_r, Rleb_f by exact H. cbv beta iota delta [where_].
  rewrite (isclose8_fin c 1). unfold snap. destruct (Rleb_spec (Rabs (c - 1)) 1e-8) as [K|K].
  - rewrite isclose8_fin, Rleb_f; [reflexivity|]. replace (1 - -1) with 2 by ring. rewrite Rabs_right; lra.
  - rewrite isclose8_fin. destruct (Rleb (Rabs (c - -1)) 1e-8); reflexivity.
Qed.
Lemma azimuth_vertical p h d z : Rabs (sin z * cos p) <= 1e-8 -> solar_azimuth_analytical #p #h #d #z = #PI.
Proof.
  intros H. unfold solar_azimuth_analytical. cbv zeta. autorewrite with flfin.
  rewrite (isclose8_fin (sin z * cos p) 0), Rminus_0_r, Rleb_t by exact H. cbv beta iota delta [where_].
  rewrite (isclose8_fin 1 1). rewrite (Rminus_diag_eq 1 1), Rabs_R0, Rleb_t by lra. cbv beta iota.
  rewrite isclose8_fin. rewrite Rleb_f by (replace (1 - -1) with 2 by ring; rewrite Rabs_right; lra). cbv beta iota.
  rewrite facos_fin by lra. rewrite acos_1, fsign_fin. autorewrite with flfin. f_equal. ring.
Qed.
Lemma snap_id c : -1 + 1e-8 < c < 1 - 1e-8 -> snap c = c.
Proof.
  intros H. unfold snap. rewrite Rleb_f by (rewrite Rabs_left; lra). rewrite Rleb_f by (rewrite Rabs_right; lra). reflexivity.
Qed.
Lemma snap_bound c : -1 <= c <= 1 -> -1 <= snap c <= 1 /\ Rabs (snap c - c) <= 1e-8.
Proof.
  intros H. unfold snap. destruct (Rleb_spec (Rabs (c - 1)) 1e-8) as [K|K].
  - split; [lra|]. rewrite Rabs_minus_sym. exact K.
  - destruct (Rleb_spec (Rabs (c - -1)) 1e-8) as [L|L]; [|split; [exact H | rewrite Rminus_diag_eq, Rabs_R0 by reflexivity; lra]].
    split; [lra|]. rewrite Rabs_minus_sym. exact L.
Qed.

Section Azimuth.
  Variables p d h : R.
  Let z := acos (sun_up p d h).
  Let E := sun_east p d h.
  Let N := sun_north p d h.
  Lemma cos_z : cos z = sun_up p d h. Proof. apply cos_acos, sun_up_bound. Qed.
  Lemma sin_z_nonneg : 0 <= sin z. Proof. unfold z. rewrite sin_acos_sqrt by apply sun_up_bound. apply sqrt_pos. Qed.
  Lemma sin_z_sqr : sin z * sin z = E * E + N * N.
  Proof. pose proof (sin2cos2 z) as A. rewrite cos_z in A. pose proof (sun_norm p d h) as B. unfold E, N. lra. Qed.
  Hypothesis Lat : 0 < cos p.
  Hypothesis Hd : 1e-8 < sin z * cos p.
  Lemma sin_z_pos : 0 < sin z.
  Proof. pose proof sin_z_nonneg as A. destruct A as [A|A]; [exact A|]. rewrite <- A, Rmult_0_l in Hd. lra. Qed.
  Lemma cosazi : (cos z * sin p - sin d) / (sin z * cos p) = - (N / sin z).
  Proof. rewrite cos_z, numer_north. fold N. pose proof sin_z_pos. field. lra. Qed.
  Lemma ratio_bound : -1 <= - (N / sin z) <= 1.
  Proof.
    pose proof sin_z_pos as P. pose proof sin_z_sqr as Q. pose proof (Rle_0_sqr E) as X. unfold Rsqr in X.
    assert (B : - sin z <= N <= sin z) by (split; nra).
    assert (I : 0 < / sin z) by (apply Rinv_0_lt_compat; exact P).
    assert (U : sin z * / sin z = 1) by (field; lra). unfold Rdiv. split; nra.
  Qed.
  Lemma azimuth_of_sun : solar_azimuth_analytical #p #h #d (solar_zenith_analytical #p #h #d)
    = #(sgn h * acos (snap (- (N / sin z))) + PI).
  Proof.
    rewrite zenith_fin. fold z. rewrite azimuth_fin by (rewrite Rabs_right; lra). rewrite cosazi.
    rewrite facos_fin by (apply snap_bound, ratio_bound). reflexivity.
  Qed.
  Lemma sgn_sq : h <> 0 -> sgn h * sgn h = 1.
  Proof. intros K. unfold sgn. destruct (Rltb_spec 0 h); [ring|]. destruct (Rltb_spec h 0); [ring|]. lra. Qed.
  Lemma cos_sgn x : h <> 0 -> cos (sgn h * x) = cos x.
  Proof.
    intros K. unfold sgn. destruct (Rltb_spec 0 h); [rewrite Rmult_1_l; reflexivity|]. destruct (Rltb_spec h 0); [|lra].
    replace (-1 * x) with (- x) by ring. apply cos_neg.
  Qed.
  Lemma sin_sgn x : sin (sgn h * x) = sgn h * sin x.
  Proof.
    unfold sgn. destruct (Rltb 0 h); [rewrite !Rmult_1_l; reflexivity|]. destruct (Rltb h 0).
    - replace (-1 * x) with (- x) by ring. rewrite sin_neg. ring.
    - rewrite Rmult_0_l, sin_0. ring.
  Qed.
  (** sin z * |sin az| for the exact cosine *)
  Lemma sin_part : sin z * sin (acos (- (N / sin z))) = Rabs E.
  Proof.
    rewrite sin_acos_sqrt by apply ratio_bound. pose proof sin_z_pos as P.
    replace (1 - - (N / sin z) * - (N / sin z)) with ((E * E) / (sin z * sin z)).
    - rewrite sqrt_div_alt by nra. rewrite (sqrt_square (sin z)) by lra.
      change (E * E) with (Rsqr E). rewrite sqrt_Rsqr_abs. field. lra.
    - replace (E * E) with (sin z * sin z - N * N) by (pose proof sin_z_sqr; lra). field. lra.
  Qed.
  Let az := sgn h * acos (snap (- (N / sin z))) + PI.
  Lemma az_exact : h <> 0 -> -1 + 1e-8 < N / sin z < 1 - 1e-8 -> sin z * cos az = N /\ sin z * sin az = - (sgn h * Rabs E).
  Proof.
    intros K R1. unfold az. rewrite snap_id by lra.
    rewrite neg_cos, neg_sin, cos_sgn, sin_sgn by exact K. pose proof sin_z_pos as P. split.
    - rewrite cos_acos by apply ratio_bound. field. lra.
    - rewrite <- sin_part. ring.
  Qed.
  Lemma az_near : h <> 0 -> Rabs (sin z * cos az - N) <= 1e-8.
  Proof.
    intros K. unfold az. rewrite neg_cos, cos_sgn by exact K. destruct (snap_bound _ ratio_bound) as [A B].
    rewrite cos_acos by exact A. pose proof sin_z_pos as P. pose proof (SIN_bound z) as S.
    replace (sin z * - snap (- (N / sin z)) - N) with (- (sin z * (snap (- (N / sin z)) - - (N / sin z)))) by (field; lra).
    rewrite Rabs_Ropp, Rabs_mult, (Rabs_right (sin z)) by lra.
    pose proof (Rabs_pos (snap (- (N / sin z)) - - (N / sin z))). nra.
  Qed.
  Lemma az_range : 0 <= az <= 2 * PI.
  Proof.
    unfold az. pose proof (acos_bound (snap (- (N / sin z)))) as B. pose proof PI_RGT_0.
    unfold sgn. destruct (Rltb 0 h); [lra|]. destruct (Rltb h 0); lra.
  Qed.
End Azimuth.

Lemma sgn_sin h : - PI < h < PI -> sgn h * Rabs (sin h) = sin h.
Proof.
  intros H. unfold sgn. destruct (Rltb_spec 0 h) as [K|K].
  - rewrite Rmult_1_l. apply Rabs_right, Rle_ge, Rlt_le, sin_gt_0; lra.
  - destruct (Rltb_spec h 0) as [L|L].
    + assert (0 < sin (- h)) by (apply sin_gt_0; lra). rewrite sin_neg in *. rewrite Rabs_left by lra. ring.
    + replace h with 0 by lra. rewrite sin_0. ring.
Qed.
Lemma sgn_sin_far h : PI < h < 2 * PI -> sgn h * Rabs (sin h) = - sin h.
Proof.
  intros H. pose proof PI_RGT_0. unfold sgn. rewrite Rltb_t by lra. rewrite Rmult_1_l.
  apply Rabs_left. apply sin_lt_0; lra.
Qed.
Lemma east_sgn p d h s : 0 <= cos d -> sgn h * Rabs (sin h) = s * sin h -> - (sgn h * Rabs (sun_east p d h)) = s * sun_east p d h.
Proof.
  intros C K. unfold sun_east. rewrite Rabs_mult, Rabs_Ropp, (Rabs_right (cos d)) by lra.
  replace (sgn h * (cos d * Rabs (sin h))) with (cos d * (sgn h * Rabs (sin h))) by ring. rewrite K. ring.
Qed.

(** *** range of the azimuth for arbitrary finite arguments *)
Lemma azimuth_range p h d z : within #0 #(2 * PI) (solar_azimuth_analytical #p #h #d #z).
Proof.
  pose proof PI_RGT_0 as P. destruct (Rle_lt_dec (Rabs (sin z * cos p)) 1e-8) as [K|K].
  - rewrite azimuth_vertical by exact K. apply within_fin. lra.
  - rewrite azimuth_fin by exact K. set (c := snap _). unfold facos. destruct (Rleb (-1) c && Rleb c 1)%bool.
    + autorewrite with flfin. apply within_fin. pose proof (acos_bound c). unfold sgn.
      destruct (Rltb 0 h); [lra|]. destruct (Rltb h 0); lra.
    + left. reflexivity.
Qed.

(** *** declination and equation of time *)
Definition gam (n : R) : R := 2 * PI / 365 * (n - 1).
Lemma day_angle_fin n : day_angle #n = #(gam n).
Proof. unfold day_angle, calculate_simple_day_angle. fin. reflexivity. Qed.
Lemma eot_spencer_fin n : equation_of_time_spencer71 #n =
  #(1440 / 2 / PI * (0.0000075 + 0.001868 * cos (gam n) - 0.032077 * sin (gam n) - 0.014615 * cos (2 * gam n) - 0.040849 * sin (2 * gam n))).
Proof.
  unfold equation_of_time_spencer71. rewrite day_angle_fin. cbv zeta. pose proof PI_neq0.
  rewrite (fdiv_fin 1440 2) by lra. rewrite fdiv_fin by exact H. autorewrite with flfin. reflexivity.
Qed.
Lemma eot_pvcdrom_fin n : equation_of_time_pvcdrom #n =
  #(let b := 2 * PI / 365 * (n - 81) in 9.87 * sin (2 * b) - 7.53 * cos b - 1.5 * sin b).
Proof.
  unfold equation_of_time_pvcdrom. rewrite day_angle_fin. cbv zeta. autorewrite with flfin. rewrite fdiv_fin by lra. autorewrite with flfin.
  unfold gam. replace (2 * PI / 365 * (n - 1) - 2 * PI / 365 * 80) with (2 * PI / 365 * (n - 81)) by field. reflexivity.
Qed.
Lemma decl_spencer_fin n : declination_spencer71 #n =
  #(0.006918 - 0.399912 * cos (gam n) + 0.070257 * sin (gam n) - 0.006758 * cos (2 * gam n) + 0.000907 * sin (2 * gam n)
    - 0.002697 * cos (3 * gam n) + 0.00148 * sin (3 * gam n)).
Proof. unfold declination_spencer71. rewrite day_angle_fin. cbv zeta. autorewrite with flfin. reflexivity. Qed.
Lemma decl_cooper_fin n : declination_cooper69 #n = #(Rrad (23.45 * sin (2 * PI * (284 + n) / 365))).
Proof.
  unfold declination_cooper69. rewrite day_angle_fin. cbv zeta. autorewrite with flfin. rewrite fdiv_fin by lra. autorewrite with flfin.
  unfold gam. replace (2 * PI / 365 * (n - 1) + 2 * PI / 365 * 285) with (2 * PI * (284 + n) / 365) by field. reflexivity.
Qed.
(** a harmonic is bounded by its amplitude *)
Lemma harmonic a b r x : 0 <= r -> a * a + b * b <= r * r -> - r <= a * cos x + b * sin x <= r.
Proof.
  intros R0 H. pose proof (sin2cos2 x) as S. set (c := cos x) in *. set (s := sin x) in *.
  assert (K : (a * c + b * s) * (a * c + b * s) + (a * s - b * c) * (a * s - b * c) = a * a + b * b).
  { transitivity ((a * a + b * b) * (s * s + c * c)); [ring|]. rewrite S. ring. }
  pose proof (Rle_0_sqr (a * s - b * c)) as Q. unfold Rsqr in Q.
  assert (L : (a * c + b * s) * (a * c + b * s) <= r * r) by lra.
  set (v := a * c + b * s) in *. split; nra.
Qed.
Lemma decl_spencer_bound n : exists v, declination_spencer71 #n = #v /\ - 0.4091 <= v <= 0.4229.
Proof.
  eexists. split; [apply decl_spencer_fin|].
  pose proof (harmonic (- 0.399912) 0.070257 0.40604 (gam n) ltac:(lra) ltac:(lra)) as A.
  pose proof (harmonic (- 0.006758) 0.000907 0.00682 (2 * gam n) ltac:(lra) ltac:(lra)) as B.
  pose proof (harmonic (- 0.002697) 0.00148 0.00308 (3 * gam n) ltac:(lra) ltac:(lra)) as C.
  lra.
Qed.
Lemma PI_3141 : 3.1415 < PI < 3.1416.
Proof. pose proof (PI_2_3_7_ineq 3) as H. cbv [sum_f_R0 tg_alt PI_2_3_7_tg Ratan_seq pow Nat.mul Nat.add INR] in H. lra. Qed.
Lemma c720 : 229 <= 1440 / 2 / PI <= 229.2.
Proof.
  pose proof PI_3141 as P. assert (E : (1440 / 2 / PI) * PI = 720) by (field; lra). set (v := 1440 / 2 / PI) in *.
  split; apply Rnot_lt_le; intros K; nra.
Qed.
Lemma eot_spencer_bound n : exists v, equation_of_time_spencer71 #n = #v /\ - 17.4 <= v <= 17.4.
Proof.
  eexists. split; [apply eot_spencer_fin|].
  pose proof (harmonic 0.001868 (- 0.032077) 0.03214 (gam n) ltac:(lra) ltac:(lra)) as A.
  pose proof (harmonic (- 0.014615) (- 0.040849) 0.0434 (2 * gam n) ltac:(lra) ltac:(lra)) as B.
  pose proof c720 as C. set (k := 1440 / 2 / PI) in *. set (s := 0.0000075 + _ - _ - _ - _).
  assert (S : - 0.0756 <= s <= 0.0756) by (subst s; lra). clearbody k s. clear A B. split; nra.
Qed.
Lemma eot_pvcdrom_bound n : exists v, equation_of_time_pvcdrom #n = #v /\ - 17.6 <= v <= 17.6.
Proof.
  eexists. split; [apply eot_pvcdrom_fin|]. cbv zeta. set (b := 2 * PI / 365 * (n - 81)).
  pose proof (harmonic (- 7.53) (- 1.5) 7.7 b ltac:(lra) ltac:(lra)) as A. pose proof (SIN_bound (2 * b)) as B. lra.
Qed.
Lemma decl_cooper_bound n : exists v, declination_cooper69 #n = #(Rrad v) /\ - 23.45 <= v <= 23.45.
Proof.
  eexists. split; [apply decl_cooper_fin|]. pose proof (SIN_bound (2 * PI * (284 + n) / 365)). lra.
Qed.
(** one year later *)
Lemma gam_year n : gam (n + 365) = gam n + 2 * PI. Proof. unfold gam. field. Qed.
Lemma trig_k (k : nat) x y : y = x + 2 * INR k * PI -> cos y = cos x /\ sin y = sin x.
Proof. intros ->. split; [apply cos_period | apply sin_period]. Qed.
Lemma eot_decl_year n :
  equation_of_time_spencer71 #(n + 365) = equation_of_time_spencer71 #n /\ equation_of_time_pvcdrom #(n + 365) = equation_of_time_pvcdrom #n /\
  declination_spencer71 #(n + 365) = declination_spencer71 #n /\ declination_cooper69 #(n + 365) = declination_cooper69 #n.
Proof.
  rewrite !eot_spencer_fin, !eot_pvcdrom_fin, !decl_spencer_fin, !decl_cooper_fin. cbv zeta.
  destruct (trig_k 1 (gam n) (gam (n + 365))) as [A1 A2]; [rewrite gam_year; simpl; ring|].
  destruct (trig_k 2 (2 * gam n) (2 * gam (n + 365))) as [B1 B2]; [rewrite gam_year; simpl; ring|].
  destruct (trig_k 3 (3 * gam n) (3 * gam (n + 365))) as [C1 C2]; [rewrite gam_year; simpl; ring|].
  destruct (trig_k 1 (2 * PI / 365 * (n - 81)) (2 * PI / 365 * (n + 365 - 81))) as [D1 D2]; [simpl; field|].
  destruct (trig_k 2 (2 * (2 * PI / 365 * (n - 81))) (2 * (2 * PI / 365 * (n + 365 - 81)))) as [E1 E2]; [simpl; field|].
  destruct (trig_k 1 (2 * PI * (284 + n) / 365) (2 * PI * (284 + (n + 365)) / 365)) as [F1 F2]; [simpl; field|].
  rewrite A1, A2, B1, B2, C1, C2, D1, D2, E2, F2. repeat split.
Qed.

(** *** clocks *)
Lemma hours_plus a b : hours (a + b) = hours a + hours b. Proof. unfold hours. rewrite plus_IZR. field. Qed.
Lemma hours_minus a b : hours (a - b) = hours a - hours b. Proof. unfold hours. rewrite minus_IZR. field. Qed.
Lemma wall_midnight_days z t : wall_midnight z t = (ns_per_day * (wall z t / ns_per_day))%Z.
Proof. unfold wall_midnight. rewrite (Z.div_mod (wall z t) ns_per_day) at 1 by discriminate. ring. Qed.
Lemma hours_days k : hours (ns_per_day * k) = 24 * IZR k.
Proof. unfold hours, ns_per_day. rewrite mult_IZR. field. Qed.
(** the hour angle carries 15 degrees for every hour the offset has changed since midnight *)
Lemma hour_angle_eq z t lon eot u : localize_forward z (wall_midnight z t) = Ok u ->
  exists k : Z, hour_angle (Some z) t #lon #eot
    = Ok #(solar_hour_angle (hours t) lon eot + 15 * (hours (wall_midnight z t - u) - hours (utcoffset z t)) + 360 * IZR k).
Proof.
  intros H. exists (- (wall z t / ns_per_day))%Z. unfold hour_angle, times_to_hours_after_local_midnight. rewrite H. cbv beta iota delta [bind].
  autorewrite with flfin. rewrite fdiv_fin by lra. autorewrite with flfin. f_equal. f_equal.
  rewrite !hours_minus, wall_midnight_days, hours_days, opp_IZR. unfold solar_hour_angle. lra.
Qed.
Lemma to_hours_fin z t a lon eot : hour_angle_to_hours (Some z) t #a #lon #eot = Ok #((a - lon - eot / 4) / 15 + 12 + hours (utcoffset z t)).
Proof. unfold hour_angle_to_hours. fin. reflexivity. Qed.
Lemma local_times_fin z t h u : localize_strict z (wall_midnight z t) = Ok u ->
  local_times_from_hours_since_midnight (Some z) t #h = Ok #(IZR u + h * 3600000000000).
Proof. intros H. unfold local_times_from_hours_since_midnight. rewrite H. reflexivity. Qed.
(** the hour angle at the instant computed for hour angle [a], measured on the offset-at-midnight clock *)
Lemma instant_angle z t a lon eot u : exists k : Z,
  solar_hour_angle ((IZR u + ((a - lon - eot / 4) / 15 + 12 + hours (utcoffset z t)) * 3600000000000) / 3600000000000) lon eot
  = a + 15 * (hours (utcoffset z t) - hours (wall_midnight z t - u)) + 360 * IZR k.
Proof.
  exists (wall z t / ns_per_day)%Z. rewrite hours_minus, wall_midnight_days, hours_days. unfold solar_hour_angle, hours. field.
Qed.

Lemma Rabs_le_inv a b : Rabs a <= b -> - b <= a <= b.
Proof. intros H. pose proof (Rle_abs a). pose proof (Rle_abs (- a)). rewrite Rabs_Ropp in *. lra. Qed.
Lemma sunset_cos p d a : cos p <> 0 -> cos d <> 0 -> cos a = - (tan d) * tan p -> sun_up p d a = 0.
Proof. intros P D A. unfold sun_up. rewrite A. unfold tan. field. split; assumption. Qed.
Lemma no_crossing p d : cos p <> 0 -> cos d <> 0 -> (forall h, sun_up p d h <> 0) <-> 1 < Rabs (tan d * tan p).
Proof.
  intros P D. split.
  - intros H. apply Rnot_le_lt. intros K. apply Rabs_le_inv in K.
    apply (H (acos (- (tan d) * tan p))). apply sunset_cos; [exact P | exact D |]. apply cos_acos. lra.
  - intros K h E.
    assert (C : cos h = - (tan d * tan p)).
    { unfold sun_up in E. unfold tan. field_simplify_eq; [|split; assumption]. lra. }
    pose proof (COS_bound h) as B. rewrite C in B. apply (Rlt_irrefl 1). apply Rlt_le_trans with (1 := K). apply Rabs_le. lra.
Qed.
Lemma geometric_fin z t lat lon dec eot u : localize_strict z (wall_midnight z t) = Ok u ->
  cos dec <> 0 -> cos (Rrad lat) <> 0 -> Rabs (tan dec * tan (Rrad lat)) <= 1 ->
  let off := hours (utcoffset z t) in
  let a := Rdeg (acos (- tan dec * tan (Rrad lat))) in
  sun_rise_set_transit_geometric (Some z) t #lat #lon #dec #eot
  = Ok (#(IZR u + ((- a - lon - eot / 4) / 15 + 12 + off) * 3600000000000),
        #(IZR u + ((a - lon - eot / 4) / 15 + 12 + off) * 3600000000000),
        #(IZR u + ((0 - lon - eot / 4) / 15 + 12 + off) * 3600000000000)).
Proof.
  intros H D P B off a. unfold sun_rise_set_transit_geometric. autorewrite with flfin. rewrite !ftan_fin by assumption. autorewrite with flfin.
  apply Rabs_le_inv in B. rewrite facos_fin by lra. autorewrite with flfin. fold a. cbv zeta. rewrite !to_hours_fin. cbv beta iota delta [bind].
  rewrite !(local_times_fin _ _ _ _ H). reflexivity.
Qed.
Lemma geometric_nan z t lat lon dec eot u : localize_strict z (wall_midnight z t) = Ok u ->
  cos dec <> 0 -> cos (Rrad lat) <> 0 -> 1 < Rabs (tan dec * tan (Rrad lat)) ->
  exists tr, sun_rise_set_transit_geometric (Some z) t #lat #lon #dec #eot = Ok (NaN, NaN, #tr).
Proof.
  intros H D P B. eexists. unfold sun_rise_set_transit_geometric. autorewrite with flfin. rewrite !ftan_fin by assumption. autorewrite with flfin.
  assert (E : facos #(- tan dec * tan (Rrad lat)) = NaN).
  { unfold facos. destruct (Rleb_spec (-1) (- tan dec * tan (Rrad lat))) as [K|K]; [|reflexivity].
    destruct (Rleb_spec (- tan dec * tan (Rrad lat)) 1) as [L|L]; [|reflexivity].
    exfalso. apply (Rlt_irrefl 1). apply Rlt_le_trans with (1 := B). apply Rabs_le. lra. }
  rewrite E. cbv zeta. change (fdegrees NaN) with NaN. change (fneg NaN) with NaN.
  rewrite to_hours_fin. unfold hour_angle_to_hours. change (NaN - #lon)%fl with NaN. cbv beta iota delta [bind].
  rewrite (local_times_fin _ _ _ _ H). unfold local_times_from_hours_since_midnight. rewrite H. cbv beta iota delta [bind].
  change (NaN - #eot / #4)%fl with NaN. reflexivity.
Qed.
