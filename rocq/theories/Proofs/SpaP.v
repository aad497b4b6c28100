(** Proofs about the solar position algorithm: series and bounds. *)
From Verif Require Import Base.Fl Base.FlFacts Base.Py Base.Trig Model.SolarPosition Model.SpaTables Model.Spa Spec.SolarSpec Spec.SpaSpec Proofs.SolarP Proofs.EphemP.
From Coq Require Import ZArith Psatz.
Open Scope R_scope.

(** *** series *)
Lemma smc_acc arr x : forall s, fold_left (fun s row => let '(a, b, c) := row in s + a * cos (b + c * x)) arr s = s + periodic arr x.
Proof.
  induction arr as [|[[a b] c] l IH]; intros s; unfold periodic; cbn [fold_left map total fold_right].
  - ring.
  - rewrite IH. unfold periodic, total. ring.
Qed.
Lemma smc_eq arr x : sum_mult_cos_add_mult arr x = periodic arr x.
Proof. unfold sum_mult_cos_add_mult. rewrite smc_acc. ring. Qed.
Lemma nut_acc (rows : list ((R * R * R * R * R) * (R * R * R * R))) T x0 x1 x2 x3 x4 : forall p e,
  fold_left (fun acc row =>
      let '((y0, y1, y2, y3, y4), (a, b, c, d)) := row in
      let arg := Rrad (y0 * x0 + y1 * x1 + y2 * x2 + y3 * x3 + y4 * x4) in
      (fst acc + (a + b * T) * sin arg, snd acc + (c + d * T) * cos arg)) rows (p, e)
  = (p + total (map (fun row => match row with ((y0, y1, y2, y3, y4), (a, b, _, _)) => (a + b * T) * sin (Rrad (y0 * x0 + y1 * x1 + y2 * x2 + y3 * x3 + y4 * x4)) end) rows),
     e + total (map (fun row => match row with ((y0, y1, y2, y3, y4), (_, _, c, d)) => (c + d * T) * cos (Rrad (y0 * x0 + y1 * x1 + y2 * x2 + y3 * x3 + y4 * x4)) end) rows)).
Proof.
  induction rows as [|[[[[[y0 y1] y2] y3] y4] [[[a b] c] d]] l IH]; intros p e; cbn [fold_left map total fold_right fst snd].
  - f_equal; ring.
  - rewrite IH. unfold total. f_equal; ring.
Qed.
Lemma args_eq T : mean_elongation T = elongation_moon T /\ mean_anomaly_sun T = anomaly_sun T /\ mean_anomaly_moon T = anomaly_moon T
  /\ moon_argument_latitude T = latitude_moon T /\ moon_ascending_longitude T = node_moon T.
Proof.
  unfold mean_elongation, mean_anomaly_sun, mean_anomaly_moon, moon_argument_latitude, moon_ascending_longitude,
    elongation_moon, anomaly_sun, anomaly_moon, latitude_moon, node_moon, poly; cbn [fold_right]; repeat split; simpl pow; lra.
Qed.
Lemma nutation_eq T : longitude_obliquity_nutation T (mean_elongation T) (mean_anomaly_sun T) (mean_anomaly_moon T) (moon_argument_latitude T) (moon_ascending_longitude T)
  = (nutation_longitude T, nutation_obliquity T).
Proof.
  destruct (args_eq T) as (-> & -> & -> & -> & ->). unfold longitude_obliquity_nutation, nutation_longitude, nutation_obliquity, nutation_argument.
  rewrite nut_acc. cbv beta iota. f_equal; rewrite Rplus_0_l, Rmult_1_r; f_equal; unfold total; f_equal; apply map_ext;
  intros [[[[[y0 y1] y2] y3] y4] [[[a b] c] d]]; reflexivity.
Qed.
Lemma hel_lon t : heliocentric_longitude t = Rmodp (earth_longitude t * 180 / PI) 360.
Proof. unfold heliocentric_longitude, earth_longitude, poly. rewrite !smc_eq. cbn [map fold_right]. cbv zeta. f_equal. unfold Rdeg. f_equal. f_equal. f_equal. ring. Qed.
Lemma hel_lat t : heliocentric_latitude t = Rdeg (earth_latitude t).
Proof. unfold heliocentric_latitude, earth_latitude, poly. rewrite !smc_eq. cbn [map fold_right]. cbv zeta. f_equal. f_equal. ring. Qed.
Lemma hel_rad t : heliocentric_radius_vector t = earth_distance t.
Proof. unfold heliocentric_radius_vector, earth_distance, poly. rewrite !smc_eq. cbn [map fold_right]. cbv zeta. f_equal. ring. Qed.
Lemma obliquity_eq t T : true_ecliptic_obliquity (mean_ecliptic_obliquity t) (nutation_obliquity T) = SpaSpec.obliquity t T.
Proof.
  unfold true_ecliptic_obliquity, mean_ecliptic_obliquity, SpaSpec.obliquity, poly. cbn [fold_right]. cbv zeta. f_equal.
  replace (1 * t / 10) with (t / 10) by field. set (U := t / 10). unfold Rdiv. rewrite Rmult_1_r. f_equal. simpl pow. lra.
Qed.
Lemma sidereal_eq d t T : same_angle (apparent_sidereal_time (mean_sidereal_time (d + 2451545) (centuries d)) (nutation_longitude T) (SpaSpec.obliquity t T)) (sidereal_time d t T).
Proof.
  unfold apparent_sidereal_time, mean_sidereal_time, sidereal_time. replace (d + 2451545 - 2451545) with d by ring.
  destruct (Rmodp_spec (280.46061837 + 360.98564736629 * d + 0.000387933 * centuries d ^ 2 - centuries d ^ 3 / 38710000) 360) as (_ & k & K); [lra|].
  unfold same_angle. exists (- k)%Z. rewrite opp_IZR. unfold Rrad. lra.
Qed.

(** *** bounds *)
Definition amp (T : list (R * R * R)) : R := total (map (fun row => match row with (a, _, _) => Rabs a end) T).
Lemma periodic_bound T t : Rabs (periodic T t) <= amp T.
Proof.
  induction T as [|[[a b] c] l IH]; unfold periodic, amp; cbn [map total fold_right].
  - rewrite Rabs_R0. lra.
  - apply Rle_trans with (1 := Rabs_triang _ _). unfold periodic, amp, total in IH. rewrite Rabs_mult.
    pose proof (COS_bound (b + c * t)) as C. assert (Rabs (cos (b + c * t)) <= 1) by (apply Rabs_le; lra). pose proof (Rabs_pos a). nra.
Qed.
Definition nut_amp (M : R) : R := total (map (fun row : (R * R * R * R * R) * (R * R * R * R) => match row with (_, (a, b, _, _)) => Rabs a + Rabs b * M end) (combine nutation_yterm nutation_abcd)).
Definition eps_amp (M : R) : R := total (map (fun row : (R * R * R * R * R) * (R * R * R * R) => match row with (_, (_, _, c, d)) => Rabs c + Rabs d * M end) (combine nutation_yterm nutation_abcd)).
Lemma lin_bound a b T M u : Rabs T <= M -> Rabs u <= 1 -> Rabs ((a + b * T) * u) <= Rabs a + Rabs b * M.
Proof.
  intros H U. rewrite Rabs_mult. pose proof (Rabs_triang a (b * T)) as Q. rewrite Rabs_mult in Q. pose proof (Rabs_pos (a + b * T)). pose proof (Rabs_pos b). pose proof (Rabs_pos u).
  assert (Rabs b * Rabs T <= Rabs b * M) by (apply Rmult_le_compat_l; lra). nra.
Qed.
Lemma nut_bound T M : Rabs T <= M -> Rabs (nutation_longitude T) <= nut_amp M / 36000000 /\ Rabs (nutation_obliquity T) <= eps_amp M / 36000000.
Proof.
  intros H. unfold nutation_longitude, nutation_obliquity, nut_amp, eps_amp. unfold Rdiv. rewrite !Rabs_mult, !(Rabs_right (/ 36000000)) by lra.
  split; (apply Rmult_le_compat_r; [lra|]);
  induction (combine nutation_yterm nutation_abcd) as [|[y [[[a b] c] d]] l IH]; unfold total in *; cbn [map fold_right]; try (rewrite Rabs_R0; lra);
  (apply Rle_trans with (1 := Rabs_triang _ _); apply Rplus_le_compat; [|exact IH]; apply lin_bound; [exact H|]; apply Rabs_le; first [apply SIN_bound | apply COS_bound]).
Qed.
Ltac absnum := repeat match goal with |- context [Rabs ?x] => first [rewrite (Rabs_right x) by lra | rewrite (Rabs_left1 x) by lra] end.
Ltac ampt T := cbv [amp total map fold_right T]; absnum; lra.
Lemma amp_B0 : amp B0_terms <= 600. Proof. ampt B0_terms. Qed.
Lemma amp_B1 : amp B1_terms <= 20. Proof. ampt B1_terms. Qed.
Lemma amp_R1 : amp R1_terms <= 107000. Proof. ampt R1_terms. Qed.
Lemma amp_R2 : amp R2_terms <= 4600. Proof. ampt R2_terms. Qed.
Lemma amp_R3 : amp R3_terms <= 160. Proof. ampt R3_terms. Qed.
Lemma amp_R4 : amp R4_terms <= 4. Proof. ampt R4_terms. Qed.
Lemma amp_R0 : amp (tl R0_terms) <= 1697000. Proof. cbv [amp total map fold_right R0_terms tl]. absnum. lra. Qed.
Lemma nut_amp_40 : nut_amp 40 <= 210000.
Proof. cbv [nut_amp combine nutation_yterm nutation_abcd total map fold_right]. absnum. lra. Qed.
Lemma eps_amp_40 : eps_amp 40 <= 110000.
Proof. cbv [eps_amp combine nutation_yterm nutation_abcd total map fold_right]. absnum. lra. Qed.

Lemma pow_bound t M n : Rabs t <= M -> Rabs (t ^ n) <= M ^ n.
Proof.
  intros H. pose proof (Rabs_pos t). rewrite <- RPow_abs. apply pow_incr. lra.
Qed.
Lemma prod_bound a b A B : Rabs a <= A -> Rabs b <= B -> Rabs (a * b) <= A * B.
Proof. intros. rewrite Rabs_mult. apply Rmult_le_compat; auto using Rabs_pos. Qed.
Lemma distance_range t : Rabs t <= 4 -> 0.977 <= earth_distance t <= 1.023.
Proof.
  intros H. unfold earth_distance, poly. cbn [map fold_right].
  assert (A0 : Rabs (periodic R0_terms t - 100013989) <= 1697000).
  { replace (periodic R0_terms t - 100013989) with (periodic (tl R0_terms) t); [apply Rle_trans with (1 := periodic_bound _ _), amp_R0|].
    assert (E : periodic R0_terms t = 100013989 * cos (0 + 0 * t) + periodic (tl R0_terms) t) by reflexivity. rewrite E.
    replace (0 + 0 * t) with 0 by ring. rewrite cos_0. ring. }
  pose proof (Rle_trans _ _ _ (periodic_bound R1_terms t) amp_R1) as A1. pose proof (Rle_trans _ _ _ (periodic_bound R2_terms t) amp_R2) as A2.
  pose proof (Rle_trans _ _ _ (periodic_bound R3_terms t) amp_R3) as A3. pose proof (Rle_trans _ _ _ (periodic_bound R4_terms t) amp_R4) as A4.
  pose proof (prod_bound _ _ _ _ H A4) as P4.
  assert (P3 : Rabs (periodic R3_terms t + t * periodic R4_terms t) <= 176) by (apply Rle_trans with (1 := Rabs_triang _ _); lra).
  pose proof (prod_bound _ _ _ _ H P3) as Q3.
  assert (P2 : Rabs (periodic R2_terms t + t * (periodic R3_terms t + t * periodic R4_terms t)) <= 5304) by (apply Rle_trans with (1 := Rabs_triang _ _); lra).
  pose proof (prod_bound _ _ _ _ H P2) as Q2.
  assert (P1 : Rabs (periodic R1_terms t + t * (periodic R2_terms t + t * (periodic R3_terms t + t * periodic R4_terms t))) <= 128216) by (apply Rle_trans with (1 := Rabs_triang _ _); lra).
  pose proof (prod_bound _ _ _ _ H P1) as Q1. apply Rabs_le_inv in A0, Q1.
  rewrite Rmult_0_r, Rplus_0_r. replace (10 ^ 8) with 100000000 by (simpl; ring).
  set (S := t * (periodic R1_terms t + t * (periodic R2_terms t + t * (periodic R3_terms t + t * periodic R4_terms t)))) in *.
  set (P := periodic R0_terms t) in *. lra.
Qed.
Lemma latitude_small t : Rabs t <= 4 -> Rabs (earth_latitude t) <= 0.00001.
Proof.
  intros H. unfold earth_latitude, poly. cbn [map fold_right].
  pose proof (Rle_trans _ _ _ (periodic_bound B0_terms t) amp_B0) as A0. pose proof (Rle_trans _ _ _ (periodic_bound B1_terms t) amp_B1) as A1.
  pose proof (prod_bound _ _ _ _ H A1) as P1. rewrite Rmult_0_r, Rplus_0_r.
  pose proof (Rabs_triang (periodic B0_terms t) (t * periodic B1_terms t)). unfold Rdiv. rewrite Rabs_mult.
  replace (10 ^ 8) with 100000000 by (simpl; ring). rewrite (Rabs_right (/ 100000000)) by lra. lra.
Qed.
Lemma nutation_small T : Rabs T <= 40 -> Rabs (nutation_longitude T) <= 0.006 /\ Rabs (nutation_obliquity T) <= 0.0031.
Proof.
  intros H. destruct (nut_bound T 40 H) as [A B]. pose proof nut_amp_40. pose proof eps_amp_40. lra.
Qed.
Lemma obliquity_spa_range t T : Rabs t <= 4 -> Rabs T <= 40 -> 22.8 <= SpaSpec.obliquity t T <= 24.1.
Proof.
  intros H HT. destruct (nutation_small T HT) as [_ N]. apply Rabs_le_inv in N. unfold SpaSpec.obliquity. set (n := nutation_obliquity T) in *.
  assert (U : Rabs (t / 10) <= 0.4) by (unfold Rdiv; rewrite Rabs_mult, (Rabs_right (/ 10)) by lra; lra).
  set (u := t / 10) in *. unfold poly. cbn [fold_right].
  assert (S : forall c x A B, Rabs x <= A -> Rabs c + 0.4 * A <= B -> Rabs (c + u * x) <= B).
  { intros c x A B X Q. apply Rle_trans with (1 := Rabs_triang _ _). pose proof (prod_bound _ _ _ _ U X). lra. }
  assert (Z : Rabs 0 <= 0) by (rewrite Rabs_R0; lra).
  apply (S 2.45 _ _ 2.5) in Z; [|absnum; lra]. apply (S 5.79 _ _ 7) in Z; [|absnum; lra]. apply (S 27.87 _ _ 31) in Z; [|absnum; lra].
  apply (S 7.12 _ _ 20) in Z; [|absnum; lra]. apply (S (-39.05) _ _ 48) in Z; [|absnum; lra]. apply (S (-249.67) _ _ 269) in Z; [|absnum; lra].
  apply (S (-51.38) _ _ 160) in Z; [|absnum; lra]. 
  match type of Z with Rabs ?X <= _ => set (x := X) in * end. apply Rabs_le_inv in Z. apply Rabs_le_inv in U.
  assert (P : u * (-4680.93 + u * (-1.55 + u * (1999.25 + u * x))) = -4680.93 * u + (-1.55 * u ^ 2 + 1999.25 * u ^ 3 + x * u ^ 4)) by ring.
  rewrite P. 
  assert (U2 : 0 <= u ^ 2 <= 0.16) by (simpl; nra). 
  assert (U3 : -0.064 <= u ^ 3 <= 0.064) by (simpl in *; split; nra).
  assert (U4 : 0 <= u ^ 4 <= 0.0256) by (simpl in *; split; nra).
  assert (-160 * 0.0256 <= x * u ^ 4 <= 160 * 0.0256) by (split; nra).
  lra.
Qed.
