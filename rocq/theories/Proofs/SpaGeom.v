(** Proofs about the solar position algorithm: geometry. *)
From Verif Require Import Base.Fl Base.FlFacts Base.Py Base.Trig Model.SolarPosition Model.SpaTables Model.Spa Spec.SolarSpec Spec.SpaSpec Proofs.SolarP Proofs.EphemP Proofs.SpaP.
From Coq Require Import ZArith Psatz.
Open Scope R_scope.

(** *** time *)
Lemma times u dt : julian_day u = ut_days u + 2451545 /\ julian_ephemeris_day (julian_day u) dt = tt_days u dt + 2451545.
Proof. unfold julian_ephemeris_day, julian_day, ut_days, tt_days, ut_days. split; field. Qed.
Definition spa_lam (t T : R) : R := Rmodp (Rmodp (earth_longitude t * 180 / PI) 360 + 180) 360 + nutation_longitude T - 20.4898 / (3600 * earth_distance t).
Lemma lam_same t T : same_angle (spa_lam t T) (sun_longitude t T).
Proof.
  unfold spa_lam, sun_longitude, same_angle. destruct (Rmodp_spec (earth_longitude t * 180 / PI) 360) as (_ & j & J); [lra|].
  destruct (Rmodp_spec (Rmodp (earth_longitude t * 180 / PI) 360 + 180) 360) as (_ & k & K); [lra|].
  exists (- j - k)%Z. rewrite minus_IZR, opp_IZR. lra.
Qed.
Section Time.
  Variables u dt : R.
  Let d := ut_days u.
  Let t := millennia (tt_days u dt).
  Let T := centuries (tt_days u dt).
  Hypothesis Ht : Rabs t <= 4.
  Lemma HT : Rabs T <= 40.
  Proof. unfold T, t, centuries, millennia in *. apply Rabs_le_inv in Ht. apply Rabs_le. lra. Qed.
  Lemma dist_pos : 0.977 <= earth_distance t <= 1.023. Proof. apply distance_range, Ht. Qed.
  Let eps := Rrad (SpaSpec.obliquity t T).
  Let b := sun_latitude t.
  Let l := Rrad (spa_lam t T).
  Let z := eq_z l b eps.
  Lemma cosb : 0.99 <= cos b.
  Proof.
    unfold b, sun_latitude. rewrite cos_neg. pose proof (latitude_small t Ht) as L. set (x := earth_latitude t) in *.
    pose proof (sin_lip x 0) as S. rewrite sin_0, !Rminus_0_r in S. pose proof (sin2cos2 x) as C.
    assert (P : 0 < cos x). { apply Rabs_le_inv in L. pose proof PI_3141. apply cos_gt_0; lra. }
    assert (sin x * sin x <= 0.0001). { assert (Q : Rabs (sin x) <= 0.00001) by lra. apply Rabs_le_inv in Q. nra. }
    nra.
  Qed.
  Lemma sinb : Rabs (sin b) <= 0.00001.
  Proof. unfold b, sun_latitude. rewrite sin_neg, Rabs_Ropp. pose proof (latitude_small t Ht). pose proof (sin_lip (earth_latitude t) 0) as S. rewrite sin_0, !Rminus_0_r in S. lra. Qed.
  Lemma eps_range : 0.397 <= eps <= 0.421.
  Proof.
    pose proof (obliquity_spa_range t T Ht HT) as O. unfold eps, Rrad. pose proof PI_3141 as P. set (o := SpaSpec.obliquity t T) in *. split; nra.
  Qed.
  Lemma z_small : Rabs z <= 0.5.
  Proof.
    unfold z, eq_z. pose proof eps_range as E. pose proof (sin_lip eps 0) as S. rewrite sin_0, !Rminus_0_r in S.
    rewrite (Rabs_right eps) in S by lra. pose proof (SIN_bound l) as L. pose proof (COS_bound b) as B. pose proof (COS_bound eps) as C. pose proof sinb as SB.
    apply Rle_trans with (1 := Rabs_triang _ _). rewrite !Rabs_mult.
    assert (Rabs (cos b) <= 1) by (apply Rabs_le; lra). assert (Rabs (sin l) <= 1) by (apply Rabs_le; lra). assert (Rabs (cos eps) <= 1) by (apply Rabs_le; lra).
    pose proof (Rabs_pos (cos b)). pose proof (Rabs_pos (sin l)). pose proof (Rabs_pos (cos eps)). pose proof (Rabs_pos (sin b)). pose proof (Rabs_pos (sin eps)).
    assert (Rabs (cos b) * Rabs (sin l) <= 1) by nra.
    assert (0 <= Rabs (cos b) * Rabs (sin l)) by nra. nra.
  Qed.
End Time.
Lemma ratan2_scale k y x : 0 < k -> Ratan2 (y / k) (x / k) = Ratan2 y x.
Proof.
  intros K. unfold Ratan2.
  assert (E : x <> 0 -> y / k / (x / k) = y / x) by (intros; field; lra).
  assert (S : forall a, (0 < a / k <-> 0 < a) /\ (a / k < 0 <-> a < 0)).
  { intros a. assert (Q : a = a / k * k) by (field; lra). split; split; intros; try (rewrite Q; nra).
    - apply Rdiv_lt_0_compat; lra. - destruct (Rle_lt_dec 0 (a / k)); [|lra]. assert (0 <= a / k * k) by (apply Rmult_le_pos; lra). lra. }
  destruct (S x) as [X1 X2]. destruct (S y) as [Y1 Y2].
  destruct (Rltb_spec 0 (x / k)) as [A|A]; [rewrite Rltb_t by tauto; rewrite E; [reflexivity | intros ->; lra]|]. rewrite (Rltb_f 0 x) by (apply Rnot_lt_le; tauto).
  destruct (Rltb_spec (x / k) 0) as [B|B].
  - rewrite (Rltb_t x 0) by tauto. rewrite E by lra. destruct (Rltb_spec (y / k) 0) as [C|C]; [rewrite (Rltb_t y 0) by tauto|rewrite (Rltb_f y 0) by (apply Rnot_lt_le; tauto)]; reflexivity.
  - rewrite (Rltb_f x 0) by (apply Rnot_lt_le; tauto). destruct (Rltb_spec 0 (y / k)) as [C|C]; [rewrite (Rltb_t 0 y) by tauto; reflexivity|rewrite (Rltb_f 0 y) by (apply Rnot_lt_le; tauto)].
    destruct (Rltb_spec (y / k) 0) as [D|D]; [rewrite (Rltb_t y 0) by tauto; reflexivity|rewrite (Rltb_f y 0) by (apply Rnot_lt_le; tauto)]. reflexivity.
Qed.
Definition ra_deg (x y : R) : R := Rmodp (Rdeg (Ratan2 y x)) 360.
Lemma of_time u dt : let d := ut_days u in let t := millennia (tt_days u dt) in let T := centuries (tt_days u dt) in Rabs t <= 4 ->
  let l := Rrad (spa_lam t T) in let b := sun_latitude t in let eps := Rrad (SpaSpec.obliquity t T) in
  exists v, same_angle v (sidereal_time d t T) /\
  spa_of_time u dt = SpaTime t (earth_distance t) #(spa_lam t T) (Rdeg b) (SpaSpec.obliquity t T) (nutation_longitude T) v
    #(ra_deg (eq_x l b eps) (eq_y l b eps)) #(Rdeg (asin (eq_z l b eps))).
Proof.
  intros d t T Ht l b eps.
  pose proof (dist_pos u dt Ht) as DP. fold t in DP. pose proof (z_small u dt Ht) as Z. fold t T in Z. fold l b eps in Z. apply Rabs_le_inv in Z.
  pose proof (cosb u dt Ht) as CB. fold t in CB. fold b in CB.
  exists (apparent_sidereal_time (mean_sidereal_time (d + 2451545) (centuries d)) (nutation_longitude T) (SpaSpec.obliquity t T)). split; [apply sidereal_eq|].
  unfold spa_of_time. destruct (times u dt) as [E1 E2]. cbv zeta. rewrite E2, E1. fold d.
  assert (J1 : julian_century (d + 2451545) = centuries d) by (unfold julian_century, centuries; field).
  assert (J2 : julian_ephemeris_century (tt_days u dt + 2451545) = T) by (unfold julian_ephemeris_century, T, centuries; field).
  assert (J3 : julian_ephemeris_millennium T = t) by (unfold julian_ephemeris_millennium, T, t, centuries, millennia; field).
  rewrite J1, J2, J3. rewrite nutation_eq. cbv beta iota zeta. rewrite obliquity_eq, hel_lat, hel_rad, hel_lon.
  assert (L : apparent_sun_longitude (geocentric_longitude (Rmodp (earth_longitude t * 180 / PI) 360)) (nutation_longitude T) (aberration_correction #(earth_distance t)) = #(spa_lam t T)).
  { unfold apparent_sun_longitude, aberration_correction, geocentric_longitude, spa_lam. autorewrite with flfin. rewrite fdiv_fin by lra. autorewrite with flfin.
    f_equal. replace (-20.4898) with (Ropp 20.4898) by lra. unfold Rdiv. ring. }
  rewrite L.
  assert (B : geocentric_latitude (Rdeg (earth_latitude t)) = Rdeg b) by (unfold geocentric_latitude, b, sun_latitude; rewrite Rdeg_opp; ring).
  rewrite B. f_equal.
  - unfold geocentric_sun_right_ascension. autorewrite with flfin. rewrite Rrad_deg. rewrite ftan_fin by lra. autorewrite with flfin. rewrite fmod_fin by lra.
    unfold ra_deg. f_equal. f_equal. f_equal. fold eps l.
    rewrite <- (ratan2_scale (cos b) (eq_y l b eps) (eq_x l b eps)) by lra. f_equal; unfold eq_x, eq_y, tan; field; lra.
  - unfold geocentric_sun_declination. autorewrite with flfin. rewrite Rrad_deg. fold eps l.
    replace (sin b * cos eps + cos b * sin eps * sin l) with (eq_z l b eps) by (unfold eq_z; ring). rewrite fasin_fin by lra. apply fdegrees_fin.
Qed.

(** *** parallax and the horizontal frame *)
Lemma sin_pos_small s : 0 <= s <= 1 -> 0 <= sin s <= s.
Proof.
  intros H. pose proof PI_3141. split; [apply sin_ge_0; lra|]. pose proof (sin_lip s 0) as L. rewrite sin_0, !Rminus_0_r, (Rabs_right s) in L by lra.
  pose proof (Rle_abs (sin s)). lra.
Qed.
Section Topo.
  Variables x y z p th s px py : R.
  Hypothesis U : x * x + y * y + z * z = 1.
  Let dec := asin z.
  Let ra := Ratan2 y x.
  Let H := th - ra.
  Let a := cos dec - px * s * cos H.
  Let n := - (px * s * sin H).
  Hypothesis A : 0 < a.
  Let da := Ratan2 n a.
  Let d' := Ratan2 ((sin dec - py * s) * cos da) a.
  Let h' := H - da.
  Let rho := sqrt (a * a + n * n).
  Let q := sin dec - py * s.
  Let D := sqrt (rho * rho + q * q).
  Lemma rho_pos : 0 < rho. Proof. apply hyp_pos. left. lra. Qed.
  Lemma D_pos : 0 < D. Proof. apply hyp_pos. left. pose proof rho_pos. lra. Qed.
  Lemma da_cos : rho * cos da = a. Proof. apply atan2_polar. Qed.
  Lemma da_sin : rho * sin da = n. Proof. apply atan2_polar. Qed.
  Lemma d'_eq : d' = Ratan2 q rho.
  Proof.
    unfold d'. pose proof rho_pos as RP. assert (C : cos da = a / rho) by (rewrite <- da_cos; field; lra). rewrite C. fold q.
    unfold Ratan2. rewrite (Rltb_t 0 a), (Rltb_t 0 rho) by lra. f_equal. field. lra.
  Qed.
  Lemma d'_cos : D * cos d' = rho. Proof. rewrite d'_eq. apply atan2_polar. Qed.
  Lemma d'_sin : D * sin d' = q. Proof. rewrite d'_eq. apply atan2_polar. Qed.
  Lemma d'_pos : 0 < cos d'.
  Proof. pose proof D_pos. pose proof rho_pos. pose proof d'_cos as E. destruct (Rle_lt_dec (cos d') 0); [|assumption]. nra. Qed.
  Lemma h'_cos : rho * cos h' = cos dec * cos H - px * s.
  Proof.
    unfold h'. rewrite cos_minus. transitivity (cos H * (rho * cos da) + sin H * (rho * sin da)); [ring|]. rewrite da_cos, da_sin. unfold a, n.
    transitivity (cos dec * cos H - px * s * (sin H * sin H + cos H * cos H)); [ring|]. rewrite sin2cos2. ring.
  Qed.
  Lemma h'_sin : rho * sin h' = cos dec * sin H.
  Proof.
    unfold h'. rewrite sin_minus. transitivity (sin H * (rho * cos da) - cos H * (rho * sin da)); [ring|]. rewrite da_cos, da_sin. unfold a, n. ring.
  Qed.
  Let X := topo_x x s px th. Let Y := topo_y y s px th. Let Z := topo_z z s py.
  Lemma topo_east : D * sun_east p d' h' = loc_east X Y Z p th.
  Proof.
    transitivity (loc_east x y z p th).
    - rewrite <- (east_eq x y z p th U). fold dec ra H. unfold sun_east. transitivity (- (D * cos d') * sin h'); [ring|]. rewrite d'_cos.
      transitivity (- (rho * sin h')); [ring|]. rewrite h'_sin. ring.
    - unfold loc_east, X, Y, topo_x, topo_y. ring.
  Qed.
  Lemma topo_north : D * sun_north p d' h' = loc_north X Y Z p th.
  Proof.
    transitivity (loc_north x y z p th + s * (sin p * px - cos p * py)).
    - rewrite <- (north_eq x y z p th U). fold dec ra H. unfold sun_north. transitivity (cos p * (D * sin d') - sin p * (D * cos d') * cos h'); [ring|].
      rewrite d'_cos, d'_sin. transitivity (cos p * q - sin p * (rho * cos h')); [ring|]. rewrite h'_cos. unfold q. ring.
    - unfold loc_north, X, Y, Z, topo_x, topo_y, topo_z. pose proof (sin2cos2 th) as S2.
      transitivity (- sin p * (x * cos th + y * sin th) + cos p * z + s * sin p * px * (sin th * sin th + cos th * cos th) - s * cos p * py); [rewrite S2; ring | ring].
  Qed.
  Lemma topo_up : D * sun_up p d' h' = loc_up X Y Z p th.
  Proof.
    transitivity (loc_up x y z p th - s * (cos p * px + sin p * py)).
    - rewrite <- (up_eq x y z p th U). fold dec ra H. unfold sun_up. transitivity (sin p * (D * sin d') + cos p * (D * cos d') * cos h'); [ring|].
      rewrite d'_cos, d'_sin. transitivity (sin p * q + cos p * (rho * cos h')); [ring|]. rewrite h'_cos. unfold q. ring.
    - unfold loc_up, X, Y, Z, topo_x, topo_y, topo_z. pose proof (sin2cos2 th) as S2.
      transitivity (cos p * (x * cos th + y * sin th) + sin p * z - s * cos p * px * (sin th * sin th + cos th * cos th) - s * sin p * py); [rewrite S2; ring | ring].
  Qed.
End Topo.
(** the SPA form of the azimuth: atan2 from the south, plus half a turn *)
Lemma az_south p d h : 0 < cos d ->
  points_to (Ratan2 (sin h) (cos h * sin p - tan d * cos p) + PI) (asin (sun_up p d h)) (sun_east p d h) (sun_north p d h) (sun_up p d h).
Proof.
  intros Dp. destruct (az_el_points p d h Dp) as (_ & _ & P3). pose proof (sun_up_bound p d h) as B. unfold points_to. rewrite neg_cos, neg_sin.
  assert (C : cos (asin (sun_up p d h)) = cos d * sqrt ((cos h * sin p - tan d * cos p) * (cos h * sin p - tan d * cos p) + sin h * sin h)).
  { rewrite cos_asin by exact B. rewrite <- (sqrt_square (cos d)) at 1 by lra. rewrite <- sqrt_mult_alt by nra. f_equal.
    pose proof (sun_norm p d h) as N. unfold Rsqr.
    replace (1 - sun_up p d h * sun_up p d h) with (sun_east p d h * sun_east p d h + sun_north p d h * sun_north p d h) by lra.
    unfold sun_east, sun_north, tan. field. lra. }
  destruct (atan2_polar (sin h) (cos h * sin p - tan d * cos p)) as [P Q]. rewrite C. repeat split; [| |exact P3].
  - transitivity (- (cos d * (sqrt ((cos h * sin p - tan d * cos p) * (cos h * sin p - tan d * cos p) + sin h * sin h) * sin (Ratan2 (sin h) (cos h * sin p - tan d * cos p))))); [ring|].
    rewrite Q. unfold sun_east. ring.
  - transitivity (- (cos d * (sqrt ((cos h * sin p - tan d * cos p) * (cos h * sin p - tan d * cos p) + sin h * sin h) * cos (Ratan2 (sin h) (cos h * sin p - tan d * cos p))))); [ring|].
    rewrite P. unfold sun_north, tan. field. lra.
Qed.
(** *** the observer *)
Lemma observer_eq lat h : 0 < cos lat -> let u := atan (0.99664719 * tan lat) in
  observer lat h (cos u + h / 6378140 * cos lat) (0.99664719 * sin u + h / 6378140 * sin lat).
Proof.
  intros C u. unfold observer. cbv zeta. assert (b : 0.99664719 <> 0) by lra. set (bb := 0.99664719) in *; clearbody bb.
  assert (P : 0 < cos u). { unfold u. pose proof (atan_bound (bb * tan lat)) as B. apply cos_gt_0; lra. }
  exists (cos u), (bb * sin u). pose proof (sin2cos2 u) as S. repeat split.
  - replace (bb * sin u / bb) with (sin u) by (field; exact b). simpl. lra.
  - exact P.
  - assert (E : sin u = bb * tan lat * cos u). { assert (Q : tan u = bb * tan lat) by (unfold u; apply tan_atan). rewrite <- Q. unfold tan. field. lra. }
    rewrite E. unfold tan. field. repeat split; first [exact b | lra].
Qed.
Lemma observer_unique lat h px py px' py' : 0 < cos lat -> observer lat h px py -> observer lat h px' py' -> px = px' /\ py = py'.
Proof.
  intros C (qx & qy & E1 & P1 & N1 & -> & ->) (rx & ry & E2 & P2 & N2 & -> & ->). assert (b : 0.99664719 <> 0) by lra. set (bb := 0.99664719) in *; clearbody bb.
  assert (Y1 : qy / bb = bb * tan lat * qx). { assert (Q : qy / bb ^ 2 * cos lat * bb / cos lat = qx * sin lat * bb / cos lat) by (rewrite N1; ring).
    replace (qy / bb ^ 2 * cos lat * bb / cos lat) with (qy / bb) in Q by (field; repeat split; first [exact b | lra]). rewrite Q. unfold tan. field. lra. }
  assert (Y2 : ry / bb = bb * tan lat * rx). { assert (Q : ry / bb ^ 2 * cos lat * bb / cos lat = rx * sin lat * bb / cos lat) by (rewrite N2; ring).
    replace (ry / bb ^ 2 * cos lat * bb / cos lat) with (ry / bb) in Q by (field; repeat split; first [exact b | lra]). rewrite Q. unfold tan. field. lra. }
  rewrite Y1 in E1. rewrite Y2 in E2. set (k := bb * tan lat) in *.
  assert (X : qx = rx).
  { apply Rsqr_inj; [lra|lra|]. unfold Rsqr. assert (0 < 1 + k * k) by nra. apply (Rmult_eq_reg_r (1 + k * k)); [|lra].
    transitivity (qx ^ 2 + (k * qx) ^ 2); [ring|]. transitivity (rx ^ 2 + (k * rx) ^ 2); [lra | ring]. }
  subst rx. assert (V : qy = ry). { replace qy with (qy / bb * bb) by (field; exact b). rewrite Y1, <- Y2. field. exact b. }
  subst ry. split; reflexivity.
Qed.

(** *** one sample *)
Lemma par_small t : Rabs t <= 4 -> 0 <= parallax_sine t <= 0.00005.
Proof.
  intros Ht. pose proof (distance_range t Ht) as D. unfold parallax_sine. set (r := earth_distance t) in *.
  assert (I : 0 < / r <= 1.03).
  { split; [apply Rinv_0_lt_compat; lra|]. apply (Rmult_le_reg_l r); [lra|]. rewrite Rinv_r by lra. nra. }
  replace (8.794 / (3600 * r) * PI / 180) with (8.794 * (/ r) * PI * / 648000) by (field; lra). set (i := / r) in *.
  pose proof PI_3141 as P. assert (Q : 0 < 8.794 * i * PI <= 29). { assert (0 < i * PI <= 3.24) by nra. nra. }
  pose proof (sin_pos_small (8.794 * i * PI * / 648000)) as S. lra.
Qed.
Lemma spa_dir u dt lat lon elev pr te rf : Rabs (millennia (tt_days u dt)) <= 4 -> -90 < lat < 90 -> Rabs elev <= 1000000 ->
  exists px py az e0 eot, observer (lat * PI / 180) elev px py /\
  let o := spa_at (Site #lat #lon #elev pr te rf) (spa_of_time u dt) in
  o_phi o = #az /\ 0 <= az < 360 /\ o_e0 o = #e0 /\ -90 <= e0 <= 90 /\ o_theta0 o = #(90 - e0) /\ o_eot o = #eot /\
  o_e o = fadd #e0 (atmospheric_refraction_correction pr te #e0 rf) /\ o_theta o = fsub #90 (o_e o) /\
  spa_pointing u dt lat lon px py az e0.
Proof.
  intros Ht Hlat Hel. set (t := millennia (tt_days u dt)) in *. set (T := centuries (tt_days u dt)).
  destruct (of_time u dt Ht) as (v & SV & E). fold t T in SV, E. cbv zeta in E.
  pose proof (dist_pos u dt Ht) as DP. fold t in DP. pose proof (z_small u dt Ht) as ZS. fold t T in ZS. cbv zeta in ZS.
  pose proof (par_small t Ht) as SP.
  set (l := Rrad (spa_lam t T)) in *. set (b := sun_latitude t) in *. set (eps := Rrad (SpaSpec.obliquity t T)) in *.
  set (x := eq_x l b eps) in *. set (y := eq_y l b eps) in *. set (z := eq_z l b eps) in *.
  assert (U : x * x + y * y + z * z = 1) by apply eq_norm.
  set (p := lat * PI / 180). assert (Pp : Rrad lat = p) by reflexivity.
  assert (Cp : 0 < cos p). { apply cos_gt_0; unfold p; pose proof PI_3141; nra. }
  set (px := cos (atan (0.99664719 * tan p)) + elev / 6378140 * cos p). set (py := 0.99664719 * sin (atan (0.99664719 * tan p)) + elev / 6378140 * sin p).
  assert (OB : observer p elev px py) by apply observer_eq, Cp.
  set (th := Rrad (sidereal_time (ut_days u) t T + lon)).
  set (s := parallax_sine t) in *. set (dec := asin z) in *. set (ra := Ratan2 y x). set (H := th - ra).
  assert (Zb : -0.5 <= z <= 0.5) by (apply Rabs_le_inv in ZS; lra).
  assert (Cd : 0.8 <= cos dec). { unfold dec. rewrite cos_asin by lra. rewrite <- (sqrt_square 0.8) by lra. apply sqrt_le_1_alt. unfold Rsqr. nra. }
  assert (Sd : sin dec = z) by (apply sin_asin; lra).
  assert (Px : Rabs px <= 2).
  { unfold px. apply Rle_trans with (1 := Rabs_triang _ _). set (c1 := cos (atan (0.99664719 * tan p))). assert (Rabs c1 <= 1) by (apply Rabs_le, COS_bound).
    assert (Rabs (elev / 6378140 * cos p) <= 1); [|lra]. rewrite Rabs_mult. assert (Rabs (cos p) <= 1) by (apply Rabs_le, COS_bound).
    unfold Rdiv. rewrite Rabs_mult, (Rabs_right (/ 6378140)) by lra. pose proof (Rabs_pos elev). pose proof (Rabs_pos (cos p)).
    set (e := Rabs elev) in *. assert (0 <= e * / 6378140 <= 1) by lra. nra. }
  set (a := cos dec - px * s * cos H). set (n := - (px * s * sin H)).
  assert (A : 0 < a).
  { unfold a. pose proof (COS_bound H) as CH. apply Rabs_le_inv in Px. assert (Q : -0.0001 <= px * s <= 0.0001) by (split; nra). nra. }
  set (da := Ratan2 n a). set (d' := Ratan2 ((sin dec - py * s) * cos da) a). set (h' := H - da).
  (* the hour angle the code computes *)
  set (Hd := Rmodp (v + lon - ra_deg x y) 360).
  assert (HH : cos (Rrad Hd) = cos H /\ sin (Rrad Hd) = sin H).
  { assert (Q : H = Rrad (sidereal_time (ut_days u) t T + lon - Rdeg ra)) by (unfold H, th; rewrite Rrad_minus, Rrad_deg; reflexivity). rewrite Q.
    apply same_angle_trig. unfold Hd, ra_deg. fold ra. destruct SV as [j ->].
    destruct (Rmodp_spec (Rdeg ra) 360) as (_ & k & K); [lra|]. set (m := Rmodp (Rdeg ra) 360) in *.
    destruct (Rmodp_spec (sidereal_time (ut_days u) t T + 360 * IZR j + lon - m) 360) as (_ & i & I); [lra|].
    exists (j + k - i)%Z. rewrite minus_IZR, plus_IZR. lra. }
  destruct HH as [HC HS].
  assert (HD : Rrad (Hd - Rdeg da) = Rrad Hd - da) by (rewrite Rrad_minus, Rrad_deg; reflexivity).
  assert (hC : cos (Rrad Hd - da) = cos h') by (unfold h'; rewrite !cos_minus, HC, HS; reflexivity).
  assert (hS : sin (Rrad Hd - da) = sin h') by (unfold h'; rewrite !sin_minus, HC, HS; reflexivity).
  pose proof (d'_pos x y z th s px py A) as Dp. fold dec ra H a n da d' in Dp.
  set (az := Rmodp (Rmodp (Rdeg (Ratan2 (sin h') (cos h' * sin p - tan d' * cos p))) 360 + 180) 360).
  set (e0 := Rdeg (asin (sun_up p d' h'))).
  exists px, py, az, e0. 
  assert (EOT : exists q, spa_equation_of_time (sun_mean_longitude t) #(ra_deg x y) (nutation_longitude T) (SpaSpec.obliquity t T) = #q).
  { unfold spa_equation_of_time. autorewrite with flfin. rewrite fmod_fin by lra. autorewrite with flfin.
    match goal with |- context [Rmodp ?A ?B * 4] => set (g := Rmodp A B * 4) end.
    destruct (Rltb 20 g), (Rltb g (-20)), (Rleb g 20), (Rleb (-20) g); cbn [andb]; autorewrite with flfin; eexists; reflexivity. }
  destruct EOT as [eot EOT]. exists eot. split; [exact OB|]. rewrite E. unfold spa_at. cbv zeta. cbn [o_phi o_e0 o_theta0 o_eot o_e o_theta spa_jme spa_r spa_lamd spa_beta spa_epsilon spa_dpsi spa_v spa_alpha spa_delta s_lat s_lon s_elev s_pressure s_temp s_refract].
  rewrite EOT.
  assert (F1 : local_hour_angle v #lon #(ra_deg x y) = #Hd) by (unfold local_hour_angle; autorewrite with flfin; rewrite fmod_fin by lra; reflexivity). rewrite F1.
  assert (F2 : equatorial_horizontal_parallax #(earth_distance t) = #(8.794 / (3600 * earth_distance t))).
  { unfold equatorial_horizontal_parallax. autorewrite with flfin. rewrite fdiv_fin by lra. reflexivity. } rewrite F2.
  assert (F3 : uterm #lat = #(atan (0.99664719 * tan p))). { unfold uterm. autorewrite with flfin. rewrite Pp. rewrite ftan_fin by lra. autorewrite with flfin. reflexivity. } rewrite F3.
  assert (F4 : xterm #(atan (0.99664719 * tan p)) #lat #elev = #px). { unfold xterm. autorewrite with flfin. rewrite fdiv_fin by lra. autorewrite with flfin. reflexivity. } rewrite F4.
  assert (F5 : yterm #(atan (0.99664719 * tan p)) #lat #elev = #py). { unfold yterm. autorewrite with flfin. rewrite fdiv_fin by lra. autorewrite with flfin. reflexivity. } rewrite F5.
  assert (F6 : parallax_sun_right_ascension #px #(8.794 / (3600 * earth_distance t)) #Hd #(Rdeg dec) = #(Rdeg da)).
  { unfold parallax_sun_right_ascension. autorewrite with flfin. rewrite Rrad_deg. change (sin (Rrad (8.794 / (3600 * earth_distance t)))) with s. rewrite HC, HS.
    unfold da, n, a. do 3 f_equal. ring. } rewrite F6.
  assert (F7 : topocentric_sun_declination #(Rdeg dec) #px #py #(8.794 / (3600 * earth_distance t)) #(Rdeg da) #Hd = #(Rdeg d')).
  { unfold topocentric_sun_declination. autorewrite with flfin. rewrite !Rrad_deg. change (sin (Rrad (8.794 / (3600 * earth_distance t)))) with s. rewrite HC. reflexivity. } rewrite F7.
  assert (F8 : topocentric_local_hour_angle #Hd #(Rdeg da) = #(Hd - Rdeg da)) by (unfold topocentric_local_hour_angle; autorewrite with flfin; reflexivity). rewrite F8.
  assert (F9 : topocentric_elevation_angle_without_atmosphere #lat #(Rdeg d') #(Hd - Rdeg da) = #e0).
  { unfold topocentric_elevation_angle_without_atmosphere. autorewrite with flfin. rewrite Rrad_deg, HD, hC, Pp. 
    change (sin p * sin d' + cos p * cos d' * cos h') with (sun_up p d' h'). rewrite fasin_fin by apply sun_up_bound. apply fdegrees_fin. } rewrite F9.
  assert (F10 : topocentric_azimuth_angle (topocentric_astronomers_azimuth #(Hd - Rdeg da) #(Rdeg d') #lat) = #az).
  { unfold topocentric_azimuth_angle, topocentric_astronomers_azimuth. autorewrite with flfin. rewrite Rrad_deg, HD, hC, hS, Pp. rewrite ftan_fin by lra. autorewrite with flfin.
    rewrite fmod_fin by lra. autorewrite with flfin. rewrite fmod_fin by lra. reflexivity. } rewrite F10.
  assert (BE : -90 <= e0 <= 90).
  { unfold e0. split; [|rewrite <- Rdeg_PI2; apply Rdeg_le, asin_bound].
    assert (Q : Rdeg (- (PI / 2)) <= Rdeg (asin (sun_up p d' h'))) by (apply Rdeg_le, asin_bound). rewrite Rdeg_opp, Rdeg_PI2 in Q. exact Q. }
  split; [reflexivity|]. split; [apply Rmodp_spec; lra|]. split; [reflexivity|]. split; [exact BE|].
  split; [unfold topocentric_zenith_angle; autorewrite with flfin; reflexivity|]. split; [reflexivity|].
  split; [reflexivity|]. split; [reflexivity|].
  (* direction *)
  unfold spa_pointing. cbv zeta. fold t T. fold b. change (SpaSpec.obliquity t T * PI / 180) with eps. fold p. change ((sidereal_time (ut_days u) t T + lon) * PI / 180) with th. fold s.
  destruct (same_angle_trig _ _ (lam_same t T)) as [LC LS]. fold l in LC, LS. change (sun_longitude t T * PI / 180) with (Rrad (sun_longitude t T)).
  assert (Xe : eq_x (Rrad (sun_longitude t T)) b eps = x) by (unfold x, eq_x; rewrite LC; reflexivity).
  assert (Ye : eq_y (Rrad (sun_longitude t T)) b eps = y) by (unfold y, eq_y; rewrite LS; reflexivity).
  assert (Ze : eq_z (Rrad (sun_longitude t T)) b eps = z) by (unfold z, eq_z; rewrite LS; reflexivity).
  rewrite Xe, Ye, Ze.
  pose proof (topo_east x y z p th s px py U A) as TE. pose proof (topo_north x y z p th s px py U A) as TN. pose proof (topo_up x y z p th s px py U A) as TU.
  pose proof (D_pos x y z th s px py A) as DD. fold dec ra H a n da d' h' in TE, TN, TU, DD.
  match type of DD with 0 < ?X => set (DL := X) in * end.
  exists DL. split; [exact DD|]. rewrite <- TE, <- TN, <- TU.
  replace (DL * sun_east p d' h' / DL) with (sun_east p d' h') by (field; lra).
  replace (DL * sun_north p d' h' / DL) with (sun_north p d' h') by (field; lra).
  replace (DL * sun_up p d' h' / DL) with (sun_up p d' h') by (field; lra).
  destruct (az_south p d' h' Dp) as (P1 & P2 & P3). set (G := Ratan2 (sin h') (cos h' * sin p - tan d' * cos p)) in *.
  assert (AZ : cos (Rrad az) = cos (G + PI) /\ sin (Rrad az) = sin (G + PI)).
  { assert (Q : G + PI = Rrad (Rdeg G + 180)) by (unfold Rrad, Rdeg; field; apply PI_neq0). rewrite Q. apply same_angle_trig. unfold az.
    destruct (Rmodp_spec (Rdeg G) 360) as (_ & k & K); [lra|]. set (m := Rmodp (Rdeg G) 360) in *.
    destruct (Rmodp_spec (m + 180) 360) as (_ & j & J); [lra|]. exists (- k - j)%Z. rewrite minus_IZR, opp_IZR. lra. }
  destruct AZ as [AC AS]. change (az * PI / 180) with (Rrad az). change (e0 * PI / 180) with (Rrad e0).
  assert (EE : Rrad e0 = asin (sun_up p d' h')) by apply Rrad_deg. unfold points_to. rewrite AC, AS, EE. repeat split; assumption.
Qed.

(** *** equation of time *)
Lemma eot_fin m alpha dpsi eps : exists q k, spa_equation_of_time m #alpha dpsi eps = #q /\ -1420 < q <= 20 /\
  q = 4 * (m - 0.0057183 - alpha + dpsi * cos (eps * PI / 180)) + 1440 * IZR k.
Proof.
  unfold spa_equation_of_time. autorewrite with flfin. rewrite fmod_fin by lra. autorewrite with flfin. change (Rrad eps) with (eps * PI / 180).
  set (E := m - 0.0057183 - alpha + dpsi * cos (eps * PI / 180)). destruct (Rmodp_spec E 360) as (B & k & K); [lra|]. set (g := Rmodp E 360) in *.
  rewrite (Rltb_f (g * 4)), (Rleb_t (-20)) by lra.
  destruct (Rltb_spec 20 (g * 4)) as [G|G].
  - rewrite (Rleb_f (g * 4)) by lra. cbn [andb]. autorewrite with flfin. exists (1 * (g * 4 - 1440) + 0 * (g * 4 + 1440) + 0 * (g * 4)), (- k - 1)%Z.
    split; [reflexivity|]. rewrite minus_IZR, opp_IZR. lra.
  - rewrite (Rleb_t (g * 4)) by lra. cbn [andb]. autorewrite with flfin. exists (0 * (g * 4 - 1440) + 0 * (g * 4 + 1440) + 1 * (g * 4)), (- k)%Z.
    split; [reflexivity|]. rewrite opp_IZR. lra.
Qed.
Lemma eot_unique q q' k : -1420 < q <= 20 -> -20 <= q' <= 20 -> q = q' + 1440 * IZR k -> q = q'.
Proof.
  intros B B' E. assert (K : IZR (-1) < IZR k < IZR 1) by (cbn; lra). destruct K as [K1 K2]. apply lt_IZR in K1, K2. assert (k = 0%Z) by lia. subst k. lra.
Qed.
Lemma mean_lon_eq t : sun_mean_longitude t = mean_longitude t.
Proof. unfold sun_mean_longitude, mean_longitude, poly. cbn [fold_right]. simpl pow. lra. Qed.
Lemma ra_same x y k al : 0 < k -> k * cos (al * PI / 180) = x -> k * sin (al * PI / 180) = y -> same_angle (ra_deg x y) al.
Proof.
  intros K C S. 
  assert (T : same_angle (Rdeg (Ratan2 y x)) al).
  { destruct (atan2_polar y x) as [P Q].
    assert (D : sqrt (x * x + y * y) = k). { rewrite <- C, <- S. transitivity (sqrt (k * k)); [|apply sqrt_square; lra]. f_equal. pose proof (sin2cos2 (al * PI / 180)) as Z.
      transitivity (k * k * (sin (al * PI / 180) * sin (al * PI / 180) + cos (al * PI / 180) * cos (al * PI / 180))); [ring|rewrite Z; ring]. }
    rewrite D in P, Q. set (A := Ratan2 y x) in *. set (B := al * PI / 180) in *.
    assert (EC : cos A = cos B) by (apply (Rmult_eq_reg_l k); lra). assert (ES : sin A = sin B) by (apply (Rmult_eq_reg_l k); lra).
    assert (Z : cos (A - B) = 1) by (rewrite cos_minus, EC, ES; pose proof (sin2cos2 B); lra).
    assert (J : exists j, A - B = 2 * PI * IZR j).
    { replace (A - B) with (2 * ((A - B) / 2)) in Z by field. rewrite cos_2a_sin in Z.
      destruct (sin_eq_0_0 ((A - B) / 2)) as [j J]; [nra|]. exists j. lra. }
    destruct J as [j J]. exists j. unfold Rdeg. replace A with (B + 2 * PI * IZR j) by lra. unfold B. field. apply PI_neq0. }
  destruct T as [j J]. unfold ra_deg. destruct (Rmodp_spec (Rdeg (Ratan2 y x)) 360) as (_ & i & I); [lra|]. exists (j - i)%Z. rewrite minus_IZR. lra.
Qed.
