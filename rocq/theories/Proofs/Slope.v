(** Lemmas: tracker axis on a slope, row shading angles and factors. *)
From Verif Require Import Base.Fl Base.FlFacts Base.Trig Spec.Geometry Spec.TrackerGeometry
  Model.Shading Model.Tracking Proofs.IrradGeom Proofs.TrackGeom Proofs.Track.
From Coq Require Import Psatz.
Open Scope R_scope.

Lemma dot_axis_plane T A S G :
  dot (axis_dir T A) (dirvec S G) = cosD T * sinD S * cosD (A - G) - sinD T * cosD S.
Proof. unfold dot, axis_dir, dirvec; simpl. rewrite cosD_minus. ring. Qed.
Lemma dot_lateral_plane A S G : dot (lateral A) (dirvec S G) = - (sinD S * sinD (A - G)).
Proof. unfold dot, lateral, dirvec; simpl. rewrite sinD_minus. ring. Qed.
Lemma dot_rest_plane T A S G :
  dot (rest_normal T A) (dirvec S G) = cosD T * cosD S + sinD T * sinD S * cosD (A - G).
Proof. unfold dot, rest_normal, dirvec; simpl. rewrite cosD_minus. ring. Qed.

Lemma atan_deg_range x : -90 < Rdeg (atan x) < 90.
Proof.
  pose proof (atan_bound x) as [H1 H2]. split.
  - replace (-90) with (- (90)) by lra. rewrite <- Rdeg_PI2, <- Rdeg_opp. apply Rdeg_lt. lra.
  - rewrite <- Rdeg_PI2. apply Rdeg_lt. lra.
Qed.
Lemma cosD_atan_pos x : 0 < cosD (Rdeg (atan x)).
Proof. apply cosD_pos, atan_deg_range. Qed.
Lemma sin_cos_atan x : sinD (Rdeg (atan x)) = x * cosD (Rdeg (atan x)).
Proof.
  pose proof (cosD_atan_pos x) as H. rewrite sinD_deg, cosD_deg in *.
  pose proof (tan_atan x) as E. unfold tan in E. rewrite <- E at 2. field. lra.
Qed.

Lemma calc_axis_tilt_fin G S A : cosD S <> 0 ->
  calc_axis_tilt #G #S #A = #(Rdeg (atan (cosD (A - G) * tanD S))).
Proof. intros H. unfold calc_axis_tilt. fin. reflexivity. Qed.

Lemma axis_in_slope G S A : 0 < cosD S ->
  exists T, calc_axis_tilt #G #S #A = #T /\ -90 < T < 90 /\ dot (axis_dir T A) (dirvec S G) = 0.
Proof.
  intros H. eexists. split; [apply calc_axis_tilt_fin; lra|]. split; [apply atan_deg_range|].
  rewrite dot_axis_plane, sin_cos_atan. rewrite tanD_eq. field. lra.
Qed.
Lemma sinD_tanD_inj a b : -90 < a < 90 -> -90 < b < 90 -> tanD a = tanD b -> a = b.
Proof.
  intros Ha Hb E. unfold tanD in E.
  assert (K : forall x, -90 < x < 90 -> - (PI / 2) < Rrad x < PI / 2).
  { intros x Hx. rewrite <- Rrad_90, <- Rrad_opp. split; apply Rrad_lt; lra. }
  rewrite <- (Rdeg_rad a), <- (Rdeg_rad b). f_equal.
  rewrite <- (atan_tan (Rrad a)), <- (atan_tan (Rrad b)) by auto. rewrite E. reflexivity.
Qed.
Lemma axis_in_slope_unique G S A T : 0 < cosD S -> -90 < T < 90 ->
  dot (axis_dir T A) (dirvec S G) = 0 -> calc_axis_tilt #G #S #A = #T.
Proof.
  intros H HT D. rewrite calc_axis_tilt_fin by lra. f_equal.
  apply sinD_tanD_inj; [apply atan_deg_range|exact HT|].
  rewrite tanD_deg. rewrite tan_atan. rewrite dot_axis_plane in D. rewrite !tanD_eq.
  pose proof (cosD_pos T HT) as HcT.
  apply Rmult_eq_reg_r with (cosD S * cosD T); [|apply Rmult_integral_contrapositive; lra].
  replace (cosD (A - G) * (sinD S / cosD S) * (cosD S * cosD T)) with (cosD T * sinD S * cosD (A - G)) by (field; lra).
  replace (sinD T / cosD T * (cosD S * cosD T)) with (sinD T * cosD S) by (field; lra). lra.
Qed.

(** cross-axis tilt *)
Definition across (T A b : R) : vec3 := rotate (axis_dir T A) b (lateral A).
Lemma across_eq T A b : across T A b = vadd (vscale (cosD b) (lateral A)) (vscale (- sinD b) (rest_normal T A)).
Proof.
  unfold across, rotate, rest_normal, axis_dir, lateral, dirvec, cross, dot, vadd, vscale; simpl.
  pose proof (sc2D A) as H2.
  set (st := sinD T); set (ct := cosD T); set (sa := sinD A) in *; set (ca := cosD A) in *;
  set (s := sinD b); set (c := cosD b).
  replace (ct * sa * ca + ct * ca * - sa + - st * 0) with 0 by ring.
  f_equal.
  - ring.
  - ring.
  - replace (ct * sa * - sa - ct * ca * ca) with (- ct * (sa * sa + ca * ca)) by ring. rewrite H2. ring.
Qed.
Lemma cross_norm T S D :
  let v0 := sinD D * cosD T * cosD S in
  let v1 := sinD T * sinD S + cosD D * cosD T * cosD S in
  let v2 := - sinD D * sinD S * cosD T in
  v0 * v0 + v1 * v1 + v2 * v2 =
  (sinD S * sinD D) * (sinD S * sinD D) +
  (cosD T * cosD S + sinD T * sinD S * cosD D) * (cosD T * cosD S + sinD T * sinD S * cosD D).
Proof.
  intros v0 v1 v2. unfold v0, v1, v2.
  pose proof (sin2D T) as H1. pose proof (sin2D S) as H2. pose proof (sin2D D) as H3.
  set (st := sinD T) in *; set (ct := cosD T) in *; set (ss := sinD S) in *; set (cs := cosD S) in *;
  set (sd := sinD D) in *; set (cd := cosD D) in *.
  transitivity ((sd*sd) * (ct*ct) * (cs*cs + ss*ss) + (st*st)*(ss*ss) + 2 * (st*ss*cd*ct*cs) + cd*cd*(ct*ct)*(cs*cs)); [ring|].
  transitivity ((ss*ss)*(sd*sd) + (ct*ct)*(cs*cs) + 2 * (st*ss*cd*ct*cs) + (st*st)*(ss*ss)*(cd*cd)); [|ring].
  rewrite H1, H2, H3. ring.
Qed.
Lemma cross_num T S D :
  (sinD D * cosD T * cosD S * cosD D - (sinD T * sinD S + cosD D * cosD T * cosD S) * sinD D) * sinD T
  + - sinD D * sinD S * cosD T * cosD T = - (sinD S * sinD D).
Proof.
  pose proof (sin2D T) as H1.
  set (st := sinD T) in *; set (ct := cosD T) in *; set (ss := sinD S) in *; set (cs := cosD S) in *;
  set (sd := sinD D) in *; set (cd := cosD D) in *.
  transitivity (- (ss * sd) * (st * st + ct * ct)); [ring|]. rewrite H1. ring.
Qed.
Lemma sum_sq_pos a b : 0 < b -> 0 < a * a + b * b.
Proof. intros H. pose proof (Rle_0_sqr a) as K. unfold Rsqr in K. nra. Qed.
Lemma ratio_bound a b : 0 < b -> -1 < a / sqrt (a * a + b * b) < 1.
Proof.
  intros H. pose proof (sum_sq_pos a b H) as P. pose proof (sqrt_lt_R0 _ P) as Q.
  set (r := sqrt (a * a + b * b)) in *.
  assert (E : r * r = a * a + b * b) by (apply sqrt_sqrt; lra).
  assert (- r < a < r) by (split; nra).
  split; apply Rmult_lt_reg_r with r; try lra; unfold Rdiv; rewrite Rmult_assoc, Rinv_l by lra; lra.
Qed.
Lemma cross_axis_spec G S A T : 0 < dot (rest_normal T A) (dirvec S G) ->
  exists b, calc_cross_axis_tilt #G #S #A #T = #b /\ -90 < b < 90 /\
            dot (across T A b) (dirvec S G) = 0.
Proof.
  intros H. rewrite dot_rest_plane in H.
  unfold calc_cross_axis_tilt, calc_tracker_norm, calc_beta_c. fin.
  set (p := sinD S * sinD (A - G)).
  set (q := cosD T * cosD S + sinD T * sinD S * cosD (A - G)) in *.
  rewrite cross_norm. fold p q.
  pose proof (sum_sq_pos p q H) as P. rewrite fsqrt_fin by lra.
  pose proof (sqrt_lt_R0 _ P) as Q. rewrite fdiv_fin by lra. rewrite cross_num. fold p.
  pose proof (ratio_bound (- p) q H) as B. replace (- p * - p) with (p * p) in B by ring.
  set (r := sqrt (p * p + q * q)) in *.
  rewrite fasin_fin by lra. rewrite fdegrees_fin.
  eexists. split; [reflexivity|].
  assert (Rg : - (PI / 2) < asin (- p / r) < PI / 2).
  { destruct (asin_bound (- p / r)) as [B1 B2].
    split.
    - destruct B1 as [B1|B1]; [exact B1|]. exfalso.
      assert (K : sin (asin (- p / r)) = sin (- (PI/2))) by (rewrite <- B1; f_equal; lra).
      rewrite sin_asin, sin_neg, sin_PI2 in K by lra. lra.
    - destruct B2 as [B2|B2]; [exact B2|]. exfalso.
      assert (K : sin (asin (- p / r)) = sin (PI/2)) by (rewrite B2; reflexivity).
      rewrite sin_asin, sin_PI2 in K by lra. lra. }
  split.
  - split.
    + replace (-90) with (- (90)) by lra. rewrite <- Rdeg_PI2, <- Rdeg_opp. apply Rdeg_lt. lra.
    + rewrite <- Rdeg_PI2. apply Rdeg_lt. lra.
  - rewrite across_eq.
    assert (Hd : forall u v, dot (vadd (vscale u (lateral A)) (vscale v (rest_normal T A))) (dirvec S G)
                 = u * dot (lateral A) (dirvec S G) + v * dot (rest_normal T A) (dirvec S G)).
    { intros. unfold dot, vadd, vscale; simpl. ring. }
    rewrite Hd, dot_lateral_plane, dot_rest_plane. fold p q.
    rewrite cosD_deg, sinD_deg, sin_asin by lra.
    assert (Hcos : cos (asin (- p / r)) = q / r).
    { rewrite cos_asin by lra. 
      assert (E : r * r = p * p + q * q) by (apply sqrt_sqrt; lra).
      replace (1 - (- p / r)²) with ((q / r) * (q / r)).
      - apply sqrt_square. left. apply Rdiv_lt_0_compat; lra.
      - unfold Rsqr. apply Rmult_eq_reg_r with (r * r); [|nra].
        transitivity (q * q); [field; lra|]. transitivity (r * r - p * p); [lra|field; lra]. }
    rewrite Hcos. field. lra.
Qed.
Lemma cross_axis_unique G S A T b : 0 < dot (rest_normal T A) (dirvec S G) -> -90 < b < 90 ->
  dot (across T A b) (dirvec S G) = 0 -> calc_cross_axis_tilt #G #S #A #T = #b.
Proof.
  intros H Hb D. destruct (cross_axis_spec G S A T H) as (b' & -> & Hb' & D').
  f_equal. apply sinD_tanD_inj; [exact Hb'|exact Hb|].
  rewrite across_eq in D, D'.
  assert (Hd : forall u v, dot (vadd (vscale u (lateral A)) (vscale v (rest_normal T A))) (dirvec S G)
               = u * dot (lateral A) (dirvec S G) + v * dot (rest_normal T A) (dirvec S G)).
  { intros. unfold dot, vadd, vscale; simpl. ring. }
  rewrite Hd in D, D'.
  set (l := dot (lateral A) (dirvec S G)) in *. set (n := dot (rest_normal T A) (dirvec S G)) in *.
  pose proof (cosD_pos b Hb) as C. pose proof (cosD_pos b' Hb') as C'.
  rewrite !tanD_eq.
  assert (sinD b / cosD b = l / n).
  { apply Rmult_eq_reg_r with (cosD b * n); [|apply Rmult_integral_contrapositive; lra].
    transitivity (sinD b * n); [field; lra|]. transitivity (cosD b * l); [lra|field; lra]. }
  assert (sinD b' / cosD b' = l / n).
  { apply Rmult_eq_reg_r with (cosD b' * n); [|apply Rmult_integral_contrapositive; lra].
    transitivity (sinD b' * n); [field; lra|]. transitivity (cosD b' * l); [lra|field; lra]. }
  congruence.
Qed.
(** on its own slope the axis always satisfies the side condition *)
Lemma axis_slope_side G S A T : 0 < cosD S -> calc_axis_tilt #G #S #A = #T ->
  0 < dot (rest_normal T A) (dirvec S G).
Proof.
  intros H E. rewrite calc_axis_tilt_fin in E by lra. apply Fin_inj in E. subst T.
  rewrite dot_rest_plane, sin_cos_atan, tanD_eq.
  set (c := cosD (Rdeg (atan (cosD (A - G) * (sinD S / cosD S))))).
  assert (Hc : 0 < c) by apply cosD_atan_pos.
  replace (c * cosD S + cosD (A - G) * (sinD S / cosD S) * c * sinD S * cosD (A - G))
    with (c * (cosD S + cosD (A - G) * cosD (A - G) * (sinD S * sinD S) / cosD S)) by (field; lra).
  apply Rmult_lt_0_compat; [exact Hc|].
  assert (0 <= cosD (A - G) * cosD (A - G) * (sinD S * sinD S) / cosD S).
  { apply Rmult_le_pos.
    - apply Rmult_le_pos; apply Rle_0_sqr.
    - left. apply Rinv_0_lt_compat, H. }
  lra.
Qed.
Lemma cross_axis_flat G A T : 0 < cosD T -> calc_cross_axis_tilt #G #0 #A #T = #0.
Proof.
  intros H. apply cross_axis_unique.
  - rewrite dot_rest_plane, cosD_0, sinD_0. lra.
  - lra.
  - rewrite across_eq. unfold dot, vadd, vscale, lateral, rest_normal, dirvec; simpl.
    rewrite sinD_0, cosD_0. ring.
Qed.

(** ** shading factors *)
Lemma shaded_fraction_within z s A th cw p T off c r : within #0 #1 (shaded_fraction1d z s A th cw p T off c r).
Proof. unfold shaded_fraction1d. apply fclip_within. lra. Qed.

Lemma sky_passias_fin m : sky_diffuse_passias #m = #(1 - cosD (m / 2) ^ 2).
Proof. unfold sky_diffuse_passias. fin. reflexivity. Qed.
Lemma sky_passias_within m : within #0 #1 (sky_diffuse_passias m).
Proof.
  destruct m as [m| | |].
  - rewrite sky_passias_fin. apply within_fin. pose proof (cosD_bound (m / 2)). nra.
  - left. unfold sky_diffuse_passias.
    replace (cosd (PInf / #2)%fl) with NaN; [reflexivity|]. symmetry. apply cosd_finite.
    simpl. unfold Rneg. rewrite Rltb_f by lra. reflexivity.
  - left. unfold sky_diffuse_passias.
    replace (cosd (NInf / #2)%fl) with NaN; [reflexivity|]. symmetry. apply cosd_finite.
    simpl. unfold Rneg. rewrite Rltb_f by lra. reflexivity.
  - left. reflexivity.
Qed.
Lemma sky_passias_mono a b : 0 <= a -> a <= b -> b <= 180 ->
  exists x y, sky_diffuse_passias #a = #x /\ sky_diffuse_passias #b = #y /\ x <= y.
Proof.
  intros H1 H2 H3. rewrite !sky_passias_fin. do 2 eexists. split; [reflexivity|]. split; [reflexivity|].
  assert (0 <= cosD (b / 2)) by (apply cosD_nonneg; lra).
  assert (cosD (b / 2) <= cosD (a / 2)) by (apply cosD_decr; lra). simpl. nra.
Qed.

Lemma Rceil_ge a : a <= Rceil a.
Proof. unfold Rceil, Rfloor. destruct (base_Int_part (- a)). lra. Qed.
Lemma Rceil_lt a : Rceil a < a + 1.
Proof. unfold Rceil, Rfloor. destruct (base_Int_part (- a)). lra. Qed.
Lemma Rceil_IZR k : Rceil (IZR k) = IZR k.
Proof.
  unfold Rceil, Rfloor. rewrite <- (opp_IZR k).
  destruct (base_Int_part (IZR (- k))) as [A B].
  assert (Int_part (IZR (- k)) = (- k)%Z).
  { assert (IZR (Int_part (IZR (- k))) < IZR (- k + 1)) by (rewrite plus_IZR; lra).
    assert (IZR (- k - 1) < IZR (Int_part (IZR (- k)))) by (rewrite minus_IZR; lra).
    apply lt_IZR in H, H0. apply le_IZR in A. lia. }
  rewrite H, opp_IZR. lra.
Qed.
Lemma Rceil_Z a : exists k, Rceil a = IZR k.
Proof. exists (- Int_part (- a))%Z. unfold Rceil, Rfloor. rewrite opp_IZR. reflexivity. Qed.
Lemma Rceil_le_Z a k : a <= IZR k -> Rceil a <= IZR k.
Proof.
  intros H. destruct (Rceil_Z a) as [j E]. rewrite E. apply IZR_le.
  pose proof (Rceil_lt a). rewrite E in H0. assert (IZR j < IZR (k + 1)) by (rewrite plus_IZR; lra).
  apply lt_IZR in H1. lia.
Qed.

Lemma martinez_fin g d f n (N : R) : 0 < g -> 0 <= N ->
  direct_martinez #g #d #f #n #N = #(d / g * (1 - (1 - f) * (1 - Rceil n / (1 + N)))).
Proof.
  intros Hg HN. unfold direct_martinez. fin. f_equal. field. lra.
Qed.
Lemma martinez_range g d f n (N : nat) : 0 < g -> 0 <= d <= g -> 0 <= f <= 1 -> 0 <= n <= INR N ->
  exists l, direct_martinez #g #d #f #n #(INR N) = #l /\ 0 <= l <= d / g.
Proof.
  intros Hg Hd Hf Hn. rewrite martinez_fin by (try lra; apply pos_INR).
  eexists. split; [reflexivity|].
  assert (Hdg : 0 <= d / g). { apply Rmult_le_pos; [lra|]. left. apply Rinv_0_lt_compat. lra. }
  pose proof (Rceil_ge n) as Hc. assert (Hc2 : Rceil n <= INR N).
  { rewrite INR_IZR_INZ. apply Rceil_le_Z. rewrite <- INR_IZR_INZ. lra. }
  assert (Hq : 0 <= Rceil n / (1 + INR N) <= 1).
  { pose proof (pos_INR N). split.
    - apply Rmult_le_pos; [lra|]. left. apply Rinv_0_lt_compat. lra.
    - apply Rmult_le_reg_r with (1 + INR N); [lra|]. unfold Rdiv. rewrite Rmult_assoc, Rinv_l by lra. lra. }
  set (q := Rceil n / (1 + INR N)) in *. set (k := d / g) in *. clearbody q k.
  assert (0 <= (1 - f) * (1 - q) <= 1) by nra. nra.
Qed.

(** ** row angles *)
Lemma masking_geometry tilt gcr x : 0 < gcr < 1 -> 0 <= x <= 1 ->
  exists th, masking_angle #tilt #gcr #x = #th /\
  sees_at_elevation (row_point gcr tilt 0 x) (row_point gcr tilt 1 1) th.
Proof.
  intros Hg Hx.
  assert (Hd : 0 < 1 - gcr * (1 - x) * cosD tilt).
  { pose proof (cosD_bound tilt). assert (0 <= gcr * (1 - x) <= gcr) by nra.
    set (k := gcr * (1 - x)) in *. nra. }
  unfold masking_angle. fin. eexists. split; [reflexivity|].
  set (d := 1 - gcr * (1 - x) * cosD tilt) in *. set (n := gcr * (1 - x) * sinD tilt).
  split; [apply atan_deg_range|]. exists (d / cosD (Rdeg (atan (n / d)))).
  pose proof (cosD_atan_pos (n / d)) as Hc. split; [apply Rdiv_lt_0_compat; lra|].
  unfold row_point; simpl. split.
  - transitivity d; [unfold d; ring|field; lra].
  - rewrite sin_cos_atan. transitivity n; [unfold n; ring|field; lra].
Qed.
Lemma ground_geometry tilt gcr x : 0 < gcr -> 0 <= x <= 1 -> -90 <= tilt <= 90 ->
  exists th, ground_angle #tilt #gcr #x = #th /\
  sees_at_elevation (row_point gcr tilt 0 x) (row_point gcr tilt 1 0) (- th).
Proof.
  intros Hg Hx Ht.
  assert (Hd : 0 < gcr * x * cosD tilt + 1).
  { pose proof (cosD_nonneg tilt Ht). assert (0 <= gcr * x) by nra. nra. }
  unfold ground_angle. fin. eexists. split; [reflexivity|].
  set (d := gcr * x * cosD tilt + 1) in *. set (n := gcr * x * sinD tilt).
  unfold Ratan2. rewrite Rltb_t by exact Hd. pose proof (atan_deg_range (n / d)) as Hr.
  split; [lra|]. exists (d / cosD (Rdeg (atan (n / d)))).
  pose proof (cosD_atan_pos (n / d)) as Hc. split; [apply Rdiv_lt_0_compat; lra|].
  unfold row_point; simpl. rewrite cosD_opp, sinD_opp. split.
  - transitivity d; [unfold d; ring|field; lra].
  - rewrite sin_cos_atan. transitivity (- n); [unfold n; ring|field; lra].
Qed.
Lemma masking_top tilt gcr : masking_angle #tilt #gcr #1 = #0.
Proof.
  unfold masking_angle. fin. replace (1 - 1) with 0 by ring. 
  replace (1 - gcr * 0 * cosD tilt) with 1 by ring. try rewrite fdiv_fin by lra. fin.
  replace (gcr * 0 * sinD tilt / 1) with 0 by field. rewrite atan_0, Rdeg_0. reflexivity.
Qed.
