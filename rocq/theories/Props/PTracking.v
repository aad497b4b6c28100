(** C16-C23: tracking and shading. *)
From Verif Require Import Base.Fl Base.FlFacts Base.Trig Spec.Geometry Spec.TrackerGeometry Spec.RowShading
  Model.Shading Model.Tracking Model.Irradiance Proofs.IrradGeom Proofs.TrackGeom Proofs.Track Proofs.Slope Proofs.RowShade.
Open Scope R_scope.

(** C16: rotation limits, for every input *)
Theorem C16_rotation_within_limits : forall z s T A lim b gcr c lo hi,
  lim_min lim = #lo -> lim_max lim = #hi -> lo <= hi ->
  within #lo #hi (t_theta (singleaxis z s T A lim b gcr c)).
Proof. exact singleaxis_limits. Qed.
Print Assumptions C16_rotation_within_limits.

(** C16: all four outputs are NaN together, exactly below the horizon or for non-finite angles *)
Theorem C16_nan_exactly_in_the_dark : forall z s T A lim b gcr c lo hi,
  lim_min lim = #lo -> lim_max lim = #hi ->
  let o := singleaxis z s T A lim b gcr c in
  let dark := fgtb z #90 = true \/ isfinite z && isfinite s && isfinite T && isfinite A = false in
  (dark -> o = Tracker NaN NaN NaN NaN) /\
  (~ dark -> exists th a az tl, o = Tracker #th #a #az #tl).
Proof. exact singleaxis_nan_iff. Qed.
Print Assumptions C16_nan_exactly_in_the_dark.

(** C16: the outputs describe one and the same collector position *)
Theorem C16_outputs_consistent : forall z s T A lim b gcr c th a az tl,
  singleaxis #z #s #T #A lim b gcr c = Tracker #th a #az #tl ->
  dirvec tl az = collector_normal T A th /\ a = aoi #tl #az #z #s /\ 0 <= tl <= 180 /\ 0 <= az < 360.
Proof. exact singleaxis_consistent. Qed.
Print Assumptions C16_outputs_consistent.

Example C16_nonvacuous : lim_min (Lim #60) = #(-60) /\ lim_max (Lim #60) = #60 /\ -60 <= 60 /\
  ~ (fgtb #30 #90 = true \/ isfinite #30 && isfinite #120 && isfinite #0 && isfinite #180 = false).
Proof.
  split; [simpl; f_equal; lra|]. split; [reflexivity|]. split; [lra|].
  intros [H|H]; [|discriminate]. rewrite fgtb_fin in H. apply Rltb_true in H. lra.
Qed.

(** C17: without backtracking, no permitted rotation has a smaller angle of incidence; the theorem covers
    the case where the (symmetric) limit binds *)
Theorem C17_true_tracking_optimal : forall z s T A m gcr c phi, z <= 90 -> 0 <= m -> - m <= phi <= m ->
  let o := singleaxis #z #s #T #A (Lim #m) false gcr c in
  exists a b, t_aoi o = #a /\
    (let '(tl, az) := calc_surface_orientation #phi #T #A in aoi tl az #z #s) = #b /\ a <= b.
Proof. exact true_tracking_optimal. Qed.
Print Assumptions C17_true_tracking_optimal.

(** C17, in vectors: the normal at the chosen rotation has the largest projection on the sun vector *)
Theorem C17_true_tracking_projection : forall z s T A m gcr c phi, z <= 90 -> 0 <= m -> - m <= phi <= m ->
  exists th, t_theta (singleaxis #z #s #T #A (Lim #m) false gcr c) = #th /\
  dot (collector_normal T A phi) (dirvec z s) <= dot (collector_normal T A th) (dirvec z s).
Proof.
  intros z s T A m gcr c phi Hz Hm Hp. eexists. split; [apply true_tracking_value, Hz|].
  apply optimal_dot; assumption.
Qed.
Print Assumptions C17_true_tracking_projection.
Example C17_nonvacuous : 30 <= 90 /\ 0 <= 60 /\ - (60) <= 10 <= 60. Proof. lra. Qed.

(** C18: w is the projected solar zenith, the sun is above the plane of the rows (cos (w - c) > 0), rows do
    not overlap (collector_width <= pitch), the limits do not bind: no shade, and any rotation that points
    closer to the sun is shaded *)
Theorem C18_backtracking_exactly_avoids_shade : forall z s T A lo hi cw pitch off c th w,
  0 < cw -> 0 < pitch -> cw <= pitch -> 0 < cosD c ->
  projected_solar_zenith_angle #z #s #T #A = #w -> 0 < cosD (w - c) -> z <= 90 ->
  t_theta (singleaxis #z #s #T #A (LimPair #lo #hi) true #(cw / pitch) #c) = #th -> lo < th < hi ->
  shaded_fraction1d #z #s #A #th #cw #pitch #T #off #c None = #0 /\
  (forall phi, Rabs (phi - w) < Rabs (th - w) ->
     exists f, shaded_fraction1d #z #s #A #phi #cw #pitch #T #off #c None = #f /\ 0 < f).
Proof.
  intros z s T A lo hi cw pitch off c th w H1 H2 H3 H4 Hw. rewrite psz_fin in Hw. apply Fin_inj in Hw.
  subst w. apply backtracking_no_shade; assumption.
Qed.
Print Assumptions C18_backtracking_exactly_avoids_shade.

(** C18: with limits of +-180 degrees there always is such a rotation *)
Theorem C18_backtracking_unlimited : forall z s T A cw pitch off c w,
  0 < cw -> 0 < pitch -> cw <= pitch -> 0 < cosD c ->
  projected_solar_zenith_angle #z #s #T #A = #w -> 0 < cosD (w - c) -> z <= 90 ->
  exists th, t_theta (singleaxis #z #s #T #A (Lim #180) true #(cw / pitch) #c) = #th /\
  shaded_fraction1d #z #s #A #th #cw #pitch #T #off #c None = #0.
Proof.
  intros z s T A cw pitch off c w H1 H2 H3 H4 Hw. rewrite psz_fin in Hw. apply Fin_inj in Hw.
  subst w. apply backtracking_default; assumption.
Qed.
Print Assumptions C18_backtracking_unlimited.
(** overhead sun on flat ground meets the hypotheses *)
Example C18_nonvacuous : 0 < 2 /\ 0 < 6 /\ 2 <= 6 /\ 0 < cosD 0 /\
  projected_solar_zenith_angle #0 #90 #0 #0 = #0 /\ 0 < cosD (0 - 0) /\ 0 <= 90.
Proof.
  replace (0 - 0) with 0 by ring. rewrite cosD_0. repeat split; try lra.
  rewrite psz_fin. f_equal. unfold psz, dot, dirvec, lateral, rest_normal, dirvec; simpl.
  rewrite sinD_0, cosD_0, sinD_90, cosD_90. unfold Ratan2. rewrite Rltb_t by lra.
  replace ((0 * 1 * 1 + 0 * 0 * - 0 + 1 * 0) / (0 * 1 * (0 * 0) + 0 * 0 * (0 * 1) + 1 * 1)) with 0 by field.
  rewrite atan_0. apply Rdeg_0.
Qed.

(** C19 *)
Theorem C19_orientation_is_rotated_normal : forall T A th, exists tl az,
  calc_surface_orientation #th #T #A = (#tl, #az) /\ 0 <= tl <= 180 /\ 0 <= az < 360 /\
  dirvec tl az = collector_normal T A th.
Proof.
  intros T A th. exists (surf_tilt T A th), (surf_az T A th). split; [apply cso_fin|].
  split; [apply surf_tilt_range|]. split; [apply surf_az_range|apply surf_dirvec].
Qed.
Print Assumptions C19_orientation_is_rotated_normal.
Theorem C19_horizontal_azimuth : forall T A th az,
  calc_surface_orientation #th #T #A = (#0, #az) -> exists k : Z, az = A - 90 + 360 * IZR k.
Proof.
  intros T A th az. rewrite cso_fin. intros H. injection H as H1 H2. subst az.
  unfold surf_az. rewrite H1, Reqb_t by reflexivity.
  destruct (Rmodp_spec (A - 90) 360) as [_ [k E]]; [lra|]. exists (- k)%Z. rewrite opp_IZR. lra.
Qed.
Print Assumptions C19_horizontal_azimuth.
Example C19_nonvacuous : exists az, calc_surface_orientation #0 #0 #180 = (#0, #az).
Proof.
  exists (surf_az 0 180 0). rewrite cso_fin. f_equal. f_equal. unfold surf_tilt.
  rewrite <- surface_tilt_up, cosD_0, Rmult_1_l, acos_1. apply Rdeg_0.
Qed.

(** C20 *)
Theorem C20_axis_lies_in_slope : forall G S A, 0 < cosD S ->
  exists T, calc_axis_tilt #G #S #A = #T /\ -90 < T < 90 /\ dot (axis_dir T A) (dirvec S G) = 0.
Proof. exact axis_in_slope. Qed.
Print Assumptions C20_axis_lies_in_slope.
Theorem C20_axis_tilt_unique : forall G S A T, 0 < cosD S -> -90 < T < 90 ->
  dot (axis_dir T A) (dirvec S G) = 0 -> calc_axis_tilt #G #S #A = #T.
Proof. exact axis_in_slope_unique. Qed.
Print Assumptions C20_axis_tilt_unique.
(** the line across the rows that makes the cross-axis angle b with the horizontal (right-handed about the
    axis) lies in the slope *)
Theorem C20_cross_axis_line_in_slope : forall G S A T, 0 < cosD S -> calc_axis_tilt #G #S #A = #T ->
  exists b, calc_cross_axis_tilt #G #S #A #T = #b /\ -90 < b < 90 /\
    dot (rotate (axis_dir T A) b (lateral A)) (dirvec S G) = 0.
Proof. intros G S A T H E. apply cross_axis_spec. exact (axis_slope_side G S A T H E). Qed.
Print Assumptions C20_cross_axis_line_in_slope.
(** ... also for an axis that is not parallel to the slope, and the angle is unique *)
Theorem C20_cross_axis_any_axis : forall G S A T, 0 < dot (dirvec T A) (dirvec S G) ->
  (exists b, calc_cross_axis_tilt #G #S #A #T = #b) /\
  forall b, -90 < b < 90 ->
    (calc_cross_axis_tilt #G #S #A #T = #b <->
     dot (rotate (axis_dir T A) b (lateral A)) (dirvec S G) = 0).
Proof.
  intros G S A T H. destruct (cross_axis_spec G S A T H) as (b0 & E & Hb0 & D).
  split; [eauto|]. intros b Hb. split.
  - intros E'. rewrite E in E'. apply Fin_inj in E'. subst b. exact D.
  - intros D'. apply cross_axis_unique; assumption.
Qed.
Print Assumptions C20_cross_axis_any_axis.
Theorem C20_flat_ground : forall G A T, -90 < T < 90 ->
  calc_axis_tilt #G #0 #A = #0 /\ calc_cross_axis_tilt #G #0 #A #T = #0.
Proof.
  intros G A T H. split; [|apply cross_axis_flat, cosD_pos, H].
  apply axis_in_slope_unique; [rewrite cosD_0; lra|lra|].
  rewrite dot_axis_plane, sinD_0. ring.
Qed.
Print Assumptions C20_flat_ground.
Example C20_nonvacuous : 0 < cosD 10 /\ exists T, calc_axis_tilt #90 #10 #180 = #T.
Proof.
  assert (0 < cosD 10) by (apply cosD_pos; lra). split; [assumption|].
  destruct (axis_in_slope 90 10 180) as (T & E & _); [assumption|eauto].
Qed.

(** C21: the sun vector is its component along the axis plus a non-negative multiple of the collector
    normal rotated by the projected solar zenith *)
Theorem C21_projected_zenith_is_rotation_to_sun : forall z s T A, exists th,
  projected_solar_zenith_angle #z #s #T #A = #th /\ -180 < th <= 180 /\
  let k := dot (dirvec z s) (axis_dir T A) in
  dirvec z s = vadd (vscale k (axis_dir T A)) (vscale (sqrt (1 - k * k)) (collector_normal T A th)).
Proof.
  intros z s T A. exists (psz z s T A). split; [apply psz_fin|]. split; [apply psz_range|apply psz_decompose].
Qed.
Print Assumptions C21_projected_zenith_is_rotation_to_sun.
Theorem C21_nonfinite : forall z s T A, isfinite z && isfinite s && isfinite T && isfinite A = false ->
  projected_solar_zenith_angle z s T A = NaN.
Proof. exact psz_nan. Qed.
Print Assumptions C21_nonfinite.

(** C22 *)
Theorem C22_shaded_fraction_range : forall z s A th cw p T off c r,
  within #0 #1 (shaded_fraction1d z s A th cw p T off c r).
Proof. exact shaded_fraction_within. Qed.
Print Assumptions C22_shaded_fraction_range.

(** the geometric meaning of the fraction: measured from the edge next to the shading row, exactly the points nearer than
    that fraction of the width are on a line to the sun blocked by that row, provided the shadow reaches past that edge *)
Theorem C22_shaded_part : forall z s A T w th th1 cw p off c, projected_solar_zenith_angle #z #s #T #A = #w -> w <> 0 ->
  0 < cw -> cosD (th - w) <> 0 -> 0 < cosD c ->
  cw / 2 * Rabs (cosD (th - w)) <=
    p / cosD c * cosD (w - c) + side_of w * off * (sinD (th1 - w) - sinD (th - w)) + cw / 2 * Rabs (cosD (th1 - w)) ->
  exists f, shaded_fraction1d #z #s #A #th #cw #p #T #off #c (Some #th1) = #f /\
  forall t, 0 <= t <= 1 ->
    let point := on_row (0, 0) th off cw (side_of w * signum (cosD (th - w)) * (1 / 2 - t)) in
    (t < f -> in_shadow w point (neighbour_axis (side_of w) p c) th1 off cw) /\
    (f < t -> ~ in_shadow w point (neighbour_axis (side_of w) p c) th1 off cw).
Proof.
  intros z s A T w th th1 cw p off c Hw W0 Hcw Hc Hcc Hfar.
  change (Some #th1) with (option_map Fin (Some th1)).
  rewrite (shaded_formula z s A th cw p T off c (Some th1) w Hw W0 ltac:(lra) Hc ltac:(lra)).
  eexists. split; [reflexivity|]. intros t Ht. cbv zeta.
  pose proof (shade_geometry w th th1 off cw p c t Hcw Hc Hcc Hfar Ht) as G. cbv zeta in G.
  match type of G with _ <-> t <= ?x => set (ts := x) in * end. rewrite !G. split; intros L.
  - revert L. rmm; lra.
  - revert L. rmm; lra.
Qed.
Print Assumptions C22_shaded_part.
(** rows moving together: the proviso always holds *)
Theorem C22_shaded_part_same_rotation : forall z s A T w th cw p off c, projected_solar_zenith_angle #z #s #T #A = #w -> w <> 0 ->
  0 < cw -> 0 <= p -> cosD (th - w) <> 0 -> 0 < cosD c -> 0 <= cosD (w - c) ->
  exists f, shaded_fraction1d #z #s #A #th #cw #p #T #off #c None = #f /\
  forall t, 0 <= t <= 1 ->
    let point := on_row (0, 0) th off cw (side_of w * signum (cosD (th - w)) * (1 / 2 - t)) in
    (t < f -> in_shadow w point (neighbour_axis (side_of w) p c) th off cw) /\
    (f < t -> ~ in_shadow w point (neighbour_axis (side_of w) p c) th off cw).
Proof.
  intros z s A T w th cw p off c Hw W0 Hcw Hp Hc Hcc Hwc.
  change (shaded_fraction1d #z #s #A #th #cw #p #T #off #c None) with (shaded_fraction1d #z #s #A #th #cw #p #T #off #c (Some #th)).
  apply C22_shaded_part; try assumption.
  assert (0 <= p / cosD c) by (apply Rmult_le_pos; [assumption|left; apply Rinv_0_lt_compat; assumption]).
  assert (0 <= p / cosD c * cosD (w - c)) by (apply Rmult_le_pos; assumption). lra.
Qed.
Print Assumptions C22_shaded_part_same_rotation.
Theorem C22_passias_range : forall m, within #0 #1 (sky_diffuse_passias m).
Proof. exact sky_passias_within. Qed.
Print Assumptions C22_passias_range.
Theorem C22_passias_monotone : forall a b, 0 <= a -> a <= b -> b <= 180 ->
  exists x y, sky_diffuse_passias #a = #x /\ sky_diffuse_passias #b = #y /\ x <= y.
Proof. exact sky_passias_mono. Qed.
Print Assumptions C22_passias_monotone.
Theorem C22_martinez_range : forall g d f n (N : nat), 0 < g -> 0 <= d <= g -> 0 <= f <= 1 -> 0 <= n <= INR N ->
  exists l, direct_martinez #g #d #f #n #(INR N) = #l /\ 0 <= l <= d / g.
Proof. exact martinez_range. Qed.
Print Assumptions C22_martinez_range.
Theorem C22_martinez_unshaded : forall g d N, 0 < g -> 0 <= N -> direct_martinez #g #d #0 #0 #N = #0.
Proof.
  intros g d N Hg HN. rewrite martinez_fin by assumption. f_equal.
  change 0 with (IZR 0) at 2. rewrite Rceil_IZR. field. lra.
Qed.
Print Assumptions C22_martinez_unshaded.
(** a fully shaded array loses exactly its direct share *)
Theorem C22_martinez_fully_shaded : forall g d n N, 0 < g -> 0 <= N -> direct_martinez #g #d #1 #n #N = #(d / g).
Proof. intros g d n N Hg HN. rewrite martinez_fin by assumption. f_equal. ring. Qed.
Print Assumptions C22_martinez_fully_shaded.
(** the published formula: every started block is lost *)
Theorem C22_martinez_formula : forall g d f n (N : R), 0 < g -> 0 <= N ->
  direct_martinez #g #d #f #n #N = #(d / g * (1 - (1 - f) * (1 - Rceil n / (1 + N)))).
Proof. exact martinez_fin. Qed.
Print Assumptions C22_martinez_formula.
Example C22_nonvacuous : 0 < 1000 /\ 0 <= 800 <= 1000 /\ 0 <= 0.3 <= 1 /\ 0 <= 2.5 <= INR 3.
Proof. simpl; lra. Qed.

(** C23: what the bottom-to-top fraction x of row 0 sees: the top edge of the row in front at the masking
    angle, and (looking down) its bottom edge at the ground angle *)
Theorem C23_masking_angle_geometry : forall tilt gcr x, 0 < gcr < 1 -> 0 <= x <= 1 ->
  exists th, masking_angle #tilt #gcr #x = #th /\
  sees_at_elevation (row_point gcr tilt 0 x) (row_point gcr tilt 1 1) th.
Proof. exact masking_geometry. Qed.
Print Assumptions C23_masking_angle_geometry.
Theorem C23_ground_angle_geometry : forall tilt gcr x, 0 < gcr -> 0 <= x <= 1 -> -90 <= tilt <= 90 ->
  exists th, ground_angle #tilt #gcr #x = #th /\
  sees_at_elevation (row_point gcr tilt 0 x) (row_point gcr tilt 1 0) (- th).
Proof. exact ground_geometry. Qed.
Print Assumptions C23_ground_angle_geometry.
Theorem C23_masking_zero_at_top : forall tilt gcr, masking_angle #tilt #gcr #1 = #0.
Proof. exact masking_top. Qed.
Print Assumptions C23_masking_zero_at_top.
Example C23_nonvacuous : 0 < 0.4 < 1 /\ 0 <= 0.5 <= 1 /\ -90 <= 30 <= 90. Proof. lra. Qed.
