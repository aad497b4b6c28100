(** Lemmas: single-axis tracking, backtracking, row shading, slopes. *)
From Verif Require Import Base.Fl Base.FlFacts Base.Trig Spec.Geometry Spec.TrackerGeometry
  Model.Shading Model.Tracking Model.Irradiance Proofs.IrradGeom Proofs.TrackGeom.
From Coq Require Import Psatz.
Open Scope R_scope.

(** the rotation before limits, for a given ideal rotation *)
Definition bt_raw (w : R) (gcr c : fl) : fl :=
  fadd #w (where_ (fltb (fabs (fmul (fdiv #1 (fmul gcr (cosd c))) (cosd (fsub #w c)))) #1)
             (fdegrees (fmul (fneg (fsign #w)) (facos (fabs (fmul (fdiv #1 (fmul gcr (cosd c))) (cosd (fsub #w c))))))) #0).
Lemma fsign_fin w : exists s, fsign #w = #s /\ (s = 1 \/ s = -1 \/ s = 0) /\ (0 < w -> s = 1) /\ (w < 0 -> s = -1) /\ (w = 0 -> s = 0).
Proof.
  simpl. unfold Rpos, Rneg. destruct (Rltb_spec 0 w); [exists 1|destruct (Rltb_spec w 0); [exists (-1)|exists 0]];
  repeat split; auto; intros; lra.
Qed.
Lemma fabs_nonneg x a : fabs x = #a -> 0 <= a.
Proof. destruct x; simpl; try discriminate. intros [= <-]. apply Rabs_pos. Qed.
Lemma bt_raw_fin w gcr c : exists r, bt_raw w gcr c = #r.
Proof.
  unfold bt_raw. set (t := fabs _).
  destruct (fltb t #1) eqn:E; cbn [where_].
  - destruct t as [a| | |] eqn:Et; try discriminate E.
    + pose proof (fabs_nonneg _ _ Et) as Ha. simpl in E. apply Rltb_true in E.
      rewrite facos_fin by lra. destruct (fsign_fin w) as (s & -> & _). fin. eauto.
    + unfold t in Et. destruct (fmul _ _) in Et; discriminate Et.
  - eexists. reflexivity.
Qed.

Definition sa_rot (w : R) (backtrack : bool) (gcr c : fl) : fl := if backtrack then bt_raw w gcr c else #w.
Lemma sa_rot_fin w b gcr c : exists r, sa_rot w b gcr c = #r.
Proof. destruct b; [apply bt_raw_fin|eexists; reflexivity]. Qed.

Lemma singleaxis_day z s T A lim b gcr c lo hi r : z <= 90 ->
  lim_min lim = #lo -> lim_max lim = #hi -> sa_rot (psz z s T A) b gcr c = #r ->
  let th := Rmin (Rmax r lo) hi in
  singleaxis #z #s #T #A lim b gcr c =
  Tracker #th (aoi #(surf_tilt T A th) #(surf_az T A th) #z #s) #(surf_az T A th) #(surf_tilt T A th).
Proof.
  intros Hz Hlo Hhi Hr th. unfold singleaxis. rewrite psz_fin. fin.
  rewrite (Rltb_f 90 z) by lra. cbn [where_]. rewrite Hlo, Hhi.
  assert (E : (if b then fadd #(psz z s T A) (where_ (fltb (fabs (fmul (fdiv #1 (fmul gcr (cosd c))) (cosd (fsub #(psz z s T A) c)))) #1)
             (fdegrees (fmul (fneg (fsign #(psz z s T A))) (facos (fabs (fmul (fdiv #1 (fmul gcr (cosd c))) (cosd (fsub #(psz z s T A) c))))))) #0)
       else #(psz z s T A)) = #r).
  { destruct b; exact Hr. }
  rewrite E. fin. fold th. rewrite cso_fin. reflexivity.
Qed.

Lemma singleaxis_night z s T A lim b gcr c : fgtb z #90 = true ->
  singleaxis z s T A lim b gcr c = Tracker NaN NaN NaN NaN.
Proof.
  intros H. unfold singleaxis. rewrite H. destruct (calc_surface_orientation _ _ _). reflexivity.
Qed.

Lemma fatan2_nan_l x : fatan2 NaN x = NaN. Proof. reflexivity. Qed.
Lemma fatan2_nan_r x : fatan2 x NaN = NaN. Proof. destruct x; reflexivity. Qed.
Lemma fsub_nan_l x : fsub NaN x = NaN. Proof. reflexivity. Qed.
Lemma fsub_nan_r x : fsub x NaN = NaN. Proof. destruct x; reflexivity. Qed.
Lemma psz_nan z s T A : isfinite z && isfinite s && isfinite T && isfinite A = false ->
  projected_solar_zenith_angle z s T A = NaN.
Proof.
  intros H. unfold projected_solar_zenith_angle.
  destruct (isfinite z) eqn:Hz.
  2:{ rewrite (cosd_finite z Hz), (sind_finite z Hz). reflexivity. }
  destruct (isfinite s) eqn:Hs.
  2:{ rewrite (cosd_finite s Hs), (sind_finite s Hs). rewrite fmul_nan_r. reflexivity. }
  destruct (isfinite T) eqn:HT.
  2:{ rewrite (cosd_finite T HT). rewrite fmul_nan_r, fadd_nan_r, fatan2_nan_r. reflexivity. }
  destruct (isfinite A) eqn:HA; [discriminate|].
  rewrite (cosd_finite A HA), (sind_finite A HA). rewrite !fmul_nan_r. reflexivity.
Qed.
Lemma cso_nan_theta T A : calc_surface_orientation NaN T A = (NaN, NaN).
Proof.
  unfold calc_surface_orientation, unit_normal. change (cosd NaN) with NaN. change (sind NaN) with NaN.
  rewrite ?fmul_nan_r, ?fmul_nan_l. reflexivity.
Qed.
Lemma fclip_nan_l lo hi : fclip NaN lo hi = NaN. Proof. reflexivity. Qed.
Lemma singleaxis_bad z s T A lim b gcr c :
  isfinite z && isfinite s && isfinite T && isfinite A = false ->
  singleaxis z s T A lim b gcr c = Tracker NaN NaN NaN NaN.
Proof.
  intros H. unfold singleaxis. rewrite (psz_nan _ _ _ _ H).
  replace (where_ (fgtb z #90) NaN NaN) with NaN by (destruct (fgtb z #90); reflexivity).
  replace (if b then _ else NaN) with NaN by (destruct b; reflexivity).
  rewrite fclip_nan_l, cso_nan_theta. change (aoi NaN NaN z s) with NaN.
  destruct (fgtb z #90); reflexivity.
Qed.

Lemma singleaxis_nan_iff z s T A lim b gcr c lo hi : lim_min lim = #lo -> lim_max lim = #hi ->
  let o := singleaxis z s T A lim b gcr c in
  let dark := fgtb z #90 = true \/ isfinite z && isfinite s && isfinite T && isfinite A = false in
  (dark -> o = Tracker NaN NaN NaN NaN) /\
  (~ dark -> exists th a az tl, o = Tracker #th #a #az #tl).
Proof.
  intros Hlo Hhi o dark. unfold o, dark. split.
  - intros [H|H]; [apply singleaxis_night, H|apply singleaxis_bad, H].
  - intros H. destruct z as [z| | |], s as [s| | |], T as [T| | |], A as [A| | |];
      try (exfalso; apply H; right; reflexivity).
    assert (Hz : z <= 90).
    { destruct (Rle_dec z 90) as [Hz|Hz]; [exact Hz|]. exfalso. apply H. left. rewrite fgtb_fin.
      apply Rltb_true. lra. }
    destruct (sa_rot_fin (psz z s T A) b gcr c) as [r Hr].
    rewrite (singleaxis_day z s T A lim b gcr c lo hi r Hz Hlo Hhi Hr).
    destruct (aoi_spec (surf_tilt T A (Rmin (Rmax r lo) hi)) (surf_az T A (Rmin (Rmax r lo) hi)) z s) as (x & Hx & _).
    rewrite Hx. eauto.
Qed.

Lemma clip_range r lo hi : lo <= hi -> lo <= Rmin (Rmax r lo) hi <= hi.
Proof. intros. rmm; lra. Qed.

Lemma singleaxis_limits z s T A lim b gcr c lo hi : lim_min lim = #lo -> lim_max lim = #hi -> lo <= hi ->
  within #lo #hi (t_theta (singleaxis z s T A lim b gcr c)).
Proof.
  intros Hlo Hhi H. unfold singleaxis. rewrite Hlo, Hhi.
  set (r := if b then _ else _). clearbody r. destruct (calc_surface_orientation _ _ _). cbn [t_theta].
  destruct (fgtb z #90); cbn [where_]; [left; reflexivity|]. apply fclip_within, H.
Qed.

(** consistency of the four outputs *)
Lemma singleaxis_consistent z s T A lim b gcr c th a az tl :
  singleaxis #z #s #T #A lim b gcr c = Tracker #th a #az #tl ->
  dirvec tl az = collector_normal T A th /\ a = aoi #tl #az #z #s /\ 0 <= tl <= 180 /\ 0 <= az < 360.
Proof.
  unfold singleaxis. set (r := fclip _ _ _).
  intros H. destruct r as [r| | |].
  - rewrite cso_fin in H. destruct (fgtb #z #90); simpl in H; inversion H; subst.
    split; [apply surf_dirvec|]. split; [reflexivity|]. split; [apply surf_tilt_range|apply surf_az_range].
  - exfalso. destruct (fgtb #z #90); destruct (calc_surface_orientation _ _ _); discriminate H.
  - exfalso. destruct (fgtb #z #90); destruct (calc_surface_orientation _ _ _); discriminate H.
  - exfalso. destruct (fgtb #z #90); destruct (calc_surface_orientation _ _ _); discriminate H.
Qed.

(** ** optimality *)
Lemma cosD_le_1 a : cosD a <= 1. Proof. apply cosD_bound. Qed.
Lemma cosD_abs a : cosD (Rabs a) = cosD a.
Proof. unfold Rabs. destruct (Rcase_abs a); [apply cosD_opp|reflexivity]. Qed.
(** nearest admissible rotation on symmetric limits *)
Lemma cos_clip w m phi : -180 < w <= 180 -> 0 <= m -> - m <= phi <= m ->
  cosD (phi - w) <= cosD (Rmin (Rmax w (- m)) m - w).
Proof.
  intros Hw Hm Hp. destruct (Rle_dec m 180) as [Hm1|Hm1].
  2:{ rewrite Rmax_left by lra. rewrite Rmin_left by lra. replace (w - w) with 0 by ring.
      rewrite cosD_0. apply cosD_le_1. }
  destruct (Rle_dec w (- m)) as [H1|H1].
  - rewrite Rmax_right by lra. rewrite Rmin_left by lra.
    destruct (Rle_dec (phi - w) 180) as [H2|H2].
    + apply cosD_decr; lra.
    + rewrite <- (cosD_opp (phi - w)). rewrite <- (cosD_360 (- (phi - w))).
      apply cosD_decr; lra.
  - rewrite Rmax_left by lra. destruct (Rle_dec m w) as [H2|H2].
    + rewrite Rmin_right by lra. rewrite <- (cosD_opp (phi - w)), <- (cosD_opp (m - w)).
      destruct (Rle_dec (w - phi) 180) as [H3|H3].
      * apply cosD_decr; lra.
      * rewrite <- (cosD_opp (- (phi - w))), <- (cosD_360 (- - (phi - w))). apply cosD_decr; lra.
    + rewrite Rmin_left by lra. replace (w - w) with 0 by ring. rewrite cosD_0. apply cosD_le_1.
Qed.

Lemma true_tracking_value z s T A m gcr c : z <= 90 ->
  t_theta (singleaxis #z #s #T #A (Lim #m) false gcr c) = #(Rmin (Rmax (psz z s T A) (- m)) m).
Proof.
  intros Hz. rewrite (singleaxis_day z s T A (Lim #m) false gcr c (- m) m (psz z s T A) Hz eq_refl eq_refl eq_refl).
  reflexivity.
Qed.
Lemma optimal_dot z s T A m phi : 0 <= m -> - m <= phi <= m ->
  dot (collector_normal T A phi) (dirvec z s) <=
  dot (collector_normal T A (Rmin (Rmax (psz z s T A) (- m)) m)) (dirvec z s).
Proof.
  intros Hm Hp. rewrite !dot_collector_sun. apply Rmult_le_compat_l; [apply sqrt_pos|].
  apply cos_clip; [apply psz_range|exact Hm|exact Hp].
Qed.
Lemma acos_decr a b : -1 <= a -> a <= b -> b <= 1 -> acos b <= acos a.
Proof.
  intros H1 H2 H3. destruct (Rle_lt_dec (acos b) (acos a)) as [H|H]; [exact H|exfalso].
  pose proof (acos_bound a). pose proof (acos_bound b).
  assert (cos (acos b) < cos (acos a)) by (apply cos_decreasing_1; lra).
  rewrite !cos_acos in * by lra. lra.
Qed.
Lemma true_tracking_optimal z s T A m gcr c phi : z <= 90 -> 0 <= m -> - m <= phi <= m ->
  let o := singleaxis #z #s #T #A (Lim #m) false gcr c in
  exists a b, t_aoi o = #a /\
    (let '(tl, az) := calc_surface_orientation #phi #T #A in aoi tl az #z #s) = #b /\ a <= b.
Proof.
  intros Hz Hm Hp o. unfold o.
  rewrite (singleaxis_day z s T A (Lim #m) false gcr c (- m) m (psz z s T A) Hz eq_refl eq_refl eq_refl).
  cbn [t_aoi]. rewrite cso_fin, !aoi_fin, !surf_dirvec. do 2 eexists. split; [reflexivity|]. split; [reflexivity|].
  apply Rdeg_le. apply acos_decr.
  - apply dot_unit_bound; [apply norm_collector|apply dirvec_unit].
  - apply optimal_dot; assumption.
  - apply dot_unit_bound; [apply norm_collector|apply dirvec_unit].
Qed.

(** ** backtracking *)
Definition bt_temp (w gcr c : R) : R := Rabs (1 / (gcr * cosD c) * cosD (w - c)).
Lemma bt_raw_val w gcr c : 0 < gcr -> 0 < cosD c ->
  exists r, bt_raw w #gcr #c = #r /\
  (1 <= bt_temp w gcr c -> r = w) /\
  (bt_temp w gcr c < 1 -> exists sg, r = w + Rdeg (- sg * acos (bt_temp w gcr c)) /\
      (0 < w -> sg = 1) /\ (w < 0 -> sg = -1) /\ (w = 0 -> sg = 0)).
Proof.
  intros Hg Hc. assert (Hgc : gcr * cosD c <> 0) by (apply Rmult_integral_contrapositive; lra).
  unfold bt_raw. fin. fold (bt_temp w gcr c).
  assert (Ht : 0 <= bt_temp w gcr c) by apply Rabs_pos.
  destruct (Rltb_spec (bt_temp w gcr c) 1) as [H|H]; cbn [where_].
  - rewrite facos_fin by lra. destruct (fsign_fin w) as (sg & -> & _ & S1 & S2 & S3). fin.
    eexists. split; [reflexivity|]. split; [lra|]. intros _. exists sg. auto.
  - rewrite fadd_fin. exists (w + 0). split; [reflexivity|]. split; [lra|lra].
Qed.

(** shaded fraction when both rows have the same rotation *)
Lemma shaded_same z s T A th cw pitch off c : 0 < cw -> 0 < pitch -> cosD c <> 0 ->
  cosD (th - psz z s T A) <> 0 ->
  shaded_fraction1d #z #s #A #th #cw #pitch #T #off #c None =
  #(Rmin (Rmax (1 - pitch / (cw * cosD c) * cosD (psz z s T A - c) / Rabs (cosD (th - psz z s T A))) 0) 1).
Proof.
  intros Hcw Hp Hc Hth. unfold shaded_fraction1d. rewrite psz_fin.
  destruct (fsign_fin (psz z s T A)) as (sg & -> & _).
  set (w := psz z s T A) in *.
  assert (Ha : Rabs (cosD (th - w)) <> 0) by (apply Rabs_no_R0, Hth).
  fin. replace 0.5 with (1 / 2) by lra. f_equal. f_equal. f_equal. field. repeat split; lra.
Qed.

Lemma bt_core z s T A th cw pitch off c :
  0 < cw -> 0 < pitch -> cw <= pitch -> 0 < cosD c -> 0 < cosD (psz z s T A - c) ->
  bt_raw (psz z s T A) #(cw / pitch) #c = #th ->
  shaded_fraction1d #z #s #A #th #cw #pitch #T #off #c None = #0 /\
  (forall phi, Rabs (phi - psz z s T A) < Rabs (th - psz z s T A) ->
     exists f, shaded_fraction1d #z #s #A #phi #cw #pitch #T #off #c None = #f /\ 0 < f).
Proof.
  intros Hcw Hp Hle Hc Hsun Hr.
  assert (Hg : 0 < cw / pitch) by (apply Rdiv_lt_0_compat; lra).
  destruct (bt_raw_val (psz z s T A) (cw / pitch) c Hg Hc) as (r & E & R1 & R2).
  rewrite Hr in E. apply Fin_inj in E. subst r. set (w := psz z s T A) in *.
  assert (Et : bt_temp w (cw / pitch) c = pitch / (cw * cosD c) * cosD (w - c)).
  { unfold bt_temp. rewrite Rabs_right.
    - field. repeat split; lra.
    - apply Rle_ge. apply Rmult_le_pos; [|lra]. left. apply Rdiv_lt_0_compat; [lra|]. apply Rmult_lt_0_compat; lra. }
  set (t := bt_temp w (cw / pitch) c) in *.
  assert (Ht : 0 < t).
  { rewrite Et. apply Rmult_lt_0_compat; [|lra]. apply Rdiv_lt_0_compat; [lra|]. apply Rmult_lt_0_compat; lra. }
  destruct (Rlt_le_dec t 1) as [H1|H1].
  - destruct (R2 H1) as (sg & -> & S1 & S2 & S3).
    assert (Hw : w <> 0).
    { intros Hw. assert (t = pitch / cw). { rewrite Et, Hw. replace (0 - c) with (- c) by ring. rewrite cosD_opp. field. lra. }
      assert (1 <= pitch / cw). { apply Rmult_le_reg_r with cw; [lra|]. unfold Rdiv. rewrite Rmult_assoc, Rinv_l by lra. lra. }
      lra. }
    assert (Hsg : sg = 1 \/ sg = -1).
    { destruct (Rtotal_order w 0) as [K|[K|K]]; [right; auto|contradiction|left; auto]. }
    assert (Hcos : cosD (w + Rdeg (- sg * acos t) - w) = t).
    { replace (w + Rdeg (- sg * acos t) - w) with (Rdeg (- sg * acos t)) by ring. rewrite cosD_deg.
      destruct Hsg as [-> | ->].
      - replace (- (1) * acos t) with (- acos t) by ring. rewrite cos_neg. apply cos_acos. lra.
      - replace (- -1 * acos t) with (acos t) by ring. apply cos_acos. lra. }
    assert (Habs : Rabs (w + Rdeg (- sg * acos t) - w) = Rdeg (acos t)).
    { replace (w + Rdeg (- sg * acos t) - w) with (Rdeg (- sg * acos t)) by ring.
      assert (0 <= Rdeg (acos t)). { rewrite <- Rdeg_0. apply Rdeg_le, acos_bound. }
      destruct Hsg as [-> | ->].
      - replace (- (1) * acos t) with (- acos t) by ring. rewrite Rdeg_opp, Rabs_Ropp. apply Rabs_right. lra.
      - replace (- -1 * acos t) with (acos t) by ring. apply Rabs_right. lra. }
    split.
    + rewrite shaded_same; fold w; try lra. rewrite Hcos, <- Et.
      rewrite (Rabs_right t) by lra.
      f_equal. replace (1 - t / t) with 0 by (field; lra). rewrite Rmax_left, Rmin_left by lra. reflexivity.
    + intros phi Hphi. rewrite Habs in Hphi.
      assert (Hcp : t < cosD (phi - w)).
      { rewrite <- cosD_abs. rewrite <- (cosD_acos t) at 1 by lra. apply cosD_sdecr.
        - apply Rabs_pos.
        - exact Hphi.
        - apply acos_deg_range. lra. }
      eexists. split; [apply shaded_same; fold w; lra|]. fold w. rewrite <- Et.
      rewrite Rabs_right by lra.
      assert (t / cosD (phi - w) < 1).
      { apply Rmult_lt_reg_r with (cosD (phi - w)); [lra|]. unfold Rdiv. rewrite Rmult_assoc, Rinv_l by lra. lra. }
      assert (0 < t / cosD (phi - w)) by (apply Rdiv_lt_0_compat; lra).
      rmm; lra.
  - rewrite (R1 H1). split.
    + replace (Rminus w w) with 0 by ring.
      rewrite shaded_same; fold w; try lra; replace (w - w) with 0 by ring; rewrite cosD_0; try lra.
      rewrite <- Et, Rabs_R1. f_equal. unfold Rdiv. rewrite Rinv_1. rmm; lra.
    + intros phi Hphi. replace (w - w) with 0 in Hphi by ring. rewrite Rabs_R0 in Hphi.
      pose proof (Rabs_pos (phi - w)). lra.
Qed.

Lemma bt_raw_range w gcr c r : -180 < w <= 180 -> bt_raw w gcr c = #r -> -180 <= r <= 180.
Proof.
  intros Hw. unfold bt_raw. set (t := fabs _).
  destruct (fltb t #1) eqn:E; cbn [where_].
  - destruct t as [a| | |] eqn:Et; try discriminate E.
    2:{ unfold t in Et. destruct (fmul _ _) in Et; discriminate Et. }
    pose proof (fabs_nonneg _ _ Et) as Ha. simpl in E. apply Rltb_true in E.
    rewrite facos_fin by lra. destruct (fsign_fin w) as (sg & -> & _ & S1 & S2 & S3). fin.
    intros H. apply Fin_inj in H. subst r.
    assert (B : 0 <= Rdeg (acos a) <= 90).
    { split; [rewrite <- Rdeg_0; apply Rdeg_le, acos_bound|]. rewrite <- Rdeg_PI2. apply Rdeg_le.
      rewrite <- acos_0. apply acos_decr; lra. }
    destruct (Rtotal_order w 0) as [K|[K|K]].
    + rewrite (S2 K). replace (- -1 * acos a) with (acos a) by ring. lra.
    + rewrite (S3 K). replace (- 0 * acos a) with 0 by ring. rewrite Rdeg_0. lra.
    + rewrite (S1 K). replace (- (1) * acos a) with (- acos a) by ring. rewrite Rdeg_opp. lra.
  - fin. intros H. apply Fin_inj in H. lra.
Qed.

Lemma backtracking_no_shade z s T A lo hi cw pitch off c th :
  0 < cw -> 0 < pitch -> cw <= pitch -> 0 < cosD c -> 0 < cosD (psz z s T A - c) -> z <= 90 ->
  t_theta (singleaxis #z #s #T #A (LimPair #lo #hi) true #(cw / pitch) #c) = #th -> lo < th < hi ->
  shaded_fraction1d #z #s #A #th #cw #pitch #T #off #c None = #0 /\
  (forall phi, Rabs (phi - psz z s T A) < Rabs (th - psz z s T A) ->
     exists f, shaded_fraction1d #z #s #A #phi #cw #pitch #T #off #c None = #f /\ 0 < f).
Proof.
  intros Hcw Hp Hle Hc Hsun Hz Hth Hlim.
  destruct (bt_raw_fin (psz z s T A) #(cw / pitch) #c) as [r Hr].
  rewrite (singleaxis_day z s T A (LimPair #lo #hi) true #(cw / pitch) #c lo hi r Hz eq_refl eq_refl Hr) in Hth.
  cbn [t_theta] in Hth. apply Fin_inj in Hth.
  assert (r = th). { rmm_in Hth; lra. }
  subst r. apply (bt_core z s T A th cw pitch off c); assumption.
Qed.

Lemma backtracking_default z s T A cw pitch off c :
  0 < cw -> 0 < pitch -> cw <= pitch -> 0 < cosD c -> 0 < cosD (psz z s T A - c) -> z <= 90 ->
  exists th, t_theta (singleaxis #z #s #T #A (Lim #180) true #(cw / pitch) #c) = #th /\
  shaded_fraction1d #z #s #A #th #cw #pitch #T #off #c None = #0.
Proof.
  intros Hcw Hp Hle Hc Hsun Hz.
  destruct (bt_raw_fin (psz z s T A) #(cw / pitch) #c) as [r Hr].
  rewrite (singleaxis_day z s T A (Lim #180) true #(cw / pitch) #c (- (180)) 180 r Hz eq_refl eq_refl Hr).
  pose proof (bt_raw_range _ _ _ _ (psz_range z s T A) Hr) as B.
  cbn [t_theta]. rewrite Rmax_left by lra. rewrite Rmin_left by lra.
  exists r. split; [reflexivity|]. apply (bt_core z s T A r cw pitch off c); assumption.
Qed.
