(** Lemmas: angle of incidence, beam component, plane-of-array sums. *)
From Verif Require Import Base.Fl Base.FlFacts Base.Py Spec.Geometry Model.IrradTables Model.Atmosphere
  Model.Irradiance.
Open Scope R_scope.

Lemma dirvec_unit z a : norm2 (dirvec z a) = 1.
Proof.
  unfold norm2, dot, dirvec; simpl. pose proof (sc2D a) as Ha. pose proof (sc2D z) as Hz.
  replace (sinD z * sinD a * (sinD z * sinD a) + sinD z * cosD a * (sinD z * cosD a) + cosD z * cosD z)
    with (sinD z * sinD z * (sinD a * sinD a + cosD a * cosD a) + cosD z * cosD z) by ring.
  rewrite Ha, Rmult_1_r. exact Hz.
Qed.

Lemma cauchy_schwarz u v : dot u v * dot u v <= norm2 u * norm2 v.
Proof.
  unfold norm2, dot. destruct u as [a b c], v as [x y z]; simpl.
  pose proof (Rle_0_sqr (a*y - b*x)) as H1. pose proof (Rle_0_sqr (a*z - c*x)) as H2.
  pose proof (Rle_0_sqr (b*z - c*y)) as H3. unfold Rsqr in *. nra.
Qed.

Lemma dot_unit_bound u v : norm2 u = 1 -> norm2 v = 1 -> -1 <= dot u v <= 1.
Proof. intros Hu Hv. pose proof (cauchy_schwarz u v) as H. rewrite Hu, Hv in H. nra. Qed.

Lemma dot_dirvec t a z s :
  dot (dirvec t a) (dirvec z s) = cosD t * cosD z + sinD t * sinD z * cosD (s - a).
Proof. unfold dot, dirvec; simpl. rewrite cosD_minus. ring. Qed.

Lemma clip_id x : -1 <= x <= 1 -> Rmin (Rmax x (-1)) 1 = x.
Proof. intros H. rewrite Rmax_left by lra. rewrite Rmin_left by lra. reflexivity. Qed.

Lemma aoi_projection_fin t a z s :
  aoi_projection #t #a #z #s = #(dot (dirvec t a) (dirvec z s)).
Proof.
  unfold aoi_projection. fin. f_equal. rewrite <- dot_dirvec.
  apply clip_id, dot_unit_bound; apply dirvec_unit.
Qed.

Lemma aoi_projection_within t a z s : within #(-1) #1 (aoi_projection t a z s).
Proof. unfold aoi_projection. apply fclip_within. lra. Qed.

Lemma fradians_PInf : fradians PInf = PInf.
Proof.
  unfold fradians. pose proof PI_RGT_0 as HP. cbn [fmul]. unfold sinf, Rpos.
  rewrite Rltb_t by lra. cbn [fdiv]. unfold Rneg. rewrite Rltb_f by lra. reflexivity.
Qed.
Lemma fradians_NInf : fradians NInf = NInf.
Proof.
  unfold fradians. pose proof PI_RGT_0 as HP. cbn [fmul]. unfold sinf, Rpos, Rneg.
  rewrite Rltb_f by lra. rewrite Rltb_t by lra. cbn [fdiv]. unfold Rneg.
  rewrite Rltb_f by lra. reflexivity.
Qed.
Lemma cosd_finite x : isfinite x = false -> cosd x = NaN.
Proof.
  unfold cosd. destruct x; simpl isfinite; try discriminate; intros _;
  rewrite ?fradians_PInf, ?fradians_NInf; reflexivity.
Qed.
Lemma sind_finite x : isfinite x = false -> sind x = NaN.
Proof.
  unfold sind. destruct x; simpl isfinite; try discriminate; intros _;
  rewrite ?fradians_PInf, ?fradians_NInf; reflexivity.
Qed.
Lemma fcosrad_finite x : isfinite x = false -> fcos (fradians x) = NaN.
Proof. apply cosd_finite. Qed.

Lemma fsub_finite x y : isfinite x = false \/ isfinite y = false -> isfinite (fsub x y) = false.
Proof. destruct x, y; simpl; intros [H|H]; try discriminate; reflexivity. Qed.

Lemma aoi_projection_nan t a z s :
  aoi_projection t a z s = NaN <->
  isfinite t && isfinite a && isfinite z && isfinite s = false.
Proof.
  split.
  - intros H. destruct t as [t'| | |], a as [a'| | |], z as [z'| | |], s as [s'| | |];
    try reflexivity. rewrite aoi_projection_fin in H. discriminate.
  - intros H. unfold aoi_projection.
    destruct (isfinite t) eqn:Ht.
    2:{ rewrite (cosd_finite t Ht). reflexivity. }
    destruct (isfinite z) eqn:Hz.
    2:{ rewrite (cosd_finite z Hz). destruct (cosd t); reflexivity. }
    assert (Hsa : isfinite (fsub s a) = false).
    { apply fsub_finite. destruct (isfinite a), (isfinite s); simpl in H; auto; discriminate. }
    rewrite (cosd_finite _ Hsa). rewrite fmul_nan_r, fadd_nan_r. reflexivity.
Qed.

Lemma acos_deg_range p : -1 <= p <= 1 -> 0 <= Rdeg (acos p) <= 180.
Proof.
  intros H. pose proof (acos_bound p) as [H0 H1].
  unfold Rdeg. pose proof PI_RGT_0 as HP. split.
  - apply Rmult_le_pos; [nra|]. left. apply Rinv_0_lt_compat; exact HP.
  - apply Rmult_le_reg_r with PI; [exact HP|]. unfold Rdiv.
    rewrite Rmult_assoc, Rinv_l by lra. nra.
Qed.

Lemma aoi_fin t a z s :
  aoi #t #a #z #s = #(Rdeg (acos (dot (dirvec t a) (dirvec z s)))).
Proof.
  unfold aoi. rewrite aoi_projection_fin.
  assert (Hb := dot_unit_bound _ _ (dirvec_unit t a) (dirvec_unit z s)).
  rewrite facos_fin by exact Hb. apply fdegrees_fin.
Qed.

(** the angle between two vectors given by its cosine: unique in [0,180] *)
Lemma aoi_unique t a z s th :
  0 <= th <= 180 -> cosD th = dot (dirvec t a) (dirvec z s) -> aoi #t #a #z #s = #th.
Proof.
  intros Hth Hc. rewrite aoi_fin, <- Hc. f_equal. unfold cosD. rewrite acos_cos.
  - apply Rdeg_rad.
  - split; [rewrite <- Rrad_0|rewrite <- Rrad_180]; apply Rrad_le; lra.
Qed.

Lemma aoi_spec t a z s :
  exists th, aoi #t #a #z #s = #th /\ 0 <= th <= 180 /\ cosD th = dot (dirvec t a) (dirvec z s).
Proof.
  exists (Rdeg (acos (dot (dirvec t a) (dirvec z s)))).
  assert (Hb := dot_unit_bound _ _ (dirvec_unit t a) (dirvec_unit z s)).
  split; [apply aoi_fin|]. split; [apply acos_deg_range, Hb|].
  unfold cosD. rewrite Rrad_deg. apply cos_acos, Hb.
Qed.

Lemma cos_aoi t a z s : fcos (fradians (aoi t a z s)) = aoi_projection t a z s.
Proof.
  destruct (within_inv _ _ _ (aoi_projection_within t a z s)) as [H|(p & H & Hp)];
  unfold aoi; rewrite H.
  - reflexivity.
  - rewrite facos_fin by exact Hp. fin. rewrite Rrad_deg, cos_acos by exact Hp. reflexivity.
Qed.

Lemma aoi_azimuth_period t a z s :
  aoi #t #(a + 360) #z #s = aoi #t #a #z #s /\ aoi #t #a #z #(s + 360) = aoi #t #a #z #s.
Proof.
  split; rewrite !aoi_fin; unfold dirvec; rewrite ?cosD_360, ?sinD_360; reflexivity.
Qed.
Lemma aoi_azimuth_rotation t a z s d : aoi #t #(a + d) #z #(s + d) = aoi #t #a #z #s.
Proof.
  rewrite !aoi_fin, !dot_dirvec. replace (s + d - (a + d)) with (s - a) by ring. reflexivity.
Qed.
Lemma aoi_symmetric t a z s : aoi #t #a #z #s = aoi #z #s #t #a.
Proof. rewrite !aoi_fin. do 3 f_equal. unfold dot; simpl. ring. Qed.
Lemma aoi_nan t a z s :
  aoi t a z s = NaN <-> isfinite t && isfinite a && isfinite z && isfinite s = false.
Proof.
  rewrite <- aoi_projection_nan. unfold aoi.
  destruct (within_inv _ _ _ (aoi_projection_within t a z s)) as [H|(p & H & Hp)]; rewrite H.
  - split; reflexivity.
  - rewrite facos_fin by exact Hp. rewrite fdegrees_fin. split; discriminate.
Qed.

(** ** beam component and POA sums *)
Lemma poa_direct_beam t a z s dni :
  fmax (fmul dni (fcos (fradians (aoi t a z s)))) #0 = beam_component t a z s dni.
Proof. rewrite cos_aoi. reflexivity. Qed.

Lemma beam_component_nonneg t a z s dni : atleast #0 (beam_component t a z s dni).
Proof. apply fmax_atleast. Qed.

Lemma beam_component_fin t a z s dni :
  beam_component #t #a #z #s #dni = #(Rmax (dni * dot (dirvec t a) (dirvec z s)) 0).
Proof. unfold beam_component. rewrite aoi_projection_fin. fin. reflexivity. Qed.

Lemma get_total_irradiance_ok f t a z s dni ghi dhi dx am alb st model mp dc p :
  get_total_irradiance f t a z s dni ghi dhi dx am alb st model mp dc = Ok p ->
  exists sk g,
    get_sky_diffuse f t a z s dni ghi dhi dx am model mp dc = Ok sk /\
    get_ground_diffuse t ghi alb st = Ok g /\
    poa_global p = fadd (poa_direct p) (poa_diffuse p) /\
    poa_diffuse p = fadd (poa_sky_diffuse p) (poa_ground_diffuse p) /\
    poa_sky_diffuse p = sky_total sk /\
    poa_ground_diffuse p = g /\
    poa_direct p = beam_component t a z s dni.
Proof.
  unfold get_total_irradiance. unfold bind.
  destruct (get_sky_diffuse f t a z s dni ghi dhi dx am model mp dc) as [sk|e] eqn:Hs; [|discriminate].
  destruct (get_ground_diffuse t ghi alb st) as [g|e] eqn:Hg; [|discriminate].
  intros [= <-]. exists sk, g. repeat split; simpl; auto. apply poa_direct_beam.
Qed.

Lemma aoi_is_angle : forall tilt az zen saz : R, exists th,
    aoi #tilt #az #zen #saz = #th /\ 0 <= th <= 180 /\
    cosD th = dot (dirvec tilt az) (dirvec zen saz) /\
    aoi_projection #tilt #az #zen #saz = #(cosD th) /\
    (forall th', 0 <= th' <= 180 -> cosD th' = dot (dirvec tilt az) (dirvec zen saz) -> th' = th).
Proof.
  intros t a z s. destruct (aoi_spec t a z s) as (th & He & Hr & Hc).
  exists th. repeat split; try assumption; try (apply Hr).
  - rewrite Hc. apply aoi_projection_fin.
  - intros th' Hr' Hc'. apply Fin_inj. rewrite <- He. symmetry. apply aoi_unique; assumption.
Qed.
