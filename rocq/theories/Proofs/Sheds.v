(** infinite_sheds.py, loss_models.py and ants2d.py *)
From Verif Require Import Base.Fl Base.FlFacts Base.Py Base.Trig Model.Irradiance Model.Shading Model.Tracking Model.Bifacial
  Spec.Geometry Spec.TrackerGeometry Spec.RowShading Spec.BifacialSpec Spec.ShedsSpec
  Proofs.IrradGeom Proofs.IrradSky Proofs.TrackGeom Proofs.Slope Proofs.RowShade Proofs.BifGround Proofs.BifProps.
From Coq Require Import Psatz ZArith Lia List.
Open Scope R_scope.

(** ** the shaded fraction of infinite_sheds *)
Lemma proj_tangent_fin z s a : cosD z <> 0 -> solar_projection_tangent #z #s #a = #(cosD (s - a) * tanD z).
Proof. intros H. unfold solar_projection_tangent. fin. reflexivity. Qed.
Lemma section_sun z s a : cosD z <> 0 -> sun_in_section z s a = (- (cosD z * (cosD (s - a) * tanD z)), cosD z).
Proof.
  intros H. unfold sun_in_section, dot, dirvec. cbn [east north up]. f_equal. rewrite cosD_minus. unfold tanD, tan. fold (sinD z) (cosD z). field. exact H.
Qed.
Lemma section_aoi z s t a : cosD z <> 0 -> dot (dirvec t a) (dirvec z s) = cosD z * (sinD t * (cosD (s - a) * tanD z) + cosD t).
Proof.
  intros H. unfold dot, dirvec. cbn [east north up]. rewrite cosD_minus. unfold tanD, tan. fold (sinD z) (cosD z). field. exact H.
Qed.
Lemma acos_deg_lt x : -1 <= x <= 1 -> (Rdeg (acos x) < 90 <-> 0 < x).
Proof.
  intros H. assert (E : 90 = Rdeg (PI / 2)) by (unfold Rdeg; field; apply PI_neq0). pose proof (acos_bound x) as B. pose proof PI_RGT_0.
  assert (D : forall u v, Rdeg u < Rdeg v <-> u < v).
  { intros u v. split; [|apply Rdeg_lt]. intros K. apply Rnot_le_lt. intros L. apply Rdeg_le in L. lra. }
  rewrite E, D. rewrite <- (cos_acos x H) at 2. split; intros K.
  - apply cos_gt_0; lra.
  - apply Rnot_le_lt. intros L. pose proof (cos_le_0 (acos x) L ltac:(lra)). lra.
Qed.
Lemma shaded_fin z s t a g : 0 < cosD z -> 0 < g ->
  let x := g * (sinD t * (cosD (s - a) * tanD z) + cosD t) in
  sheds_shaded_fraction #z #s #t #a #g = #(if Rlt_dec 1 x then 1 - 1 / x else 0).
Proof.
  intros Hz Hg x. unfold sheds_shaded_fraction. rewrite proj_tangent_fin by lra. fin. fold x.
  rewrite aoi_fin. rewrite ?fltb_fin, ?fgtb_fin.
  assert (B := dot_unit_bound _ _ (dirvec_unit t a) (dirvec_unit z s)). set (d := dot (dirvec t a) (dirvec z s)) in *.
  assert (E : x * cosD z = g * d) by (unfold d; rewrite section_aoi by lra; unfold x; ring).
  destruct (Rlt_dec 1 x) as [H|H].
  - rewrite (Rltb_t 1 x) by exact H. assert (0 < d). { assert (0 < x * cosD z) by (apply Rmult_lt_0_compat; lra). apply Rmult_lt_reg_l with g; lra. }
    rewrite (Rltb_t (Rdeg (acos d)) 90) by (apply acos_deg_lt; lra). cbn [where_]. rewrite fdiv_fin by lra. fin. reflexivity.
  - rewrite (Rltb_f 1 x) by lra. reflexivity.
Qed.
Lemma shaded_geometry z s t a g : 0 < cosD z -> 0 < sinD t -> 0 < g ->
  exists f, sheds_shaded_fraction #z #s #t #a #g = #f /\ 0 <= f < 1 /\
  forall x, 0 <= x <= 1 -> (x < f -> blocked t g (sun_in_section z s a) x) /\ (f < x -> ~ blocked t g (sun_in_section z s a) x).
Proof.
  intros Hz Ht Hg. rewrite shaded_fin by assumption. cbv zeta. set (T := cosD (s - a) * tanD z). set (X := g * (sinD t * T + cosD t)).
  assert (SX : sinD t * T + cosD t = X / g) by (unfold X; field; lra).
  eexists. split; [reflexivity|].
  assert (I : 1 < X -> 0 < 1 / X < 1). { intros H. split; [apply Rdiv_lt_0_compat; lra|]. apply Rmult_lt_reg_r with X; [lra|]. replace (1 / X * X) with 1 by (field; lra). lra. }
  split; [destruct (Rlt_dec 1 X); [specialize (I r)|]; lra|].
  intros x Hx. rewrite section_sun by lra. fold T. unfold blocked, row_point, front_row_point. cbn [fst snd]. split.
  - destruct (Rlt_dec 1 X) as [H|H]; [|lra]. specialize (I H). intros L. exists (x + 1 / X), (1 / X * sinD t / cosD z). split; [lra|].
    split; [apply Rmult_le_pos; [apply Rmult_le_pos; lra|left; apply Rinv_0_lt_compat; lra]|].
    split; [|field; lra]. replace (x * cosD t + 1 / X * sinD t / cosD z * - (cosD z * T)) with (x * cosD t - 1 / X * (sinD t * T)) by (field; lra).
    replace (sinD t * T) with (X / g - cosD t) by lra. field. lra.
  - intros L (y & k & Hy & Hk & E1 & E2).
    assert (K : k * cosD z = (y - x) * sinD t) by lra.
    assert (M : (y - x) * (X / g) = 1 / g). { rewrite <- SX. replace ((y - x) * (sinD t * T + cosD t)) with (k * cosD z * T + (y - x) * cosD t) by (rewrite K; ring). lra. }
    assert (M' : (y - x) * X = 1). { replace X with (g * (X / g)) by (field; lra). replace ((y - x) * (g * (X / g))) with (g * ((y - x) * (X / g))) by ring. rewrite M. field. lra. }
    assert (P : 0 <= k * cosD z) by (apply Rmult_le_pos; lra). rewrite K in P.
    assert (D : 0 <= y - x). { apply Rnot_lt_le. intros N. assert (0 < (x - y) * sinD t) by (apply Rmult_lt_0_compat; lra). lra. }
    destruct (Rlt_dec 1 X) as [H|H].
    + specialize (I H). assert (y - x = 1 / X) by (rewrite <- M'; field; lra). lra.
    + assert ((y - x) * X <= (y - x) * 1) by (apply Rmult_le_compat_l; lra). lra.
Qed.
Lemma shaded_behind z s t a g : 0 < cosD z -> 0 < g -> aoi #t #a #z #s = #90 \/ (exists b, aoi #t #a #z #s = #b /\ 90 < b) ->
  sheds_shaded_fraction #z #s #t #a #g = #0.
Proof.
  intros Hz Hg H. assert (N : ~ Rdeg (acos (dot (dirvec t a) (dirvec z s))) < 90).
  { rewrite aoi_fin in H. destruct H as [H|(b & H & L)]; apply Fin_inj in H; lra. }
  rewrite acos_deg_lt in N by (apply dot_unit_bound; apply dirvec_unit). rewrite shaded_fin by assumption. f_equal. destruct Rlt_dec as [L|L]; [|reflexivity].
  exfalso. apply N. rewrite section_aoi by lra. apply Rmult_lt_0_compat; [lra|]. set (X := _ + cosD t) in *. apply Rmult_lt_reg_l with g; [lra|]. lra.
Qed.

(** ** moving circumsolar irradiance *)
Lemma hd_circ t a dhi dni x z s : circ (haydavies #t #a #dhi #dni #x #z #s None) =
  fmax (fmul #dhi (fmul (fdiv #dni #x) (projection_ratio_of #t #a #z #s))) #0.
Proof. reflexivity. Qed.
Lemma rb_normal z s : 0.01745 <= cosD z -> projection_ratio_of #z #s #z #s = #(1 / cosD z).
Proof.
  intros H. unfold projection_ratio_of. rewrite aoi_projection_fin.
  replace (dot (dirvec z s) (dirvec z s)) with 1 by (symmetry; apply dirvec_unit). fin. rewrite !Rmax_left by lra. rewrite fdiv_fin by lra. reflexivity.
Qed.
Lemma hd_moves dhi dni x z s : 0 <= dhi -> 0 <= dni -> 0 < x -> 0.01745 <= cosD z ->
  circ (haydavies #0 #180 #dhi #dni #x #z #s None) = #(dhi * (dni / x)) /\
  circ (haydavies #z #s #dhi #dni #x #z #s None) = #(dhi * (dni / x) / cosD z).
Proof.
  intros Hd Hn Hx Hz. rewrite !hd_circ, rb_horizontal, rb_normal by exact Hz. rewrite fdiv_fin by lra. fin.
  assert (0 <= dni / x) by (apply Rmult_le_pos; [lra|left; apply Rinv_0_lt_compat; lra]).
  assert (0 <= dhi * (dni / x)) by (apply Rmult_le_pos; lra).
  assert (0 <= dhi * (dni / x) * (1 / cosD z)) by (apply Rmult_le_pos; [lra|apply Rlt_le, Rdiv_lt_0_compat; lra]).
  split; (rewrite Rmax_left; [f_equal; field; lra|]).
  - rewrite Rmult_1_r. lra.
  - replace (dhi * (dni / x * (1 / cosD z))) with (dhi * (dni / x) * (1 / cosD z)) by ring. lra.
Qed.
Lemma perez_terms_normal z s F1 F2 : cosD 85 <= cosD z -> 0 < cosD 85 -> exists t1 t3, perez_terms #z #s #z #s #F1 #F2 = (#t1, #(F1 / cosD z), #t3).
Proof.
  intros H P. unfold perez_terms. rewrite aoi_projection_fin.
  replace (dot (dirvec z s) (dirvec z s)) with 1 by (symmetry; apply dirvec_unit). fin. rewrite (Rmax_left 1 0) by lra. rewrite (Rmax_left (cosD z) (cosD 85)) by lra.
  rewrite fdiv_fin by lra. rewrite Rmult_1_r. eexists _, _. reflexivity.
Qed.
Lemma cos85 : 0 < cosD 85. Proof. apply cosD_pos. lra. Qed.

(** ** the two sides *)
Lemma back_normal t a : dirvec (180 - t) (Rmodp (180 + a) 360) = vscale (-1) (dirvec t a).
Proof.
  unfold dirvec, vscale. cbn [east north up]. rewrite sinD_mod, cosD_mod.
  assert (S : sinD (180 - t) = sinD t) by (unfold sinD; rewrite <- (sin_PI_x (Rrad t)); f_equal; unfold Rrad; field).
  assert (C : cosD (180 - t) = - cosD t) by (unfold cosD; rewrite <- (Rtrigo_facts.cos_pi_minus (Rrad t)); f_equal; unfold Rrad; field).
  assert (S' : sinD (180 + a) = - sinD a) by (unfold sinD; rewrite <- neg_sin; f_equal; unfold Rrad; field).
  assert (C' : cosD (180 + a) = - cosD a) by (unfold cosD; rewrite <- neg_cos; f_equal; unfold Rrad; field).
  rewrite S, C, S', C'. f_equal; ring.
Qed.
Lemma dot_scale k u v : dot (vscale k u) v = k * dot u v.
Proof. unfold dot, vscale. cbn. ring. Qed.
Lemma back_projection t a z s : let '(bt, ba) := backside #t #a in exists c, aoi_projection #t #a #z #s = #c /\ aoi_projection bt ba #z #s = #(- c).
Proof.
  unfold backside. fin. eexists. split; [apply aoi_projection_fin|]. rewrite aoi_projection_fin, back_normal, dot_scale. f_equal. ring.
Qed.

(** ** power_mismatch_deline *)
Definition poly (c : list R) (x : R) : R := rsum (map (fun i => nth i c 0 * x ^ i) (seq 0 (length c))).
Lemma poly_cons a c x : poly (a :: c) x = a + x * poly c x.
Proof.
  unfold poly. cbn [length seq map nth]. cbn [rsum fold_right]. rewrite <- seq_shift, map_map.
  fold (rsum (map (fun i => nth (S i) (a :: c) 0 * x ^ S i) (seq 0 (length c)))).
  rewrite (rsum_ext _ (fun i => x * (nth i c 0 * x ^ i))) by (intros i _; cbn; ring). rewrite rsum_scal. cbn. ring.
Qed.
Lemma polynomial_fin c x : polynomial (map Fin c) #x = #(poly c x).
Proof.
  induction c as [|a c IH]; [reflexivity|]. rewrite poly_cons. unfold polynomial in *. cbn [map fold_right]. rewrite IH. fin. reflexivity.
Qed.
Lemma poly_scale c k x : poly (map (fun a => a * k) c) x = k * poly c x.
Proof. induction c as [|a c IH]; [unfold poly; cbn; ring|]. cbn [map]. rewrite !poly_cons, IH. ring. Qed.

(** ** ants2d *)
Lemma psz_plane ph : -90 < ph < 90 -> projected_solar_zenith_angle #ph #90 #0 #0 = #ph.
Proof.
  intros H. rewrite psz_fin. f_equal. unfold psz.
  assert (R90 : Rrad 90 = PI / 2) by (unfold Rrad; field).
  assert (C : cosD 90 = 0) by (unfold cosD; rewrite R90; apply cos_PI2). assert (S : sinD 90 = 1) by (unfold sinD; rewrite R90; apply sin_PI2).
  assert (X : dot (dirvec ph 90) (lateral 0) = sinD ph) by (unfold dot, dirvec, lateral; cbn [east north up]; rewrite C, S, cosD_0, sinD_0; ring).
  assert (Y : dot (dirvec ph 90) (rest_normal 0 0) = cosD ph) by (unfold dot, rest_normal, dirvec; cbn [east north up]; rewrite cosD_0, sinD_0; ring).
  rewrite X, Y. assert (P : 0 < cosD ph) by (apply cosD_pos; exact H).
  unfold Ratan2. rewrite Rltb_t by exact P. change (sinD ph / cosD ph) with (tan (Rrad ph)). pose proof PI_RGT_0. assert (ph * PI < 90 * PI) by (apply Rmult_lt_compat_r; lra). assert (-90 * PI < ph * PI) by (apply Rmult_lt_compat_r; lra). rewrite atan_tan by (unfold Rrad; lra).
  unfold Rdeg, Rrad. field. lra.
Qed.
Lemma seg_clip f x0 x1 : 0 <= f <= 1 -> 0 <= x0 < x1 -> Rmin (Rmax ((f - x0) / (x1 - x0)) 0) 1 = common 0 f x0 x1 / (x1 - x0).
Proof.
  intros Hf Hx. unfold common. rewrite (Rmax_right 0 x0) by lra. assert (P : 0 < / (x1 - x0)) by (apply Rinv_0_lt_compat; lra).
  destruct (Rle_dec f x0) as [A|A].
  - rewrite (Rmin_left f x1) by lra. rewrite (Rmax_left 0) by lra. assert ((f - x0) / (x1 - x0) <= 0). { unfold Rdiv. assert (0 <= (x0 - f) * / (x1 - x0)) by (apply Rmult_le_pos; lra). lra. }
    rewrite Rmax_right by lra. rewrite Rmin_left by lra. field. lra.
  - assert (0 <= (f - x0) / (x1 - x0)) by (apply Rmult_le_pos; lra). rewrite Rmax_left by lra.
    destruct (Rle_dec f x1) as [B|B].
    + rewrite (Rmin_left f x1) by lra. rewrite Rmax_right by lra. apply Rmin_left. apply Rmult_le_reg_r with (x1 - x0); [lra|]. replace ((f - x0) / (x1 - x0) * (x1 - x0)) with (f - x0) by (field; lra). lra.
    + rewrite (Rmin_right f x1) by lra. rewrite Rmax_right by lra. rewrite Rmin_right; [field; lra|]. apply Rmult_le_reg_r with (x1 - x0); [lra|]. replace ((f - x0) / (x1 - x0) * (x1 - x0)) with (f - x0) by (field; lra). lra.
Qed.
Lemma ants_fin th phi g x0 x1 f : shaded_fraction1d phi #90 #0 #th #1 (fdiv #1 g) #0 #0 #0 None = #f -> 0 <= x0 < x1 -> x1 <= 1 ->
  ants_shaded_fraction #th phi g #x0 #x1 =
  #(if Rlt_dec th 0 then common 0 f (1 - x1) (1 - x0) / (x1 - x0) else common 0 f x0 x1 / (x1 - x0)).
Proof.
  intros Hf H0 H1. assert (R : 0 <= f <= 1). { pose proof (shaded_fraction_within phi #90 #0 #th #1 (fdiv #1 g) #0 #0 #0 None) as W. rewrite Hf in W. apply within_fin in W. exact W. }
  unfold ants_shaded_fraction. rewrite Hf, fltb_fin. destruct (Rlt_dec th 0) as [L|L].
  - rewrite Rltb_t by exact L. cbn [where_]. fin. f_equal. rewrite seg_clip by lra. f_equal. lra.
  - rewrite Rltb_f by lra. cbn [where_]. fin. f_equal. apply seg_clip; lra.
Qed.

Definition toward (th : R) : R := if Rlt_dec th 0 then -1 else 1.
(** where rows shade each other, the shaded edge is the lower one *)
Lemma shaded_edge th ph g f : 0 < g <= 1 -> -90 < ph < 90 -> ph <> 0 -> -180 < th < 180 -> th <> 0 -> cosD (th - ph) <> 0 ->
  shaded_fraction1d #ph #90 #0 #th #1 (fdiv #1 #g) #0 #0 #0 None = #f -> 0 < f -> side_of ph * signum (cosD (th - ph)) = toward th.
Proof.
  intros Hg Hp Np Ht Nt Nc E Pf. rewrite fdiv_fin in E by lra.
  pose proof (shaded_formula ph 90 0 th 1 (1 / g) 0 0 0 None ph (psz_plane ph Hp) Np ltac:(lra) Nc) as F. cbn [option_map] in F.
  rewrite cosD_0 in F. specialize (F ltac:(lra)). cbv zeta in F. rewrite E in F. apply Fin_inj in F.
  assert (PC : 0 < cosD ph) by (apply cosD_pos; exact Hp). set (c := cosD (th - ph)) in *. assert (PA : 0 < Rabs c) by (apply Rabs_pos_lt; exact Nc).
  replace (sinD (th - ph) - sinD (th - ph)) with 0 in F by ring. replace (ph - 0) with ph in F by ring.
  assert (K : cosD ph < Rabs c).
  { apply Rnot_le_lt. intros L. assert (G : 1 <= 1 / g) by (apply Rmult_le_reg_r with g; [lra|]; replace (1 / g * g) with 1 by (field; lra); lra).
    assert (1 <= cosD ph / Rabs c). { apply Rmult_le_reg_r with (Rabs c); [lra|]. replace (cosD ph / Rabs c * Rabs c) with (cosD ph) by (field; lra). lra. }
    assert (1 * 1 <= 1 / g * (cosD ph / Rabs c)) by (apply Rmult_le_compat; lra).
    rewrite Rmax_right in F; [rewrite Rmin_left in F by lra; lra|].
    replace (Rabs c / Rabs c / 2) with (1 / 2) by (field; lra). replace (side_of ph * 0 / 1 / Rabs c * 0) with 0 by ring.
    replace (1 / g / 1 * cosD ph / Rabs c / 1) with (1 / g * (cosD ph / Rabs c)) by (field; lra). lra. }
  assert (CE : c = cosD th * cosD ph + sinD th * sinD ph) by (unfold c; apply cosD_minus).
  assert (B : -1 <= cosD th <= 1) by (unfold cosD; pose proof (COS_bound (Rrad th)); lra).
  assert (B1 : cosD th * cosD ph <= cosD ph) by (assert (0 <= (1 - cosD th) * cosD ph) by (apply Rmult_le_pos; lra); lra).
  assert (B2 : - cosD ph <= cosD th * cosD ph) by (assert (0 <= (1 + cosD th) * cosD ph) by (apply Rmult_le_pos; lra); lra).
  assert (SP : forall u, 0 < u < 180 -> 0 < sinD u) by (intros u Hu; apply sinD_pos; lra).
  assert (SN : forall u, -180 < u < 0 -> sinD u < 0) by (intros u Hu; assert (Q := SP (- u) ltac:(lra)); rewrite sinD_opp in Q; lra).
  unfold side_of, signum, toward. unfold Rabs in K.
  destruct (Rlt_dec 0 ph) as [P|P]; destruct (Rlt_dec 0 c) as [C|C]; destruct (Rlt_dec th 0) as [T|T]; try lra; exfalso; destruct (Rcase_abs c) as [D|D]; try lra.
  - assert (0 < (- sinD th) * sinD ph) by (apply Rmult_lt_0_compat; [assert (Q := SN th ltac:(lra)); lra|apply SP; lra]). lra.
  - assert (0 < sinD th * sinD ph) by (apply Rmult_lt_0_compat; apply SP; lra). lra.
  - assert (0 < sinD th * - sinD ph) by (apply Rmult_lt_0_compat; [apply SP; lra|assert (Q := SN ph ltac:(lra)); lra]). lra.
  - assert (0 < (- sinD th) * - sinD ph) by (apply Rmult_lt_0_compat; [assert (Q := SN th ltac:(lra)); lra|assert (Q := SN ph ltac:(lra)); lra]). lra.
Qed.
Lemma rsum_rev l : rsum (rev l) = rsum l.
Proof.
  assert (A : forall l x, rsum (l ++ (x :: nil)) = rsum l + x) by (induction l0 as [|y l0 IHl]; intros x; cbn [app rsum fold_right]; [ring|]; fold (rsum (l0 ++ (x :: nil))); fold (rsum l0); rewrite IHl; ring).
  induction l as [|x l IH]; [reflexivity|]. cbn [rev]. rewrite A, IH. cbn [rsum fold_right]. fold (rsum l). ring.
Qed.
(** equal segments average to the shaded fraction of the row *)
Lemma common_cell f a b : 0 <= f -> 0 <= a <= b -> common 0 f a b = Rmin f b - Rmin f a.
Proof. intros Hf H. unfold common. rewrite (Rmax_right 0 a) by lra. unfold Rmax, Rmin. repeat destruct Rle_dec; lra. Qed.
Lemma common_cell' f a b : f <= 1 -> a <= b <= 1 -> 0 <= a -> 0 <= f -> common 0 f (1 - b) (1 - a) = Rmin f (1 - a) - Rmin f (1 - b).
Proof. intros. apply common_cell; lra. Qed.
Lemma ants_average th phi g f n : shaded_fraction1d phi #90 #0 #th #1 (fdiv #1 g) #0 #0 #0 None = #f -> (0 < n)%nat ->
  fsum (map (fun s => ants_shaded_fraction #th phi g (fst s) (snd s)) (segment_list (Count n))) = #(INR n * f).
Proof.
  intros Hf Hn. assert (R : 0 <= f <= 1). { pose proof (shaded_fraction_within phi #90 #0 #th #1 (fdiv #1 g) #0 #0 #0 None) as W. rewrite Hf in W. apply within_fin in W. exact W. }
  pose proof (lt_0_INR n Hn) as Pn. cbn [segment_list]. rewrite map_map. cbn [fst snd].
  set (F := fun i => if Rlt_dec th 0 then - Rmin f (1 - INR i / INR n) else Rmin f (INR i / INR n)).
  rewrite (fsum_fin _ (fun i => INR n * (F (S i) - F i))).
  - f_equal. rewrite rsum_scal, telescope. f_equal. unfold F. replace (INR n / INR n) with 1 by (field; lra). replace (INR 0 / INR n) with 0 by (cbn; field; lra).
    destruct (Rlt_dec th 0); rewrite ?Rminus_0_r; unfold Rmin; repeat destruct Rle_dec; lra.
  - intros i Hi. apply in_seq in Hi. pose proof (pos_INR i) as Pi. assert (Hs : INR (S i) <= INR n) by (apply le_INR; lia).
    assert (D : INR (S i) / INR n - INR i / INR n = / INR n) by (rewrite S_INR; field; lra). assert (PI0 : 0 < / INR n) by (apply Rinv_0_lt_compat; lra).
    assert (A0 : 0 <= INR i / INR n) by (apply Rmult_le_pos; lra).
    assert (A1 : INR (S i) / INR n <= 1) by (apply Rmult_le_reg_r with (INR n); [lra|]; replace (INR (S i) / INR n * INR n) with (INR (S i)) by (field; lra); lra).
    rewrite (ants_fin th phi g _ _ f Hf) by lra. f_equal. unfold F. rewrite D. destruct (Rlt_dec th 0).
    + rewrite common_cell' by lra. field. lra.
    + rewrite common_cell by lra. field. lra.
Qed.
(** ** ground slope *)
Lemma slope_normal T A c : let az := A + Rdeg (Ratan2 (sinD c) (cosD c * sinD T)) in
  dirvec (Rdeg (acos (cosD T * cosD c))) az = collector_normal T A c.
Proof.
  intros az. rewrite collector_normal_eq. unfold dirvec, rest_normal, lateral, vadd, vscale. cbn [east north up]. 
  assert (B : -1 <= cosD T * cosD c <= 1).
  { pose proof (COS_bound (Rrad T)). pose proof (COS_bound (Rrad c)). fold (cosD T) in *. fold (cosD c) in *.
    pose proof (unit_up_bound _ (norm_collector T A c)) as U. rewrite <- surface_tilt_up in U. lra. }
  unfold dirvec. cbn [east north up].
  assert (EC : cosD (Rdeg (acos (cosD T * cosD c))) = cosD T * cosD c) by (rewrite cosD_deg; apply cos_acos, B).
  set (X := cosD c * sinD T). set (Y := sinD c). destruct (atan2_polar Y X) as [P1 P2]. set (r := sqrt (X * X + Y * Y)) in *.
  assert (ES : sinD (Rdeg (acos (cosD T * cosD c))) = r).
  { rewrite sinD_deg, sin_acos by exact B. unfold r. f_equal. unfold X, Y, Rsqr. pose proof (sc2D T) as H1. pose proof (sc2D c) as H2.
    set (st := sinD T) in *; set (ct := cosD T) in *; set (s := sinD c) in *; set (k := cosD c) in *.
    assert (K : s * s = 1 - k * k) by lra. assert (K' : st * st = 1 - ct * ct) by lra.
    replace (k * st * (k * st) + s * s) with (k * k * (st * st) + s * s) by ring. rewrite K, K'. ring. }
  rewrite EC, ES. unfold az. fold X Y.
  assert (SA : sinD (A + Rdeg (Ratan2 Y X)) = sinD A * cos (Ratan2 Y X) + cosD A * sin (Ratan2 Y X)).
  { unfold sinD. replace (Rrad (A + Rdeg (Ratan2 Y X))) with (Rrad A + Ratan2 Y X) by (unfold Rrad, Rdeg; field; apply PI_neq0). apply sin_plus. }
  assert (CA : cosD (A + Rdeg (Ratan2 Y X)) = cosD A * cos (Ratan2 Y X) - sinD A * sin (Ratan2 Y X)).
  { unfold cosD. replace (Rrad (A + Rdeg (Ratan2 Y X))) with (Rrad A + Ratan2 Y X) by (unfold Rrad, Rdeg; field; apply PI_neq0). apply cos_plus. }
  rewrite SA, CA. f_equal.
  - transitivity (r * cos (Ratan2 Y X) * sinD A + r * sin (Ratan2 Y X) * cosD A); [ring|]. rewrite P1, P2. unfold X, Y. ring.
  - transitivity (r * cos (Ratan2 Y X) * cosD A - r * sin (Ratan2 Y X) * sinD A); [ring|]. rewrite P1, P2. unfold X, Y. ring.
  - ring.
Qed.
Lemma wrap180_fin x : exists r (k : Z), wrap180 #x = #r /\ -180 <= r < 180 /\ x = r + 360 * IZR k.
Proof.
  unfold wrap180. fin. destruct (Rmodp_spec (x + 180) 360) as [R [k E]]; [lra|]. eexists _, k. split; [reflexivity|]. lra.
Qed.
Lemma slope_fin h p g th dni dhi z s T A c : cosD c <> 0 -> exists w (k : Z),
  apply_ground_slope #h #p #g #th #dni #dhi #z #s #T #A #c =
  (#(h * up (collector_normal T A c)), #(p / cosD c), #(g * cosD c), #w, #(dhi + dni * Rmax (dot (collector_normal T A c) (dirvec z s)) 0)) /\
  -180 <= w < 180 /\ th - c = w + 360 * IZR k.
Proof.
  intros Hc. unfold apply_ground_slope. fin.
  assert (B : -1 <= cosD T * cosD c <= 1) by (pose proof (unit_up_bound _ (norm_collector T A c)) as U; rewrite <- surface_tilt_up in U; lra).
  rewrite acosd_fin by exact B. rewrite aoi_projection_fin. rewrite (slope_normal T A c). fin.
  destruct (wrap180_fin (th - c)) as (w & k & E & R & K). exists w, k. rewrite E. split; [|split; assumption].
  repeat apply f_equal2; try reflexivity. f_equal. f_equal. rewrite cosD_deg, cos_acos by exact B. rewrite <- surface_tilt_up. ring.
Qed.
Lemma turned_normal T A th k : collector_normal T A (th + 180 + 360 * IZR k) = vscale (-1) (collector_normal T A th).
Proof.
  assert (S : sinD (th + 180 + 360 * IZR k) = - sinD th). { rewrite sinD_turn. unfold sinD. rewrite <- neg_sin. f_equal. unfold Rrad. field. }
  assert (C : cosD (th + 180 + 360 * IZR k) = - cosD th). { rewrite cosD_turn. unfold cosD. rewrite <- neg_cos. f_equal. unfold Rrad. field. }
  rewrite !collector_normal_eq, S, C. unfold vadd, vscale. cbn. f_equal; ring.
Qed.
Lemma rows_fin q : 0 <= q -> exists n, rows_of #q = Ok n /\ q <= INR n < q + 1.
Proof.
  intros Hq. unfold rows_of, fceil, Rceil, Rfloor. destruct (base_Int_part (- q)) as [A B]. set (m := Int_part (- q)) in *.
  assert (I : Int_part (- IZR m) = (- m)%Z). { rewrite <- opp_IZR. unfold Int_part. rewrite <- (tech_up (IZR (- m)) (- m + 1)); [lia| |]; rewrite plus_IZR; lra. }
  rewrite I. eexists. split; [reflexivity|].
  assert (M : (0 <= - m)%Z) by (apply le_IZR; rewrite opp_IZR; lra).
  rewrite INR_IZR_INZ, Z2Nat.id by exact M. rewrite opp_IZR. lra.
Qed.
Lemma shade_points th ph g : 0 < g <= 1 -> -90 < ph < 90 -> ph <> 0 -> -180 < th < 180 -> th <> 0 -> cosD (th - ph) <> 0 ->
  exists f, shaded_fraction1d #ph #90 #0 #th #1 (fdiv #1 #g) #0 #0 #0 None = #f /\
  forall x, 0 <= x <= 1 ->
      ((if Rlt_dec th 0 then 1 - x else x) < f -> in_shadow ph (on_row (0, 0) th 0 1 (1 / 2 - x)) (neighbour_axis (side_of ph) (1 / g) 0) th 0 1) /\
      (0 < x < 1 -> f < (if Rlt_dec th 0 then 1 - x else x) -> ~ in_shadow ph (on_row (0, 0) th 0 1 (1 / 2 - x)) (neighbour_axis (side_of ph) (1 / g) 0) th 0 1).
Proof.
  intros Hg Hp Np Ht Nt Nc. pose proof (shaded_formula ph 90 0 th 1 (1 / g) 0 0 0 None ph (psz_plane ph Hp) Np ltac:(lra) Nc) as F. cbn [option_map] in F.
  rewrite cosD_0 in F. specialize (F ltac:(lra)). cbv zeta in F.
  eexists. split; [rewrite fdiv_fin by lra; exact F|]. intros x Hx.
  assert (PC : 0 < cosD ph) by (apply cosD_pos; exact Hp). assert (G : 0 < 1 / g) by (apply Rdiv_lt_0_compat; lra).
  assert (SG : forall t, 0 <= t <= 1 -> in_shadow ph (on_row (0, 0) th 0 1 (side_of ph * signum (cosD (th - ph)) * (1 / 2 - t))) (neighbour_axis (side_of ph) (1 / g) 0) th 0 1 <->
     t <= 0.5 + Rabs (cosD (th - ph)) / Rabs (cosD (th - ph)) / 2 + side_of ph * 0 / 1 / Rabs (cosD (th - ph)) * (sinD (th - ph) - sinD (th - ph)) - 1 / g / 1 * cosD (ph - 0) / Rabs (cosD (th - ph)) / cosD 0).
  { intros t T. apply (shade_geometry ph th th 0 1 (1 / g) 0 t); try assumption; rewrite ?cosD_0; try lra.
    replace (ph - 0) with ph by ring. assert (0 <= 1 / g / 1 * cosD ph) by (apply Rmult_le_pos; lra). lra. }
  rewrite cosD_0 in SG. set (ts := 0.5 + _ + _ - _) in *.
  assert (V : side_of ph * signum (cosD (th - ph)) = 1 \/ side_of ph * signum (cosD (th - ph)) = -1) by (unfold side_of, signum; repeat destruct Rlt_dec; lra).
  assert (K : 0 < ts -> side_of ph * signum (cosD (th - ph)) = toward th).
  { intros P. apply (shaded_edge th ph g (Rmin (Rmax ts 0) 1)); try assumption; [rewrite fdiv_fin by lra; exact F|unfold Rmax, Rmin; repeat destruct Rle_dec; lra]. }
  assert (AT : forall t, (1 / 2 - x) = side_of ph * signum (cosD (th - ph)) * (1 / 2 - t) -> 0 <= t <= 1 -> (in_shadow ph (on_row (0, 0) th 0 1 (1 / 2 - x)) (neighbour_axis (side_of ph) (1 / g) 0) th 0 1 <-> t <= ts)).
  { intros t E T. rewrite E. apply SG, T. }
  split.
  - intros L. assert (P : 0 < ts). { apply Rnot_le_lt. intros N. rewrite Rmax_right in L by lra. rewrite Rmin_left in L by lra. destruct Rlt_dec; lra. }
    specialize (K P). assert (L' : (if Rlt_dec th 0 then 1 - x else x) <= ts) by (revert L; unfold Rmax, Rmin; repeat destruct Rle_dec; destruct (Rlt_dec th 0); lra).
    rewrite K in AT. unfold toward in AT. destruct (Rlt_dec th 0); [apply (AT (1 - x))|apply (AT x)]; lra.
  - intros Hxi L S. destruct (Rlt_dec 0 ts) as [P|P].
    + specialize (K P). rewrite K in AT. unfold toward in AT.
      assert (L' : ts < (if Rlt_dec th 0 then 1 - x else x)) by (revert L; unfold Rmax, Rmin; repeat destruct Rle_dec; destruct (Rlt_dec th 0); lra).
      destruct (Rlt_dec th 0); [apply (AT (1 - x)) in S|apply (AT x) in S]; lra.
    + destruct V as [V|V]; rewrite V in AT; [apply (AT x) in S|apply (AT (1 - x)) in S]; lra.
Qed.
