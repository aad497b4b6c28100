(** C90-C93: infinite_sheds, mismatch losses, ants2d. *)
From Verif Require Import Base.Fl Base.FlFacts Base.Py Base.Trig Model.IrradTables Model.Irradiance Model.Shading Model.Tracking Model.Bifacial
  Spec.Geometry Spec.TrackerGeometry Spec.RowShading Spec.BifacialSpec Spec.ShedsSpec
  Proofs.IrradGeom Proofs.IrradSky Proofs.TrackGeom Proofs.Slope Proofs.RowShade Proofs.BifGround Proofs.BifProps Proofs.Sheds.
From Coq Require Import Psatz ZArith Lia List.
Import ListNotations.
Open Scope R_scope.

(** ** C90: one side of infinite_sheds *)
(** the shaded fraction: exactly the points below it are in the shadow of the row in front *)
Theorem C90_shaded_fraction : forall zenith azimuth tilt surface_azimuth gcr, 0 < cosD zenith -> 0 < sinD tilt -> 0 < gcr ->
  exists f, sheds_shaded_fraction #zenith #azimuth #tilt #surface_azimuth #gcr = #f /\ 0 <= f < 1 /\
  forall x, 0 <= x <= 1 ->
    (x < f -> blocked tilt gcr (sun_in_section zenith azimuth surface_azimuth) x) /\
    (f < x -> ~ blocked tilt gcr (sun_in_section zenith azimuth surface_azimuth) x).
Proof. exact shaded_geometry. Qed.
Print Assumptions C90_shaded_fraction.
Theorem C90_shaded_fraction_range : forall zenith azimuth tilt surface_azimuth gcr,
  fle #0 (sheds_shaded_fraction zenith azimuth tilt surface_azimuth gcr) /\ fle (sheds_shaded_fraction zenith azimuth tilt surface_azimuth gcr) #1.
Proof.
  intros z s t a g. unfold sheds_shaded_fraction. set (x := fmul g _). set (b := fltb _ #90). destruct (fgtb x #1) eqn:E; cbn [where_]; [|rewrite !fle_fin; lra].
  destruct b; cbn [where_]; [|rewrite !fle_fin; lra]. destruct x as [x| | |]; try discriminate E.
  - rewrite fgtb_fin in E. apply Rltb_true in E. assert (0 < 1 / x < 1). { split; [apply Rdiv_lt_0_compat; lra|]. apply Rmult_lt_reg_r with x; [lra|]. replace (1 / x * x) with 1 by (field; lra). lra. }
    rewrite fdiv_fin by lra. fin. rewrite !fle_fin. lra.
  - replace (fsub #1 (fdiv #1 PInf)) with #(1 - 0) by reflexivity. rewrite !fle_fin. lra.
Qed.
Print Assumptions C90_shaded_fraction_range.
(** Finding: a comment in the code says the fraction is 1 when the sun is behind the array; it is 0 (the beam on that side is
    0 as well, so the irradiance is not affected). *)
Theorem C90_sun_behind_is_fully_shaded_refuted : forall zenith azimuth tilt surface_azimuth gcr b, 0 < cosD zenith -> 0 < gcr ->
  aoi #tilt #surface_azimuth #zenith #azimuth = #b -> 90 <= b ->
  sheds_shaded_fraction #zenith #azimuth #tilt #surface_azimuth #gcr = #0.
Proof.
  intros z s t a g b Hz Hg E Hb. apply shaded_behind; try assumption. destruct (Req_dec b 90) as [->|N]; [left; exact E|right; exists b; split; [exact E|lra]].
Qed.
Print Assumptions C90_sun_behind_is_fully_shaded_refuted.
(** moving circumsolar irradiance from diffuse to beam keeps the irradiance of the ground *)
Theorem C90_haydavies_conserves : forall dhi dni dni_extra zenith azimuth, 0 <= dhi -> 0 <= dni -> 0 < dni_extra -> 0.01745 <= cosD zenith ->
  exists dhi' dni', sheds_sky "haydavies" #dhi #dni (Some #dni_extra) #zenith #azimuth = Ok (#dhi', #dni') /\
    on_horizontal dni' dhi' zenith = on_horizontal dni dhi zenith /\ dni <= dni' /\ dhi' <= dhi /\ (dni <= dni_extra -> 0 <= dhi').
Proof.
  intros dhi dni x z s Hd Hn Hx Hz. unfold sheds_sky. cbn [String.eqb Ascii.eqb Bool.eqb]. destruct (hd_moves dhi dni x z s Hd Hn Hx Hz) as [E1 E2]. rewrite E1, E2. fin.
  eexists _, _. split; [reflexivity|]. unfold on_horizontal.
  assert (0 <= dni / x) by (apply Rmult_le_pos; [lra|left; apply Rinv_0_lt_compat; lra]). assert (0 <= dhi * (dni / x)) by (apply Rmult_le_pos; lra).
  assert (0 <= dhi * (dni / x) / cosD z) by (apply Rmult_le_pos; [lra|left; apply Rinv_0_lt_compat; lra]).
  split; [field; lra|]. split; [lra|]. split; [lra|]. intros L.
  assert (dni / x <= 1) by (apply Rmult_le_reg_r with x; [lra|]; replace (dni / x * x) with dni by (field; lra); lra).
  assert (0 <= dhi * (1 - dni / x)) by (apply Rmult_le_pos; lra). lra.
Qed.
Print Assumptions C90_haydavies_conserves.
Theorem C90_other_models_change_nothing : forall model dhi dni x z s, model <> "haydavies"%string -> sheds_sky model dhi dni x z s = Ok (dhi, dni).
Proof. intros m dhi dni x z s H. unfold sheds_sky. apply String.eqb_neq in H. rewrite H. reflexivity. Qed.
Print Assumptions C90_other_models_change_nothing.
(** the six outputs *)
Theorem C90_components : forall tilt az zenith azimuth gcr height pitch ghi dhi dni albedo model extra iam d,
  get_irradiance_poa tilt az zenith azimuth gcr height pitch ghi dhi dni albedo model extra iam = Ok d ->
  exists global direct diffuse ground sky shaded dhi' dni',
    d = [("poa_global", global); ("poa_direct", direct); ("poa_diffuse", diffuse); ("poa_ground_diffuse", ground); ("poa_sky_diffuse", sky); ("shaded_fraction", shaded)]%string /\
    global = fadd direct diffuse /\ diffuse = fadd ground sky /\
    sheds_sky model dhi dni extra zenith azimuth = Ok (dhi', dni') /\
    shaded = sheds_shaded_fraction zenith azimuth tilt az gcr /\
    direct = fmul (fmul (fmax (fmul dni' (aoi_projection tilt az zenith azimuth)) #0) (fsub #1 shaded)) iam /\
    sky = fmul dhi' (vf_row_sky_2d_integ tilt gcr #0 #1) /\
    exists lit rows seen row_ground,
      rows_of (fdiv height (fmul pitch (tand #5))) = Ok rows /\
      unshaded_ground_fraction tilt (fdegrees (fatan (solar_projection_tangent zenith azimuth az))) gcr None None 10 #85 #0 #1 = Ok lit /\
      seen = vf_ground_sky_2d_integ tilt gcr height pitch rows #0 #1 /\
      vf_row_ground_2d_integ tilt gcr None None #0 #1 20 #0 #1 = Ok row_ground /\
      ground = fmul (fmul albedo (fadd (fmul lit (fsub ghi dhi')) (fmul seen dhi'))) row_ground.
Proof.
  intros t a z s g h p ghi dhi dni alb m x iam d. unfold get_irradiance_poa.
  destruct (sheds_sky m dhi dni x z s) as [[dhi' dni']|e] eqn:E1; [|discriminate]. cbn [bind].
  destruct (rows_of _) as [rows|e] eqn:E2; [|discriminate]. cbn [bind].
  destruct (unshaded_ground_fraction _ _ _ _ _ _ _ _ _) as [lit|e] eqn:E3; [|discriminate]. cbn [bind].
  unfold poa_ground_pv. destruct (vf_row_ground_2d_integ _ _ _ _ _ _ _ _ _) as [rg|e] eqn:E4; [|discriminate]. cbn [bind].
  intros E. injection E as <-. eexists _, _, _, _, _, _, dhi', dni'. split; [reflexivity|].
  split; [reflexivity|]. split; [reflexivity|]. split; [reflexivity|]. split; [reflexivity|]. split; [reflexivity|]. split; [reflexivity|].
  exists lit, rows, (vf_ground_sky_2d_integ t g h p rows #0 #1), rg. repeat split.
Qed.
Print Assumptions C90_components.
(** enough rows are looked at to see the horizon up to 5 degrees, and no more *)
Theorem C90_rows : forall height pitch, 0 < pitch -> 0 <= height -> exists n, rows_of (fdiv #height (fmul #pitch (tand #5))) = Ok n /\
  height <= INR n * (pitch * tanD 5) < height + pitch * tanD 5.
Proof.
  intros h p Hp Hh. assert (T : 0 < tanD 5). { unfold tanD. pose proof PI_RGT_0. apply tan_gt_0; unfold Rrad; lra. }
  assert (C : cosD 5 <> 0) by (apply Rgt_not_eq, cosD_pos; lra). assert (PT : 0 < p * tanD 5) by (apply Rmult_lt_0_compat; lra).
  rewrite tand_fin by exact C. fin. set (q := h / (p * tanD 5)). assert (Q : 0 <= q) by (apply Rmult_le_pos; [lra|left; apply Rinv_0_lt_compat; lra]).
  destruct (rows_fin q Q) as (n & E & B1 & B2). exists n. split; [exact E|]. assert (EQ : h = q * (p * tanD 5)) by (unfold q; field; lra).
  assert (0 <= (INR n - q) * (p * tanD 5)) by (apply Rmult_le_pos; lra). assert (0 < (q + 1 - INR n) * (p * tanD 5)) by (apply Rmult_lt_0_compat; lra). lra.
Qed.
Print Assumptions C90_rows.
(** an unusable layout (nan, or a zero pitch) gives no number of rows *)
Theorem C90_rows_not_finite : rows_of NaN = Err ValueError /\ rows_of PInf = Err ValueError /\
  forall height, 0 < height -> rows_of (fdiv #height (fmul #0 (tand #5))) = Err ValueError.
Proof.
  split; [reflexivity|]. split; [reflexivity|]. intros h Hh.
  assert (C : cosD 5 <> 0) by (apply Rgt_not_eq, cosD_pos; lra). rewrite tand_fin by exact C. fin. rewrite Rmult_0_l.
  unfold fdiv. rewrite Reqb_t by reflexivity. unfold sinf, Rpos. rdec; try lra; reflexivity.
Qed.
Print Assumptions C90_rows_not_finite.
(** when it fails *)
Theorem C90_haydavies_needs_dni_extra : forall tilt az zenith azimuth gcr height pitch ghi dhi dni albedo iam,
  get_irradiance_poa tilt az zenith azimuth gcr height pitch ghi dhi dni albedo "haydavies" None iam = Err ValueError.
Proof. reflexivity. Qed.
Print Assumptions C90_haydavies_needs_dni_extra.
Theorem C90_succeeds : forall tilt az zenith azimuth gcr height pitch ghi dhi dni albedo model extra iam, 0 < pitch -> 0 <= height ->
  (model <> "haydavies"%string \/ extra <> None) ->
  exists d, get_irradiance_poa tilt az zenith azimuth gcr #height #pitch ghi dhi dni albedo model extra iam = Ok d.
Proof.
  intros t a z s g h p ghi dhi dni alb m x iam Hp Hh Hm. unfold get_irradiance_poa.
  assert (S : exists dd, sheds_sky m dhi dni x z s = Ok dd). { unfold sheds_sky. destruct (String.eqb_spec m "haydavies") as [->|]; [|eexists; reflexivity]. destruct x as [x|]; [eexists; reflexivity|destruct Hm as [Hm|Hm]; exfalso; apply Hm; reflexivity]. }
  destruct S as ((dhi', dni') & ->). cbn [bind]. destruct (C90_rows h p Hp Hh) as (n & -> & _). cbn [bind].
  unfold unshaded_ground_fraction. rewrite !feqb_fin, !Reqb_t by reflexivity. cbn [andb bind]. unfold poa_ground_pv, vf_row_ground_2d_integ. rewrite !feqb_fin, !Reqb_t by reflexivity. cbn [andb bind].
  eexists. reflexivity.
Qed.
Print Assumptions C90_succeeds.
Example C90_nonvacuous : 0 < cosD 40 /\ 0 < sinD 30 /\ 0.01745 <= cosD 60.
Proof.
  split; [apply cosD_pos; lra|]. split; [apply sinD_pos; lra|]. assert (E : cosD 60 = 1 / 2) by (unfold cosD; replace (Rrad 60) with (PI / 3) by (unfold Rrad; field); apply cos_PI3). lra.
Qed.

(** ** C91: front and back together *)
(** the back of a row faces the opposite direction *)
Theorem C91_back_faces_opposite : forall tilt az, exists bt ba, backside #tilt #az = (#bt, #ba) /\ 0 <= ba < 360 /\
  dirvec bt ba = vscale (-1) (dirvec tilt az).
Proof. intros t a. unfold backside. fin. eexists _, _. split; [reflexivity|]. split; [apply Rmodp_spec; lra|apply back_normal]. Qed.
Print Assumptions C91_back_faces_opposite.
Definition side_names (side : string) : list (string * string) :=
  [("poa_global", "poa_" ++ side); ("poa_direct", "poa_" ++ side ++ "_direct"); ("poa_diffuse", "poa_" ++ side ++ "_diffuse");
   ("poa_ground_diffuse", "poa_" ++ side ++ "_ground_diffuse"); ("poa_sky_diffuse", "poa_" ++ side ++ "_sky_diffuse");
   ("shaded_fraction", "shaded_fraction_" ++ side)]%string.
Theorem C91_both_sides : forall tilt az zenith azimuth gcr height pitch ghi dhi dni albedo model extra iam_front iam_back bifaciality shade transmission front back,
  get_irradiance_poa tilt az zenith azimuth gcr height pitch ghi dhi dni albedo model extra iam_front = Ok front ->
  get_irradiance_poa (fsub #180 tilt) (fmod (fadd #180 az) #360) zenith azimuth gcr height pitch ghi dhi dni albedo model extra iam_back = Ok back ->
  exists out pf pb,
    sheds_get_irradiance tilt az zenith azimuth gcr height pitch ghi dhi dni albedo model extra iam_front iam_back bifaciality shade transmission = Ok out /\
    (forall name name', In (name, name') (side_names "front") -> lookup name' out = lookup name front) /\
    (forall name name', In (name, name') (side_names "back") -> lookup name' out = lookup name back) /\
    lookup "poa_global" front = Some pf /\ lookup "poa_global" back = Some pb /\
    lookup "poa_global" out = Some (fadd pf (fmul (fmul pb bifaciality) (fmul (fadd #1 shade) (fadd #1 transmission)))).
Proof.
  intros t a z s g h p ghi dhi dni alb m x i1 i2 bf sh tr front back E1 E2. unfold sheds_get_irradiance, backside. rewrite E1, E2. cbn [bind].
  apply C90_components in E1. apply C90_components in E2.
  destruct E1 as (f1 & f2 & f3 & f4 & f5 & f6 & _ & _ & -> & _). destruct E2 as (b1 & b2 & b3 & b4 & b5 & b6 & _ & _ & -> & _).
  eexists _, f1, b1. split; [reflexivity|]. split; [|split].
  - intros n n' H. cbn in H. repeat (destruct H as [H|H]; [injection H as <- <-; reflexivity|]). destruct H.
  - intros n n' H. cbn in H. repeat (destruct H as [H|H]; [injection H as <- <-; reflexivity|]). destruct H.
  - repeat split.
Qed.
Print Assumptions C91_both_sides.
(** it fails exactly when one side does *)
Theorem C91_fails_with_a_side : forall tilt az zenith azimuth gcr height pitch ghi dhi dni albedo model extra iam_front iam_back bifaciality shade transmission e,
  sheds_get_irradiance tilt az zenith azimuth gcr height pitch ghi dhi dni albedo model extra iam_front iam_back bifaciality shade transmission = Err e <->
  get_irradiance_poa tilt az zenith azimuth gcr height pitch ghi dhi dni albedo model extra iam_front = Err e \/
  (exists d, get_irradiance_poa tilt az zenith azimuth gcr height pitch ghi dhi dni albedo model extra iam_front = Ok d) /\
  get_irradiance_poa (fsub #180 tilt) (fmod (fadd #180 az) #360) zenith azimuth gcr height pitch ghi dhi dni albedo model extra iam_back = Err e.
Proof.
  intros t a z s g h p ghi dhi dni alb m x i1 i2 bf sh tr e.
  destruct (get_irradiance_poa t a z s g h p ghi dhi dni alb m x i1) as [f|e1] eqn:E1.
  - destruct (get_irradiance_poa (fsub #180 t) (fmod (fadd #180 a) #360) z s g h p ghi dhi dni alb m x i2) as [b|e2] eqn:E2.
    + destruct (C91_both_sides t a z s g h p ghi dhi dni alb m x i1 i2 bf sh tr f b E1 E2) as (out & _ & _ & -> & _).
      split; [discriminate|]. intros [H|[_ H]]; discriminate.
    + unfold sheds_get_irradiance, backside. rewrite E1, E2. cbn [bind]. split; [intros H; right; split; [eexists; reflexivity|exact H]|intros [H|[_ H]]; [discriminate|exact H]].
  - unfold sheds_get_irradiance, backside. rewrite E1. cbn [bind]. split; [intros H; left; exact H|intros [H|[[d H] _]]; [exact H|discriminate]].
Qed.
Print Assumptions C91_fails_with_a_side.
(** the sun never shines on both sides *)
Theorem C91_beam_on_one_side : forall tilt az zenith azimuth dni, 0 <= dni -> exists bt ba c,
  backside #tilt #az = (bt, ba) /\ beam_component #tilt #az #zenith #azimuth #dni = #(Rmax (dni * c) 0) /\
  beam_component bt ba #zenith #azimuth #dni = #(Rmax (- (dni * c)) 0) /\
  (beam_component #tilt #az #zenith #azimuth #dni = #0 \/ beam_component bt ba #zenith #azimuth #dni = #0).
Proof.
  intros t a z s dni H. pose proof (back_projection t a z s) as B. destruct (backside #t #a) as [bt ba]. destruct B as (c & B1 & B2). exists bt, ba, c.
  unfold beam_component. rewrite B1, B2. fin. split; [reflexivity|]. split; [reflexivity|]. replace (dni * - c) with (- (dni * c)) by ring. split; [reflexivity|].
  destruct (Rle_dec (dni * c) 0); [left|right]; rewrite Rmax_right by lra; reflexivity.
Qed.
Print Assumptions C91_beam_on_one_side.

(** ** C92: power_mismatch_deline is the polynomial with the constant term first, scaled by the fill factor *)
Definition polynomial_value (coefficients : list R) (x : R) : R := fold_right Rplus 0 (map (fun i => nth i coefficients 0 * x ^ i) (seq 0 (length coefficients))).
Theorem C92_polynomial : forall rmad coefficients reference, power_mismatch_deline #rmad (map Fin coefficients) None reference = #(polynomial_value coefficients rmad).
Proof. intros x c r. apply polynomial_fin. Qed.
Print Assumptions C92_polynomial.
Theorem C92_fill_factor : forall rmad coefficients fill reference, fill <> 0 -> reference <> 0 ->
  power_mismatch_deline #rmad (map Fin coefficients) (Some #fill) #reference = #(fill / reference * polynomial_value coefficients rmad).
Proof.
  intros x c f r Hf Hr. unfold power_mismatch_deline. rewrite feqb_fin, Reqb_f by exact Hf. rewrite map_map.
  rewrite (map_ext _ (fun a => #(a * (f / r)))) by (intros a; fin; f_equal; field; exact Hr).
  rewrite <- (map_map (fun a => a * (f / r)) Fin). rewrite polynomial_fin. f_equal. apply poly_scale.
Qed.
Print Assumptions C92_fill_factor.
(** a fill factor of zero is taken as not given *)
Theorem C92_zero_fill_factor_ignored : forall rmad coefficients reference,
  power_mismatch_deline rmad coefficients (Some #0) reference = power_mismatch_deline rmad coefficients None reference.
Proof. intros x c r. unfold power_mismatch_deline. rewrite feqb_fin, Reqb_t by reflexivity. reflexivity. Qed.
Print Assumptions C92_zero_fill_factor_ignored.
(** a uniform irradiance (zero deviation) loses the constant term, 0 with the published coefficients *)
Theorem C92_uniform : forall c cs reference, power_mismatch_deline #0 (map Fin (c :: cs)) None reference = #c.
Proof. intros c cs r. rewrite C92_polynomial. f_equal. change (polynomial_value (c :: cs) 0) with (poly (c :: cs) 0). rewrite poly_cons. ring. Qed.
Print Assumptions C92_uniform.

(** ** C93: ants2d *)
(** the shaded fraction of a row segment is the shaded length over its length; shade lies at the lower edge (position 0 for positive
    rotations, 1 for negative ones) and is the shadow of the neighbouring row *)
Theorem C93_segment_shade : forall rotation phi gcr x0 x1, 0 < gcr <= 1 -> -90 < phi < 90 -> phi <> 0 -> -180 < rotation < 180 -> rotation <> 0 ->
  cosD (rotation - phi) <> 0 -> 0 <= x0 < x1 -> x1 <= 1 ->
  exists f v, 0 <= f <= 1 /\ ants_shaded_fraction #rotation #phi #gcr #x0 #x1 = #v /\
    (0 < rotation -> v = common 0 f x0 x1 / (x1 - x0)) /\ (rotation < 0 -> v = common (1 - f) 1 x0 x1 / (x1 - x0)) /\
    forall x, 0 <= x <= 1 ->
      let depth := if Rlt_dec rotation 0 then 1 - x else x in
      let point := on_row (0, 0) rotation 0 1 (1 / 2 - x) in
      let neighbour := neighbour_axis (side_of phi) (1 / gcr) 0 in
      (depth < f -> in_shadow phi point neighbour rotation 0 1) /\ (0 < x < 1 -> f < depth -> ~ in_shadow phi point neighbour rotation 0 1).
Proof.
  intros th ph g x0 x1 Hg Hp Np Ht Nt Nc H0 H1.
  assert (G : 1 <= 1 / g) by (apply Rmult_le_reg_r with g; [lra|]; replace (1 / g * g) with 1 by (field; lra); lra).
  destruct (shade_points th ph g Hg Hp Np Ht Nt Nc) as (f & E & P).
  assert (R : 0 <= f <= 1). { pose proof (shaded_fraction_within #ph #90 #0 #th #1 (fdiv #1 #g) #0 #0 #0 None) as W. rewrite E in W. apply within_fin in W. exact W. }
  eexists f, _. split; [exact R|]. split; [apply (ants_fin th #ph #g x0 x1 f E H0 H1)|]. split; [|split].
  - intros T. destruct Rlt_dec; [lra|reflexivity].
  - intros T. destruct Rlt_dec; [|lra]. f_equal. unfold common. rewrite (Rmax_right 0 (1 - x1)) by lra. rewrite (Rmin_right 1 x1) by lra. unfold Rmax, Rmin. repeat destruct Rle_dec; lra.
  - intros x Hx. cbv zeta. exact (P x Hx).
Qed.
Print Assumptions C93_segment_shade.
(** equal segments average to the shaded fraction of the whole row *)
Theorem C93_segments_average : forall rotation phi gcr f n, shaded_fraction1d phi #90 #0 #rotation #1 (fdiv #1 gcr) #0 #0 #0 None = #f -> (0 < n)%nat ->
  fsum (map (fun s => ants_shaded_fraction #rotation phi gcr (fst s) (snd s)) (segment_list (Count n))) = #(INR n * f).
Proof. exact ants_average. Qed.
Print Assumptions C93_segments_average.
(** moving circumsolar irradiance from diffuse to beam keeps the irradiance of the ground *)
Theorem C93_haydavies_conserves : forall f dni dhi extra airmass zenith azimuth, 0 <= dhi -> 0 <= dni -> 0 < extra -> 0.01745 <= cosD zenith ->
  exists dni' dhi', apply_sky_diffuse_model f #dni #dhi "haydavies" #zenith #azimuth (Some #extra) airmass = Ok (#dni', #dhi') /\
    on_horizontal dni' dhi' zenith = on_horizontal dni dhi zenith /\ dni <= dni'.
Proof.
  intros F dni dhi x am z s Hd Hn Hx Hz. destruct (hd_moves dhi dni x z s Hd Hn Hx Hz) as [E1 E2].
  unfold apply_sky_diffuse_model. cbn [mem existsb String.eqb Ascii.eqb Bool.eqb orb bind]. rewrite E1, E2. fin. eexists _, _. split; [reflexivity|]. unfold on_horizontal.
  assert (0 <= dni / x) by (apply Rmult_le_pos; [lra|left; apply Rinv_0_lt_compat; lra]). assert (0 <= dhi * (dni / x)) by (apply Rmult_le_pos; lra).
  assert (0 <= dhi * (dni / x) / cosD z) by (apply Rmult_le_pos; [lra|left; apply Rinv_0_lt_compat; lra]). split; [field; lra|lra].
Qed.
Print Assumptions C93_haydavies_conserves.
(** perez-driesse: up to 85 degrees of zenith *)
Theorem C93_perez_driesse_conserves : forall f dni dhi extra airmass zenith azimuth, 0 <= zenith <= 85 -> 0 < dhi -> extra <> 0 -> airmass <> 0 ->
  (forall i j x, exists r, f i j x = #r) ->
  exists dni' dhi', apply_sky_diffuse_model f #dni #dhi "perez-driesse" #zenith #azimuth (Some #extra) (Some #airmass) = Ok (#dni', #dhi') /\
    on_horizontal dni' dhi' zenith = on_horizontal dni dhi zenith /\ dni <= dni'.
Proof.
  intros F dni dhi x am z s Hz Hd Hx Ham HF.
  unfold apply_sky_diffuse_model. cbn [mem existsb String.eqb Ascii.eqb Bool.eqb orb bind].
  assert (D : exists d, calc_delta #dhi #x #z (Some #am) = #d).
  { unfold calc_delta. rewrite fgeb_fin, Rleb_f by lra. cbn [where_]. rewrite fdiv_fin by exact Ham. rewrite fdiv_fin; [eexists; reflexivity|]. apply Rmult_integral_contrapositive_currified; [exact Hx|apply Rinv_neq_0_compat, Ham]. }
  destruct D as (d & D). assert (P85 : 0 < cosD 85) by apply cos85. assert (Z85 : cosD 85 <= cosD z) by (apply cosD_decr; lra).
  assert (Q : exists F1 F2, 0 <= F1 /\ forall t a, perez_driesse F #t #a #dhi #dni #x #z #s (Some #am) =
    let '(t1, t2, t3) := perez_terms #t #a #z #s #F1 #F2 in
    {| sky_total := fmax (fmul #dhi (fadd (fadd t1 t2) t3)) #0; sky_iso := Some (fmul #dhi t1); sky_circ := Some (fmul #dhi t2); sky_horiz := Some (fmul #dhi t3) |}).
  { unfold perez_driesse. rewrite D. set (zeta := calc_zeta #dhi #dni #z).
    destruct (HF 1%nat 1%nat zeta) as (a1 & ->). destruct (HF 1%nat 2%nat zeta) as (a2 & ->). destruct (HF 1%nat 3%nat zeta) as (a3 & ->).
    destruct (HF 2%nat 1%nat zeta) as (b1 & ->). destruct (HF 2%nat 2%nat zeta) as (b2 & ->). destruct (HF 2%nat 3%nat zeta) as (b3 & ->).
    fin. eexists _, _. split; [|intros t a; reflexivity]. unfold Rmax, Rmin. repeat destruct Rle_dec; lra. }
  destruct Q as (F1 & F2 & P1 & Q). rewrite !Q, perez_terms_horizontal by exact Hz. destruct (perez_terms_normal z s F1 F2 Z85 P85) as (t1 & t3 & ->).
  cbn [circ sky_circ]. fin. eexists _, _. split; [reflexivity|]. unfold on_horizontal. split; [field; lra|].
  assert (0 <= dhi * (F1 / cosD z)) by (apply Rmult_le_pos; [lra|apply Rmult_le_pos; [lra|left; apply Rinv_0_lt_compat; lra]]). lra.
Qed.
Print Assumptions C93_perez_driesse_conserves.
(** perez: up to 85 degrees, as long as the sky diffuse irradiance facing the sun is positive *)
Theorem C93_perez_conserves : forall f dni dhi extra airmass zenith azimuth k, 0 <= zenith <= 85 -> 0 < dhi -> 0 <= dni -> extra <> 0 ->
  perez "allsitescomposite1990" #zenith #azimuth #dhi #dni #extra #zenith #azimuth #airmass = Ok k -> sky_total k <> #0 ->
  exists dni' dhi', apply_sky_diffuse_model f #dni #dhi "perez" #zenith #azimuth (Some #extra) (Some #airmass) = Ok (#dni', #dhi') /\
    on_horizontal dni' dhi' zenith = on_horizontal dni dhi zenith /\ dni <= dni'.
Proof.
  intros F dni dhi x am z s k Hz Hd Hn Hx EK TK. assert (P85 : 0 < cosD 85) by apply cos85. assert (Z85 : cosD 85 <= cosD z) by (apply cosD_decr; lra).
  unfold apply_sky_diffuse_model. cbn [mem existsb String.eqb Ascii.eqb Bool.eqb orb bind]. rewrite EK. unfold perez in EK |- *.
  destruct (getitem perez_coeffdict "allsitescomposite1990") as [table|e] eqn:ET; [|discriminate EK]. cbn [bind] in EK |- *.
  assert (HL := perez_tables_shape _ _ ET). destruct (perez_eps_ge1 dhi dni z Hd Hn ltac:(lra)) as (e & Ee & Le).
  destruct (perez_row_total e ltac:(lra)) as (n & Hn8 & Hr). apply perez_ebin_fin in Hr.
  destruct (perez_F_fin table dhi dni x z am n HL Hx ltac:(rewrite Ee; exact Hr) Hn8) as (F1 & F2 & EF & P1).
  assert (EK' : k = perez_with table #z #s #dhi #dni #x #z #s #am) by congruence. rewrite EK' in TK |- *. clear EK EK'.
  unfold perez_with in TK |- *. rewrite EF in TK |- *. rewrite perez_terms_horizontal by exact Hz. destruct (perez_terms_normal z s F1 F2 Z85 P85) as (t1 & t3 & E3). rewrite E3 in TK |- *.
  cbn [isnan where_ sky_total sky_circ circ] in TK |- *. 
  fin. rewrite (Reqb_f (Rmax (dhi * (1 - F1 + F1 + 0)) 0) 0) by (rewrite Rmax_left; [|]; replace (dhi * (1 - F1 + F1 + 0)) with dhi by ring; lra).
  repeat rewrite ?fmul_fin, ?fadd_fin, ?fmax_fin, ?feqb_fin in TK.
  destruct (Reqb_spec (Rmax (dhi * (t1 + F1 / cosD z + t3)) 0) 0) as [K|K]; [exfalso; apply TK; reflexivity|]. cbn [where_]. fin.
  eexists _, _. split; [reflexivity|]. unfold on_horizontal. split; [field; lra|].
  assert (0 <= dhi * (F1 / cosD z)) by (apply Rmult_le_pos; [lra|apply Rmult_le_pos; [lra|left; apply Rinv_0_lt_compat; lra]]). lra.
Qed.
Print Assumptions C93_perez_conserves.
Theorem C93_isotropic_unchanged : forall f dni dhi z s extra airmass, apply_sky_diffuse_model f dni dhi "isotropic" z s extra airmass = Ok (dni, dhi).
Proof. reflexivity. Qed.
Print Assumptions C93_isotropic_unchanged.
Theorem C93_sky_model_errors : forall f dni dhi model z s extra airmass e, apply_sky_diffuse_model f dni dhi model z s extra airmass = Err e <->
  e = ValueError /\ (~ In model ["isotropic"; "haydavies"; "perez"; "perez-driesse"]%string \/
    (In model ["haydavies"; "perez"; "perez-driesse"]%string /\ extra = None) \/ (In model ["perez"; "perez-driesse"]%string /\ airmass = None)).
Proof.
  intros F dni dhi m z s x am e. unfold apply_sky_diffuse_model.
  destruct (String.eqb_spec m "haydavies") as [->|N1]; [|destruct (String.eqb_spec m "perez") as [->|N2]; [|destruct (String.eqb_spec m "perez-driesse") as [->|N3]; [|destruct (String.eqb_spec m "isotropic") as [->|N4]]]].
  - cbn [mem existsb String.eqb Ascii.eqb Bool.eqb orb]. destruct x; cbn [bind].
    + split; [discriminate|]. intros [_ [H|[[_ H]|[H _]]]]; [exfalso; apply H; cbn; tauto|discriminate|cbn in H; intuition discriminate].
    + split; [intros H; injection H as <-; split; [reflexivity|right; left; cbn; tauto]|intros [-> _]; reflexivity].
  - cbn [mem existsb String.eqb Ascii.eqb Bool.eqb orb]. unfold perez. destruct (getitem perez_coeffdict "allsitescomposite1990") as [table|e0] eqn:ET; [|discriminate ET].
    destruct x, am; cbn [bind];
      (split; [first [discriminate|intros H; injection H as <-; split; [reflexivity|cbn; tauto]]|
               intros [-> [H|[[_ H]|[_ H]]]]; first [reflexivity|discriminate|exfalso; apply H; cbn; tauto]]).
  - cbn [mem existsb String.eqb Ascii.eqb Bool.eqb orb]. destruct x, am; cbn [bind];
      (split; [first [discriminate|intros H; injection H as <-; split; [reflexivity|cbn; tauto]]|
               intros [-> [H|[[_ H]|[_ H]]]]; first [reflexivity|discriminate|exfalso; apply H; cbn; tauto]]).
  - cbn. split; [discriminate|]. intros [_ [H|[[H _]|[H _]]]]; [exfalso; apply H; cbn; tauto|cbn in H; intuition discriminate|cbn in H; intuition discriminate].
  - unfold mem. cbn [existsb]. rewrite (proj2 (String.eqb_neq _ _) N1), (proj2 (String.eqb_neq _ _) N2), (proj2 (String.eqb_neq _ _) N3). cbn [orb].
    split; [intros H; injection H as <-; split; [reflexivity|left; cbn; intuition congruence]|intros [-> _]; reflexivity].
Qed.
Print Assumptions C93_sky_model_errors.
(** sloped ground: geometry in the plane perpendicular to the axis, and the irradiance of the sloped ground *)
Theorem C93_ground_slope : forall height pitch gcr rotation dni dhi zenith azimuth axis_tilt axis_azimuth slope, cosD slope <> 0 -> exists w (k : Z),
  apply_ground_slope #height #pitch #gcr #rotation #dni #dhi #zenith #azimuth #axis_tilt #axis_azimuth #slope =
  (#(height * up (collector_normal axis_tilt axis_azimuth slope)), #(pitch / cosD slope), #(gcr * cosD slope), #w,
   #(dhi + dni * Rmax (dot (collector_normal axis_tilt axis_azimuth slope) (dirvec zenith azimuth)) 0)) /\
  -180 <= w < 180 /\ rotation - slope = w + 360 * IZR k.
Proof. exact slope_fin. Qed.
Print Assumptions C93_ground_slope.
(** per row segment: global = direct + ground + sky; beam only on the side facing the sun *)
Theorem C93_segment_components : forall rotation cos_aoi phi gcr height pitch dni dhi ground x0 x1 rows,
  let r := ants_singleside rotation cos_aoi phi gcr height pitch dni dhi ground x0 x1 rows in
  sd_global r = fadd (sd_direct r) (sd_diffuse r) /\ sd_diffuse r = fadd (sd_ground r) (sd_sky r) /\
  sd_shaded r = ants_shaded_fraction rotation phi gcr x0 x1 /\ sd_direct r = fmul (fmul dni (fmax cos_aoi #0)) (fsub #1 (sd_shaded r)) /\
  sd_sky r = fmul (vf_row_sky_2d_integ rotation gcr x0 x1) dhi /\
  sd_ground r = fsum (map (fun '(g0, g1, irr, albedo) => fmul (fmul (vf_row_ground_segments rotation gcr height pitch x0 x1 rows g0 g1) albedo) irr) ground).
Proof. intros. repeat split. Qed.
Print Assumptions C93_segment_components.
Example C93_nonvacuous : 0 < 0.4 <= 1 /\ cosD (30 - 60) <> 0 /\ 0.01745 <= cosD 60.
Proof.
  split; [lra|]. split; [apply Rgt_not_eq, cosD_pos; lra|]. assert (E : cosD 60 = 1 / 2) by (unfold cosD; replace (Rrad 60) with (PI / 3) by (unfold Rrad; field); apply cos_PI3). lra.
Qed.
