(** Properties C01-C08 and C55: angle of incidence, transposition, plane-of-array sums.
    Models: pvlib/irradiance.py, see Model/Irradiance.v. *)
From Verif Require Import Spec.DocTables Base.Fl Base.FlFacts Base.Py Spec.Geometry Model.IrradTables Model.Atmosphere
  Model.Irradiance Proofs.IrradGeom Proofs.IrradSky Proofs.IrradDispatch.
Open Scope R_scope.

(** C01 *)
Theorem C01_aoi_projection_is_dot_product :
  forall tilt az zen saz : R,
    aoi_projection #tilt #az #zen #saz = #(dot (dirvec tilt az) (dirvec zen saz)).
Proof. exact aoi_projection_fin. Qed.
Print Assumptions C01_aoi_projection_is_dot_product.

Theorem C01_aoi_projection_range :
  forall tilt az zen saz : fl, within #(-1) #1 (aoi_projection tilt az zen saz).
Proof. exact aoi_projection_within. Qed.
Print Assumptions C01_aoi_projection_range.

Theorem C01_aoi_projection_nan :
  forall tilt az zen saz : fl,
    aoi_projection tilt az zen saz = NaN <->
    isfinite tilt && isfinite az && isfinite zen && isfinite saz = false.
Proof. exact aoi_projection_nan. Qed.
Print Assumptions C01_aoi_projection_nan.

(* non-vacuity: a vertical south-facing plane with the sun due south on the horizon *)
Example C01_example : aoi_projection #90 #180 #90 #180 = #1.
Proof.
  rewrite aoi_projection_fin, dot_dirvec, cosD_90, sinD_90.
  replace (180 - 180) with 0 by lra. rewrite cosD_0. f_equal. lra.
Qed.

(** C02 *)
Theorem C02_aoi_is_angle :
  forall tilt az zen saz : R, exists th,
    aoi #tilt #az #zen #saz = #th /\ 0 <= th <= 180 /\
    cosD th = dot (dirvec tilt az) (dirvec zen saz) /\
    aoi_projection #tilt #az #zen #saz = #(cosD th) /\
    (forall th', 0 <= th' <= 180 -> cosD th' = dot (dirvec tilt az) (dirvec zen saz) -> th' = th).
Proof. exact aoi_is_angle. Qed.
Print Assumptions C02_aoi_is_angle.

Theorem C02_aoi_invariance :
  forall tilt az zen saz d : R,
    aoi #tilt #(az + 360) #zen #saz = aoi #tilt #az #zen #saz /\
    aoi #tilt #az #zen #(saz + 360) = aoi #tilt #az #zen #saz /\
    aoi #tilt #(az + d) #zen #(saz + d) = aoi #tilt #az #zen #saz.
Proof.
  exact (fun t a z s d => conj (proj1 (aoi_azimuth_period t a z s))
          (conj (proj2 (aoi_azimuth_period t a z s)) (aoi_azimuth_rotation t a z s d))).
Qed.
Print Assumptions C02_aoi_invariance.

Theorem C02_aoi_nan :
  forall tilt az zen saz : fl,
    aoi tilt az zen saz = NaN <->
    isfinite tilt && isfinite az && isfinite zen && isfinite saz = false.
Proof. exact aoi_nan. Qed.
Print Assumptions C02_aoi_nan.

Example C02_example : aoi #0 #180 #30 #77 = #30.
Proof. apply aoi_unique; [lra|]. rewrite dot_horizontal. reflexivity. Qed.

(** C03 *)
Theorem C03_poa_accounting :
  forall f tilt az zen saz dni ghi dhi dni_extra airmass albedo surface_type model model_perez comps p,
    get_total_irradiance f tilt az zen saz dni ghi dhi dni_extra airmass albedo surface_type
      model model_perez comps = Ok p ->
    exists sk g,
      get_sky_diffuse f tilt az zen saz dni ghi dhi dni_extra airmass model model_perez comps = Ok sk /\
      get_ground_diffuse tilt ghi albedo surface_type = Ok g /\
      poa_global p = fadd (poa_direct p) (poa_diffuse p) /\
      poa_diffuse p = fadd (poa_sky_diffuse p) (poa_ground_diffuse p) /\
      poa_sky_diffuse p = sky_total sk /\
      poa_ground_diffuse p = g /\
      poa_direct p = beam_component tilt az zen saz dni.
Proof. exact get_total_irradiance_ok. Qed.
Print Assumptions C03_poa_accounting.

(** the direct component is DNI times the cosine of incidence, cut off at zero behind the plane *)
Theorem C03_beam_component :
  forall tilt az zen saz : R, forall dni,
    beam_component #tilt #az #zen #saz #dni = #(Rmax (dni * dot (dirvec tilt az) (dirvec zen saz)) 0).
Proof. exact beam_component_fin. Qed.
Print Assumptions C03_beam_component.

Theorem C03_direct_nonneg :
  forall tilt az zen saz dni : fl, atleast #0 (beam_component tilt az zen saz dni).
Proof. exact beam_component_nonneg. Qed.
Print Assumptions C03_direct_nonneg.

Example C03_example : exists p,
  get_total_irradiance (fun _ _ _ => NaN) #0 #180 #0 #180 #800 #900 #100 None None #0.25 None
    "isotropic" "allsitescomposite1990" false = Ok p /\ poa_global p = #900.
Proof.
  unfold get_total_irradiance. cbn -[poa_components isotropic ground_diffuse aoi].
  eexists; split; [reflexivity|]. unfold poa_components. cbn [poa_global].
  rewrite cos_aoi, aoi_projection_horizontal, ground_horizontal, isotropic_horizontal, cosD_0.
  fin. rewrite Rmax_left by lra. f_equal. lra.
Qed.

(** C04 *)
Theorem C04_horizontal_isotropic : forall dhi, sky_total (isotropic #0 #dhi) = #dhi.
Proof. exact isotropic_horizontal. Qed.
Print Assumptions C04_horizontal_isotropic.

Theorem C04_horizontal_king :
  forall dhi ghi zen, 0 <= dhi -> sky_total (king #0 #dhi #ghi #zen) = #dhi.
Proof. exact king_horizontal. Qed.
Print Assumptions C04_horizontal_king.

Theorem C04_horizontal_haydavies :
  forall az dhi dni dni_extra zen saz,
    0 <= dhi -> 0 <= dni <= dni_extra -> 0 < dni_extra -> 0.01745 <= cosD zen ->
    sky_total (haydavies #0 #az #dhi #dni #dni_extra #zen #saz None) = #dhi.
Proof. exact haydavies_horizontal. Qed.
Print Assumptions C04_horizontal_haydavies.

Theorem C04_horizontal_reindl :
  forall az dhi dni ghi dni_extra zen saz,
    0 <= ghi -> 0 < dni_extra -> 0.01745 <= cosD zen ->
    sky_total (reindl #0 #az #dhi #dni #ghi #dni_extra #zen #saz) = #dhi.
Proof. exact reindl_horizontal. Qed.
Print Assumptions C04_horizontal_reindl.

Theorem C04_horizontal_perez :
  forall model az dhi dni dni_extra zen saz airmass sk,
    0 <= dhi -> 0 <= dni -> 0 < dhi + dni -> dni_extra <> 0 -> 0 <= zen <= 85 ->
    perez model #0 #az #dhi #dni #dni_extra #zen #saz #airmass = Ok sk -> sky_total sk = #dhi.
Proof. exact perez_horizontal. Qed.
Print Assumptions C04_horizontal_perez.

(** for every spline [f] that gives finite circumsolar and horizon coefficients *)
Theorem C04_horizontal_perez_driesse :
  forall f az dhi dni dni_extra zen saz airmass F1 F2,
    0 <= dhi -> 0 <= zen <= 85 ->
    (let zeta := calc_zeta #dhi #dni #zen in
     let delta := calc_delta #dhi #dni_extra #zen airmass in
     fadd (fadd (f 1%nat 1%nat zeta) (fmul (f 1%nat 2%nat zeta) delta))
          (fmul (f 1%nat 3%nat zeta) (fradians #zen)) = #F1 /\
     fadd (fadd (f 2%nat 1%nat zeta) (fmul (f 2%nat 2%nat zeta) delta))
          (fmul (f 2%nat 3%nat zeta) (fradians #zen)) = #F2) ->
    sky_total (perez_driesse f #0 #az #dhi #dni #dni_extra #zen #saz airmass) = #dhi.
Proof. exact perez_driesse_horizontal. Qed.
Print Assumptions C04_horizontal_perez_driesse.

Theorem C04_horizontal_ground : forall ghi albedo, ground_diffuse #0 #ghi #albedo = #0.
Proof. exact ground_horizontal. Qed.
Print Assumptions C04_horizontal_ground.

(** Klucher's model is the exception: under any partly clear sky it exceeds DHI on a horizontal plane. *)
Theorem C04_horizontal_klucher_refuted :
  forall az dhi ghi zen saz v, 0 < dhi < ghi -> 0 < zen < 90 ->
    sky_total (klucher #0 #az #dhi #ghi #zen #saz) = #v -> dhi < v.
Proof. exact klucher_horizontal_gt. Qed.
Print Assumptions C04_horizontal_klucher_refuted.

Example C04_example : exists sk,
  perez "phoenix1988" #0 #180 #100 #800 #1366 #30 #170 #1.15 = Ok sk /\ sky_total sk = #100.
Proof.
  eexists; split; [reflexivity|].
  eapply (perez_horizontal "phoenix1988" 180 100 800 1366 30 170 1.15); try lra. reflexivity.
Qed.
Example C04_example_hypotheses : 0.01745 <= cosD 60.
Proof. unfold cosD. replace (Rrad 60) with (PI/3) by (unfold Rrad; field). rewrite cos_PI3. lra. Qed.

(** C05 *)
Theorem C05_isotropic_components :
  forall tilt dhi, sky_iso (isotropic tilt dhi) = Some (sky_total (isotropic tilt dhi)) /\
                   sky_circ (isotropic tilt dhi) = None /\ sky_horiz (isotropic tilt dhi) = None.
Proof. exact (fun _ _ => conj eq_refl (conj eq_refl eq_refl)). Qed.
Print Assumptions C05_isotropic_components.

Theorem C05_haydavies_components :
  forall tilt az dhi dni dni_extra zen saz pr,
    let k := haydavies tilt az dhi dni dni_extra zen saz pr in
    exists i c, sky_iso k = Some i /\ sky_circ k = Some c /\ sky_horiz k = None /\
                sky_total k = fadd i c /\ atleast #0 i /\ atleast #0 c.
Proof. exact haydavies_sum. Qed.
Print Assumptions C05_haydavies_components.

Theorem C05_reindl_components :
  forall tilt az dhi dni ghi dni_extra zen saz total,
    sky_total (reindl #tilt #az #dhi #dni #ghi #dni_extra #zen #saz) = #total ->
    let k := reindl #tilt #az #dhi #dni #ghi #dni_extra #zen #saz in
    exists i c h, sky_iso k = Some #i /\ sky_circ k = Some #c /\ sky_horiz k = Some #h /\ total = i + c + h.
Proof. exact reindl_sum. Qed.
Print Assumptions C05_reindl_components.

Theorem C05_perez_components :
  forall table tilt az dhi dni dni_extra zen saz airmass total,
    sky_total (perez_with table tilt az #dhi dni dni_extra zen saz airmass) = #total ->
    let k := perez_with table tilt az #dhi dni dni_extra zen saz airmass in
    0 <= total /\
    exists i c h, sky_iso k = Some #i /\ sky_circ k = Some #c /\ sky_horiz k = Some #h /\
      (0 < total -> total = i + c + h) /\ (total = 0 -> i = 0 /\ c = 0 /\ h = 0).
Proof. exact perez_with_sum. Qed.
Print Assumptions C05_perez_components.

Theorem C05_perez_driesse_components :
  forall f tilt az dhi dni dni_extra zen saz airmass total,
    sky_total (perez_driesse f tilt az #dhi dni dni_extra zen saz airmass) = #total -> 0 < total ->
    let k := perez_driesse f tilt az #dhi dni dni_extra zen saz airmass in
    exists i c h, sky_iso k = Some #i /\ sky_circ k = Some #c /\ sky_horiz k = Some #h /\ total = i + c + h.
Proof. exact perez_driesse_sum. Qed.
Print Assumptions C05_perez_driesse_components.

Example C05_example : exists total, sky_total (reindl #0 #180 #100 #500 #600 #1366 #0 #180) = #total /\ 0 < total.
Proof. exists 100. split; [apply reindl_horizontal; rewrite ?cosD_0; lra|lra]. Qed.

(** C06 *)
Theorem C06_haydavies_nonneg :
  forall tilt az dhi dni dni_extra zen saz pr,
    atleast #0 (sky_total (haydavies tilt az dhi dni dni_extra zen saz pr)).
Proof. exact haydavies_nonneg. Qed.
Print Assumptions C06_haydavies_nonneg.
Theorem C06_king_nonneg :
  forall tilt dhi ghi zen, atleast #0 (sky_total (king tilt dhi ghi zen)).
Proof. exact king_nonneg. Qed.
Print Assumptions C06_king_nonneg.
Theorem C06_perez_nonneg :
  forall model tilt az dhi dni dni_extra zen saz airmass sk,
    perez model tilt az dhi dni dni_extra zen saz airmass = Ok sk -> atleast #0 (sky_total sk).
Proof. exact perez_nonneg. Qed.
Print Assumptions C06_perez_nonneg.
Theorem C06_perez_driesse_nonneg :
  forall f tilt az dhi dni dni_extra zen saz airmass,
    atleast #0 (sky_total (perez_driesse f tilt az dhi dni dni_extra zen saz airmass)).
Proof. exact perez_driesse_nonneg. Qed.
Print Assumptions C06_perez_driesse_nonneg.
(** isotropic: DHI times the sky view factor (1+cos tilt)/2, hence between 0 and DHI *)
Theorem C06_isotropic_value :
  forall tilt dhi, sky_total (isotropic #tilt #dhi) = #(dhi * (1 + cosD tilt) / 2).
Proof. exact isotropic_is. Qed.
Print Assumptions C06_isotropic_value.
Theorem C06_isotropic_range :
  forall tilt dhi v, 0 <= dhi -> sky_total (isotropic #tilt #dhi) = #v -> 0 <= v <= dhi.
Proof. exact isotropic_range. Qed.
Print Assumptions C06_isotropic_range.
(** Klucher: at least the isotropic value *)
Theorem C06_klucher_ge_isotropic :
  forall tilt az dhi ghi zen saz v,
    0 <= tilt <= 180 -> 0 <= zen <= 180 -> 0 <= dhi <= ghi ->
    sky_total (klucher #tilt #az #dhi #ghi #zen #saz) = #v ->
    0 <= dhi * (1 + cosD tilt) / 2 <= v.
Proof. exact klucher_ge_isotropic. Qed.
Print Assumptions C06_klucher_ge_isotropic.
Theorem C06_reindl_nonneg :
  forall tilt az dhi dni ghi dni_extra zen saz,
    0 <= tilt <= 180 -> 0 <= dhi -> 0 <= ghi -> 0 <= dni <= dni_extra -> 0 < dni_extra ->
    exists v, sky_total (reindl #tilt #az #dhi #dni #ghi #dni_extra #zen #saz) = #v /\ 0 <= v.
Proof. exact reindl_nonneg. Qed.
Print Assumptions C06_reindl_nonneg.
Example C06_example : exists v, sky_total (klucher #30 #180 #100 #600 #40 #180) = #v /\
   0 <= 30 <= 180 /\ 0 <= 40 <= 180 /\ 0 <= 100 <= 600.
Proof. eexists. split; [apply klucher_fin; lra|lra]. Qed.

(** C07 *)
Theorem C07_ground_diffuse_value :
  forall tilt ghi albedo, ground_diffuse #tilt #ghi #albedo = #(ghi * albedo * ((1 - cosD tilt) / 2)).
Proof. exact ground_diffuse_fin. Qed.
Print Assumptions C07_ground_diffuse_value.
(** the view factor: range, end points, monotone in tilt, complement of the isotropic sky factor *)
Theorem C07_view_factor :
  (forall tilt, 0 <= (1 - cosD tilt) / 2 <= 1) /\
  ground_diffuse #0 #1 #1 = #0 /\ ground_diffuse #180 #1 #1 = #1 /\
  (forall t1 t2 v1 v2, 0 <= t1 -> t1 <= t2 -> t2 <= 180 ->
     ground_diffuse #t1 #1 #1 = #v1 -> ground_diffuse #t2 #1 #1 = #v2 -> v1 <= v2) /\
  (forall tilt, fadd (ground_diffuse #tilt #1 #1) (sky_total (isotropic #tilt #1)) = #1).
Proof. exact ground_view_factor. Qed.
Print Assumptions C07_view_factor.
Theorem C07_surface_type :
  forall tilt ghi albedo st,
    get_ground_diffuse tilt ghi albedo None = Ok (ground_diffuse tilt ghi albedo) /\
    (forall a, In (st, a) SURFACE_ALBEDOS ->
       get_ground_diffuse tilt ghi albedo (Some st) = Ok (ground_diffuse tilt ghi a)) /\
    (~ In st (map fst SURFACE_ALBEDOS) -> get_ground_diffuse tilt ghi albedo (Some st) = Err KeyError).
Proof. exact get_ground_diffuse_spec. Qed.
Print Assumptions C07_surface_type.
(** the named surfaces have the published albedos, and no other name is accepted *)
Theorem C07_named_surfaces : forall tilt ghi albedo s,
  (forall x, albedo_percent s x -> get_ground_diffuse tilt ghi albedo (Some s) = Ok (ground_diffuse tilt ghi #(x / 100))) /\
  ((forall x, ~ albedo_percent s x) -> get_ground_diffuse tilt ghi albedo (Some s) = Err KeyError).
Proof.
  intros tilt ghi albedo s. split.
  - intros x H. assert (L : getitem SURFACE_ALBEDOS s = Ok #(x / 100)).
    { unfold getitem. destruct H; subst s; cbn [SURFACE_ALBEDOS lookup String.eqb Ascii.eqb Bool.eqb]; f_equal; f_equal; lra. }
    unfold get_ground_diffuse. rewrite L. reflexivity.
  - intros H. assert (L : lookup s SURFACE_ALBEDOS = None); [|unfold get_ground_diffuse, getitem; rewrite L; reflexivity].
    destruct (lookup s SURFACE_ALBEDOS) as [x|] eqn:E; [|reflexivity]. exfalso. apply lookup_In in E.
    unfold SURFACE_ALBEDOS in E. cbn [In] in E.
    repeat (destruct E as [E|E]; [injection E as <- _; eapply H; constructor; reflexivity|]). exact E.
Qed.
Print Assumptions C07_named_surfaces.
Theorem C07_albedo_table :
  forall st a, getitem SURFACE_ALBEDOS st = Ok a -> exists r, a = #r /\ 0 < r < 1.
Proof. exact albedos_range. Qed.
Print Assumptions C07_albedo_table.
Example C07_example : get_ground_diffuse #90 #1000 #0.25 (Some "snow"%string) = Ok #325.
Proof.
  rewrite (proj1 (proj2 (get_ground_diffuse_spec _ _ _ _)) #0.65) by (simpl; auto 10).
  rewrite ground_diffuse_fin, cosD_90. do 2 f_equal. lra.
Qed.

(** C08: [perez_row_spec e n] is the published clearness interval of row n (0-based) *)
Theorem C08_bins :
  (forall e n, perez_ebin #e = Some n <-> perez_row_spec e n) /\
  (forall e, 0 <= e -> exists n, (n < 8)%nat /\ perez_row_spec e n) /\
  (forall e n m, perez_row_spec e n -> perez_row_spec e m -> n = m) /\
  (forall e, e < 0 -> perez_ebin #e = None) /\
  perez_ebin NaN = None /\ perez_ebin NInf = None /\ perez_ebin PInf = Some 7%nat.
Proof.
  exact (conj perez_ebin_fin (conj perez_row_total (conj perez_row_unique
          (conj perez_ebin_neg perez_ebin_special)))).
Qed.
Print Assumptions C08_bins.
Theorem C08_tables_have_8_rows :
  forall name table, getitem perez_coeffdict name = Ok table -> length table = 8%nat.
Proof. exact perez_tables_shape. Qed.
Print Assumptions C08_tables_have_8_rows.

(** airmass nan (sun below the horizon): all outputs 0; no row selected: nan *)
Theorem C08_night :
  forall table tilt az dhi dni dni_extra zen saz,
    sky_total (perez_with table tilt az dhi dni dni_extra zen saz NaN) = #0.
Proof. exact perez_with_night. Qed.
Print Assumptions C08_night.
Theorem C08_no_row :
  forall table tilt az dhi dni dni_extra zen saz airmass,
    perez_ebin (perez_eps dhi dni zen) = None -> isnan airmass = false ->
    sky_total (perez_with table tilt az dhi dni dni_extra zen saz airmass) = NaN.
Proof. exact perez_with_no_row. Qed.
Print Assumptions C08_no_row.
(** the selected row provides F1 (floored at 0) and F2 as affine functions of brightness and zenith *)
Theorem C08_row_used :
  forall table dhi dni dni_extra zen airmass n e f11 f12 f13 f21 f22 f23,
    dni_extra <> 0 -> perez_eps #dhi #dni #zen = #e -> perez_row_spec e n ->
    nth_error table n = Some (f11, f12, f13, f21, f22, f23) ->
    let delta := dhi * airmass / dni_extra in
    perez_F table #dhi #dni #dni_extra #zen #airmass =
      (#(Rmax (f11 + f12 * delta + f13 * Rrad zen) 0), #(f21 + f22 * delta + f23 * Rrad zen)).
Proof. exact perez_F_row. Qed.
Print Assumptions C08_row_used.
(** clearness: epsilon = ((dhi + dni)/dhi + 1.041 z^3)/(1 + 1.041 z^3), z in radians *)
Theorem C08_clearness :
  forall dhi dni zen, 0 < dhi -> 0 <= zen ->
    perez_eps #dhi #dni #zen
    = #(((dhi + dni) / dhi + 1.041 * Rrad zen ^ 3) / (1 + 1.041 * Rrad zen ^ 3)).
Proof. exact perez_eps_fin. Qed.
Print Assumptions C08_clearness.
Example C08_example : perez_row_spec 1.23 2 /\ perez_ebin #1.23 = Some 2%nat.
Proof. split; [simpl; lra|]. apply perez_ebin_fin. simpl; lra. Qed.

(** C55 *)
Theorem C55_dispatch :
  forall f tilt az zen saz dni ghi dhi x airmass model_perez rc,
    let call m dx rc := get_sky_diffuse f tilt az zen saz dni ghi dhi dx airmass m model_perez rc in
    (forall dx, call "isotropic"%string dx rc = Ok (isotropic tilt dhi)) /\
    (forall dx, call "klucher"%string dx false = Ok (klucher tilt az dhi ghi zen saz)) /\
    (forall dx, call "king"%string dx false = Ok (king tilt dhi ghi zen)) /\
    call "haydavies"%string (Some x) rc = Ok (haydavies tilt az dhi dni x zen saz None) /\
    call "reindl"%string (Some x) rc = Ok (reindl tilt az dhi dni ghi x zen saz) /\
    (forall am', airmass = Some am' -> call "perez"%string (Some x) rc = perez model_perez tilt az dhi dni x zen saz am') /\
    (airmass = None -> forall am', get_relative_airmass zen "kastenyoung1989"%string = Ok am' ->
       call "perez"%string (Some x) rc = perez model_perez tilt az dhi dni x zen saz am') /\
    call "perez-driesse"%string (Some x) rc = Ok (perez_driesse f tilt az dhi dni x zen saz airmass).
Proof. exact get_sky_diffuse_dispatch. Qed.
Print Assumptions C55_dispatch.
Theorem C55_case_insensitive :
  forall f tilt az zen saz dni ghi dhi dx am m m' mp rc, lower m = lower m' ->
    get_sky_diffuse f tilt az zen saz dni ghi dhi dx am m mp rc
    = get_sky_diffuse f tilt az zen saz dni ghi dhi dx am m' mp rc.
Proof. exact get_sky_diffuse_case. Qed.
Print Assumptions C55_case_insensitive.
Theorem C55_errors :
  forall f tilt az zen saz dni ghi dhi dx am m mp rc e,
    get_sky_diffuse f tilt az zen saz dni ghi dhi dx am m mp rc = Err e <->
    (e = ValueError /\
       ((rc = true /\ In (lower m) ["klucher"; "king"]%string) \/
        (dx = None /\ In (lower m) ["haydavies"; "reindl"; "perez"; "perez-driesse"]%string) \/
        ~ In (lower m) ["isotropic"; "klucher"; "haydavies"; "reindl"; "king"; "perez"; "perez-driesse"]%string)) \/
    (e = KeyError /\ lower m = "perez"%string /\ dx <> None /\ ~ In mp (map fst perez_coeffdict)).
Proof. exact get_sky_diffuse_error. Qed.
Print Assumptions C55_errors.
Example C55_example : lower "HayDavies" = lower "haydavies".
Proof. reflexivity. Qed.
