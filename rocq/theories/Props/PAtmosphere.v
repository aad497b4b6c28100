(** Properties C42, C43, C56, C57: airmass, humidity, aerosols, wind, altitude, water albedo.
    Model: Model/Atmosphere.v. *)
From Verif Require Import Base.Fl Base.FlFacts Base.Py Model.Atmosphere Spec.DocTables Proofs.Atmos.
Open Scope R_scope.

(** C42 *)
Theorem C42_below_horizon_is_nan :
  forall z m v, (z = NaN \/ fgtb z #90 = true) -> get_relative_airmass z m = Ok v -> v = NaN.
Proof. exact relative_airmass_below. Qed.
Print Assumptions C42_below_horizon_is_nan.
Theorem C42_above_horizon_is_defined :
  forall z m v, 0 <= z <= 90 -> get_relative_airmass #z m = Ok v ->
  v <> NaN /\ (z < 90 -> exists a, v = #a /\ (lower m <> "youngirvine1967"%string -> 0 < a)).
Proof. exact relative_airmass_above. Qed.
Print Assumptions C42_above_horizon_is_defined.
Theorem C42_unknown_model :
  forall z m e, get_relative_airmass z m = Err e <->
    e = ValueError /\
    ~ In (lower m) ["kastenyoung1989"; "kasten1966"; "simple"; "pickering2002"; "youngirvine1967";
                    "young1994"; "gueymard1993"; "gueymard2003"]%string.
Proof. exact relative_airmass_unknown. Qed.
Print Assumptions C42_unknown_model.
Theorem C42_case_insensitive :
  forall z m m', lower m = lower m' -> get_relative_airmass z m = get_relative_airmass z m'.
Proof. exact relative_airmass_case. Qed.
Print Assumptions C42_case_insensitive.
Theorem C42_simple :
  (forall z, 0 <= z < 90 -> get_relative_airmass #z "simple" = Ok #(1 / cosD z) /\ 1 <= 1 / cosD z) /\
  (forall z1 z2, 0 <= z1 -> z1 < z2 -> z2 < 90 -> 1 / cosD z1 < 1 / cosD z2).
Proof. exact simple_props. Qed.
Print Assumptions C42_simple.
(** the refraction-corrected models are bounded by the flat-earth value ... *)
Theorem C42_at_most_simple :
  forall z m v, 0 <= z < 90 ->
  In (lower m) ["kastenyoung1989"; "kasten1966"; "gueymard1993"; "gueymard2003"]%string ->
  get_relative_airmass #z m = Ok #v -> v <= 1 / cosD z.
Proof. exact below_simple. Qed.
Print Assumptions C42_at_most_simple.
(** ... and "airmass is at least 1" fails for the default model with the sun overhead *)
Theorem C42_at_least_one_refuted :
  exists v, get_relative_airmass #0 "kastenyoung1989" = Ok #v /\ v < 1.
Proof. exact ky_zenith_below_1. Qed.
Print Assumptions C42_at_least_one_refuted.
Theorem C42_absolute :
  (forall am p, get_absolute_airmass #am #p = #(am * p / 101325)) /\
  (forall am, get_absolute_airmass #am #101325 = #am) /\
  (forall p, get_absolute_airmass NaN p = NaN).
Proof. exact absolute_airmass_props. Qed.
Print Assumptions C42_absolute.
Example C42_example : get_relative_airmass #60 "simple" = Ok #2.
Proof.
  destruct simple_props as [H _]. destruct (H 60) as [E _]; [lra|]. rewrite E. do 2 f_equal.
  unfold cosD. replace (Rrad 60) with (PI/3) by (unfold Rrad; field). rewrite cos_PI3. lra.
Qed.

(** C43 *)
Theorem C43_dew_point_round_trip :
  forall t td c0 c1 c2 rh, c0 <> 0 -> c1 <> 0 -> c2 <> 0 -> c2 + td <> 0 -> c2 + t <> 0 ->
  rh_from_tdew #t #td #c0 #c1 #c2 = rh -> tdew_from_rh #t rh #c1 #c2 = #td.
Proof. exact tdew_of_rh_of_tdew. Qed.
Print Assumptions C43_dew_point_round_trip.
Theorem C43_humidity_round_trip :
  forall t rh c0 c1 c2, c0 <> 0 -> c1 <> 0 -> c2 <> 0 -> c2 + t <> 0 -> 0 < rh ->
  c1 <> c1 * t / (c2 + t) + ln (rh / 100) ->
  exists td, tdew_from_rh #t #rh #c1 #c2 = #td /\ rh_from_tdew #t #td #c0 #c1 #c2 = #rh.
Proof. exact rh_of_tdew_of_rh. Qed.
Print Assumptions C43_humidity_round_trip.
Theorem C43_humidity_saturation_and_order :
  (forall t c0 c1 c2, c0 <> 0 -> c2 + t <> 0 -> rh_from_tdew #t #t #c0 #c1 #c2 = #100) /\
  (forall t td1 td2 c0 c1 c2 r1 r2, 0 < c0 -> 0 < c1 -> 0 < c2 -> 0 < c2 + td1 -> 0 < c2 + t -> td1 < td2 ->
     rh_from_tdew #t #td1 #c0 #c1 #c2 = #r1 -> rh_from_tdew #t #td2 #c0 #c1 #c2 = #r2 -> r1 < r2).
Proof. exact (conj rh_saturation rh_incr). Qed.
Print Assumptions C43_humidity_saturation_and_order.
Theorem C43_angstrom_alpha_of_aod :
  forall aod0 l0 alpha l1 a1, 0 < aod0 -> 0 < l0 -> 0 < l1 -> l1 <> l0 ->
  angstrom_aod_at_lambda #aod0 #l0 #alpha #l1 = a1 -> angstrom_alpha a1 #l1 #aod0 #l0 = #alpha.
Proof. exact alpha_of_aod. Qed.
Print Assumptions C43_angstrom_alpha_of_aod.
Theorem C43_angstrom_aod_of_alpha :
  forall a1 l1 a2 l2 al, 0 < a1 -> 0 < a2 -> 0 < l1 -> 0 < l2 -> l1 <> l2 ->
  angstrom_alpha #a1 #l1 #a2 #l2 = al -> angstrom_aod_at_lambda #a2 #l2 al #l1 = #a1.
Proof. exact aod_of_alpha. Qed.
Print Assumptions C43_angstrom_aod_of_alpha.
Theorem C43_wind_power_law :
  forall v h1 h2 e, 0 <= v -> 0 < h1 -> 0 < h2 ->
  powerlaw_speed #v #h1 #h1 #e = #v /\
  powerlaw_speed (powerlaw_speed #v #h1 #h2 #e) #h2 #h1 #e = #v.
Proof. exact powerlaw_props. Qed.
Print Assumptions C43_wind_power_law.
Theorem C43_wind_value :
  forall v h1 h2 e, 0 < h1 -> 0 < h2 ->
  (0 <= v -> powerlaw_speed #v #h1 #h2 #e = #(v * Rpower (h2 / h1) e)) /\
  (v < 0 -> powerlaw_speed #v #h1 #h2 #e = NaN).
Proof. exact (fun v h1 h2 e H1 H2 => conj (fun H => powerlaw_fin v h1 h2 e H H1 H2) (fun H => powerlaw_negative v h1 h2 e H H1 H2)). Qed.
Print Assumptions C43_wind_value.
Theorem C43_wind_arguments :
  forall v h1 h2 e st,
  (forall x, windspeed_powerlaw v h1 h2 (Some x) None = Ok (powerlaw_speed v h1 h2 x)) /\
  (forall s x, In (s, x) HELLMANN_SURFACE_EXPONENTS ->
     windspeed_powerlaw v h1 h2 None (Some s) = Ok (powerlaw_speed v h1 h2 x)) /\
  (forall er, windspeed_powerlaw v h1 h2 e st = Err er <->
     (er = ValueError /\ ((e = None /\ st = None) \/ (e <> None /\ st <> None))) \/
     (er = KeyError /\ e = None /\ exists s, st = Some s /\ ~ In s (map fst HELLMANN_SURFACE_EXPONENTS))).
Proof. exact windspeed_args. Qed.
Print Assumptions C43_wind_arguments.
(** the named surfaces have the published exponents, and no other name is accepted *)
Theorem C43_wind_surface_types : forall v h1 h2 s,
  (forall a g, windspeed_powerlaw v h1 h2 None (Some (hellmann_name a g)) = Ok (powerlaw_speed v h1 h2 #(hellmann a g))) /\
  ((forall a g, s <> hellmann_name a g) -> windspeed_powerlaw v h1 h2 None (Some s) = Err KeyError).
Proof.
  intros v h1 h2 s. split.
  - intros a g. assert (E : windspeed_powerlaw v h1 h2 None (Some (hellmann_name a g)) =
       (let* e := getitem HELLMANN_SURFACE_EXPONENTS (hellmann_name a g) in Ok (powerlaw_speed v h1 h2 e))) by reflexivity.
    rewrite E. assert (L : getitem HELLMANN_SURFACE_EXPONENTS (hellmann_name a g) = Ok #(hellmann a g)); [|rewrite L; reflexivity].
    unfold getitem. destruct a, g; cbn [hellmann_name hellmann HELLMANN_SURFACE_EXPONENTS lookup String.append String.eqb Ascii.eqb Bool.eqb];
      f_equal; f_equal; lra.
  - intros H. assert (L : lookup s HELLMANN_SURFACE_EXPONENTS = None); [|unfold windspeed_powerlaw, getitem; rewrite L; reflexivity].
    destruct (lookup s HELLMANN_SURFACE_EXPONENTS) as [x|] eqn:E; [|reflexivity]. exfalso. apply lookup_In in E.
    unfold HELLMANN_SURFACE_EXPONENTS in E. cbn [In] in E.
    repeat (destruct E as [E|E]; [injection E as <- _; first [apply (H Unstable OpenWater); reflexivity|apply (H Neutral OpenWater); reflexivity
      |apply (H Stable OpenWater); reflexivity|apply (H Unstable OpenCoast); reflexivity|apply (H Neutral OpenCoast); reflexivity
      |apply (H Stable OpenCoast); reflexivity|apply (H Unstable Inhabited); reflexivity|apply (H Neutral Inhabited); reflexivity
      |apply (H Stable Inhabited); reflexivity]|]). exact E.
Qed.
Print Assumptions C43_wind_surface_types.
Example C43_example :
  (* the Magnus coefficients of the source *)
  let c1 := 17.62 in let c2 := 243.12 in c2 + 10 <> 0 /\ c2 + 20 <> 0 /\
  rh_from_tdew #20 #20 #6.112 #c1 #c2 = #100.
Proof. repeat split; try lra. apply rh_saturation; lra. Qed.

(** C56 *)
Theorem C56_altitude_pressure :
  (forall a b pa pb, a < b -> b < 44331.514 -> alt2pres #a = #pa -> alt2pres #b = #pb -> 0 < pb < pa) /\
  (forall p q ap aq, 0 < p -> p < q -> pres2alt #p = #ap -> pres2alt #q = #aq -> aq < ap).
Proof. exact (conj alt2pres_decr pres2alt_decr). Qed.
Print Assumptions C56_altitude_pressure.
Theorem C56_precipitable_water_floor : forall t rh, atleast #0.1 (gueymard94_pw t rh).
Proof. exact pw_min. Qed.
Print Assumptions C56_precipitable_water_floor.
(** the ln(exp(..))/am round trip in the source cancels *)
Theorem C56_turbidity :
  forall am pw aod, 0 < am -> 0 < pw ->
  kasten96_lt #am #pw #aod =
  #((9.4 + 0.9 * am) * (-0.101 + 0.235 * Rpower am (-0.16)
                        + 0.112 * Rpower am (-0.55) * Rpower pw 0.34 + aod)).
Proof. exact kasten96_lt_fin. Qed.
Print Assumptions C56_turbidity.
Theorem C56_broadband_aod :
  forall a b, bird_hulstrom80_aod_bb #a #b = #(0.27583 * a + 0.35 * b).
Proof. exact (fun a b => eq_refl). Qed.
Print Assumptions C56_broadband_aod.
Example C56_example : exists pa pb, alt2pres #0 = #pa /\ alt2pres #1000 = #pb /\ 0 < pb < pa.
Proof.
  destruct (alt2pres #0) as [pa| | |] eqn:Ea, (alt2pres #1000) as [pb| | |] eqn:Eb;
  try (exfalso; revert Ea Eb; unfold alt2pres; fin; discriminate).
  exists pa, pb. split; [reflexivity|]. split; [reflexivity|].
  apply (alt2pres_decr 0 1000 pa pb); auto; lra.
Qed.

(** C57 *)
Theorem C57_water_albedo_range :
  forall e c w v, 0 < c <= 1 -> 0 <= w -> e <= 90 -> dvoracek_albedo #e #c #w = #v -> 0 < v <= c.
Proof. exact dvoracek_range. Qed.
Print Assumptions C57_water_albedo_range.
Theorem C57_water_albedo_decreases_with_elevation :
  forall e1 e2 c w v1 v2, 0 < c <= 1 -> 0 <= w -> e1 <= e2 -> e2 <= 90 ->
  dvoracek_albedo #e1 #c #w = #v1 -> dvoracek_albedo #e2 #c #w = #v2 -> v2 <= v1.
Proof. exact dvoracek_decr. Qed.
Print Assumptions C57_water_albedo_decreases_with_elevation.
Theorem C57_value :
  forall e c w, 0 < c -> dvoracek_albedo #e #c #w = #(Rpower c (w * sinD (Rmax 0 e) + 1)).
Proof. exact dvoracek_fin. Qed.
Print Assumptions C57_value.
Theorem C57_arguments :
  forall e sc c w,
  (forall x y, inland_water_dvoracek e None (Some x) (Some y) = Ok (dvoracek_albedo e x y)) /\
  (forall s, In s (map fst WATER_COLOR_COEFFS) -> exists x y, 
     In (s, #x) WATER_COLOR_COEFFS /\ In (s, #y) WATER_ROUGHNESS_COEFFS /\ 0 < x <= 1 /\ 0 <= y /\
     inland_water_dvoracek e (Some s) None None = Ok (dvoracek_albedo e #x #y)) /\
  (forall er, inland_water_dvoracek e sc c w = Err er <->
     (er = KeyError /\ c = None /\ w = None /\ exists s, sc = Some s /\ ~ In s (map fst WATER_COLOR_COEFFS)) \/
     (er = ValueError /\ ~ (sc <> None /\ c = None /\ w = None) /\ ~ (sc = None /\ c <> None /\ w <> None))).
Proof. exact inland_water_args. Qed.
Print Assumptions C57_arguments.
(** the named conditions have the published coefficients, and no other name is accepted *)
Theorem C57_surface_conditions : forall e s,
  (forall c r, water s c r -> inland_water_dvoracek e (Some s) None None = Ok (dvoracek_albedo e #c #r)) /\
  ((forall c r, ~ water s c r) -> inland_water_dvoracek e (Some s) None None = Err KeyError).
Proof.
  intros e s. split.
  - intros c r H. assert (L : getitem WATER_COLOR_COEFFS s = Ok #c /\ getitem WATER_ROUGHNESS_COEFFS s = Ok #r).
    { unfold getitem. destruct H; subst s; split; cbn [WATER_COLOR_COEFFS WATER_ROUGHNESS_COEFFS lookup String.eqb Ascii.eqb Bool.eqb]; f_equal; f_equal; lra. }
    unfold inland_water_dvoracek. destruct L as [-> ->]. reflexivity.
  - intros H. assert (L : lookup s WATER_COLOR_COEFFS = None); [|unfold inland_water_dvoracek, getitem; rewrite L; reflexivity].
    destruct (lookup s WATER_COLOR_COEFFS) as [x|] eqn:E; [|reflexivity]. exfalso. apply lookup_In in E.
    unfold WATER_COLOR_COEFFS in E. cbn [In] in E.
    repeat (destruct E as [E|E]; [injection E as <- _; first [apply (H _ _ (calm _ eq_refl))|apply (H _ _ (ripples _ eq_refl))
      |apply (H _ _ (large_ripples _ eq_refl))|apply (H _ _ (whitecaps _ eq_refl))|apply (H _ _ (green _ eq_refl))|apply (H _ _ (muddy _ eq_refl))]|]). exact E.
Qed.
Print Assumptions C57_surface_conditions.
Example C57_example : dvoracek_albedo #(-5) #0.13 #0.29 = #0.13.
Proof.
  rewrite dvoracek_fin by lra. rewrite Rmax_left by lra. rewrite sinD_0. f_equal.
  replace (0.29 * 0 + 1) with 1 by lra. apply Rpower_1. lra.
Qed.
