(** Properties C71-C75: SAPM DC model, spectral factors, spectral mismatch, SAM names, photon energy and responses. *)
From Verif Require Import Base.Fl Base.FlFacts Base.Py Model.Atmosphere Model.Iam Model.Spectrum Model.Tools Model.Pvsystem
  Spec.SapmSpec Spec.SpectralSpec Proofs.PvsystemP Proofs.SystemP Proofs.SapmP Proofs.SpectralP.
Open Scope R_scope.
Open Scope string_scope.
Open Scope list_scope.

(** ** C71: the SAPM DC model *)
Theorem C71_published_equations : forall k q G T m T0 G0 p, reads m p -> q <> 0 -> G0 <> 0 -> 0 < G / G0 ->
  let Ee := G / G0 in
  exists out, sapm k q #G #T m #T0 #G0 = Ok out /\
    lookup "i_sc" out = Some #(sapm_isc p Ee T T0) /\ lookup "i_mp" out = Some #(sapm_imp p Ee T T0) /\
    lookup "v_oc" out = Some #(Rmax 0 (sapm_voc k q p Ee T T0)) /\ lookup "v_mp" out = Some #(Rmax 0 (sapm_vmp k q p Ee T T0)) /\
    lookup "p_mp" out = Some #(sapm_imp p Ee T T0 * Rmax 0 (sapm_vmp k q p Ee T T0)).
Proof.
  intros k q G T m T0 G0 p H Hq HG He. cbv zeta. destruct (sapm_fin k q G T m T0 G0 p H Hq He HG) as (ex & -> & _).
  eexists. split; [reflexivity|]. repeat split; reflexivity.
Qed.
Print Assumptions C71_published_equations.
(** at reference irradiance and temperature the nameplate values come back *)
Theorem C71_reference_point : forall k q m T0 G0 p, reads m p -> q <> 0 -> 0 < G0 ->
  p "C0" + p "C1" = 1 -> 0 <= p "Voco" -> 0 <= p "Vmpo" ->
  exists out, sapm k q #G0 #T0 m #T0 #G0 = Ok out /\
    lookup "i_sc" out = Some #(p "Isco") /\ lookup "i_mp" out = Some #(p "Impo") /\
    lookup "v_oc" out = Some #(p "Voco") /\ lookup "v_mp" out = Some #(p "Vmpo") /\ lookup "p_mp" out = Some #(p "Impo" * p "Vmpo").
Proof.
  intros k q m T0 G0 p H Hq HG C Hv Hm. assert (E : G0 / G0 = 1) by (field; lra).
  destruct (C71_published_equations k q G0 T0 m T0 G0 p H Hq ltac:(lra) ltac:(lra)) as (out & Ho & H1 & H2 & H3 & H4 & H5).
  exists out. split; [exact Ho|]. rewrite H1, H2, H3, H4, H5. rewrite E.
  assert (Ei : sapm_isc p 1 T0 T0 = p "Isco") by (unfold sapm_isc; ring).
  assert (Em : sapm_imp p 1 T0 T0 = p "Impo").
  { unfold sapm_imp. replace (p "C0" * 1 + p "C1" * 1 ^ 2) with (p "C0" + p "C1") by ring. rewrite C. ring. }
  assert (Eo : sapm_voc k q p 1 T0 T0 = p "Voco") by (unfold sapm_voc; rewrite ln_1; ring).
  assert (Ev : sapm_vmp k q p 1 T0 T0 = p "Vmpo") by (unfold sapm_vmp; rewrite ln_1; ring).
  rewrite Ei, Em, Eo, Ev. rewrite !Rmax_right by assumption. repeat split.
Qed.
Print Assumptions C71_reference_point.
(** success exactly when every required key is there; KeyError otherwise *)
Theorem C71_required_keys : forall k q G T m T0 G0,
  ((exists out, sapm k q G T m T0 G0 = Ok out) <-> forall key, In key sapm_required -> lookup key m <> None) /\
  ((exists key, In key sapm_required /\ lookup key m = None) -> sapm k q G T m T0 G0 = Err KeyError).
Proof.
  intros. destruct (sapm_keys k q G T m T0 G0) as [(A & B)|((key & A & B) & C)].
  - split; [tauto|]. intros (key & H & N). exfalso. exact (A key H N).
  - split; [|intros _; exact C]. split; [intros (o & H); rewrite C in H; discriminate|]. intros H. exfalso. exact (H key A B).
Qed.
Print Assumptions C71_required_keys.
(** for every input whatever: voltages are never negative, power is current times voltage, i_x and i_xx are there exactly with their coefficients *)
Theorem C71_outputs : forall k q G T m T0 G0 out, sapm k q G T m T0 G0 = Ok out ->
  (exists isc imp voc vmp, lookup "i_sc" out = Some isc /\ lookup "i_mp" out = Some imp /\ lookup "v_oc" out = Some voc /\ lookup "v_mp" out = Some vmp /\
     lookup "p_mp" out = Some (fmul imp vmp) /\ atleast #0 voc /\ atleast #0 vmp) /\
  (lookup "i_x" out <> None <-> lookup "IXO" m <> None /\ lookup "C4" m <> None /\ lookup "C5" m <> None) /\
  (lookup "i_xx" out <> None <-> lookup "IXXO" m <> None /\ lookup "C6" m <> None /\ lookup "C7" m <> None) /\
  (forall key, lookup key out <> None -> In key ["i_sc"; "i_mp"; "v_oc"; "v_mp"; "p_mp"; "i_x"; "i_xx"]).
Proof.
  intros k q G T m T0 G0 out H. destruct (sapm_shape _ _ _ _ _ _ _ _ H) as (isc & imp & voc & vmp & F & A & B & C & D & E).
  split; [|tauto]. exists isc, imp, voc, vmp.
  rewrite <- (firstn_skipn 5 out), F. repeat split; assumption.
Qed.
Print Assumptions C71_outputs.
(** in the dark there is no current and no open-circuit voltage; the maximum power point is 0 only for C2 > 0 and nan otherwise *)
Theorem C71_dark : forall k q T m T0 G0 p, reads m p -> q <> 0 -> G0 <> 0 -> 0 < p "Cells_in_Series" -> 0 < sapm_delta k q p T ->
  exists out, sapm k q #0 #T m #T0 #G0 = Ok out /\ lookup "i_sc" out = Some #0 /\ lookup "i_mp" out = Some #0 /\ lookup "v_oc" out = Some #0 /\
   (0 < p "C2" -> p "C3" < 0 -> lookup "v_mp" out = Some #0 /\ lookup "p_mp" out = Some #0) /\
   (p "C2" <= 0 -> p "C3" < 0 -> lookup "v_mp" out = Some NaN /\ lookup "p_mp" out = Some NaN).
Proof. intros. apply sapm_dark; assumption. Qed.
Print Assumptions C71_dark.
(** optional x-points follow the same form *)
Theorem C71_x_points : forall k q G T m T0 G0 out ixo c4 c5 ai ixxo c6 c7 am, sapm k q #G #T m #T0 #G0 = Ok out -> G0 <> 0 ->
  lookup "IXO" m = Some #ixo -> lookup "C4" m = Some #c4 -> lookup "C5" m = Some #c5 -> lookup "Aisc" m = Some #ai ->
  lookup "IXXO" m = Some #ixxo -> lookup "C6" m = Some #c6 -> lookup "C7" m = Some #c7 -> lookup "Aimp" m = Some #am ->
  lookup "i_x" out = Some #(ixo * (c4 * (G / G0) + c5 * (G / G0) ^ 2) * (1 + ai * (T - T0))) /\
  lookup "i_xx" out = Some #(ixxo * (c6 * (G / G0) + c7 * (G / G0) ^ 2) * (1 + am * (T - T0))).
Proof.
  intros k q G T m T0 G0 out ixo c4 c5 ai ixxo c6 c7 am H HG H1 H2 H3 H4 H5 H6 H7 H8. unfold sapm, getitem in H.
  rewrite H1, H2, H3, H4, H5, H6, H7, H8 in H. rewrite (fdiv_fin G G0) in H by exact HG.
  repeat match type of H with context [match lookup ?key m with Some v => Ok v | None => Err KeyError end] =>
    destruct (lookup key m) as [?v|]; [cbn [bind] in H|discriminate] end.
  cbn [bind] in H. cbv zeta in H. apply Ok_inj in H. subst out. cbn [lookup app String.eqb Ascii.eqb Bool.eqb]. rewrite !fpown_fin. fsx. split; reflexivity.
Qed.
Print Assumptions C71_x_points.
Definition sample_module : list (string * fl) :=
  [("Isco", #5.1); ("Impo", #4.5); ("Voco", #59.4); ("Vmpo", #48.3); ("Aisc", #0.0004); ("Aimp", #0.0002); ("Bvoco", #(-0.22)); ("Mbvoc", #0);
   ("Bvmpo", #(-0.23)); ("Mbvmp", #0); ("N", #1.4); ("Cells_in_Series", #96); ("C0", #1.01); ("C1", #(-0.01)); ("C2", #0.28); ("C3", #(-5.4))].
Example C71_nonvacuous : exists p, reads sample_module p /\ p "C0" + p "C1" = 1 /\ 0 < p "Cells_in_Series" /\ 0 < sapm_delta 1.38e-23 1.6e-19 p 25.
Proof.
  set (p := fun k => match lookup k sample_module with Some (Fin x) => x | _ => 0 end). exists p.
  assert (E0 : p "C0" = 1.01) by reflexivity. assert (E1 : p "C1" = -0.01) by reflexivity.
  assert (E2 : p "Cells_in_Series" = 96) by reflexivity. assert (E3 : p "N" = 1.4) by reflexivity.
  split; [|unfold sapm_delta; rewrite E0, E1, E2, E3; repeat split; try lra; apply Rdiv_lt_0_compat; lra].
  intros k H. subst p. cbn in H. repeat (destruct H as [<-|H]; [reflexivity|]). destruct H.
Qed.

(** ** C72: spectral correction factors *)
Theorem C72_sapm : forall am a0 a1 a2 a3 a4, spectral_factor_sapm #am (SapmA #a0 #a1 #a2 #a3 #a4) =
  #(Rmax 0 (a0 + a1 * am + a2 * am ^ 2 + a3 * am ^ 3 + a4 * am ^ 4)).
Proof. exact sapm_factor_fin. Qed.
Print Assumptions C72_sapm.
(** never nan, never negative, and 0 for an unknown airmass (sun below the horizon) *)
Theorem C72_sapm_total : forall am m, spectral_factor_sapm am m <> NaN /\ atleast #0 (spectral_factor_sapm am m) /\ spectral_factor_sapm NaN m = #0.
Proof.
  intros am m. destruct (sapm_factor_total am m) as [A B]. split; [exact A|split; [exact B|]].
  unfold spectral_factor_sapm, polyval. cbn [fold_left]. rewrite fmul_nan_r. cbn. f_equal. apply Rmax_left. lra.
Qed.
Print Assumptions C72_sapm_total.
(** First Solar: named technologies in any letter case, default limits: water clamped below at 0.1 cm, airmass clamped to [0.58, 10], nan above 8 cm *)
Theorem C72_firstsolar : forall m c0 c1 c2 c3 c4 c5 pw am, firstsolar_published (lower m) [c0; c1; c2; c3; c4; c5] ->
  (pw <= 8 -> firstsolar_default #pw #am (Some m) None = Ok #(firstsolar c0 c1 c2 c3 c4 c5 (between 0.58 am 10) (between 0.1 pw 8)) /\
    0.2 < firstsolar c0 c1 c2 c3 c4 c5 (between 0.58 am 10) (between 0.1 pw 8) < 1.4) /\
  (8 < pw -> firstsolar_default #pw #am (Some m) None = Ok NaN).
Proof.
  intros m c0 c1 c2 c3 c4 c5 pw am H. unfold firstsolar_default.
  rewrite (firstsolar_eval pw am (Some m) None c0 c1 c2 c3 c4 c5 []) by (try lra; apply pick_some, firstsolar_table, H).
  assert (E1 : Rmax (Rmin am 10) 0.58 = between 0.58 am 10) by (unfold between; rmm; lra). rewrite E1.
  split; intros Hp; [rewrite Rltb_f by exact Hp|rewrite Rltb_t by exact Hp; reflexivity].
  assert (E2 : Rmax pw 0.1 = between 0.1 pw 8) by (unfold between; rmm; lra). rewrite E2.
  split; [reflexivity|]. eapply firstsolar_range; [exact H| |]; unfold between; rmm; lra.
Qed.
Print Assumptions C72_firstsolar.
Theorem C72_firstsolar_general : forall pw am c0 c1 c2 c3 c4 c5 rest min_pw max_pw min_am max_am,
  0 < min_pw <= max_pw -> 0 <= min_am <= max_am ->
  spectral_factor_firstsolar #pw #am None (Some (c0 :: c1 :: c2 :: c3 :: c4 :: c5 :: rest)) #min_pw #max_pw #min_am #max_am =
  Ok (if Rltb max_pw pw then NaN else #(firstsolar c0 c1 c2 c3 c4 c5 (between min_am am max_am) (Rmax pw min_pw))).
Proof.
  intros. erewrite firstsolar_eval by (try reflexivity; lra). assert (E : Rmax (Rmin am max_am) min_am = between min_am am max_am) by (unfold between; rmm; lra).
  rewrite E. reflexivity.
Qed.
Print Assumptions C72_firstsolar_general.
(** missing water or airmass data gives nan, and bad arguments the documented errors *)
Theorem C72_firstsolar_errors : forall pw am m c a b lo hi,
  spectral_factor_firstsolar pw am None None a b lo hi = Err TypeError /\
  spectral_factor_firstsolar pw am (Some m) (Some c) a b lo hi = Err TypeError /\
  ((forall c, ~ firstsolar_published (lower m) c) -> spectral_factor_firstsolar pw am (Some m) None a b lo hi = Err KeyError) /\
  (forall c, firstsolar_published (lower m) c -> firstsolar_default NaN am (Some m) None = Ok NaN /\ firstsolar_default pw NaN (Some m) None = Ok NaN).
Proof.
  intros pw am m c a b lo hi. split; [reflexivity|]. split; [reflexivity|]. split.
  - intros H. unfold spectral_factor_firstsolar, pick_coefficients, getitem. rewrite firstsolar_unknown by exact H. reflexivity.
  - intros c' H. pose proof (firstsolar_table _ _ H) as L. unfold firstsolar_default, spectral_factor_firstsolar. rewrite !(pick_some _ _ _ _ L). clear L.
    destruct H as [|n [->| ->]|n [->| ->]| |]; cbn [bind coef nth_error]; split; cbn; f_equal;
      rewrite ?fmul_nan_r, ?fadd_nan_r; try reflexivity; destruct am; reflexivity.
Qed.
Print Assumptions C72_firstsolar_errors.
Theorem C72_jrc : forall m c0 c1 c2 am kc, jrc_published (lower m) [c0; c1; c2] ->
  spectral_factor_jrc #am #kc (Some m) None = Ok #(jrc c0 c1 c2 am kc) /\ jrc c0 c1 c2 1.5 1 = 1 /\
  (forall am', am < am' -> jrc c0 c1 c2 am kc < jrc c0 c1 c2 am' kc).
Proof.
  intros m c0 c1 c2 am kc H. split; [eapply jrc_eval, pick_some, jrc_table, H|].
  split; [unfold jrc; replace (- (1)) with (-1) by ring; lra|].
  intros am' L. unfold jrc. remember [c0; c1; c2] as l eqn:E. destruct H; injection E as <- <- <-; lra.
Qed.
Print Assumptions C72_jrc.
Theorem C72_pvspec : forall m c0 c1 c2 am kc, pvspec_published (lower m) [c0; c1; c2] -> 0 < am -> 0 < kc ->
  spectral_factor_pvspec #am #kc (Some m) None = Ok #(c0 * Rpower kc c1 * Rpower am c2) /\
  0 < c0 * Rpower kc c1 * Rpower am c2 /\ spectral_factor_pvspec #1 #1 (Some m) None = Ok #c0.
Proof.
  intros m c0 c1 c2 am kc H Ha Hk. assert (L := pick_some _ ValueError _ _ (pvspec_table _ _ H)).
  split; [eapply pvspec_eval; eassumption|].
  assert (0 < c0) by (remember [c0; c1; c2] as l eqn:E; destruct H; injection E as <- <- <-; lra).
  split.
  - apply Rmult_lt_0_compat; [apply Rmult_lt_0_compat; [assumption|]|]; apply exp_pos.
  - erewrite pvspec_eval by (try eassumption; lra). f_equal. f_equal. unfold Rpower. rewrite ln_1, !Rmult_0_r, exp_0. ring.
Qed.
Print Assumptions C72_pvspec.
(** jrc and pvspec: errors and own coefficients *)
Theorem C72_jrc_pvspec_arguments : forall am kc m c,
  spectral_factor_jrc am kc None None = Err ValueError /\ spectral_factor_jrc am kc (Some m) (Some c) = Err ValueError /\
  spectral_factor_pvspec am kc None None = Err ValueError /\ spectral_factor_pvspec am kc (Some m) (Some c) = Err ValueError /\
  (~ In (lower m) ["multisi"; "cdte"] -> spectral_factor_jrc am kc (Some m) None = Err KeyError) /\
  (~ In (lower m) ["multisi"; "monosi"; "fs4-2"; "fs4-1"; "cigs"; "asi"] -> spectral_factor_pvspec am kc (Some m) None = Err KeyError) /\
  (forall a k c0 c1 c2, spectral_factor_jrc #a #k None (Some [c0; c1; c2]) = Ok #(jrc c0 c1 c2 a k)) /\
  (forall a k c0 c1 c2, 0 < a -> 0 < k -> spectral_factor_pvspec #a #k None (Some [c0; c1; c2]) = Ok #(c0 * Rpower k c1 * Rpower a c2)).
Proof.
  intros am kc m c. do 4 (split; [reflexivity|]). split; [|split; [|split]].
  - intros H. unfold spectral_factor_jrc, pick_coefficients, getitem. destruct (lookup (lower m) jrc_coefficients) eqn:E; [|reflexivity]. exfalso. apply H.
    apply lookup_In in E. cbn in *. repeat (destruct E as [E|E]; [injection E as <- _; tauto|]). destruct E.
  - intros H. unfold spectral_factor_pvspec, pick_coefficients, getitem. destruct (lookup (lower m) pvspec_coefficients) eqn:E; [|reflexivity]. exfalso. apply H.
    apply lookup_In in E. cbn in *. repeat (destruct E as [E|E]; [injection E as <- _; tauto|]). destruct E.
  - intros. eapply jrc_eval. reflexivity.
  - intros. eapply pvspec_eval; [reflexivity|assumption..].
Qed.
Print Assumptions C72_jrc_pvspec_arguments.
Theorem C72_caballero : forall m am aod pw v, caballero_value am aod pw m v -> 0 < am -> spectral_factor_caballero #pw #am #aod (Some m) None = Ok #v.
Proof. intros. apply caballero_eval; assumption. Qed.
Print Assumptions C72_caballero.
(** own coefficients: the last two switch the linear and the logarithmic aerosol term *)
Theorem C72_caballero_coefficients : forall am aod pw c0 c1 c2 c3 c4 c5 c6 c7 c8 c9 s1 s2, 0 < am ->
  spectral_factor_caballero #pw #am #aod None (Some [c0; c1; c2; c3; c4; c5; c6; c7; c8; c9; s1; s2]) =
  Ok #(caballero_am c0 c1 c2 c3 c4 am + (aod - 0.084) * (c5 + s1 * c6 * am + s2 * c6 * ln am + c7 * am ^ 2) + (pw - 1.4164) * (c8 + c9 * ln am)).
Proof.
  intros. unfold spectral_factor_caballero. cbn [bind coef nth_error]. rewrite fln_fin by assumption. rewrite !fpown_fin. fsx. reflexivity.
Qed.
Print Assumptions C72_caballero_coefficients.
(** unlike the other factors the technology name is case sensitive *)
Theorem C72_caballero_errors : forall pw am aod m c,
  spectral_factor_caballero pw am aod None None = Err ValueError /\
  spectral_factor_caballero pw am aod (Some m) (Some c) = Err ValueError /\
  (~ In m ["cdte"; "monosi"; "multisi"; "cigs"; "asi"; "perovskite"] -> spectral_factor_caballero pw am aod (Some m) None = Err KeyError).
Proof. exact caballero_errors. Qed.
Print Assumptions C72_caballero_errors.
Theorem C72_polo : forall m c0 c1 c2 c3 c4 c5 d0 d1 d2 pw am aod aoi p albedo, polo_published m [c0; c1; c2; c3; c4; c5; d0; d1; d2] ->
  0 <= pw -> 0 < am -> aod <> 0 -> 0 <= aoi -> 0 < p ->
  spectral_factor_polo #pw #am #aod #aoi #p (Some m) None #albedo =
  Ok #(polo c0 c1 c2 c3 c4 c5 d0 d1 d2 (kasten_young (Rmin aoi 90) * (p / 101325) / am) aod pw albedo).
Proof.
  intros m c0 c1 c2 c3 c4 c5 d0 d1 d2 pw am aod aoi p albedo H H1 H2 H3 H4 H5.
  replace (kasten_young (Rmin aoi 90) * (p / 101325) / am) with (kasten_young (Rmin aoi 90) * p / 101325 / am) by (field; lra).
  eapply polo_eval; try assumption; [left; split; [reflexivity|]; exists m; split; [reflexivity|]; apply polo_table, H|].
  match goal with |- c2 + ?r <> 0 => pose proof (exp_pos (c3 * ln (kasten_young (Rmin aoi 90) * p / 101325 / am))) as P; fold (Rpower (kasten_young (Rmin aoi 90) * p / 101325 / am) c3) in P; set (x := r) in * end.
  assert (0 < c2) by (remember [c0; c1; c2; c3; c4; c5; d0; d1; d2] as l eqn:E; destruct H; injection E as <- <- <- <- <- <- <- <- <-; lra).
  lra.
Qed.
Print Assumptions C72_polo.
(** sun behind the plane: the angle counts as 90 degrees *)
Theorem C72_polo_behind : forall pw am aod aoi p m co albedo, 90 <= aoi ->
  spectral_factor_polo pw am aod #aoi p m co albedo = spectral_factor_polo pw am aod #90 p m co albedo.
Proof.
  intros. unfold spectral_factor_polo. rewrite !fmin_fin. rewrite (Rmin_right aoi 90) by lra. rewrite (Rmin_left 90 90) by lra. reflexivity.
Qed.
Print Assumptions C72_polo_behind.
Theorem C72_polo_errors : forall pw am aod aoi p m c albedo,
  spectral_factor_polo pw am aod aoi p None None albedo = Err ValueError /\
  spectral_factor_polo pw am aod aoi p (Some m) (Some c) albedo = Err ValueError /\
  (~ In m ["cdte"; "monosi"; "cigs"; "asi"] -> spectral_factor_polo pw am aod aoi p (Some m) None albedo = Err KeyError).
Proof. exact polo_errors. Qed.
Print Assumptions C72_polo_errors.
Example C72_nonvacuous : firstsolar_published (lower "CdTe") [0.86273; -0.038948; -0.012506; 0.098871; 0.084658; -0.0042948] /\
  jrc_published (lower "multiSi") [0.00172 / 0.00348; 0.000508 / 0.00348; 0.00000357 / 0.00348].
Proof. split; constructor. Qed.

(** ** C73: spectral mismatch from spectra *)
(** the usable fraction is a weighted mean of the response *)
Lemma usable_fin sr e : trapezoid e <> 0 -> usable_fraction sr e = #(trapezoid (weigh (fun x => np_interp0 x sr) e) / trapezoid e).
Proof. intros H. unfold usable_fraction. rewrite fdiv_fin by exact H. reflexivity. Qed.
Lemma weigh_scale f c e : weigh f (scaled_by c e) = scaled_by c (weigh f e).
Proof. unfold weigh, scaled_by. rewrite !map_map. apply map_ext. intros [x y]. cbn. f_equal. ring. Qed.
Theorem C73_self_is_one : forall sr e, usable_fraction sr e <> #0 -> isfinite (usable_fraction sr e) = true -> calc_spectral_mismatch_field sr e e = #1.
Proof.
  intros sr e H F. unfold calc_spectral_mismatch_field. destruct (usable_fraction sr e) as [u| | |]; try discriminate F.
  assert (u <> 0) by congruence. rewrite fdiv_fin by assumption. f_equal. field. assumption.
Qed.
Print Assumptions C73_self_is_one.
(** only the shape of each spectrum matters *)
Theorem C73_scale_invariant : forall sr e r c d, c <> 0 -> d <> 0 -> trapezoid e <> 0 -> trapezoid r <> 0 ->
  calc_spectral_mismatch_field sr (scaled_by c e) (scaled_by d r) = calc_spectral_mismatch_field sr e r.
Proof.
  intros sr e r c d Hc Hd He Hr. unfold calc_spectral_mismatch_field.
  assert (S : forall k x, k <> 0 -> trapezoid x <> 0 -> usable_fraction sr (scaled_by k x) = usable_fraction sr x).
  { intros k x Hk Hx. rewrite !usable_fin; [|exact Hx|rewrite trap_scale; apply Rmult_integral_contrapositive_currified; assumption].
    rewrite weigh_scale, !trap_scale. f_equal. field. split; assumption. }
  rewrite !S by assumption. reflexivity.
Qed.
Print Assumptions C73_scale_invariant.
(** usable fraction between the smallest and largest response at the measured wavelengths, so the mismatch of a flat response is 1 *)
Theorem C73_mean_of_response : forall sr e lo hi, ascending e -> nonneg e -> 0 < trapezoid e ->
  Forall (fun p => lo <= np_interp0 (fst p) sr <= hi) e -> exists u, usable_fraction sr e = #u /\ lo <= u <= hi.
Proof.
  intros sr e lo hi A N P B. rewrite usable_fin by lra. eexists. split; [reflexivity|].
  pose proof (trap_bounds (fun x => np_interp0 x sr) lo hi e A N B) as [L U].
  split; (apply Rmult_le_reg_r with (trapezoid e); [exact P|]; unfold Rdiv; rewrite Rmult_assoc, Rinv_l by lra; lra).
Qed.
Print Assumptions C73_mean_of_response.
Theorem C73_mismatch_bounds : forall sr e r lo hi, ascending e -> nonneg e -> 0 < trapezoid e -> ascending r -> nonneg r -> 0 < trapezoid r ->
  0 < lo -> Forall (fun p => lo <= np_interp0 (fst p) sr <= hi) (e ++ r) ->
  exists m, calc_spectral_mismatch_field sr e r = #m /\ lo / hi <= m <= hi / lo.
Proof.
  intros sr e r lo hi A N P A' N' P' L B. apply Forall_app in B as [B B'].
  destruct (C73_mean_of_response sr e lo hi A N P B) as (u & Hu & U). destruct (C73_mean_of_response sr r lo hi A' N' P' B') as (v & Hv & V).
  unfold calc_spectral_mismatch_field. rewrite Hu, Hv. rewrite fdiv_fin by lra. eexists. split; [reflexivity|].
  assert (Iv : / hi <= / v <= / lo) by (split; apply Rinv_le_contravar; lra). assert (0 < / hi) by (apply Rinv_0_lt_compat; lra).
  unfold Rdiv. split; apply Rmult_le_compat; lra.
Qed.
Print Assumptions C73_mismatch_bounds.
(** the response is interpolated linearly between its samples and 0 outside them *)
Theorem C73_response_interpolation : forall sr, ascending sr ->
  (forall a b x, adjacent a b sr -> fst a <= x < fst b -> np_interp0 x sr = snd a + (snd b - snd a) / (fst b - fst a) * (x - fst a)) /\
  (forall pre a, sr = pre ++ [a] -> np_interp0 (fst a) sr = snd a) /\
  (forall x, (forall p, In p sr -> x < fst p) -> np_interp0 x sr = 0) /\ (forall x, (forall p, In p sr -> fst p < x) -> np_interp0 x sr = 0).
Proof.
  intros sr A. destruct sr as [|[x0 y0] l].
  - repeat split; intros; try reflexivity; [destruct H as ([|] & ? & ?); discriminate|destruct pre; discriminate].
  - cbn [np_interp0]. repeat split.
    + intros a b x Ha Hx. assert (M : x0 <= fst a).
      { destruct Ha as (pre & post & E). destruct pre as [|p pre]; injection E as <- E; [cbn; lra|].
        left. apply (asc_lt _ _ A a). rewrite E. apply in_or_app. right. left. reflexivity. }
      rewrite Rltb_f by lra. apply interp_from_seg; assumption.
    + intros pre a E. assert (M : x0 <= fst a).
      { destruct pre as [|p pre]; injection E as <- E; [cbn; lra|]. left. apply (asc_lt _ _ A a). rewrite E. apply in_or_app. right. left. reflexivity. }
      rewrite Rltb_f by lra. apply interp_from_end; [exact A|exists pre; exact E].
    + intros x H. rewrite Rltb_t; [reflexivity|]. apply (H (x0, y0)). left. reflexivity.
    + intros x H. pose proof (H (x0, y0) (or_introl eq_refl)) as H0. cbn in H0. rewrite Rltb_f by lra. apply interp_from_last; [exact A|lra|exact H].
Qed.
Print Assumptions C73_response_interpolation.
(** a non-negative response gives a non-negative mismatch *)
Theorem C73_response_bounds : forall x sr lo hi, ascending sr -> lo <= 0 <= hi -> Forall (fun p => lo <= snd p <= hi) sr -> lo <= np_interp0 x sr <= hi.
Proof. exact interp_bounds. Qed.
Print Assumptions C73_response_bounds.
(** spectra with two neighbouring positive samples have a positive integral *)
Theorem C73_positive_integral : forall e a b, ascending e -> nonneg e -> adjacent a b e -> 0 < snd a + snd b -> 0 < trapezoid e.
Proof. exact trap_pos. Qed.
Print Assumptions C73_positive_integral.
Example C73_nonvacuous : let e := [(400, 1); (500, 2); (700, 1.5)] in let sr := [(300, 0.2); (900, 0.8)] in
  ascending e /\ nonneg e /\ 0 < trapezoid e /\ Forall (fun p => 0.3 <= np_interp0 (fst p) sr <= 0.6) e.
Proof.
  cbv zeta. repeat split.
  - repeat constructor; cbn; lra.
  - repeat constructor; cbn; lra.
  - cbn. lra.
  - repeat constructor; cbn; rewrite ?Rltb_f by lra; rewrite ?Rltb_t by lra; lra.
Qed.

(** ** C74: SAM databases and product names *)
Definition unfriendly (c : ascii) : Prop := In c [" "; "-"; "."; "("; ")"; "["; "]"; ":"; "+"; "/"; """"; ","]%char.
Theorem C74_names : forall s, String.length (normalize_name s) = String.length s /\
  (forall i c, String.get i s = Some c -> (unfriendly c -> String.get i (normalize_name s) = Some "_"%char) /\ (~ unfriendly c -> String.get i (normalize_name s) = Some c)).
Proof.
  induction s as [|c s [IL IH]]; [split; [reflexivity|intros i c H; destruct i; discriminate]|].
  split; [cbn; f_equal; exact IL|]. intros [|i] d H; cbn in H.
  - injection H as <-. cbn. unfold normalize_char. destruct (existsb (Ascii.eqb c) bad_chars) eqn:E; split; intros U; try reflexivity; exfalso.
    + apply U. apply existsb_exists in E as (x & Hx & Hc). apply Ascii.eqb_eq in Hc. subst x. exact Hx.
    + assert (X : existsb (Ascii.eqb c) bad_chars = true) by (apply existsb_exists; exists c; split; [exact U|apply Ascii.eqb_refl]). congruence.
  - cbn. apply IH. exact H.
Qed.
Print Assumptions C74_names.
Theorem C74_names_clean_and_stable : forall s, (forall i c, String.get i (normalize_name s) = Some c -> ~ unfriendly c) /\
  normalize_name (normalize_name s) = normalize_name s.
Proof.
  assert (F : ~ unfriendly "_"%char) by (unfold unfriendly; cbn; intuition discriminate).
  assert (N : forall c, ~ unfriendly (normalize_char c)).
  { intros c. unfold normalize_char. destruct (existsb (Ascii.eqb c) bad_chars) eqn:E; [exact F|]. intros U.
    assert (X : existsb (Ascii.eqb c) bad_chars = true) by (apply existsb_exists; exists c; split; [exact U|apply Ascii.eqb_refl]). congruence. }
  induction s as [|c s [I1 I2]]; [split; [intros i c H; destruct i; discriminate|reflexivity]|]. split.
  - intros [|i] d H; cbn in H; [injection H as <-; apply N|exact (I1 i d H)].
  - cbn. f_equal; [|exact I2]. unfold normalize_char at 1. destruct (existsb (Ascii.eqb (normalize_char c)) bad_chars) eqn:E; [|reflexivity].
    exfalso. apply existsb_exists in E as (x & Hx & Hc). apply Ascii.eqb_eq in Hc. subst x. exact (N c Hx).
Qed.
Print Assumptions C74_names_clean_and_stable.
(** the result keeps the order and number of products; the two warnings are raised exactly for repeated names before and after *)
Theorem C74_product_names : forall names, let '(norm, warn_in, warn_out) := normalize_sam_product_names names in
  norm = map normalize_name names /\ (warn_in = false <-> NoDup names) /\ (warn_out = false <-> NoDup norm).
Proof.
  intros names. cbv zeta. unfold normalize_sam_product_names.
  assert (D : forall l, has_dup l = false <-> NoDup l).
  { induction l as [|x l IH]; [split; [constructor|reflexivity]|]. cbn. rewrite orb_false_iff, IH. split.
    - intros [M N]. constructor; [|exact N]. intros I. apply mem_In in I. congruence.
    - intros N. inversion N; subst. split; [|assumption]. destruct (mem x l) eqn:M; [|reflexivity]. apply mem_In in M. contradiction. }
  split; [reflexivity|]. split; apply D.
Qed.
Print Assumptions C74_product_names.
(** names are matched ignoring case and each database reads its own bundled file *)
Theorem C74_retrieve_sam : forall n p,
  retrieve_sam None None = Err ValueError /\ retrieve_sam (Some n) (Some p) = Err ValueError /\
  (lower n = "cecmod" -> retrieve_sam (Some n) None = Ok (BundledFile "sam-library-cec-modules-2019-03-05.csv")) /\
  (lower n = "sandiamod" -> retrieve_sam (Some n) None = Ok (BundledFile "sam-library-sandia-modules-2015-6-30.csv")) /\
  (lower n = "adrinverter" -> retrieve_sam (Some n) None = Ok (BundledFile "adr-library-cec-inverters-2019-03-05.csv")) /\
  (lower n = "cecinverter" \/ lower n = "sandiainverter" -> retrieve_sam (Some n) None = Ok (BundledFile "sam-library-cec-inverters-2019-03-05.csv")) /\
  (~ In (lower n) ["cecmod"; "sandiamod"; "adrinverter"; "cecinverter"; "sandiainverter"] -> retrieve_sam (Some n) None = Err KeyError).
Proof.
  intros n p. unfold retrieve_sam, getitem. do 2 (split; [reflexivity|]).
  repeat split; try (intros ->; reflexivity); [intros [->| ->]; reflexivity|].
  intros H. destruct (lookup (lower n) sam_databases) eqn:E; [|reflexivity]. exfalso. apply H. apply lookup_In in E. cbn in *.
  repeat (destruct E as [E|E]; [injection E as <- _; tauto|]). destruct E.
Qed.
Print Assumptions C74_retrieve_sam.
Theorem C74_path : forall p, (exists rest, lower p = ("http" ++ rest)%string) /\ retrieve_sam None (Some p) = Ok (FromURL p) \/
  (~ (exists rest, lower p = ("http" ++ rest)%string) /\ retrieve_sam None (Some p) = Ok (FromPath p)).
Proof.
  intros p. unfold retrieve_sam.
  assert (S : forall q s, startswith q s = true <-> exists rest, s = (q ++ rest)%string).
  { induction q as [|c q IH]; intros s; [split; [exists s; reflexivity|reflexivity]|]. destruct s as [|d s]; cbn.
    - split; [discriminate|intros (r & H); discriminate].
    - rewrite andb_true_iff, IH. split.
      + intros [E (r & ->)]. apply Ascii.eqb_eq in E. subst. exists r. reflexivity.
      + intros (r & H). injection H as -> ->. split; [apply Ascii.eqb_refl|eauto]. }
  destruct (startswith "http" (lower p)) eqn:E; [left|right]; (split; [|reflexivity]); [apply S, E|rewrite <- S; congruence].
Qed.
Print Assumptions C74_path.
Example C74_nonvacuous : normalize_name "A-10 (Pro)" = "A_10__Pro_" /\ unfriendly "-"%char /\ ~ unfriendly "A"%char.
Proof. repeat split; [cbn; tauto|unfold unfriendly; cbn; intuition discriminate]. Qed.

(** ** C75: photon energy and response conversions *)
(** the average photon energy lies between that of the longest and of the shortest wavelength *)
Theorem C75_average_photon_energy : forall h c q e lmin lmax, 0 < h -> 0 < c -> 0 < q -> ascending e -> nonneg e -> 0 < trapezoid e ->
  0 < lmin -> Forall (fun p => lmin <= fst p <= lmax) e ->
  exists E, average_photon_energy h c q e = Ok #E /\ h * c / (lmax * 1e-9) / q <= E <= h * c / (lmin * 1e-9) / q.
Proof.
  intros h c q e lmin lmax Hh Hc Hq A N P Hl B. unfold average_photon_energy.
  assert (E0 : existsb (fun p => Rltb (snd p) 0) e = false).
  { destruct (existsb _ e) eqn:E; [|reflexivity]. apply existsb_exists in E as (x & Hx & Hn). apply Rltb_true in Hn.
    pose proof (proj1 (Forall_forall _ _) N x Hx) as M. cbn in M. lra. }
  rewrite E0. assert (Hhc : 0 < h * c) by (apply Rmult_lt_0_compat; assumption).
  assert (W : map (fun p => (fst p, snd p / (h * c / (fst p * 1e-9)))) e = weigh (fun x => x * 1e-9 / (h * c)) e).
  { unfold weigh. apply map_ext_in. intros [x y] Hx. cbn. f_equal. pose proof (proj1 (Forall_forall _ _) B _ Hx) as [Q _]. cbn in Q.
    field. split; lra. }
  rewrite W.
  assert (Bf : Forall (fun p => lmin * 1e-9 / (h * c) <= fst p * 1e-9 / (h * c) <= lmax * 1e-9 / (h * c)) e).
  { eapply Forall_impl; [|exact B]. intros p [L U]. assert (0 < / (h * c)) by (apply Rinv_0_lt_compat; lra). unfold Rdiv. split; apply Rmult_le_compat_r; lra. }
  pose proof (trap_bounds (fun x => x * 1e-9 / (h * c)) _ _ e A N Bf) as [L U]. clear W Bf.
  set (F := trapezoid (weigh _ e)) in *. set (I := trapezoid e) in *.
  assert (lmin <= lmax). { destruct e as [|x e']; [unfold I in P; cbn in P; lra|]. inversion B; subst. lra. }
  assert (G0 : 0 < lmin * 1e-9 / (h * c)) by (apply Rdiv_lt_0_compat; lra).
  assert (0 < F) by nra.
  rewrite fmul_fin, fdiv_fin by lra. eexists. split; [reflexivity|].
  assert (0 < I / F) by (apply Rdiv_lt_0_compat; lra). assert (0 < / q) by (apply Rinv_0_lt_compat; lra).
  assert (IF : I = I / F * F) by (field; lra). set (g := I / F) in *.
  assert (K : forall l, 0 < l -> h * c / (l * 1e-9) / q = / (l * 1e-9 / (h * c)) * / q) by (intros; field; repeat split; lra).
  rewrite !K by lra. replace (1 / q * I / F) with (g * / q) by (unfold g; field; split; lra).
  assert (0 < lmax * 1e-9 / (h * c)) by (apply Rdiv_lt_0_compat; lra).
  split; apply Rmult_le_compat_r; try lra.
  - apply Rmult_le_reg_r with (lmax * 1e-9 / (h * c)); [lra|]. rewrite Rinv_l by lra. apply Rmult_le_reg_r with F; [lra|].
    rewrite Rmult_1_l. replace (g * (lmax * 1e-9 / (h * c)) * F) with (lmax * 1e-9 / (h * c) * (g * F)) by ring. rewrite <- IF. exact U.
  - apply Rmult_le_reg_r with (lmin * 1e-9 / (h * c)); [lra|]. rewrite Rinv_l by lra. apply Rmult_le_reg_r with F; [lra|].
    rewrite Rmult_1_l. replace (g * (lmin * 1e-9 / (h * c)) * F) with (lmin * 1e-9 / (h * c) * (g * F)) by ring. rewrite <- IF. exact L.
Qed.
Print Assumptions C75_average_photon_energy.
Theorem C75_negative_spectrum : forall h c q e, (exists p, In p e /\ snd p < 0) <-> average_photon_energy h c q e = Err ValueError.
Proof.
  intros h c q e. unfold average_photon_energy. destruct (existsb (fun p => Rltb (snd p) 0) e) eqn:E.
  - split; [reflexivity|]. intros _. apply existsb_exists in E as (p & Hp & Hn). exists p. split; [exact Hp|]. apply Rltb_true, Hn.
  - split; [|discriminate]. intros (p & Hp & Hn). exfalso.
    assert (X : existsb (fun p => Rltb (snd p) 0) e = true) by (apply existsb_exists; exists p; split; [exact Hp|apply Rltb_t, Hn]). congruence.
Qed.
Print Assumptions C75_negative_spectrum.
(** quantum efficiency <-> spectral response, sample by sample; the conversions undo each other *)
Theorem C75_response_conversion : forall kq nm sr w, length sr = length w ->
  (exists qe, sr_to_qe kq nm sr None (Some w) false = Ok qe /\ length qe = length sr /\
     forall i x l, nth_error sr i = Some x -> nth_error w i = Some l -> nth_error qe i = Some (x / l * #kq)%fl) /\
  (exists r, qe_to_sr kq nm sr None (Some w) false = Ok r /\ length r = length sr /\
     forall i x l, nth_error sr i = Some x -> nth_error w i = Some l -> nth_error r i = Some (x * l / #kq)%fl).
Proof.
  intros kq nm sr w L. split; (eexists; split; [reflexivity|]; split; [rewrite map_length, combine_length, L; apply Nat.min_id|]);
    intros i x l Hx Hl; rewrite nth_error_map, nth_error_combine, Hx, Hl; reflexivity.
Qed.
Print Assumptions C75_response_conversion.
Theorem C75_round_trip : forall kq nm sr w, kq <> 0 -> length sr = length w -> Forall (fun x => x <> 0) w ->
  (exists qe, sr_to_qe kq nm (map Fin sr) None (Some (map Fin w)) false = Ok qe /\ qe_to_sr kq nm qe None (Some (map Fin w)) false = Ok (map Fin sr)) /\
  (exists r, qe_to_sr kq nm (map Fin sr) None (Some (map Fin w)) false = Ok r /\ sr_to_qe kq nm r None (Some (map Fin w)) false = Ok (map Fin sr)).
Proof.
  intros kq nm sr w Hk L Hw. unfold sr_to_qe, qe_to_sr. cbn [wavelengths_of bind].
  split; (eexists; split; [reflexivity|]; f_equal); revert w L Hw; induction sr as [|x sr IH]; intros [|y w] L Hw; try discriminate; try reflexivity;
    inversion Hw as [|? ? Hy Hw']; subst; cbn [map combine fst snd]; (f_equal; [|apply IH; [injection L; auto|exact Hw']]).
  - rewrite fdiv_fin by exact Hy. fsx. rewrite fdiv_fin by exact Hk. f_equal. field. split; assumption.
  - fsx. rewrite fdiv_fin by exact Hk. rewrite fdiv_fin by exact Hy. fsx. f_equal. field. split; assumption.
Qed.
Print Assumptions C75_round_trip.
(** the wavelength argument wins over the index, the index is used without it, TypeError without either *)
Theorem C75_wavelengths : forall kq nm sr i w b,
  sr_to_qe kq nm sr i (Some w) b = sr_to_qe kq nm sr None (Some w) b /\ sr_to_qe kq nm sr (Some w) None b = sr_to_qe kq nm sr None (Some w) b /\
  sr_to_qe kq nm sr None None b = Err TypeError /\
  qe_to_sr kq nm sr i (Some w) b = qe_to_sr kq nm sr None (Some w) b /\ qe_to_sr kq nm sr (Some w) None b = qe_to_sr kq nm sr None (Some w) b /\
  qe_to_sr kq nm sr None None b = Err TypeError.
Proof. intros. repeat split. Qed.
Print Assumptions C75_wavelengths.
(** normalize=True applies normalize_max2one to the converted values *)
Theorem C75_normalize : forall kq nm sr w, sr_to_qe kq nm sr None (Some w) true = rmap nm (sr_to_qe kq nm sr None (Some w) false) /\
  qe_to_sr kq nm sr None (Some w) true = rmap nm (qe_to_sr kq nm sr None (Some w) false).
Proof. intros. split; reflexivity. Qed.
Print Assumptions C75_normalize.
Example C75_nonvacuous : let e := [(400, 1); (500, 2); (700, 1.5)] in ascending e /\ nonneg e /\ 0 < trapezoid e /\ Forall (fun p => 400 <= fst p <= 700) e.
Proof. cbv zeta. repeat split; [repeat constructor; cbn; lra|repeat constructor; cbn; lra|cbn; lra|repeat constructor; cbn; lra]. Qed.
