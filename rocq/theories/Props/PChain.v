(** Properties C49-C54 and C66, C67: ModelChain. *)
From Verif Require Import Base.Fl Base.FlFacts Base.Py Model.Tools Model.Pvsystem Model.System Model.ModelChain Spec.PerArraySpec Spec.ChainSpec
  Spec.PipelineSpec Proofs.PvsystemP Proofs.SystemP Proofs.ChainP Proofs.ChainW Proofs.ChainN Proofs.ChainV Proofs.ChainPipe Proofs.ChainX.
From Coq Require Import ZArith Lia.
Open Scope string_scope.
Open Scope list_scope.

(** ** A system with two arrays, sub-models that return simple series, and weather, used to show that hypotheses can be met *)
Definition ex_array (mp tp : pdict) : array := MkArray default_fixed_mount #0 None None None mp tp #2 #3 [].
Definition ex_mp : pdict := [("pdc0", VNum #100); ("gamma_pdc", VNum #0); ("b", VNum #0)].
Definition ex_tp : pdict := [("u0", VNum #25); ("u1", VNum #6)].
Definition ex_sys (k : nat) : pvsystem := MkSystem (repeat (ex_array ex_mp ex_tp) k) [("pdc0", VNum #1)] [].
Definition ex_chain (k : nat) : chain :=
  Chain (ex_sys k) "ineichen" "haydavies" "nrel_numpy" "kastenyoung1989" (Some DC_pvwatts) AC_pvwatts AOI_no_loss SP_no_loss T_faiman
    OHM_no_loss LOSS_no_loss.
Definition ex_env : env := {|
  e_solarposition := fun t _ _ _ => Ok [("apparent_zenith", map (fun _ => #30) t); ("azimuth", map (fun _ => #180) t); ("zenith", map (fun _ => #30) t)];
  e_airmass := fun _ _ => Ok [("airmass_relative", [#1]); ("airmass_absolute", [#1])];
  e_clearsky := fun t _ _ => Ok [("dni", map (fun _ => #900) t)];
  e_complete := fun z _ _ _ _ => Ok [("ghi", z); ("dhi", z); ("dni", z)];
  e_aoi := fun _ z _ => z;
  e_irradiance := fun _ _ _ _ dni ghi dhi _ _ _ => Ok [("poa_global", ghi); ("poa_direct", dni); ("poa_diffuse", dhi)];
  e_iam := fun _ a _ => Ok a; e_first_solar := fun _ w _ => Ok w; e_sapm_spectral := fun _ a => Ok a;
  e_cell_temperature := fun _ _ _ ta _ _ _ => Ok ta; e_cell_from_module := fun t _ _ => Ok t;
  e_sapm := fun _ e _ => Ok [("p_mp", e)]; e_calcparams := fun _ _ e _ => Ok [("I_L", e)]; e_singlediode := fun f => Ok f;
  e_pvwatts_dc := fun _ e _ => Ok e; e_sandia := fun _ p => Ok p; e_sandia_multi := fun _ _ => Ok []; e_adr := fun _ p => Ok p;
  e_pvwatts := fun d => Ok (match d with DcS p => p | DcF _ => [] end); e_pvwatts_multi := fun _ => Ok [#7] |}.
Definition ex_weather : dframe := DF [12%Z] [("ghi", [#800]); ("dni", [#700]); ("dhi", [#100])].
Definition ex_weather2 : dframe := DF [12%Z] [("ghi", [#300]); ("dni", [#0]); ("dhi", [#300]); ("temp_air", [#5])].

(** ** C49: inference *)
Theorem C49_dc_model : forall s, arrays s <> [] ->
  (forall k, (exists nm, infer_dc_model s = Ok (k, nm)) <-> first_match dc_candidates (in_every ar_module_parameters s) k) /\
  (forall e, infer_dc_model s = Err e <-> e = ValueError /\ no_match dc_candidates (in_every ar_module_parameters s)).
Proof. intros s H. split; [intros k; apply infer_dc_iff; exact H|intros e; apply infer_dc_err; exact H]. Qed.
Print Assumptions C49_dc_model.
Theorem C49_aoi_model : forall s, arrays s <> [] ->
  (forall k, infer_aoi_model s = Ok k <-> first_match aoi_candidates (in_every ar_module_parameters s) k) /\
  (forall e, infer_aoi_model s = Err e <-> e = ValueError /\ no_match aoi_candidates (in_every ar_module_parameters s)).
Proof.
  intros s H. rewrite infer_aoi_search. split; [intros k; apply infer_generic|intros e; apply infer_generic_err];
  intros key; apply (in_every_common ar_module_parameters s key H).
Qed.
Print Assumptions C49_aoi_model.
Theorem C49_temperature_model : forall s, arrays s <> [] ->
  (forall k, infer_temperature_model s = Ok k <-> first_match temperature_candidates (in_every ar_temperature_model_parameters s) k) /\
  (forall e, infer_temperature_model s = Err e <-> e = ValueError /\ no_match temperature_candidates (in_every ar_temperature_model_parameters s)).
Proof.
  intros s H. rewrite infer_temp_search. split; [intros k; apply infer_generic|intros e; apply infer_generic_err];
  intros key; apply (in_every_common ar_temperature_model_parameters s key H).
Qed.
Print Assumptions C49_temperature_model.
(** the inverter belongs to the system; ADR is refused for several arrays *)
Theorem C49_ac_model : forall s, let present key := In key (map fst (inverter_parameters s)) in
  (forall k, infer_ac_model s = Ok k <-> first_match ac_candidates present k /\ ~ (k = AC_adr /\ (1 < length (arrays s))%nat)) /\
  (forall e, infer_ac_model s = Err e <->
     e = ValueError /\ (no_match ac_candidates present \/ first_match ac_candidates present AC_adr /\ (1 < length (arrays s))%nat)).
Proof.
  intros s present.
  assert (I : forall k, search ac_candidates (map fst (inverter_parameters s)) = Some k <-> first_match ac_candidates present k)
    by (intros k; apply search_iff; intros key; reflexivity).
  assert (N : search ac_candidates (map fst (inverter_parameters s)) = None <-> no_match ac_candidates present)
    by (apply search_none_iff; intros key; reflexivity).
  rewrite infer_ac_search. unfold num_arrays in *.
  split; [intros k; rewrite <- I|intros e; rewrite <- N, <- I];
  destruct (search ac_candidates _) as [[]|]; destruct (Nat.ltb_spec 1 (length (arrays s))).
  all: clear I N present; split; [intros X; inversion X; subst; clear X; intuition (congruence || lia)|intros [X Y]; try (injection X as X); subst; try discriminate; intuition (congruence || lia)].
Qed.
Print Assumptions C49_ac_model.
Example C49_nonvacuous : arrays (ex_sys 2) <> [] /\ infer_dc_model (ex_sys 2) = Ok (DC_pvwatts, "pvwatts") /\
  infer_temperature_model (ex_sys 2) = Ok T_faiman /\ infer_aoi_model (ex_sys 2) = Ok AOI_ashrae /\ infer_ac_model (ex_sys 2) = Ok AC_pvwatts.
Proof. repeat split. discriminate. Qed.

(** ** C50: the setters *)
Theorem C50_dc_model : forall s cur m, arrays s <> [] ->
  let ok k := In (k, lower m) dc_names /\ forall key, In key (dc_required k) -> in_every ar_module_parameters s key in
  let ok_single := lower m = "singlediode" /\ forall key, In key (dc_required DC_desoto) -> in_every ar_module_parameters s key in
  (exists k, ok k /\ set_dc_model s cur (Some m) = (Some k, Ok tt)) \/
  (ok_single /\ set_dc_model s cur (Some m) = (cur, Ok tt)) \/
  ((forall k, ~ ok k) /\ ~ ok_single /\ set_dc_model s cur (Some m) = (cur, Err ValueError)).
Proof. exact dc_setter. Qed.
Print Assumptions C50_dc_model.
(** 'singlediode' is accepted but selects nothing: a chain without a DC model stays without one *)
Theorem C50_singlediode_selects_a_model_refuted : exists s, arrays s <> [] /\ set_dc_model s None (Some "singlediode") = (None, Ok tt).
Proof.
  exists (MkSystem [ex_array (map (fun k => (k, VNum #1)) ["alpha_sc"; "a_ref"; "I_L_ref"; "I_o_ref"; "R_sh_ref"; "R_s"]) ex_tp] [] []).
  split; [discriminate|reflexivity].
Qed.
Print Assumptions C50_singlediode_selects_a_model_refuted.
Theorem C50_dc_model_inferred : forall s cur, arrays s <> [] ->
  (no_match dc_candidates (in_every ar_module_parameters s) /\ set_dc_model s cur None = (cur, Err ValueError)) \/
  (exists k, first_match dc_candidates (in_every ar_module_parameters s) k /\
     ((forall key, In key (dc_required k) -> in_every ar_module_parameters s key) /\ set_dc_model s cur None = (Some k, Ok tt) \/
      ~ (forall key, In key (dc_required k) -> in_every ar_module_parameters s key) /\ set_dc_model s cur None = (Some k, Err ValueError))).
Proof. exact dc_setter_infer. Qed.
Print Assumptions C50_dc_model_inferred.
Theorem C50_aoi_model : forall s m,
  (exists k, In (k, lower m) aoi_names /\ set_aoi_model s (Some m) = Ok k) \/
  ((forall k, ~ In (k, lower m) aoi_names) /\ set_aoi_model s (Some m) = Err ValueError).
Proof. exact aoi_setter. Qed.
Print Assumptions C50_aoi_model.
Theorem C50_spectral_model : forall m,
  (exists k, In (k, lower m) spectral_names /\ set_spectral_model (Some m) = Ok k) \/
  ((forall k, ~ In (k, lower m) spectral_names) /\ set_spectral_model (Some m) = Err ValueError).
Proof. exact spectral_setter. Qed.
Print Assumptions C50_spectral_model.
Theorem C50_dc_ohmic_model : forall m,
  (exists k, In (k, lower m) ohmic_names /\ set_dc_ohmic_model (Some m) = Ok k) \/
  ((forall k, ~ In (k, lower m) ohmic_names) /\ set_dc_ohmic_model (Some m) = Err ValueError).
Proof. exact ohmic_setter. Qed.
Print Assumptions C50_dc_ohmic_model.
Theorem C50_losses_model : forall m,
  (exists k, In (k, lower m) losses_names /\ set_losses_model (Some m) = Ok k) \/
  ((forall k, ~ In (k, lower m) losses_names) /\ set_losses_model (Some m) = Err ValueError).
Proof. exact losses_setter. Qed.
Print Assumptions C50_losses_model.
(** a recognised temperature model is assigned even when the parameters do not fit and ValueError is raised *)
Theorem C50_temperature_model : forall s cur m, arrays s <> [] ->
  (exists k, In (k, lower m) temperature_names /\
     ((first_match temperature_candidates (in_every ar_temperature_model_parameters s) k /\ set_temperature_model s cur (Some m) = (Some k, Ok tt)) \/
      (~ first_match temperature_candidates (in_every ar_temperature_model_parameters s) k /\ set_temperature_model s cur (Some m) = (Some k, Err ValueError)))) \/
  ((forall k, ~ In (k, lower m) temperature_names) /\ set_temperature_model s cur (Some m) = (cur, Err ValueError)).
Proof. exact temp_setter. Qed.
Print Assumptions C50_temperature_model.
(** the ADR inverter is selected by every substring of 'adr', including the empty string *)
Theorem C50_ac_model : forall s m,
  (In (lower m) [""; "a"; "d"; "r"; "ad"; "dr"; "adr"] /\ set_ac_model s (Some m) = Ok AC_adr) \/
  (~ In (lower m) [""; "a"; "d"; "r"; "ad"; "dr"; "adr"] /\
   ((exists k, In (k, lower m) ac_names /\ set_ac_model s (Some m) = Ok k) \/
    ((forall k, ~ In (k, lower m) ac_names) /\ set_ac_model s (Some m) = Err ValueError))).
Proof. exact ac_setter. Qed.
Print Assumptions C50_ac_model.
Theorem C50_ac_model_documented_names_only_refuted : exists m, (forall k, ~ In (k, lower m) ac_names) /\
  forall s, set_ac_model s (Some m) = Ok AC_adr.
Proof. exists "". split; [intros k H; simpl in H; intuition discriminate|reflexivity]. Qed.
Print Assumptions C50_ac_model_documented_names_only_refuted.
(** None: inference, no spectral loss, or an error *)
Theorem C50_none : forall s cur, set_ac_model s None = infer_ac_model s /\ set_aoi_model s None = infer_aoi_model s /\
  set_spectral_model None = Ok SP_no_loss /\ set_losses_model None = Err NotImplementedError /\ set_dc_ohmic_model None = Err TypeError /\
  (forall k, infer_temperature_model s = Ok k -> set_temperature_model s cur None = (Some k, Ok tt)) /\
  (forall e, infer_temperature_model s = Err e -> set_temperature_model s cur None = (cur, Err e)).
Proof. intros. repeat split; intros x H; unfold set_temperature_model; rewrite H; reflexivity. Qed.
Print Assumptions C50_none.
Example C50_nonvacuous : set_dc_model (ex_sys 2) None (Some "PVWatts") = (Some DC_pvwatts, Ok tt) /\
  set_dc_model (ex_sys 2) (Some DC_sapm) (Some "cec") = (Some DC_sapm, Err ValueError) /\ set_aoi_model (ex_sys 2) (Some "No_Loss") = Ok AOI_no_loss /\
  set_temperature_model (ex_sys 2) None (Some "sapm") = (Some T_sapm, Err ValueError).
Proof. repeat split. Qed.

(** ** C51: a run does not depend on earlier calls *)
Theorem C51_run_model : forall E c h i, same_outcome (run_fields c) (run_model E c i (after E c h fresh_results)) (run_model E c i fresh_results).
Proof. intros. apply rel_same_outcome. apply h_run_model. Qed.
Print Assumptions C51_run_model.
Theorem C51_run_model_from_poa : forall E c h i,
  same_outcome (poa_run_fields c) (run_model_from_poa E c i (after E c h fresh_results)) (run_model_from_poa E c i fresh_results).
Proof. intros. apply rel_same_outcome. apply h_run_poa. Qed.
Print Assumptions C51_run_model_from_poa.
Theorem C51_run_model_from_effective_irradiance : forall E c h i,
  same_outcome (eff_run_fields c) (run_model_from_effective_irradiance E c i (after E c h fresh_results))
    (run_model_from_effective_irradiance E c i fresh_results).
Proof. intros. apply rel_same_outcome. apply h_run_eff. Qed.
Print Assumptions C51_run_model_from_effective_irradiance.
(** the other fields keep the values of earlier calls *)
Theorem C51_other_fields_untouched : forall E c i r f,
  (~ In f (run_fields c) -> same_field f (fst (run_model E c i r)) r) /\
  (~ In f (poa_run_fields c) -> same_field f (fst (run_model_from_poa E c i r)) r) /\
  (~ In f (eff_run_fields c) -> same_field f (fst (run_model_from_effective_irradiance E c i r)) r).
Proof. intros. repeat split; intros H; [apply k_run_model|apply k_run_poa|apply k_run_eff]; exact H. Qed.
Print Assumptions C51_other_fields_untouched.
(** complete_irradiance does depend on history: bare weather is refused after a run on a list *)
Theorem C51_complete_irradiance_history_independent_refuted : exists E c i h,
  snd (complete_irradiance E c i fresh_results) = Ok tt /\
  snd (complete_irradiance E c i (after E c h fresh_results)) = Err AttributeError.
Proof.
  exists ex_env, (ex_chain 1), (InFrame ex_weather), [CallRun (InList [ex_weather])]. split; reflexivity.
Qed.
Print Assumptions C51_complete_irradiance_history_independent_refuted.
Example C51_nonvacuous :
  snd (run_model ex_env (ex_chain 2) (InFrame ex_weather) (after ex_env (ex_chain 2) [CallEff (InFrame ex_weather); CallPoa (InList [])] fresh_results)) = Ok tt.
Proof. reflexivity. Qed.

(** ** C52: bare input against a 1-element list *)
Theorem C52_run_model : forall E c a d r1 r2, arrays (c_system c) = [a] -> c_ac_model c <> AC_adr ->
  wrapped_outcome (run_fields c) (run_model E c (InFrame d) r1) (run_model E c (InList [d]) r2).
Proof. intros E c a d r1 r2 HA H. apply rel_wrapped_outcome. exact (x_run_model E c a HA d H). Qed.
Print Assumptions C52_run_model.
Theorem C52_run_model_from_poa : forall E c a d r1 r2, arrays (c_system c) = [a] -> c_ac_model c <> AC_adr ->
  wrapped_outcome (poa_run_fields c) (run_model_from_poa E c (InFrame d) r1) (run_model_from_poa E c (InList [d]) r2).
Proof. intros E c a d r1 r2 HA H. apply rel_wrapped_outcome. exact (x_run_poa E c a HA d H). Qed.
Print Assumptions C52_run_model_from_poa.
Theorem C52_run_model_from_effective_irradiance : forall E c a d r1 r2, arrays (c_system c) = [a] -> c_ac_model c <> AC_adr ->
  wrapped_outcome (eff_run_fields c) (run_model_from_effective_irradiance E c (InFrame d) r1)
    (run_model_from_effective_irradiance E c (InList [d]) r2).
Proof. intros E c a d r1 r2 HA H. apply rel_wrapped_outcome. exact (x_run_eff E c a HA d H). Qed.
Print Assumptions C52_run_model_from_effective_irradiance.
Theorem C52_tuple_or_list : forall E c l r, run_model E c (InTuple l) r = run_model E c (InList l) r /\
  run_model_from_poa E c (InTuple l) r = run_model_from_poa E c (InList l) r /\
  run_model_from_effective_irradiance E c (InTuple l) r = run_model_from_effective_irradiance E c (InList l) r.
Proof. exact tuple_same. Qed.
Print Assumptions C52_tuple_or_list.
(** with the ADR inverter the list form raises TypeError where the bare form succeeds *)
Definition ex_adr : chain :=
  Chain (ex_sys 1) "ineichen" "haydavies" "nrel_numpy" "kastenyoung1989" (Some DC_sapm) AC_adr AOI_no_loss SP_no_loss T_faiman
    OHM_no_loss LOSS_no_loss.
Definition ex_env_adr : env := {|
  e_solarposition := e_solarposition ex_env; e_airmass := e_airmass ex_env; e_clearsky := e_clearsky ex_env; e_complete := e_complete ex_env;
  e_aoi := e_aoi ex_env; e_irradiance := e_irradiance ex_env; e_iam := e_iam ex_env; e_first_solar := e_first_solar ex_env;
  e_sapm_spectral := e_sapm_spectral ex_env; e_cell_temperature := e_cell_temperature ex_env; e_cell_from_module := e_cell_from_module ex_env;
  e_sapm := fun _ e _ => Ok [("i_sc", e); ("i_mp", e); ("v_oc", e); ("v_mp", e); ("p_mp", e); ("i_x", e); ("i_xx", e)];
  e_calcparams := e_calcparams ex_env; e_singlediode := e_singlediode ex_env; e_pvwatts_dc := e_pvwatts_dc ex_env;
  e_sandia := e_sandia ex_env; e_sandia_multi := e_sandia_multi ex_env; e_adr := e_adr ex_env; e_pvwatts := e_pvwatts ex_env;
  e_pvwatts_multi := e_pvwatts_multi ex_env |}.
Theorem C52_adr_inverter_refuted : exists E c a d, arrays (c_system c) = [a] /\ c_ac_model c = AC_adr /\
  snd (run_model E c (InFrame d) fresh_results) = Ok tt /\ snd (run_model E c (InList [d]) fresh_results) = Err TypeError.
Proof. exists ex_env_adr, ex_adr, (ex_array ex_mp ex_tp), ex_weather. repeat split. Qed.
Print Assumptions C52_adr_inverter_refuted.
Example C52_nonvacuous : arrays (c_system (ex_chain 1)) = [ex_array ex_mp ex_tp] /\ c_ac_model (ex_chain 1) <> AC_adr /\
  snd (run_model ex_env (ex_chain 1) (InFrame ex_weather) fresh_results) = Ok tt.
Proof. repeat split. discriminate. Qed.

(** ** C53: measured temperatures take precedence; see cell_temp and heating in Spec/PipelineSpec.v *)
Lemma back_temp E c i r : back E c i r -> exists t tis, times r = Some t /\ length tis = length (arrays (c_system c)) /\
  (forall k, (k < length (arrays (c_system c)))%nat -> nth_error tis k = at_k (total_irrad r) k) /\
  forall k a d, nth_error (arrays (c_system c)) k = Some a -> input_for i k = Some d -> exists eff poa tc,
    at_k (effective_irradiance r) k = Some eff /\ heating tis k (Some eff) poa /\ at_k (cell_temperature r) k = Some tc /\ cell_temp E c t a d poa eff tc.
Proof.
  intros (t & tis & dcs & out & T & _ & _ & L & N & H & _). exists t, tis. repeat split; auto. intros k a d Ha Hd.
  destruct (H k a d Ha Hd) as (eff & poa & tc & x & y & z & H1 & H2 & H3 & H4 & _). eauto 10.
Qed.
Theorem C53_temperature : forall E c i r r', arrays (c_system c) <> [] ->
  run_model E c i r = (r', Ok tt) \/ run_model_from_poa E c i r = (r', Ok tt) \/ run_model_from_effective_irradiance E c i r = (r', Ok tt) ->
  exists t tis, times r' = Some t /\ length tis = length (arrays (c_system c)) /\
    (forall k, (k < length (arrays (c_system c)))%nat -> nth_error tis k = at_k (total_irrad r') k) /\
    forall k a d, nth_error (arrays (c_system c)) k = Some a -> input_for i k = Some d -> exists eff poa tc,
      at_k (effective_irradiance r') k = Some eff /\ heating tis k (Some eff) poa /\
      at_k (cell_temperature r') k = Some tc /\ cell_temp E c t a d poa eff tc.
Proof.
  intros E c i r r' Hne [H|[H|H]]; apply (back_temp E c).
  - destruct (pipe_run_model E c i r r' Hne H) as [(sp & am & t & _ & _ & _ & _ & B) _]. exact B.
  - destruct (pipe_run_poa E c i r r' Hne H) as [(sp & am & _ & _ & _ & B) _]. exact B.
  - destruct (pipe_run_eff E c i r r' Hne H) as [(_ & _ & _ & B) _]. exact B.
Qed.
Print Assumptions C53_temperature.
Example C53_nonvacuous : let p := run_model_from_effective_irradiance ex_env (ex_chain 1)
    (InFrame (DF [12%Z] [("effective_irradiance", [#900]); ("cell_temperature", [#41])])) fresh_results in
  snd p = Ok tt /\ cell_temperature (fst p) = Some (Bare [#41]).
Proof. split; reflexivity. Qed.

(** ** C54: validation, for any sub-models; the results object is as it was *)
Theorem C54_run_model : forall E c i r,
  ~ (one_per_array (length (arrays (c_system c))) i /\ same_index i /\ has_columns ["ghi"; "dni"; "dhi"] i) ->
  run_model E c i r = (r, Err ValueError).
Proof. exact invalid_run_model. Qed.
Print Assumptions C54_run_model.
Theorem C54_run_model_from_poa : forall E c i r, let n := length (arrays (c_system c)) in
  (n <> 1%nat /\ (exists d, i = InFrame d) /\ run_model_from_poa E c i r = (r, Err TypeError)) \/
  ((n = 1%nat \/ forall d, i <> InFrame d) /\
   (~ (one_per_array n i /\ same_index i) -> run_model_from_poa E c i r = (r, Err ValueError)) /\
   (one_per_array n i /\ same_index i -> frames i <> [] -> ~ has_columns ["poa_global"; "poa_direct"; "poa_diffuse"] i ->
    snd (run_model_from_poa E c i r) = Err ValueError /\
    forall f, f <> F_weather -> f <> F_times -> same_field f (fst (run_model_from_poa E c i r)) r)).
Proof. exact invalid_run_poa. Qed.
Print Assumptions C54_run_model_from_poa.
Theorem C54_run_model_from_effective_irradiance : forall E c i r, let n := length (arrays (c_system c)) in
  (n <> 1%nat /\ (exists d, i = InFrame d) /\ run_model_from_effective_irradiance E c i r = (r, Err TypeError)) \/
  ((n = 1%nat \/ forall d, i <> InFrame d) /\
   (~ (one_per_array n i /\ same_index i /\ has_columns ["effective_irradiance"] i) ->
    run_model_from_effective_irradiance E c i r = (r, Err ValueError))).
Proof. exact invalid_run_eff. Qed.
Print Assumptions C54_run_model_from_effective_irradiance.
(** valid data pass validation: their weather is in the results whatever the sub-models then do *)
Theorem C54_valid_data_accepted : forall E c i r, let n := length (arrays (c_system c)) in
  frames i <> [] -> one_per_array n i -> same_index i ->
  (has_columns ["ghi"; "dni"; "dhi"] i -> weather_kept i n (fst (run_model E c i r))) /\
  ((n = 1%nat \/ forall d, i <> InFrame d) ->
     weather_kept i n (fst (run_model_from_poa E c i r)) /\
     (has_columns ["effective_irradiance"] i -> weather_kept i n (fst (run_model_from_effective_irradiance E c i r)))).
Proof.
  intros E c i r n Hne H1 H2. split; [|intros S; split]; intros;
  [apply valid_run_model|apply valid_run_poa|apply valid_run_eff]; assumption.
Qed.
Print Assumptions C54_valid_data_accepted.
Example C54_nonvacuous :
  ~ has_columns ["ghi"; "dni"; "dhi"] (InFrame (DF [] [])) /\ ~ same_index (InList [ex_weather; DF [13%Z] []]) /\
  (frames (InList [ex_weather; ex_weather2]) <> [] /\ one_per_array 2 (InList [ex_weather; ex_weather2]) /\ same_index (InList [ex_weather; ex_weather2]) /\
   has_columns ["ghi"; "dni"; "dhi"] (InList [ex_weather; ex_weather2])).
Proof.
  split; [intros H; apply (H (DF [] []) "ghi"); simpl; tauto|]. split.
  - intros H. specialize (H ex_weather (DF [13%Z] []) ltac:(simpl; tauto) ltac:(simpl; tauto)). discriminate H.
  - split; [discriminate|]. split; [reflexivity|]. split.
    + intros d d' [<-|[<-|[]]] [<-|[<-|[]]]; reflexivity.
    + intros d k [<-|[<-|[]]] [<-|[<-|[<-|[]]]]; simpl; tauto.
Qed.

(** ** C66: what a successful run computes *)
Theorem C66_run_model : forall E c i r r', arrays (c_system c) <> [] -> run_model E c i r = (r', Ok tt) ->
  run_model_computes E c i r' /\ stored_all (length (arrays (c_system c))) i r'.
Proof. exact pipe_run_model. Qed.
Print Assumptions C66_run_model.
Theorem C66_run_model_from_poa : forall E c i r r', arrays (c_system c) <> [] -> run_model_from_poa E c i r = (r', Ok tt) ->
  run_from_poa_computes E c i r' /\ stored_all (length (arrays (c_system c))) i r'.
Proof. exact pipe_run_poa. Qed.
Print Assumptions C66_run_model_from_poa.
Theorem C66_run_model_from_effective_irradiance : forall E c i r r', arrays (c_system c) <> [] ->
  run_model_from_effective_irradiance E c i r = (r', Ok tt) ->
  run_from_effective_computes E c i r' /\ stored_back (length (arrays (c_system c))) i r'.
Proof. exact pipe_run_eff. Qed.
Print Assumptions C66_run_model_from_effective_irradiance.
(** every system has an array *)
Theorem C66_systems_have_arrays : forall arr st sa al sty m mt mp tp mps spi ip rk lp s,
  pvsystem_init arr st sa al sty m mt mp tp mps spi ip rk lp = Ok s -> arrays s <> [].
Proof. exact pvsystem_init_arrays. Qed.
Print Assumptions C66_systems_have_arrays.
Example C66_nonvacuous : let p := run_model ex_env (ex_chain 2) (InList [ex_weather; ex_weather2]) fresh_results in
  snd p = Ok tt /\ cell_temperature (fst p) = Some (Tup [[#20]; [#5]]).
Proof. split; reflexivity. Qed.

(** ** C67: complete_irradiance *)
Theorem C67_complete_irradiance : forall E c i r r', arrays (c_system c) <> [] -> complete_irradiance E c i r = (r', Ok tt) ->
  complete_computes E c i r' /\ same_index i.
Proof. exact complete_ok. Qed.
Print Assumptions C67_complete_irradiance.
Example C67_nonvacuous : snd (complete_irradiance ex_env (ex_chain 2)
  (InList [ex_weather; DF [12%Z] [("ghi", [#800]); ("dhi", [#100])]]) fresh_results) = Ok tt.
Proof. reflexivity. Qed.
