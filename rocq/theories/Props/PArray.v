(** Properties C68-C70: construction of Array and PVSystem, what their methods pass on, inverter dispatch. *)
From Verif Require Import Base.Fl Base.FlFacts Base.Py Model.Tools Model.Atmosphere Model.Irradiance Model.Tracking Model.Iam
  Model.Temperature Model.Spectrum Model.Inverter Model.Pvsystem Model.System Spec.ArraySpec Spec.PerArraySpec Proofs.PvsystemP Proofs.SystemP Proofs.ArrayP.
From Coq Require Import Arith Lia.
Open Scope string_scope.
Open Scope list_scope.

(** ** C68: construction *)
Theorem C68_inferred_temperature_parameters : forall racking mt, let set := (show_opt racking ++ "_" ++ show_opt mt)%string in
  (forall p, In (set, p) sapm_mountings -> infer_temperature_model_params racking mt = Ok (sapm_dict p)) /\
  ((forall p, ~ In (set, p) sapm_mountings) ->
    (substring "freestanding" set -> infer_temperature_model_params racking mt = Ok (pvsyst_dict 29.0)) /\
    (~ substring "freestanding" set -> substring "insulated" set -> infer_temperature_model_params racking mt = Ok (pvsyst_dict 15.0)) /\
    (~ substring "freestanding" set -> ~ substring "insulated" set -> substring "semi_integrated" set ->
       infer_temperature_model_params racking mt = Ok (pvsyst_dict 20.0)) /\
    (~ substring "freestanding" set -> ~ substring "insulated" set -> ~ substring "semi_integrated" set ->
       infer_temperature_model_params racking mt = Ok [])).
Proof. exact infer_temp_spec. Qed.
Print Assumptions C68_inferred_temperature_parameters.
(** explicit values are kept; an absent albedo comes from the surface type, or is 0.25 *)
Theorem C68_array : forall m alb sty md mt mp tp mps st lp a,
  array_init m alb sty md mt mp tp mps st lp = Ok a ->
  ar_mount a = m /\ ar_surface_type a = sty /\ ar_module a = md /\ ar_module_type a = mt /\
  ar_modules_per_string a = mps /\ ar_strings a = st /\
  ar_module_parameters a = (match mp with Some d => d | None => [] end) /\
  ar_array_losses_parameters a = (match lp with Some d => d | None => [] end) /\
  (forall x, alb = Some x -> ar_albedo a = x) /\
  (alb = None -> forall s x, sty = Some s -> lookup s SURFACE_ALBEDOS = Some x -> ar_albedo a = x) /\
  (alb = None -> (forall s, sty = Some s -> lookup s SURFACE_ALBEDOS = None) -> ar_albedo a = #0.25) /\
  (forall d, tp = Some d -> ar_temperature_model_parameters a = d) /\
  (tp = None -> infer_temperature_model_params (racking_model m) mt = Ok (ar_temperature_model_parameters a)).
Proof.
  intros m alb sty md mt mp tp mps st lp a. unfold array_init.
  destruct (match tp with None => _ | Some d => Ok d end) as [t|] eqn:T; cbn [bind]; [|discriminate]. intros [= <-]. cbn.
  repeat split.
  - intros x ->. reflexivity.
  - intros -> s x -> H. rewrite H. reflexivity.
  - intros -> H. destruct sty as [s|]; [rewrite (H s eq_refl)|]; reflexivity.
  - intros d ->. congruence.
  - intros ->. exact T.
Qed.
Print Assumptions C68_array.
(** construction never fails for a single array *)
Theorem C68_array_total : forall m alb sty md mt mp tp mps st lp, exists a, array_init m alb sty md mt mp tp mps st lp = Ok a.
Proof.
  intros. unfold array_init. destruct tp as [d|]; cbn [bind]; [eauto|].
  destruct (infer_temp_spec (racking_model m) mt) as [A B]. cbv zeta in *.
  destruct (mem (show_opt (racking_model m) ++ "_" ++ show_opt mt)%string (map fst sapm_mountings)) eqn:M.
  - apply mem_In, in_map_iff in M as ((s & p) & E & I). cbn in E. subst s. rewrite (A p I). cbn. eauto.
  - assert (N : forall p, ~ In ((show_opt (racking_model m) ++ "_" ++ show_opt mt)%string, p) sapm_mountings).
    { intros p I. apply (in_map fst) in I. apply mem_In in I. cbn [fst] in I. congruence. }
    destruct (B N) as (B1 & B2 & B3 & B4).
    destruct (contains "freestanding" (show_opt (racking_model m) ++ "_" ++ show_opt mt)%string) eqn:C1; [rewrite (B1 (proj1 (contains_iff _ _) C1)); cbn; eauto|].
    destruct (contains "insulated" (show_opt (racking_model m) ++ "_" ++ show_opt mt)%string) eqn:C2;
      [rewrite B2; [cbn; eauto|rewrite <- contains_iff; congruence|apply contains_iff; exact C2]|].
    destruct (contains "semi_integrated" (show_opt (racking_model m) ++ "_" ++ show_opt mt)%string) eqn:C3;
      [rewrite B3; [cbn; eauto|rewrite <- contains_iff; congruence|rewrite <- contains_iff; congruence|apply contains_iff; exact C3]|].
    rewrite B4; [cbn; eauto|rewrite <- contains_iff; congruence..].
Qed.
Print Assumptions C68_array_total.
Theorem C68_system_of_arrays : forall st sa al sty m mt mp tp mps spi ip rk lp,
  let inv := match ip with Some d => d | None => [] end in let los := match lp with Some d => d | None => [] end in
  (forall a, pvsystem_init (OneArray a) st sa al sty m mt mp tp mps spi ip rk lp = Ok (MkSystem [a] inv los)) /\
  (forall a l, pvsystem_init (ArrayList (a :: l)) st sa al sty m mt mp tp mps spi ip rk lp = Ok (MkSystem (a :: l) inv los)) /\
  pvsystem_init (ArrayList []) st sa al sty m mt mp tp mps spi ip rk lp = Err ValueError.
Proof. intros. repeat split. Qed.
Print Assumptions C68_system_of_arrays.
(** without arrays, one fixed-tilt array with the given parameters; only dc_ohmic_percent is copied from the losses *)
Theorem C68_default_array : forall st sa al sty m mt mp tp mps spi ip rk lp s,
  pvsystem_init ArraysNone st sa al sty m mt mp tp mps spi ip rk lp = Ok s ->
  exists a losses, arrays s = [a] /\
    array_init (Mount (FixedMount st sa) rk None) al sty m mt mp tp mps spi (Some losses) = Ok a /\
    (forall k, lookup k losses = if String.eqb k "dc_ohmic_percent" then match lp with Some d => lookup k d | None => None end else None) /\
    inverter_parameters s = (match ip with Some d => d | None => [] end) /\ losses_parameters s = (match lp with Some d => d | None => [] end).
Proof.
  intros st sa al sty m mt mp tp mps spi ip rk lp s. unfold pvsystem_init.
  set (lo := match lp with None => [] | Some d => build_kwargs ["dc_ohmic_percent"] d end).
  destruct (array_init _ _ _ _ _ _ _ _ _ _) as [a|] eqn:A; cbn [bind]; [|discriminate]. intros [= <-]. exists a, lo.
  split; [reflexivity|]. split; [exact A|]. split; [|split; reflexivity]. intros k. unfold lo. destruct lp as [d|].
  - rewrite lookup_kwargs. cbn. destruct (String.eqb k "dc_ohmic_percent"); reflexivity.
  - cbn. destruct (String.eqb k "dc_ohmic_percent"); reflexivity.
Qed.
Print Assumptions C68_default_array.
Theorem C68_cell_type : forall a, let mp := ar_module_parameters a in
  (forall s, lookup "Technology" mp = Some (VStr s) -> cell_type s (array_infer_cell_type a)) /\
  (forall s, lookup "Technology" mp = None -> lookup "Material" mp = Some (VStr s) -> cell_type s (array_infer_cell_type a)) /\
  (lookup "Technology" mp = None -> lookup "Material" mp = None -> array_infer_cell_type a = Ok None).
Proof.
  intros a mp. unfold array_infer_cell_type. fold mp. repeat split.
  - intros s H. rewrite H. exact (cell_type_spec (VStr s)).
  - intros s H1 H2. rewrite H1, H2. exact (cell_type_spec (VStr s)).
  - intros H1 H2. rewrite H1, H2. reflexivity.
Qed.
Print Assumptions C68_cell_type.
Example C68_nonvacuous : In ((show_opt (Some "open_rack") ++ "_" ++ show_opt (Some "glass_glass"))%string, (-3.47, -0.0594, 3)%R) sapm_mountings /\
  substring "insulated" (show_opt (Some "insulated") ++ "_" ++ show_opt None)%string /\
  cell_type "Mono-c-Si" (Ok (Some "monosi")) /\ lookup "grass" SURFACE_ALBEDOS = Some #0.20.
Proof.
  split; [cbn; auto|]. split; [exists "", "_None"; reflexivity|]. split; [|reflexivity].
  left. exists "monosi", ["Mono-c-Si"; "HIT-Si"; "a-Si / mono-Si"]. cbn; auto.
Qed.

(** ** C69: what the methods of an array pass on *)
Theorem C69_orientation : forall a z az,
  (forall t s, m_kind (ar_mount a) = FixedMount t s -> array_get_aoi a z az = aoi t s z az /\ get_orientation (ar_mount a) z az = (t, s)) /\
  (forall at_ aa ml b g c, m_kind (ar_mount a) = SingleAxisTrackerMount at_ aa ml b g c ->
     let tr := singleaxis z az at_ aa ml b g c in
     array_get_aoi a z az = aoi (t_surface_tilt tr) (t_surface_azimuth tr) z az /\ get_orientation (ar_mount a) z az = (t_surface_tilt tr, t_surface_azimuth tr)).
Proof. intros. unfold array_get_aoi, get_orientation. split; intros; rewrite H; split; reflexivity. Qed.
Print Assumptions C69_orientation.
Theorem C69_irradiance : forall f ie a z az dni ghi dhi ex am alb model st mp t s,
  get_orientation (ar_mount a) z az = (t, s) ->
  let ex' := match ex, ie with Some x, _ => x | None, Some x => x | None, None => #1367.0 end in
  let alb' := match alb with Some x => x | None => ar_albedo a end in
  forall am', (am = Some am' \/ am = None /\ get_relative_airmass z "kastenyoung1989" = Ok am') ->
  array_get_irradiance f ie a z az dni ghi dhi ex am alb model st mp =
  get_total_irradiance f t s z az dni ghi dhi (Some ex') (Some am') alb' st model mp false.
Proof.
  intros f ie a z az dni ghi dhi ex am alb model st mp t s HO ex' alb' am' H. unfold array_get_irradiance. rewrite HO.
  assert (A : match am with Some x => Ok x | None => get_relative_airmass z "kastenyoung1989" end = Ok am') by (destruct H as [->|[-> H]]; auto).
  rewrite A. cbn [bind]. unfold ex', alb'. destruct ex, ie, alb; reflexivity.
Qed.
Print Assumptions C69_irradiance.
Ltac kwo := repeat match goal with
  | H : number_or ?d ?k _ ?x |- context[kw_opt (build_kwargs ?keys ?d) ?k ?r] => rewrite (kw_opt_number keys d k r x eq_refl H); cbn [bind]
  | H : maybe_number ?d ?k ?x |- context[kw_opt_none (build_kwargs ?keys ?d) ?k] => rewrite (kw_none_number keys d k x eq_refl H); cbn [bind]
  end.
Theorem C69_iam : forall spline a x m, let mp := ar_module_parameters a in
  (lower m = "ashrae" -> forall b, number_or mp "b" #0.05 b -> array_get_iam spline a x m = Ok (ashrae x b)) /\
  (lower m = "physical" -> forall n K L n_ar, number_or mp "n" #1.526 n -> number_or mp "K" #4.0 K -> number_or mp "L" #0.002 L ->
     maybe_number mp "n_ar" n_ar -> array_get_iam spline a x m = Ok (physical x n K L n_ar)) /\
  (lower m = "martin_ruiz" -> forall a_r, number_or mp "a_r" #0.16 a_r -> array_get_iam spline a x m = martin_ruiz x a_r) /\
  (lower m = "interp" -> forall t i meth norm, lookup "theta_ref" mp = Some (VList t) -> lookup "iam_ref" mp = Some (VList i) ->
     (lookup "method" mp = Some (VStr meth) \/ lookup "method" mp = None /\ meth = "linear") ->
     (lookup "normalize" mp = Some (VBool norm) \/ lookup "normalize" mp = None /\ norm = true) ->
     array_get_iam spline a x m = interp spline x t i meth norm) /\
  (lower m = "schlick" -> array_get_iam spline a x m = Ok (schlick x)) /\
  (lower m = "sapm" -> NoDup (map fst mp) -> forall b0 b1 b2 b3 b4 b5, number mp "B0" b0 -> number mp "B1" b1 -> number mp "B2" b2 ->
     number mp "B3" b3 -> number mp "B4" b4 -> number mp "B5" b5 ->
     array_get_iam spline a x m = Ok (iam_sapm x (SapmB b0 b1 b2 b3 b4 b5) None)) /\
  (~ In (lower m) ["ashrae"; "physical"; "martin_ruiz"; "interp"; "schlick"; "sapm"] -> array_get_iam spline a x m = Err ValueError).
Proof.
  intros spline a x m mp. unfold array_get_iam. fold mp. cbv zeta.
  split; [intros ->; cbn [String.eqb Ascii.eqb Bool.eqb]; intros; kwo; reflexivity|].
  split; [intros ->; cbn [String.eqb Ascii.eqb Bool.eqb]; intros; kwo; reflexivity|].
  split; [intros ->; cbn [String.eqb Ascii.eqb Bool.eqb]; intros; kwo; reflexivity|].
  split.
  { intros ->; cbn [String.eqb Ascii.eqb Bool.eqb]; intros t i meth norm H1 H2 H3 H4. rewrite !lookup_kwargs. cbn [mem existsb String.eqb Ascii.eqb Bool.eqb orb].
    rewrite H1, H2. destruct H3 as [->|[-> ->]], H4 as [->|[-> ->]]; reflexivity. }
  split; [intros ->; reflexivity|].
  split.
  { intros -> ND; cbn [String.eqb Ascii.eqb Bool.eqb]; intros. unfold sapm_b_of, getitem.
    rewrite (nums_lookup mp "B5" b5), (nums_lookup mp "B4" b4), (nums_lookup mp "B3" b3), (nums_lookup mp "B2" b2), (nums_lookup mp "B1" b1), (nums_lookup mp "B0" b0) by assumption.
    reflexivity. }
  intros N. cbn [In] in N.
  repeat match goal with |- context[String.eqb (lower m) ?k] => destruct (String.eqb_spec (lower m) k) as [E|_]; [exfalso; apply N; rewrite E; tauto|] end. reflexivity.
Qed.
Print Assumptions C69_iam.
Lemma args_numbers keys d l : Forall2 (fun k x => number d k x) keys l -> (let* l := build_args keys d in mapM as_num l) = Ok l.
Proof.
  intros H. unfold build_args. induction H as [|k x keys l Hk H IH]; [reflexivity|]. cbn [mapM].
  rewrite (getitem_number _ _ _ Hk). cbn [bind]. destruct (mapM (getitem d) keys) as [vs|]; cbn [bind] in *; [|discriminate].
  cbn [mapM as_num bind]. rewrite IH. reflexivity.
Qed.
Lemma args_missing keys d : (exists k, In k keys /\ lookup k d = None) -> (let* l := build_args keys d in mapM as_num l) = Err KeyError.
Proof.
  intros (k & I & N). unfold build_args. assert (mapM (getitem d) keys = Err KeyError) as ->; [|reflexivity].
  induction keys as [|k' keys IH]; [destruct I|]. cbn [mapM]. unfold getitem at 1. destruct (lookup k' d) eqn:L; [|reflexivity].
  cbn [bind]. destruct I as [->|I]; [congruence|]. rewrite (IH I). reflexivity.
Qed.
Lemma elementwise_ok g rows : elementwise (fun r => Ok (g r)) rows = Ok (map g rows).
Proof. unfold elementwise. cbn [bind]. induction rows as [|r rows IH]; [reflexivity|]. cbn [mapM]. rewrite IH. reflexivity. Qed.
(** cell temperature models: required parameters from temperature_model_parameters (KeyError when absent), the others with their
    defaults; PVsyst takes efficiency and absorption from the module parameters *)
Theorem C69_cell_temperature : forall times a rows, let tp := ar_temperature_model_parameters a in let mp := ar_module_parameters a in
  let run := array_get_cell_temperature times a rows in
  (forall pa pb dT ir, number tp "a" pa -> number tp "b" pb -> number tp "deltaT" dT -> number_or tp "irrad_ref" #1000 ir ->
     run "sapm" = Ok (map (fun r => sapm_cell (ts_poa r) (ts_temp r) (ts_wind r) pa pb dT ir) rows)) /\
  (forall uc uv e al, number_or tp "u_c" #29.0 uc -> number_or tp "u_v" #0.0 uv -> number_or mp "module_efficiency" #0.1 e ->
     number_or mp "alpha_absorption" #0.9 al ->
     run "pvsyst" = Ok (map (fun r => pvsyst_cell (ts_poa r) (ts_temp r) (ts_wind r) uc uv e al) rows)) /\
  (forall u0 u1, number_or tp "u0" #25.0 u0 -> number_or tp "u1" #6.84 u1 ->
     run "faiman" = Ok (map (fun r => faiman (ts_poa r) (ts_temp r) (ts_wind r) u0 u1) rows)) /\
  (forall u0 u1 sv em, number_or tp "u0" #25.0 u0 -> number_or tp "u1" #6.84 u1 -> number_or tp "sky_view" #1.0 sv -> number_or tp "emissivity" #0.88 em ->
     run "faiman_rad" = Ok (map (fun r => faiman_rad (ts_poa r) (ts_temp r) (ts_wind r) (ts_lw r) u0 u1 sv em) rows)) /\
  (forall noct mh wh em ab ti mw ml, number tp "noct_installed" noct ->
     (module_height (ar_mount a) = Some mh \/ module_height (ar_mount a) = None /\ mh = #5) ->
     number_or tp "wind_height" #9.144 wh -> number_or tp "emissivity" #0.84 em -> number_or tp "absorption" #0.83 ab ->
     number_or tp "surface_tilt" #30 ti -> number_or tp "module_width" #0.31579 mw -> number_or tp "module_length" #1.2 ml ->
     run "fuentes" = fuentes times (map ts_poa rows) (map ts_temp rows) (map ts_wind rows) noct mh wh em ab ti mw ml) /\
  (forall noct e ta ah ms, number tp "noct" noct -> number tp "module_efficiency" e -> number_or tp "transmittance_absorptance" #0.9 ta ->
     number_or tp "array_height" #1 ah -> number_or tp "mount_standoff" #4 ms ->
     run "noct_sam" = elementwise (fun r => noct_sam (ts_poa r) (ts_temp r) (ts_wind r) noct e (ts_eff r) ta ah ms) rows) /\
  (forall noct k, maybe_number tp "noct" noct -> maybe_number tp "k" k ->
     run "ross" = elementwise (fun r => ross (ts_poa r) (ts_temp r) noct k) rows) /\
  (forall m, ~ In m ["sapm"; "pvsyst"; "faiman"; "faiman_rad"; "fuentes"; "noct_sam"; "ross"] -> run m = Err ValueError) /\
  ((exists k, In k ["a"; "b"; "deltaT"] /\ lookup k tp = None) -> run "sapm" = Err KeyError) /\
  (lookup "noct_installed" tp = None -> run "fuentes" = Err KeyError) /\
  ((exists k, In k ["noct"; "module_efficiency"] /\ lookup k tp = None) -> run "noct_sam" = Err KeyError).
Proof.
  intros times a rows tp mp run. unfold run, array_get_cell_temperature. fold tp. fold mp. cbv zeta. cbn [String.eqb Ascii.eqb Bool.eqb].
  split.
  { intros. rewrite (args_numbers ["a"; "b"; "deltaT"] tp [pa; pb; dT]) by (repeat constructor; assumption). cbn [bind]. kwo. apply elementwise_ok. }
  split.
  { intros.
    assert (Q : forall k r x, (In k ["module_efficiency"; "alpha_absorption"] -> number_or mp k #r x) -> (In k ["u_c"; "u_v"] -> number_or tp k #r x) ->
       In k ["module_efficiency"; "alpha_absorption"; "u_c"; "u_v"] ->
       kw_opt (build_kwargs ["module_efficiency"; "alpha_absorption"] mp ++ build_kwargs ["u_c"; "u_v"] tp) k r = Ok x).
    { intros k r x H3 H4 H5. unfold kw_opt. rewrite lookup_app, !lookup_kwargs.
      destruct H5 as [<-|[<-|[<-|[<-|[]]]]]; cbn [mem existsb String.eqb Ascii.eqb Bool.eqb orb];
      first [destruct (H3 ltac:(cbn; tauto)) as [Hn|[Hn ->]]|destruct (H4 ltac:(cbn; tauto)) as [Hn|[Hn ->]]]; unfold number in *; rewrite Hn; reflexivity. }
    rewrite (Q "u_c" 29.0%R uc), (Q "u_v" 0.0%R uv), (Q "module_efficiency" 0.1%R e), (Q "alpha_absorption" 0.9%R al);
      try (cbn; tauto); try (intros; assumption); try (cbn; intros; intuition discriminate). cbn [bind]. apply elementwise_ok. }
  split; [intros; kwo; apply elementwise_ok|]. split; [intros; kwo; apply elementwise_ok|].
  split.
  { intros noct mh wh em ab ti mw ml HN HM. intros. rewrite (args_numbers ["noct_installed"] tp [noct]) by (repeat constructor; assumption). cbn [bind].
    destruct HM as [HM|[HM ->]]; rewrite HM; cbn [bind]; kwo; reflexivity. }
  split.
  { intros. rewrite (args_numbers ["noct"; "module_efficiency"] tp [noct; e]) by (repeat constructor; assumption). cbn [bind]. kwo. reflexivity. }
  split; [intros; kwo; reflexivity|].
  split.
  { intros m N. cbn [In] in N.
    repeat match goal with |- context[String.eqb m ?k] => destruct (String.eqb_spec m k) as [E|_]; [exfalso; apply N; rewrite E; tauto|] end. reflexivity. }
  split; [intros H; rewrite (args_missing _ _ H); reflexivity|].
  split; [intros H; rewrite (args_missing ["noct_installed"] tp) by (eexists; split; [left; reflexivity|exact H]); reflexivity|].
  intros H; rewrite (args_missing _ _ H); reflexivity.
Qed.
Print Assumptions C69_cell_temperature.
Theorem C69_pvwatts_dc : forall a e t p g tr k cap, let mp := ar_module_parameters a in
  number mp "pdc0" p -> number mp "gamma_pdc" g -> number_or mp "temp_ref" #25 tr -> maybe_number mp "k" k ->
  (lookup "cap_adjustment" mp = Some (VBool cap) \/ lookup "cap_adjustment" mp = None /\ cap = false) ->
  array_pvwatts_dc a e t = Ok (pvwatts_dc e t p g tr k cap).
Proof.
  intros a e t p g tr k cap mp H1 H2 H3 H4 H5. unfold array_pvwatts_dc. fold mp. cbv zeta. rewrite (getnum_number _ _ _ H1), (getnum_number _ _ _ H2). cbn [bind]. kwo.
  rewrite lookup_kwargs. cbn [mem existsb String.eqb Ascii.eqb Bool.eqb orb]. destruct H5 as [->|[-> ->]]; reflexivity.
Qed.
Print Assumptions C69_pvwatts_dc.
(** PVSystem.pvwatts_losses passes on the losses the user set *)
Theorem C69_pvwatts_losses : forall s soi, NoDup (map fst (losses_parameters s)) ->
  Forall2 (fun p x => number_or (losses_parameters s) (fst p) #(snd p) x)
    [("soiling", 2); ("shading", 3); ("snow", 0); ("mismatch", 2); ("wiring", 2); ("connections", 0.5); ("lid", 1.5);
     ("nameplate_rating", 1); ("age", 0); ("availability", 3)]%R soi ->
  sys_pvwatts_losses s = losses_of soi.
Proof.
  intros s soi ND H. unfold sys_pvwatts_losses, pvwatts_losses. f_equal. fold pvwatts_losses_defaults in H.
  assert (G : forall l out, incl (map fst l) (map fst pvwatts_losses_defaults) -> Forall2 (fun p x => number_or (losses_parameters s) (fst p) #(snd p) x) l out ->
    map (fun p => match lookup (fst p) (build_kwargs (map fst pvwatts_losses_defaults) (nums (losses_parameters s))) with Some v => v | None => #(snd p) end) l = out).
  { intros l out. revert out. induction l as [|p l IH]; intros out I F; inversion F as [|? x ? out' Hx F']; subst; [reflexivity|]. cbn [map]. f_equal.
    - rewrite lookup_kwargs. replace (mem (fst p) (map fst pvwatts_losses_defaults)) with true by (symmetry; apply mem_In; apply I; left; reflexivity).
      destruct Hx as [Hx|[Hx ->]]; [rewrite (nums_lookup _ _ _ ND Hx); reflexivity|].
      rewrite nums_missing; [reflexivity|]. intros v C. apply lookup_None in Hx. apply Hx. apply (in_map fst) in C. exact C.
    - apply IH; [intros k Hk; apply I; right; exact Hk|exact F']. }
  apply G; [apply incl_refl|exact H].
Qed.
Print Assumptions C69_pvwatts_losses.
Example C69_nonvacuous : number_or [("b", VNum #0.07)] "b" #0.05 #0.07 /\ number_or [] "b" #0.05 #0.05 /\ maybe_number [] "k" None /\
  lower "ASHRAE" = "ashrae" /\ NoDup (map fst [("B0", VNum #1)]).
Proof. repeat split; try (left; reflexivity); try (right; split; reflexivity). repeat constructor. simpl. tauto. Qed.

(** ** C70: PVSystem.get_ac *)
Lemma sandia_read d inv : sandia_entries d inv -> sandia_of d = Ok inv.
Proof.
  intros (H1 & H2 & H3 & H4 & H5 & H6 & H7 & H8 & H9). unfold sandia_of.
  rewrite (getnum_number _ _ _ H1), (getnum_number _ _ _ H2), (getnum_number _ _ _ H3), (getnum_number _ _ _ H4), (getnum_number _ _ _ H5), (getnum_number _ _ _ H6),
    (getnum_number _ _ _ H7), (getnum_number _ _ _ H8), (getnum_number _ _ _ H9). cbn [bind]. destruct inv; reflexivity.
Qed.
Lemma adr_read d inv : adr_entries d inv -> adr_of d = Ok inv.
Proof.
  intros (H1 & H2 & H3 & H4 & H5 & H6 & H7 & H8 & H9 & H10). unfold adr_of.
  rewrite (getnum_number _ _ _ H1), (getnum_number _ _ _ H2), (getnum_number _ _ _ H3), (getnum_number _ _ _ H4), (getnum_number _ _ _ H6), (getnum_number _ _ _ H7),
    (getnum_number _ _ _ H8), (getnum_number _ _ _ H9), (getnum_number _ _ _ H10). unfold getitem. rewrite H5. cbn [bind]. destruct inv; reflexivity.
Qed.
Lemma volts_some l : volts (map Some l) = Ok l.
Proof. unfold volts. induction l as [|x l IH]; [reflexivity|]. cbn [map mapM]. rewrite IH. reflexivity. Qed.
(** one array: bare values or 1-tuples *)
Definition single {A} (p : pyarg A) (x : A) : Prop := p = Bare x \/ p = Tup [x].
Lemma validate_single {A} s (p : pyarg A) x : length (arrays s) = 1%nat -> single p x -> validate_per_array s p false = Ok [x].
Proof. intros L [->| ->]; unfold validate_per_array, num_arrays; rewrite L; reflexivity. Qed.
Theorem C70_one_array : forall s m p_dc v_dc p v, let ip := inverter_parameters s in length (arrays s) = 1%nat -> single p_dc p ->
  (lower m = "sandia" -> forall inv, single v_dc (Some v) -> sandia_entries ip inv -> sys_get_ac s m p_dc v_dc = Ok (sandia v p inv)) /\
  (lower m = "pvwatts" -> forall pdc0 nom ref, number ip "pdc0" pdc0 -> number_or ip "eta_inv_nom" #0.96 nom -> number_or ip "eta_inv_ref" #0.9637 ref ->
     sys_get_ac s m p_dc v_dc = Ok (pvwatts p pdc0 nom ref)) /\
  (lower m = "adr" -> forall inv, single v_dc (Some v) -> adr_entries ip inv -> sys_get_ac s m p_dc v_dc = Ok (adr v p inv #0.10)).
Proof.
  intros s m p_dc v_dc p v ip L HP. unfold sys_get_ac, num_arrays. cbv zeta. fold ip. rewrite L. cbn [Nat.ltb Nat.leb].
  split; [|split]; intros ->; cbn [String.eqb Ascii.eqb Bool.eqb]; rewrite (validate_single s p_dc p L HP); cbn [bind].
  - intros inv HV HI. rewrite (validate_single s v_dc (Some v) L HV), (sandia_read _ _ HI). reflexivity.
  - intros pdc0 nom ref H1 H2 H3. rewrite (getnum_number _ _ _ H1). cbn [bind]. kwo. reflexivity.
  - intros inv HV HI. rewrite (validate_single s v_dc (Some v) L HV), (adr_read _ _ HI). reflexivity.
Qed.
Print Assumptions C70_one_array.
Theorem C70_several_arrays : forall s m p v v_dc, let ip := inverter_parameters s in (1 < length (arrays s))%nat -> length p = length (arrays s) ->
  (lower m = "sandia" -> forall inv, length v = length (arrays s) -> sandia_entries ip inv -> v_dc = Tup (map Some v) ->
     sys_get_ac s m (Tup p) v_dc = sandia_multi v p inv) /\
  (lower m = "pvwatts" -> forall pdc0 nom ref, number ip "pdc0" pdc0 -> number_or ip "eta_inv_nom" #0.96 nom -> number_or ip "eta_inv_ref" #0.9637 ref ->
     sys_get_ac s m (Tup p) v_dc = Ok (pvwatts_multi p pdc0 nom ref)) /\
  (lower m = "adr" -> sys_get_ac s m (Tup p) v_dc = Err ValueError).
Proof.
  intros s m p v v_dc ip L LP. unfold sys_get_ac, num_arrays. cbv zeta. fold ip. apply Nat.ltb_lt in L. rewrite L.
  assert (V : validate_per_array s (Tup p) false = Ok p) by (unfold validate_per_array, num_arrays; rewrite LP, Nat.eqb_refl; reflexivity).
  split; [|split]; intros ->; cbn [String.eqb Ascii.eqb Bool.eqb]; rewrite ?V; cbn [bind].
  - intros inv LV HI ->. assert (W : validate_per_array s (Tup (map Some v)) false = Ok (map Some v)) by (unfold validate_per_array, num_arrays; rewrite map_length, LV, Nat.eqb_refl; reflexivity).
    rewrite W. cbn [bind]. rewrite (sandia_read _ _ HI), volts_some. reflexivity.
  - intros pdc0 nom ref H1 H2 H3. rewrite (getnum_number _ _ _ H1). cbn [bind]. kwo. reflexivity.
  - reflexivity.
Qed.
Print Assumptions C70_several_arrays.
Theorem C70_errors : forall s m p_dc v_dc,
  (~ In (lower m) ["sandia"; "pvwatts"; "adr"] -> sys_get_ac s m p_dc v_dc = Err ValueError) /\
  (In (lower m) ["sandia"; "pvwatts"] -> ~ fits (length (arrays s)) false p_dc -> sys_get_ac s m p_dc v_dc = Err ValueError).
Proof.
  intros. unfold sys_get_ac. cbv zeta. split.
  - intros N. cbn [In] in N.
    repeat match goal with |- context[String.eqb (lower m) ?k] => destruct (String.eqb_spec (lower m) k) as [E|_]; [exfalso; apply N; rewrite E; tauto|] end. reflexivity.
  - intros [<-|[<-|[]]] N; cbn [String.eqb Ascii.eqb Bool.eqb]; rewrite (validate_misfit s p_dc false N); reflexivity.
Qed.
Print Assumptions C70_errors.
Example C70_nonvacuous : forall a, let s := MkSystem [a] [("pdc0", VNum #5000)] [] in
  length (arrays s) = 1%nat /\ single (Bare #100) #100 /\ number (inverter_parameters s) "pdc0" #5000 /\
  sys_get_ac s "PVWatts" (Bare #100) (Bare None) = Ok (pvwatts #100 #5000 #0.96 #0.9637).
Proof. intros. repeat split. left; reflexivity. Qed.
