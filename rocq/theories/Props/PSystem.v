(** Property C48 and the array-level behaviour of PVSystem and Array. *)
From Verif Require Import Base.Fl Base.FlFacts Base.Py Model.Tools Model.Atmosphere Model.Irradiance Model.Tracking Model.Iam
  Model.Temperature Model.Spectrum Model.Inverter Model.Pvsystem Model.System Spec.PerArraySpec Proofs.PvsystemP Proofs.SystemP.
From Coq Require Import Arith Lia.
Open Scope R_scope.

(** ** C48: each method works array by array *)
Theorem C48_get_iam : forall spline s aoi model r,
  sys_get_iam spline s aoi model = Ok r <->
  fits (length (arrays s)) false aoi /\ per_array_1 (arrays s) aoi (fun a x => array_get_iam spline a x model) r.
Proof. intros. unfold sys_get_iam. rewrite (gen1 s false aoi (fun a x => array_get_iam spline a x model) r). reflexivity. Qed.
Print Assumptions C48_get_iam.
Theorem C48_get_irradiance : forall f ie s z az dni ghi dhi ex am alb model st mp r,
  let n := length (arrays s) in
  sys_get_irradiance f ie s z az dni ghi dhi ex am alb model st mp = Ok r <->
  (fits n true dni /\ fits n true ghi /\ fits n true dhi /\ fits n true alb) /\
  per_array_4 (arrays s) dni ghi dhi alb (fun a d g h al => array_get_irradiance f ie a z az d g h ex am al model st mp) r.
Proof. intros. unfold sys_get_irradiance. rewrite (gen4 s true true true true). reflexivity. Qed.
Print Assumptions C48_get_irradiance.
Theorem C48_get_cell_temperature : forall times s poa ta ws model ei lw r,
  let n := length (arrays s) in
  sys_get_cell_temperature times s poa ta ws model ei lw = Ok r <->
  (fits n false poa /\ fits n true ta /\ fits n true ws /\ fits n true ei /\ fits n true lw) /\
  per_array_5 (arrays s) poa ta ws ei lw (fun a p t w e l => array_get_cell_temperature times a (zip_samples p t w e l) model) r.
Proof. intros. unfold sys_get_cell_temperature. rewrite (gen5 s false true true true true). reflexivity. Qed.
Print Assumptions C48_get_cell_temperature.
Lemma lookup_build_kwargs {A} k keys (d : list (string * A)) : lookup k (build_kwargs keys d) = if mem k keys then lookup k d else None.
Proof.
  unfold build_kwargs, mem. induction keys as [|i items IH]; [reflexivity|]. cbn [flat_map existsb].
  destruct (String.eqb_spec k i) as [->|N]; cbn [orb].
  - destruct (lookup i d) as [v|] eqn:E; cbn [app lookup]; [rewrite String.eqb_refl; reflexivity|].
    rewrite IH. destruct (existsb (String.eqb i) items); reflexivity.
  - destruct (lookup i d) as [v|] eqn:E; cbn [app lookup]; [|exact IH]. destruct (String.eqb_spec k i); [contradiction|exact IH].
Qed.
Lemma desoto_kw_build kB e t d : desoto_kw kB e t (build_kwargs desoto_keys d) = desoto_kw kB e t d.
Proof. unfold desoto_kw, kw_req, kw_opt. rewrite !lookup_build_kwargs. reflexivity. Qed.
Lemma cec_kw_build kB e t d : cec_kw kB e t (build_kwargs cec_keys d) = cec_kw kB e t d.
Proof. unfold cec_kw, kw_req, kw_opt. rewrite !lookup_build_kwargs. reflexivity. Qed.
Lemma pvsyst_kw_build k q e t d : pvsyst_kw k q e t (build_kwargs pvsyst_keys d) = pvsyst_kw k q e t d.
Proof. unfold pvsyst_kw, kw_req, kw_opt. rewrite !lookup_build_kwargs. reflexivity. Qed.
Lemma per_array_2_ext {T B A1 A2} (arrs : list T) (a1 : pyarg A1) (a2 : pyarg A2) (f g : T -> A1 -> A2 -> res B) r :
  (forall a x y, f a x y = g a x y) -> per_array_2 arrs a1 a2 f r <-> per_array_2 arrs a1 a2 g r.
Proof. intros E. unfold per_array_2. split; intros [S H]; (split; [exact S|]); intros i a v1 v2 X Y Z; [rewrite <- E|rewrite E]; eauto. Qed.
Theorem C48_calcparams_desoto : forall kB s ei tc r, let n := length (arrays s) in
  sys_calcparams_desoto kB s ei tc = Ok r <->
  (fits n false ei /\ fits n false tc) /\ per_array_2 (arrays s) ei tc (fun a e t => desoto_kw kB e t (ar_module_parameters a)) r.
Proof.
  intros. unfold sys_calcparams_desoto. rewrite (gen2 s false false).
  rewrite (per_array_2_ext (arrays s) ei tc _ (fun a e t => desoto_kw kB e t (ar_module_parameters a))) by (intros; apply desoto_kw_build). reflexivity.
Qed.
Print Assumptions C48_calcparams_desoto.
(** what the module parameters mean: a required name must be there, an optional one falls back to the documented default *)
Definition required (d : pdict) (name : string) (v : fl) : Prop := lookup name d = Some (VNum v).
Definition optional (d : pdict) (name : string) (default : R) (v : fl) : Prop := lookup name d = Some (VNum v) \/ (lookup name d = None /\ v = #default).
Lemma required_req d n v : required d n v -> kw_req d n = Ok v.
Proof. unfold required, kw_req. intros ->. reflexivity. Qed.
Lemma optional_opt d n x v : optional d n x v -> kw_opt d n x = Ok v.
Proof. unfold optional, kw_opt. intros [->|[-> ->]]; reflexivity. Qed.
Theorem C48_desoto_parameters : forall kB e t d alpha a il io rsh rs eg deg ir tr,
  required d "alpha_sc" alpha -> required d "a_ref" a -> required d "I_L_ref" il -> required d "I_o_ref" io -> required d "R_sh_ref" rsh -> required d "R_s" rs ->
  optional d "EgRef" 1.121 eg -> optional d "dEgdT" (-0.0002677) deg -> optional d "irrad_ref" 1000 ir -> optional d "temp_ref" 25 tr ->
  desoto_kw kB e t d = Ok (calcparams_desoto kB e t alpha a il io rsh rs eg deg ir tr).
Proof.
  intros. unfold desoto_kw. repeat (erewrite required_req by eassumption; cbn [bind]). repeat (erewrite optional_opt by eassumption; cbn [bind]). reflexivity.
Qed.
Print Assumptions C48_desoto_parameters.
Theorem C48_cec_parameters : forall kB e t d alpha a il io rsh rs adj eg deg ir tr,
  required d "alpha_sc" alpha -> required d "a_ref" a -> required d "I_L_ref" il -> required d "I_o_ref" io -> required d "R_sh_ref" rsh -> required d "R_s" rs ->
  required d "Adjust" adj ->
  optional d "EgRef" 1.121 eg -> optional d "dEgdT" (-0.0002677) deg -> optional d "irrad_ref" 1000 ir -> optional d "temp_ref" 25 tr ->
  cec_kw kB e t d = Ok (calcparams_cec kB e t alpha a il io rsh rs adj eg deg ir tr).
Proof.
  intros. unfold cec_kw. repeat (erewrite required_req by eassumption; cbn [bind]). repeat (erewrite optional_opt by eassumption; cbn [bind]). reflexivity.
Qed.
Print Assumptions C48_cec_parameters.
Theorem C48_pvsyst_parameters : forall k q e t d alpha g mu il io rsh rsh0 rs cells x eg ir tr,
  required d "alpha_sc" alpha -> required d "gamma_ref" g -> required d "mu_gamma" mu -> required d "I_L_ref" il -> required d "I_o_ref" io ->
  required d "R_sh_ref" rsh -> required d "R_sh_0" rsh0 -> required d "R_s" rs -> required d "cells_in_series" cells ->
  optional d "R_sh_exp" 5.5 x -> optional d "EgRef" 1.121 eg -> optional d "irrad_ref" 1000 ir -> optional d "temp_ref" 25 tr ->
  pvsyst_kw k q e t d = Ok (calcparams_pvsyst k q e t alpha g mu il io rsh rsh0 rs cells x eg ir tr).
Proof.
  intros. unfold pvsyst_kw. repeat (erewrite required_req by eassumption; cbn [bind]). repeat (erewrite optional_opt by eassumption; cbn [bind]). reflexivity.
Qed.
Print Assumptions C48_pvsyst_parameters.
(** a missing required name, or a value that is not a number, is a TypeError *)
Theorem C48_missing_parameter : forall kB k q e t d name, (forall v, ~ required d name v) ->
  (In name ["alpha_sc"; "a_ref"; "I_L_ref"; "I_o_ref"; "R_sh_ref"; "R_s"]%string -> desoto_kw kB e t d = Err TypeError) /\
  (In name ["alpha_sc"; "a_ref"; "I_L_ref"; "I_o_ref"; "R_sh_ref"; "R_s"; "Adjust"]%string -> cec_kw kB e t d = Err TypeError) /\
  (In name ["alpha_sc"; "gamma_ref"; "mu_gamma"; "I_L_ref"; "I_o_ref"; "R_sh_ref"; "R_sh_0"; "R_s"; "cells_in_series"]%string -> pvsyst_kw k q e t d = Err TypeError).
Proof.
  intros kB k q e t d name H. assert (N : kw_req d name = Err TypeError).
  { unfold kw_req, required in *. destruct (lookup name d) as [[x| | |]|]; try reflexivity. exfalso. exact (H x eq_refl). }
  assert (T : forall n, kw_req d n = Err TypeError \/ exists v, kw_req d n = Ok v) by (intros n; unfold kw_req; destruct (lookup n d) as [[x| | |]|]; cbn; eauto).
  assert (D : forall {B} n (f : fl -> res B), (forall v, f v = Err TypeError) -> (let* v := kw_req d n in f v) = Err TypeError).
  { intros B n f Hf. destruct (T n) as [->|(v & ->)]; [reflexivity|apply Hf]. }
  unfold desoto_kw, cec_kw, pvsyst_kw.
  split; [|split]; intros I; cbn [In] in I;
    repeat (destruct I as [<-|I]; [repeat first [rewrite N; reflexivity|apply D; intros ?]|]); contradiction.
Qed.
Print Assumptions C48_missing_parameter.
Theorem C48_calcparams_cec : forall kB s ei tc r, let n := length (arrays s) in
  sys_calcparams_cec kB s ei tc = Ok r <->
  (fits n false ei /\ fits n false tc) /\ per_array_2 (arrays s) ei tc (fun a e t => cec_kw kB e t (ar_module_parameters a)) r.
Proof.
  intros. unfold sys_calcparams_cec. rewrite (gen2 s false false).
  rewrite (per_array_2_ext (arrays s) ei tc _ (fun a e t => cec_kw kB e t (ar_module_parameters a))) by (intros; apply cec_kw_build). reflexivity.
Qed.
Print Assumptions C48_calcparams_cec.
Theorem C48_calcparams_pvsyst : forall k q s ei tc r, let n := length (arrays s) in
  sys_calcparams_pvsyst k q s ei tc = Ok r <->
  (fits n false ei /\ fits n false tc) /\ per_array_2 (arrays s) ei tc (fun a e t => pvsyst_kw k q e t (ar_module_parameters a)) r.
Proof.
  intros. unfold sys_calcparams_pvsyst. rewrite (gen2 s false false).
  rewrite (per_array_2_ext (arrays s) ei tc _ (fun a e t => pvsyst_kw k q e t (ar_module_parameters a))) by (intros; apply pvsyst_kw_build). reflexivity.
Qed.
Print Assumptions C48_calcparams_pvsyst.
Theorem C48_sapm : forall k q s ei tc r, let n := length (arrays s) in
  sys_sapm k q s ei tc = Ok r <->
  (fits n false ei /\ fits n false tc) /\
  per_array_2 (arrays s) ei tc (fun a e t => sapm k q e t (nums (ar_module_parameters a)) #25 #1000) r.
Proof. intros. unfold sys_sapm. rewrite (gen2 s false false). reflexivity. Qed.
Print Assumptions C48_sapm.
Theorem C48_sapm_effective_irradiance : forall s pd pf am ao r, let n := length (arrays s) in
  sys_sapm_effective_irradiance s pd pf am ao = Ok r <->
  (fits n false pd /\ fits n false pf /\ fits n false ao) /\
  per_array_3 (arrays s) pd pf ao (fun a d f o => sapm_effective_irradiance d f am o (nums (ar_module_parameters a))) r.
Proof. intros. unfold sys_sapm_effective_irradiance. rewrite (gen3 s false false false). reflexivity. Qed.
Print Assumptions C48_sapm_effective_irradiance.
Theorem C48_scale_voltage_current_power : forall s data r, let n := length (arrays s) in
  sys_scale_voltage_current_power s data = Ok r <->
  fits n false data /\
  per_array_1 (arrays s) data (fun a d => scale_voltage_current_power d (ar_modules_per_string a) (ar_strings a)) r.
Proof. intros. unfold sys_scale_voltage_current_power. rewrite (gen1 s false data). reflexivity. Qed.
Print Assumptions C48_scale_voltage_current_power.
Theorem C48_pvwatts_dc : forall s ei tc r, let n := length (arrays s) in
  sys_pvwatts_dc s ei tc = Ok r <->
  (fits n false ei /\ fits n false tc) /\ per_array_2 (arrays s) ei tc array_pvwatts_dc r.
Proof. intros. unfold sys_pvwatts_dc. rewrite (gen2 s false false). reflexivity. Qed.
Print Assumptions C48_pvwatts_dc.
Theorem C48_first_solar_spectral_loss : forall s pw am r, let n := length (arrays s) in
  (forall a, In a (arrays s) -> lookup "first_solar_spectral_coefficients" (ar_module_parameters a) = None) ->
  sys_first_solar_spectral_loss s pw am = Ok r <->
  fits n true pw /\
  per_array_1 (arrays s) pw (fun a w => let* m := array_infer_cell_type a in firstsolar_default w am m None) r.
Proof.
  intros s pw am r n HN. unfold sys_first_solar_spectral_loss. rewrite (gen1 s true pw _ r). unfold per_array_1.
  split; intros [F [S H]]; (split; [exact F|]; split; [exact S|]); intros i a w Ha Hw; specialize (H i a w Ha Hw);
  rewrite (HN a (nth_error_In _ _ Ha)) in *; exact H.
Qed.
Print Assumptions C48_first_solar_spectral_loss.
Theorem C48_no_argument_methods : forall s r r2 r3 am,
  (sys_infer_cell_type s = Ok r <-> per_array_0 (arrays s) array_infer_cell_type r) /\
  (sys_dc_ohms_from_percent s = Ok r2 <-> per_array_0 (arrays s) array_dc_ohms_from_percent r2) /\
  (sys_sapm_spectral_loss s am = Ok r3 <->
   per_array_0 (arrays s) (fun a => let* c := sapm_a_of (nums (ar_module_parameters a)) in Ok (spectral_factor_sapm am c)) r3).
Proof. intros. split; [apply per_array_core0|split; apply per_array_core0]. Qed.
Print Assumptions C48_no_argument_methods.
Theorem C48_get_aoi : forall s z az,
  shape (length (arrays s)) (sys_get_aoi s z az) /\
  forall i a, nth_error (arrays s) i = Some a -> result_at (sys_get_aoi s z az) i = Some (array_get_aoi a z az).
Proof.
  intros. unfold sys_get_aoi. split.
  - pose proof (shape_unwrap (map (fun a => array_get_aoi a z az) (arrays s))) as H. rewrite map_length in H. exact H.
  - intros i a Ha. rewrite result_at_unwrap, nth_error_map, Ha. reflexivity.
Qed.
Print Assumptions C48_get_aoi.
(** a tuple of the wrong length, or a bare per-array value for several arrays, is a ValueError whatever the other arguments *)
Theorem C48_mismatch_is_valueerror : forall s, let n := length (arrays s) in
  (forall spline aoi m, ~ fits n false aoi -> sys_get_iam spline s aoi m = Err ValueError) /\
  (forall f ie z az dni ghi dhi ex am alb m st mp, ~ (fits n true dni /\ fits n true ghi /\ fits n true dhi /\ fits n true alb) ->
     sys_get_irradiance f ie s z az dni ghi dhi ex am alb m st mp = Err ValueError) /\
  (forall times poa ta ws m ei lw, ~ (fits n false poa /\ fits n true ta /\ fits n true ws /\ fits n true ei /\ fits n true lw) ->
     sys_get_cell_temperature times s poa ta ws m ei lw = Err ValueError) /\
  (forall kB ei tc, ~ (fits n false ei /\ fits n false tc) -> sys_calcparams_desoto kB s ei tc = Err ValueError) /\
  (forall kB ei tc, ~ (fits n false ei /\ fits n false tc) -> sys_calcparams_cec kB s ei tc = Err ValueError) /\
  (forall k q ei tc, ~ (fits n false ei /\ fits n false tc) -> sys_calcparams_pvsyst k q s ei tc = Err ValueError) /\
  (forall k q ei tc, ~ (fits n false ei /\ fits n false tc) -> sys_sapm k q s ei tc = Err ValueError) /\
  (forall pd pf am ao, ~ (fits n false pd /\ fits n false pf /\ fits n false ao) -> sys_sapm_effective_irradiance s pd pf am ao = Err ValueError) /\
  (forall pw am, ~ fits n true pw -> sys_first_solar_spectral_loss s pw am = Err ValueError) /\
  (forall d, ~ fits n false d -> sys_scale_voltage_current_power s d = Err ValueError) /\
  (forall ei tc, ~ (fits n false ei /\ fits n false tc) -> sys_pvwatts_dc s ei tc = Err ValueError).
Proof.
  intros s n.
  Ltac vstep := match goal with
    | |- context [validate_per_array ?s ?a ?w] =>
        let H := fresh in destruct (fits_dec (num_arrays s) w a) as [H|H];
        [let l := fresh "l" in let E := fresh in destruct (validate_fits s a w H) as (l & E & _ & _); rewrite E; cbn [bind]
        |rewrite (validate_misfit s a w H); reflexivity]
    end.
  repeat split; intros; unfold sys_get_iam, sys_get_irradiance, sys_get_cell_temperature, sys_calcparams_desoto, sys_calcparams_cec,
    sys_calcparams_pvsyst, sys_sapm, sys_sapm_effective_irradiance, sys_first_solar_spectral_loss, sys_scale_voltage_current_power, sys_pvwatts_dc;
  repeat vstep; exfalso; change (num_arrays s) with n in *; tauto.
Qed.
Print Assumptions C48_mismatch_is_valueerror.
(** a system is never empty *)
Theorem C48_at_least_one_array : forall arr st sa alb sty m mt mp tp mps spi ip rk lp s,
  pvsystem_init arr st sa alb sty m mt mp tp mps spi ip rk lp = Ok s -> (1 <= length (arrays s))%nat.
Proof.
  intros arr st sa alb sty m mt mp tp mps spi ip rk lp s. unfold pvsystem_init. destruct arr as [|a|[|a l]].
  - destruct (array_init _ _ _ _ _ _ _ _ _ _) as [a|]; cbn [bind]; [|discriminate]. intros [= <-]. cbn. lia.
  - intros [= <-]. cbn. lia.
  - discriminate.
  - intros [= <-]. cbn. lia.
Qed.
Print Assumptions C48_at_least_one_array.
Example C48_nonvacuous : forall a b,
  let s := MkSystem [a; b] [] [] in
  fits (length (arrays s)) true (Bare #800) /\ fits (length (arrays s)) false (Tup [#1; #2]) /\ ~ fits (length (arrays s)) false (Bare #1) /\
  sys_get_aoi s #30 #180 = Tup [array_get_aoi a #30 #180; array_get_aoi b #30 #180].
Proof. intros. cbn. repeat split; auto. intros [H|H]; discriminate. Qed.
