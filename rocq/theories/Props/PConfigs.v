(** Property C182: the named configurations of ModelChain.  Model: Model/Configs.v. *)
From Coq Require Import Lia.
From Verif Require Import Base.Fl Base.FlFacts Base.Py Base.PyStr Model.System Model.ModelChain Model.Configs Spec.ChainSpec Props.PBsrn Props.PServices Props.PChain.
Open Scope string_scope.
Open Scope list_scope.

(** ** the documented defaults *)
Definition chain_defaults : kwargs :=
  [("clearsky_model", Some "ineichen"); ("transposition_model", Some "haydavies"); ("solar_position_method", Some "nrel_numpy"); ("airmass_model", Some "kastenyoung1989");
   ("dc_model", None); ("ac_model", None); ("aoi_model", None); ("spectral_model", None); ("temperature_model", None); ("dc_ohmic_model", Some "no_loss");
   ("losses_model", Some "no_loss"); ("name", None)].
Definition pvwatts_defaults : kwargs :=
  [("clearsky_model", Some "ineichen"); ("transposition_model", Some "perez"); ("solar_position_method", Some "nrel_numpy"); ("airmass_model", Some "kastenyoung1989");
   ("dc_model", Some "pvwatts"); ("ac_model", Some "pvwatts"); ("aoi_model", Some "physical"); ("spectral_model", Some "no_loss"); ("temperature_model", Some "sapm");
   ("dc_ohmic_model", Some "no_loss"); ("losses_model", Some "pvwatts"); ("name", None)].
Definition sapm_defaults : kwargs :=
  [("clearsky_model", Some "ineichen"); ("transposition_model", Some "haydavies"); ("solar_position_method", Some "nrel_numpy"); ("airmass_model", Some "kastenyoung1989");
   ("dc_model", Some "sapm"); ("ac_model", Some "sandia"); ("aoi_model", Some "sapm"); ("spectral_model", Some "sapm"); ("temperature_model", Some "sapm");
   ("dc_ohmic_model", Some "no_loss"); ("losses_model", Some "no_loss"); ("name", None)].
(** the value of an argument: the caller's if he gives one, else the default *)
Definition chosen (call defaults : kwargs) (key : string) : option string :=
  match lookup key call with Some v => v | None => match lookup key defaults with Some v => v | None => None end end.
Definition text_or_None (o : option string) : string := match o with Some t => t | None => "None" end.
Definition documented (s : pvsystem) (call defaults : kwargs) : res chain :=
  let v := chosen call defaults in
  chain_init s (text_or_None (v "clearsky_model")) (text_or_None (v "transposition_model")) (text_or_None (v "solar_position_method")) (text_or_None (v "airmass_model"))
    (v "dc_model") (v "ac_model") (v "aoi_model") (v "spectral_model") (v "temperature_model") (v "dc_ohmic_model") (v "losses_model").
Definition known (call : kwargs) : Prop := forall key, In key (map fst call) -> In key (map fst chain_defaults).

Lemma lookup_update e : forall d k, NoDup (map fst e) -> lookup k (update d e) = match lookup k e with Some v => Some v | None => lookup k d end.
Proof.
  unfold update. induction e as [|[k' v] e IH]; intros d k N; [reflexivity|]. cbn [fold_left fst snd map] in *. inversion N as [|? ? N1 N2]; subst.
  rewrite IH by exact N2. rewrite lookup_dict_set. cbn [lookup]. destruct (String.eqb_spec k k') as [->|]; [|reflexivity].
  destruct (lookup k' e) eqn:L; [|reflexivity]. exfalso. apply N1. apply lookup_In in L. apply in_map_iff. exists (k', o). auto.
Qed.
Lemma update_keys e : forall d q, NoDup (map fst d) -> In q (map fst (update d e)) <-> In q (map fst d) \/ In q (map fst e).
Proof.
  unfold update. induction e as [|[k v] e IH]; intros d q N; [cbn; tauto|]. cbn [fold_left fst snd map]. destruct (dict_set_keys k v d N) as [N' K]. rewrite (IH _ _ N').
  assert (Kd : In q (map fst (dict_set k v d)) <-> q = k \/ In q (map fst d)).
  { split; [apply K|]. clear. intros H. induction d as [|[k' v'] d IH]; cbn [dict_set map fst] in *; [destruct H as [->|[]]; left; reflexivity|].
    destruct (String.eqb_spec k k') as [->|Q]; cbn [map fst]; [destruct H as [->|[->|H]]; [left; reflexivity|left; reflexivity|right; exact H]|].
    destruct H as [H|[H|H]]; [right; apply IH; left; exact H | left; exact H | right; apply IH; right; exact H]. }
  rewrite Kd. cbn [In]. split; [intros [[->|H]|H]; auto|intros [H|[->|H]]; auto].
Qed.
Lemma lookup_rest names k : forall kw, lookup k (rest_kwargs names kw) = if mem k names then None else lookup k kw.
Proof.
  induction kw as [|[k' v] kw IH]; cbn [rest_kwargs filter fst]; [destruct (mem k names); reflexivity|]. destruct (mem k' names) eqn:M; cbn [negb].
  - unfold rest_kwargs in IH. rewrite IH. cbn [lookup]. destruct (String.eqb_spec k k') as [->|]; [rewrite M; reflexivity|reflexivity].
  - cbn [lookup]. destruct (String.eqb_spec k k') as [->|]; [rewrite M; reflexivity|]. unfold rest_kwargs in IH. rewrite IH. reflexivity.
Qed.
Lemma rest_keys names kw q : In q (map fst (rest_kwargs names kw)) <-> In q (map fst kw) /\ mem q names = false.
Proof.
  unfold rest_kwargs. rewrite !in_map_iff. split.
  - intros ([k v] & <- & H). apply filter_In in H. destruct H as [H1 H2]. cbn [fst] in *. split; [exists (k, v); auto|]. apply negb_true_iff. exact H2.
  - intros (([k v] & <- & H) & M). exists (k, v). split; [reflexivity|]. apply filter_In. split; [exact H|]. cbn [fst] in *. rewrite M. reflexivity.
Qed.
Lemma rest_nodup names kw : NoDup (map fst kw) -> NoDup (map fst (rest_kwargs names kw)).
Proof.
  induction kw as [|[k v] kw IH]; cbn [map fst rest_kwargs filter]; intros N; [constructor|]. inversion N as [|? ? N1 N2]; subst.
  destruct (negb (mem k names)) eqn:M; [|apply IH; exact N2]. cbn [map fst]. constructor; [|apply IH; exact N2].
  intros H. apply (rest_keys names kw k) in H. tauto.
Qed.
Lemma lookup_app {A} k (d e : list (string * A)) : lookup k (d ++ e) = match lookup k d with Some v => Some v | None => lookup k e end.
Proof. induction d as [|[k' v] d IH]; [reflexivity|]. cbn [app lookup]. destruct (String.eqb k k'); [reflexivity|exact IH]. Qed.

Section Config.
Variables (names : list string) (config defaults : kwargs).
Hypothesis names_known : forall n, In n names -> In n modelchain_arguments.
Hypothesis config_keys : NoDup (map fst config).
Hypothesis config_known : forall k, In k (map fst config) -> In k modelchain_arguments /\ mem k names = false.
(** the general call of a named configuration *)
Definition general (s : pvsystem) (call : kwargs) : res chain :=
  let* kw := with_keywords (map (fun n => (n, argument call n (argument defaults n None))) names) (update config (rest_kwargs names call)) in modelchain s kw.
Lemma general_spec s call : NoDup (map fst call) ->
  (forall k, mem k names = false -> match lookup k config with Some v => v | None => match lookup k chain_defaults with Some v => v | None => None end end = argument defaults k None) ->
  (known call -> general s call = documented s call defaults) /\ (~ known call -> general s call = Err TypeError).
Proof.
  intros N D. unfold general, with_keywords.
  assert (MN : map fst (map (fun n => (n, argument call n (argument defaults n None))) names) = names) by (rewrite map_map; cbn [fst]; apply map_id).
  rewrite MN.
  assert (KU : forall q, In q (map fst (update config (rest_kwargs names call))) <-> In q (map fst config) \/ (In q (map fst call) /\ mem q names = false)).
  { intros q. rewrite (update_keys _ _ _ config_keys), rest_keys. reflexivity. }
  assert (NX : existsb (fun kv => mem (fst kv) names) (update config (rest_kwargs names call)) = false).
  { apply not_true_is_false. intros H. apply existsb_exists in H. destruct H as ([k v] & H1 & H2). cbn [fst] in H2.
    assert (I : In k (map fst (update config (rest_kwargs names call)))) by (apply in_map_iff; exists (k, v); auto). apply KU in I. destruct I as [I|[_ I]]; [apply config_known in I; destruct I as [_ I]|]; congruence. }
  rewrite NX. cbn [bind]. unfold modelchain. rewrite forallb_app.
  assert (F1 : forallb (fun kv => mem (fst kv) modelchain_arguments) (map (fun n => (n, argument call n (argument defaults n None))) names) = true).
  { apply forallb_forall. intros [k v] H. apply in_map_iff in H. destruct H as (n & E & H). injection E as <- <-. cbn [fst]. apply mem_In. apply names_known. exact H. }
  rewrite F1. cbn [andb].
  assert (F2 : forallb (fun kv => mem (fst kv) modelchain_arguments) (update config (rest_kwargs names call)) = true <-> known call).
  { rewrite forallb_forall. unfold known. change (map fst chain_defaults) with modelchain_arguments. split.
    - intros H q Hq. destruct (mem q names) eqn:M; [apply names_known, mem_In; exact M|].
      assert (I : In q (map fst (update config (rest_kwargs names call)))) by (apply KU; right; auto). apply in_map_iff in I. destruct I as ([k v] & E & I). cbn [fst] in E. subst k.
      apply H in I. cbn [fst] in I. apply mem_In. exact I.
    - intros H [k v] I. cbn [fst]. apply mem_In. assert (I' : In k (map fst (update config (rest_kwargs names call)))) by (apply in_map_iff; exists (k, v); auto).
      apply KU in I'. destruct I' as [I'|[I' _]]; [apply config_known; exact I'|apply H; exact I']. }
  split; intros K.
  - rewrite (proj2 F2 K). cbn [negb].
    assert (V : forall k dflt, lookup k chain_defaults = Some dflt ->
      argument (map (fun n => (n, argument call n (argument defaults n None))) names ++ update config (rest_kwargs names call)) k dflt = chosen call defaults k).
    { intros k dflt Hd. unfold argument at 1. rewrite lookup_app, lookup_update, lookup_rest by (apply rest_nodup; exact N).
      destruct (lookup k (map _ names)) as [v|] eqn:L.
      - assert (L' := lookup_In _ _ _ L). apply in_map_iff in L'. destruct L' as (n & E & L'). injection E as <- <-. unfold chosen, argument. destruct (lookup n call); [reflexivity|]. reflexivity.
      - assert (M : mem k names = false).
        { apply not_true_is_false. intros M. apply mem_In in M. apply lookup_None in L. apply L. rewrite map_map. cbn [fst]. rewrite map_id. exact M. }
        rewrite M. unfold chosen. destruct (lookup k call) as [v|]; [reflexivity|]. specialize (D k M). rewrite Hd in D. unfold argument in D. exact D. }
    unfold documented. rewrite !(fun k d H => V k d H) by reflexivity. reflexivity.
  - assert (F3 : forallb (fun kv => mem (fst kv) modelchain_arguments) (update config (rest_kwargs names call)) = false) by (destruct (forallb _ (update config _)); [exfalso; apply K, F2; reflexivity|reflexivity]).
    rewrite F3. reflexivity.
Qed.
End Config.

Theorem C182_modelchain : forall s call,
  (known call -> modelchain s call = documented s call chain_defaults) /\ (~ known call -> modelchain s call = Err TypeError).
Proof.
  intros s call. unfold modelchain.
  assert (F2 : forallb (fun kv => mem (fst kv) modelchain_arguments) call = true <-> known call).
  { rewrite forallb_forall. unfold known. change (map fst chain_defaults) with modelchain_arguments. split.
    - intros H q Hq. apply in_map_iff in Hq. destruct Hq as ([k v] & <- & Hq). apply H in Hq. apply mem_In. exact Hq.
    - intros H [k v] I. apply mem_In. apply H. apply in_map_iff. exists (k, v). auto. }
  split; intros K.
  - rewrite (proj2 F2 K). cbn [negb]. unfold documented, chosen, argument. cbn [lookup chain_defaults String.eqb Ascii.eqb Bool.eqb]. reflexivity.
  - destruct (forallb _ call); [exfalso; apply K, F2; reflexivity|]. reflexivity.
Qed.
Print Assumptions C182_modelchain.
Theorem C182_with_pvwatts : forall s call, NoDup (map fst call) ->
  (known call -> with_pvwatts s call = documented s call pvwatts_defaults) /\ (~ known call -> with_pvwatts s call = Err TypeError).
Proof.
  intros s call N. change (with_pvwatts s call) with (general ["clearsky_model"; "airmass_model"; "name"] PVWATTS_CONFIG pvwatts_defaults s call).
  apply general_spec; [| | |exact N|].
  - intros n H. cbn in H |- *. intuition.
  - cbn. repeat (constructor; [cbn; intuition discriminate|]). constructor.
  - intros k H. cbn in H. intuition; subst; try reflexivity; cbn; intuition.
  - intros k M. cbn [PVWATTS_CONFIG chain_defaults pvwatts_defaults lookup]. unfold argument. cbn [lookup pvwatts_defaults].
    cbn [mem existsb] in M. unfold mem in M. cbn [existsb] in M.
    repeat match goal with |- context [String.eqb k ?x] => destruct (String.eqb_spec k x); [subst k; try discriminate M; try reflexivity|] end; reflexivity.
Qed.
Print Assumptions C182_with_pvwatts.
Theorem C182_with_sapm : forall s call, NoDup (map fst call) ->
  (known call -> with_sapm s call = documented s call sapm_defaults) /\ (~ known call -> with_sapm s call = Err TypeError).
Proof.
  intros s call N. change (with_sapm s call) with (general ["clearsky_model"; "transposition_model"; "solar_position_method"; "airmass_model"; "name"] SAPM_CONFIG sapm_defaults s call).
  apply general_spec; [| | |exact N|].
  - intros n H. cbn in H |- *. intuition.
  - cbn. repeat (constructor; [cbn; intuition discriminate|]). constructor.
  - intros k H. cbn in H. intuition; subst; try reflexivity; cbn; intuition.
  - intros k M. cbn [SAPM_CONFIG chain_defaults sapm_defaults lookup]. unfold argument. cbn [lookup sapm_defaults].
    unfold mem in M. cbn [existsb] in M.
    repeat match goal with |- context [String.eqb k ?x] => destruct (String.eqb_spec k x); [subst k; try discriminate M; try reflexivity|] end; reflexivity.
Qed.
Print Assumptions C182_with_sapm.
(** ** the two configurations without further keywords *)
Lemma dc_choice s k name : arrays s <> [] -> lower name = name -> In (k, name) dc_names -> name <> "singlediode" ->
  ((forall key, In key (dc_required k) -> in_every ar_module_parameters s key) /\ set_dc_model s None (Some name) = (Some k, Ok tt)) \/
  (~ (forall key, In key (dc_required k) -> in_every ar_module_parameters s key) /\ set_dc_model s None (Some name) = (None, Err ValueError)).
Proof.
  intros A L I Q. assert (U : forall k', In (k', name) dc_names -> k' = k).
  { intros k' H'. clear - H' I. cbn in H', I. intuition (try congruence); repeat match goal with H : (_, _) = (_, _) |- _ => injection H as ? ?; subst end; try reflexivity; try discriminate. }
  destruct (C50_dc_model s None name A) as [(k' & (H1 & H2) & E)|[((E & _) & _)|(H1 & H2 & E)]]; rewrite L in *.
  - apply U in H1. subst k'. left. split; [exact H2|exact E].
  - contradiction.
  - right. split; [|exact E]. intros H. apply (H1 k). auto.
Qed.
Lemma temp_choice s : arrays s <> [] ->
  (first_match temperature_candidates (in_every ar_temperature_model_parameters s) T_sapm /\ set_temperature_model s None (Some "sapm") = (Some T_sapm, Ok tt)) \/
  (~ first_match temperature_candidates (in_every ar_temperature_model_parameters s) T_sapm /\ snd (set_temperature_model s None (Some "sapm")) = Err ValueError).
Proof.
  intros A. destruct (C50_temperature_model s None "sapm" A) as [(k & H & [(F & E)|(F & E)])|(H & E)]; change (lower "sapm") with "sapm" in *.
  - assert (k = T_sapm) by (cbn in H; intuition congruence). subst k. left. split; assumption.
  - assert (k = T_sapm) by (cbn in H; intuition congruence). subst k. right. rewrite E. split; [exact F|reflexivity].
  - exfalso. apply (H T_sapm). cbn. auto.
Qed.
Lemma nothing_known : known [].
Proof. intros k H. destruct H. Qed.
Definition sapm_temperature (s : pvsystem) : Prop := first_match temperature_candidates (in_every ar_temperature_model_parameters s) T_sapm.
Theorem C182_pvwatts_outcome : forall s, arrays s <> [] ->
  let fits := (forall key, In key ["pdc0"; "gamma_pdc"] -> in_every ar_module_parameters s key) /\ sapm_temperature s in
  (fits -> with_pvwatts s [] = Ok (Chain s "ineichen" "perez" "nrel_numpy" "kastenyoung1989" (Some DC_pvwatts) AC_pvwatts AOI_physical SP_no_loss T_sapm OHM_no_loss LOSS_pvwatts)) /\
  (~ fits -> with_pvwatts s [] = Err ValueError).
Proof.
  intros s A fits. rewrite (proj1 (C182_with_pvwatts s [] (NoDup_nil _)) nothing_known).
  change (documented s [] pvwatts_defaults) with (chain_init s "ineichen" "perez" "nrel_numpy" "kastenyoung1989" (Some "pvwatts") (Some "pvwatts") (Some "physical")
    (Some "no_loss") (Some "sapm") (Some "no_loss") (Some "pvwatts")).
  unfold chain_init, fits, sapm_temperature.
  destruct (dc_choice s DC_pvwatts "pvwatts" A eq_refl) as [(D & ->)|(D & ->)]; [cbn; auto 9|discriminate| |]; cbn [bind];
  change (set_ac_model s (Some "pvwatts")) with (Ok AC_pvwatts); change (set_aoi_model s (Some "physical")) with (Ok AOI_physical);
  change (set_spectral_model (Some "no_loss")) with (Ok SP_no_loss); change (set_dc_ohmic_model (Some "no_loss")) with (Ok OHM_no_loss);
  change (set_losses_model (Some "pvwatts")) with (Ok LOSS_pvwatts); cbn [bind].
  - destruct (temp_choice s A) as [(T & ->)|(T & E)]; cbn [bind].
    + split; intros H; [reflexivity|]. exfalso. apply H. split; assumption.
    + destruct (set_temperature_model s None (Some "sapm")) as [t r]. cbn [snd] in E. subst r. cbn [bind]. split; intros H; [tauto|reflexivity].
  - split; intros H; [tauto|reflexivity].
Qed.
Print Assumptions C182_pvwatts_outcome.
(** the inverter's parameters are not looked at: the PVWatts AC model is chosen whatever they are *)
Theorem C182_pvwatts_checks_the_inverter_refuted : exists s, arrays s <> [] /\ inverter_parameters s = [] /\ exists c, with_pvwatts s [] = Ok c /\ c_ac_model c = AC_pvwatts.
Proof.
  exists (MkSystem [ex_array ex_mp [("a", VNum #0); ("b", VNum #0); ("deltaT", VNum #0)]] [] []). split; [discriminate|]. split; [reflexivity|].
  eexists. split; reflexivity.
Qed.
Print Assumptions C182_pvwatts_checks_the_inverter_refuted.
Theorem C182_sapm_outcome : forall s, arrays s <> [] ->
  let fits := (forall key, In key (dc_required DC_sapm) -> in_every ar_module_parameters s key) /\ sapm_temperature s in
  (fits -> with_sapm s [] = Ok (Chain s "ineichen" "haydavies" "nrel_numpy" "kastenyoung1989" (Some DC_sapm) AC_sandia AOI_sapm SP_sapm T_sapm OHM_no_loss LOSS_no_loss)) /\
  (~ fits -> with_sapm s [] = Err ValueError).
Proof.
  intros s A fits. rewrite (proj1 (C182_with_sapm s [] (NoDup_nil _)) nothing_known).
  change (documented s [] sapm_defaults) with (chain_init s "ineichen" "haydavies" "nrel_numpy" "kastenyoung1989" (Some "sapm") (Some "sandia") (Some "sapm")
    (Some "sapm") (Some "sapm") (Some "no_loss") (Some "no_loss")).
  unfold chain_init, fits, sapm_temperature.
  destruct (dc_choice s DC_sapm "sapm" A eq_refl) as [(D & ->)|(D & ->)]; [cbn; auto 9|discriminate| |]; cbn [bind];
  change (set_ac_model s (Some "sandia")) with (Ok AC_sandia); change (set_aoi_model s (Some "sapm")) with (Ok AOI_sapm);
  change (set_spectral_model (Some "sapm")) with (Ok SP_sapm); change (set_dc_ohmic_model (Some "no_loss")) with (Ok OHM_no_loss);
  change (set_losses_model (Some "no_loss")) with (Ok LOSS_no_loss); cbn [bind].
  - destruct (temp_choice s A) as [(T & ->)|(T & E)]; cbn [bind].
    + split; intros H; [reflexivity|]. exfalso. apply H. split; assumption.
    + destruct (set_temperature_model s None (Some "sapm")) as [t r]. cbn [snd] in E. subst r. cbn [bind]. split; intros H; [tauto|reflexivity].
  - split; intros H; [tauto|reflexivity].
Qed.
Print Assumptions C182_sapm_outcome.
(** a module with SAPM parameters in an array, a keyword of the caller wins, and get_orientation *)
Example C182_nonvacuous : let s := MkSystem [ex_array ex_mp [("a", VNum #0); ("b", VNum #0); ("deltaT", VNum #0)]] [] [] in
  known [("aoi_model", Some "ashrae"); ("transposition_model", Some "isotropic")] /\
  with_pvwatts s [("aoi_model", Some "ashrae"); ("transposition_model", Some "isotropic")] =
    Ok (Chain s "ineichen" "isotropic" "nrel_numpy" "kastenyoung1989" (Some DC_pvwatts) AC_pvwatts AOI_ashrae SP_no_loss T_sapm OHM_no_loss LOSS_pvwatts) /\
  with_pvwatts s [("color", Some "red")] = Err TypeError /\ with_sapm s [] = Err ValueError.
Proof. split; [intros k H; cbn in H |- *; intuition|]. split; [reflexivity|]. split; reflexivity. Qed.
Theorem C182_get_orientation : forall strategy kw,
  (strategy = "flat" -> get_orientation strategy kw = Ok (#0, #180)) /\
  (strategy = "south_at_latitude_tilt" -> get_orientation strategy kw = match lookup "latitude" kw with Some latitude => Ok (latitude, #180) | None => Err KeyError end) /\
  (strategy <> "flat" -> strategy <> "south_at_latitude_tilt" -> get_orientation strategy kw = Err ValueError).
Proof.
  intros strategy kw. unfold get_orientation, getitem. split; [intros ->; reflexivity|]. split; [intros ->; cbn [String.eqb Ascii.eqb Bool.eqb]; destruct (lookup "latitude" kw); reflexivity|].
  intros H1 H2. destruct (String.eqb_spec strategy "south_at_latitude_tilt"); [contradiction|]. destruct (String.eqb_spec strategy "flat"); [contradiction|reflexivity].
Qed.
Print Assumptions C182_get_orientation.
