(** Reading parameters: lemmas for the Array and PVSystem properties. *)
From Verif Require Import Base.Fl Base.FlFacts Base.Py Model.Tools Model.Atmosphere Model.Irradiance Model.Tracking Model.Iam
  Model.Temperature Model.Spectrum Model.Inverter Model.Pvsystem Model.System Spec.ArraySpec Spec.PerArraySpec Proofs.PvsystemP Proofs.SystemP.
From Coq Require Import Arith Lia.
Open Scope string_scope.

Lemma lookup_kwargs {A} k keys (d : list (string * A)) : lookup k (build_kwargs keys d) = if mem k keys then lookup k d else None.
Proof.
  unfold build_kwargs, mem. induction keys as [|i items IH]; [reflexivity|]. cbn [flat_map existsb].
  destruct (String.eqb_spec k i) as [->|N]; cbn [orb].
  - destruct (lookup i d) as [v|] eqn:E; cbn [app lookup]; [rewrite String.eqb_refl; reflexivity|].
    rewrite IH. destruct (existsb (String.eqb i) items); reflexivity.
  - destruct (lookup i d) as [v|] eqn:E; cbn [app lookup]; [|exact IH]. destruct (String.eqb_spec k i); [contradiction|exact IH].
Qed.
Lemma kw_opt_number keys d k r x : mem k keys = true -> number_or d k #r x -> kw_opt (build_kwargs keys d) k r = Ok x.
Proof. intros M [H|[H ->]]; unfold kw_opt; rewrite lookup_kwargs, M; unfold number in *; rewrite H; reflexivity. Qed.
Lemma kw_none_number keys d k x : mem k keys = true -> maybe_number d k x -> kw_opt_none (build_kwargs keys d) k = Ok x.
Proof. intros M H; unfold kw_opt_none; rewrite lookup_kwargs, M. destruct x; cbn in H; unfold number in *; rewrite H; reflexivity. Qed.
Lemma getnum_number d k x : number d k x -> getnum d k = Ok x.
Proof. intros H. unfold getnum, getitem, number in *. rewrite H. reflexivity. Qed.
Lemma getitem_number d k x : number d k x -> getitem d k = Ok (VNum x).
Proof. intros H. unfold getitem, number in *. rewrite H. reflexivity. Qed.
Lemma nums_lookup d k x : NoDup (map fst d) -> number d k x -> lookup k (nums d) = Some x.
Proof.
  unfold number. induction d as [|[k' v] d IH]; cbn [lookup]; [discriminate|]. intros ND H. inversion ND as [|? ? N1 N2]; subst.
  cbn [nums flat_map]. fold (nums d). rewrite lookup_app.
  destruct (String.eqb_spec k k') as [->|Hn].
  - injection H as ->. cbn. rewrite String.eqb_refl. reflexivity.
  - destruct v; cbn; try (destruct (String.eqb_spec k k'); [contradiction|]); apply IH; assumption.
Qed.
Lemma nums_missing d k : (forall x, ~ In (k, VNum x) d) -> lookup k (nums d) = None.
Proof.
  intros H. apply lookup_None. intros C. unfold nums in C. apply in_map_iff in C as ((k' & x) & <- & C). apply in_flat_map in C as ((k2 & v) & I & C).
  destruct v; cbn in C; [|destruct C..]. destruct C as [C|[]]. injection C as -> ->. exact (H _ I).
Qed.

(** substrings *)
Lemma startswith_iff p s : startswith p s = true <-> exists post, s = p ++ post.
Proof.
  revert s. induction p as [|c p IH]; intros s; cbn [startswith append].
  - split; [intros _; exists s; reflexivity|reflexivity].
  - destruct s as [|c' s]; cbn [startswith].
    + split; [discriminate|intros (q & H); discriminate].
    + rewrite andb_true_iff, IH. split.
      * intros [E (q & ->)]. apply Ascii.eqb_eq in E. subst. exists q. reflexivity.
      * intros (q & H). injection H as -> ->. split; [apply Ascii.eqb_refl|exists q; reflexivity].
Qed.
Lemma contains_iff x s : contains x s = true <-> substring x s.
Proof.
  induction s as [|c s IH]; cbn [contains]; rewrite orb_true_iff, startswith_iff.
  - split; [intros [(q & H)|H]; [exists "", q; exact H|discriminate]|].
    intros (pre & post & H). left. destruct pre; [exists post; exact H|discriminate].
  - rewrite IH. split.
    + intros [(q & H)|(pre & post & H)]; [exists "", q; exact H|exists (String c pre), post; rewrite H; reflexivity].
    + intros (pre & post & H). destruct pre as [|c' pre]; [left; exists post; exact H|]. injection H as -> H. right. exists pre, post. exact H.
Qed.
Lemma infer_temp_spec racking mt : let set := show_opt racking ++ "_" ++ show_opt mt in
  (forall p, In (set, p) sapm_mountings -> infer_temperature_model_params racking mt = Ok (sapm_dict p)) /\
  ((forall p, ~ In (set, p) sapm_mountings) ->
    (substring "freestanding" set -> infer_temperature_model_params racking mt = Ok (pvsyst_dict 29.0)) /\
    (~ substring "freestanding" set -> substring "insulated" set -> infer_temperature_model_params racking mt = Ok (pvsyst_dict 15.0)) /\
    (~ substring "freestanding" set -> ~ substring "insulated" set -> substring "semi_integrated" set ->
       infer_temperature_model_params racking mt = Ok (pvsyst_dict 20.0)) /\
    (~ substring "freestanding" set -> ~ substring "insulated" set -> ~ substring "semi_integrated" set ->
       infer_temperature_model_params racking mt = Ok [])).
Proof.
  intros set. unfold infer_temperature_model_params. fold set. generalize set. clear set. intros set. cbn [getitem lookup bind temperature_model_parameters String.eqb Ascii.eqb Bool.eqb].
  split.
  - intros p H. unfold sapm_mountings in H. cbn in H. repeat (destruct H as [H|H]; [injection H as <- <-; reflexivity|]). destruct H.
  - intros H. assert (M : mem set (map fst [("open_rack_glass_glass", [("a", -3.47); ("b", -0.0594); ("deltaT", 3)]);
               ("close_mount_glass_glass", [("a", -2.98); ("b", -0.0471); ("deltaT", 1)]);
               ("open_rack_glass_polymer", [("a", -3.56); ("b", -0.0750); ("deltaT", 3)]);
               ("insulated_back_glass_polymer", [("a", -2.81); ("b", -0.0455); ("deltaT", 0)])])%R = false).
    { destruct (mem set _) eqn:M; [|reflexivity]. exfalso. apply mem_In in M. cbn in M.
      destruct M as [M|[M|[M|[M|[]]]]]; subst set; eapply H; cbn; eauto 10. }
    unfold temperature_model_parameters. cbn [getitem lookup String.eqb Ascii.eqb Bool.eqb bind]. unfold getitem. cbn [lookup String.eqb Ascii.eqb Bool.eqb bind].
    rewrite M. rewrite <- !contains_iff.
    destruct (contains "freestanding" set), (contains "insulated" set), (contains "semi_integrated" set);
    repeat split; intros; try congruence; try reflexivity.
Qed.
Lemma cell_type_spec v : match v with VStr s => cell_type s (cell_type_key v) | _ => cell_type_key v = Err KeyError end.
Proof.
  destruct v as [x|s|l|b]; try reflexivity. unfold cell_type, cell_type_key, getitem.
  destruct (lookup s cell_type_dict) as [o|] eqn:E.
  - apply lookup_In in E. unfold cell_type_dict in E. cbn [In] in E.
    repeat (destruct E as [E|E]; [injection E as <- <-; first [left; do 2 eexists; (split; [|split; [|reflexivity]]); [cbn; eauto 10|cbn; tauto] | right; left; split; [cbn; tauto|reflexivity]]|]). destruct E.
  - right; right. apply lookup_None in E. split; [|split; [|reflexivity]].
    + intros ty names H N. apply E. unfold cell_types in H. cbn in H.
      repeat (destruct H as [H|H]; [injection H as <- <-; cbn in N; cbn; intuition (subst; tauto)|]). destruct H.
    + intros N. apply E. cbn in *. intuition.
Qed.
