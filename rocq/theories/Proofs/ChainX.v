(** ModelChain: valid data are stored whatever the models then do; complete_irradiance. *)
From Verif Require Import Base.Fl Base.FlFacts Base.Py Model.Tools Model.Pvsystem Model.System Model.ModelChain Spec.ChainSpec
  Spec.PerArraySpec Spec.PipelineSpec Proofs.PvsystemP Proofs.SystemP Proofs.ChainP Proofs.ChainW Proofs.ChainV Proofs.ChainPipe.
From Coq Require Import ZArith Lia.
Open Scope string_scope.
Open Scope list_scope.
Section X.
Variable E : env.
Variable c : chain.
Let n := num_arrays (c_system c).

Lemma weather_ok i r : frames i <> [] -> exists r', assign_weather c (to_tuple i) r = (r', Ok tt).
Proof.
  intros Hne. unfold assign_weather, assign_times, mbind, upd, need.
  destruct i as [d|[|d l]|[|d l]]; cbn; unfold wrap; cbn; try (destruct (_ && _)%bool; cbn; eexists; reflexivity); try (exfalso; apply Hne; reflexivity).
Qed.
Lemma kept_weather i r r' : one_per_array n i -> assign_weather c (to_tuple i) r = (r', Ok tt) -> weather_kept i n r'.
Proof.
  intros H1 H.
  assert (HF : fitsd c (to_tuple i)) by (destruct i; cbn in *; auto).
  destruct (p_weather c _ _ _ HF H) as (_ & (w & HW & RW) & _). intros k d K Hd.
  exists (build_weather d). rewrite HW. cbn [at_k]. rewrite (rd_value c _ _ k RW K).
  rewrite <- (datal_input c) in Hd by exact K. split; [apply map_nth_error; exact Hd|]. split; [reflexivity|].
  destruct (build_weather_temp d) as [A B]. split; [exact A|]. split; [exact B|]. intros key Hk. apply build_weather_col. exact Hk.
Qed.
Lemma kept_same i r r' : same_field F_weather r' r -> weather_kept i n r -> weather_kept i n r'.
Proof. intros S H k d K Hd. cbn [same_field] in S. rewrite S. apply H; assumption. Qed.
Ltac kw := repeat first [apply keeps_lift|apply keeps_bind; [|intros ?]].

Lemma valid_run_model i r : frames i <> [] -> one_per_array n i -> same_index i -> has_columns ["ghi"; "dni"; "dhi"] i ->
  weather_kept i n (fst (run_model E c i r)).
Proof.
  intros Hne H1 H2 H3. destruct (weather_ok i r Hne) as [r' O].
  assert (C : check_multiple_input c (to_tuple i) false = Ok tt).
  { destruct (check_iff c i false) as [(_ & _ & X)|[(X & _)|(X & _)]]; [exact X|discriminate|exfalso; apply X; auto]. }
  assert (V : verify_df (to_tuple i) ["ghi"; "dni"; "dhi"] = Ok tt).
  { destruct (verify_iff i ["ghi"; "dni"; "dhi"]) as [[_ X]|[X _]]; [exact X|contradiction]. }
  unfold run_model, prepare_inputs. cbv zeta. unfold mbind at 1. unfold mbind at 1. rewrite C. unfold lift at 1. cbv beta iota.
  unfold mbind at 1. rewrite V. unfold lift at 1. cbv beta iota. unfold mbind at 1. rewrite O. cbv beta iota.
  match goal with |- context[let (_, _) := ?m r' in _] => assert (Km : keeps F_weather m) end.
  { apply keeps_bind; [apply k_sp; discriminate|intros _]. apply keeps_bind; [apply k_am; discriminate|intros _].
    apply keeps_bind; [apply k_alb; discriminate|intros _]. apply keeps_bind; [apply k_fixed; discriminate|intros _].
    clear. kp. }
  pose proof (Km r') as S1. match goal with |- context[let (_, _) := ?m r' in _] => destruct (m r') as [r1 [[]|e]] end; cbn [fst] in *.
  - apply (kept_same i r1); [apply keeps_rest; simpl; tauto|]. apply (kept_same i r'); [exact S1|]. exact (kept_weather i r r' H1 O).
  - apply (kept_same i r'); [exact S1|]. exact (kept_weather i r r' H1 O).
Qed.
Lemma strict_ok i : (n = 1%nat \/ forall d, i <> InFrame d) -> one_per_array n i -> same_index i -> check_multiple_input c (to_tuple i) true = Ok tt.
Proof.
  intros S H1 H2. destruct (check_iff c i true) as [(_ & _ & X)|[(_ & X & (d & Y) & _)|(X & _)]]; [exact X| |exfalso; apply X; auto].
  exfalso. destruct S as [S|S]; [contradiction|exact (S d Y)].
Qed.
Lemma valid_run_poa i r : frames i <> [] -> (n = 1%nat \/ forall d, i <> InFrame d) -> one_per_array n i -> same_index i ->
  weather_kept i n (fst (run_model_from_poa E c i r)).
Proof.
  intros Hne S H1 H2. destruct (weather_ok i r Hne) as [r' O]. pose proof (strict_ok i S H1 H2) as C.
  unfold run_model_from_poa, prepare_inputs_from_poa. cbv zeta. unfold mbind at 1. unfold mbind at 1. rewrite C. unfold lift at 1. cbv beta iota.
  unfold mbind at 1. rewrite O. cbv beta iota.
  match goal with |- context[let (_, _) := ?m r' in _] => assert (Km : keeps F_weather m) end.
  { apply keeps_bind; [apply keeps_lift|intros _]. apply keeps_bind; [apply k_total; discriminate|intros _].
    apply keeps_bind; [apply k_sp; discriminate|intros _]. apply keeps_bind; [apply k_am; discriminate|intros _]. apply k_fixed; discriminate. }
  pose proof (Km r') as S1. match goal with |- context[let (_, _) := ?m r' in _] => destruct (m r') as [r1 [[]|e]] end; cbn [fst] in *.
  - apply (kept_same i r1); [apply keeps_rest; simpl; tauto|]. apply (kept_same i r'); [exact S1|]. exact (kept_weather i r r' H1 O).
  - apply (kept_same i r'); [exact S1|]. exact (kept_weather i r r' H1 O).
Qed.
Lemma valid_run_eff i r : frames i <> [] -> (n = 1%nat \/ forall d, i <> InFrame d) -> one_per_array n i -> same_index i ->
  has_columns ["effective_irradiance"] i -> weather_kept i n (fst (run_model_from_effective_irradiance E c i r)).
Proof.
  intros Hne S H1 H2 H3. destruct (weather_ok i r Hne) as [r' O]. pose proof (strict_ok i S H1 H2) as C.
  assert (V : verify_df (to_tuple i) ["effective_irradiance"] = Ok tt).
  { destruct (verify_iff i ["effective_irradiance"]) as [[_ X]|[X _]]; [exact X|contradiction]. }
  unfold run_model_from_effective_irradiance. cbv zeta. unfold mbind at 1. rewrite C. unfold lift at 1. cbv beta iota.
  unfold mbind at 1. rewrite V. unfold lift at 1. cbv beta iota. unfold mbind at 1. rewrite O. cbv beta iota.
  match goal with |- context[fst (?m r')] => assert (Km : keeps F_weather m) end.
  { apply keeps_bind; [apply k_total; discriminate|intros _]. apply keeps_bind; [apply keeps_lift|intros ?].
    apply keeps_bind; [clear; kp|intros _]. apply k_from_eff. unfold dc_fields.
    clear. destruct (c_dc_model c) as [[]|], (c_dc_ohmic_model c); simpl; intuition discriminate. }
  apply (kept_same i r'); [apply Km|]. exact (kept_weather i r r' H1 O).
Qed.

Lemma given_has d k : given d k <-> has_col k (df_cols d) = true.
Proof. unfold given, column. rewrite has_col_lookup. destruct (lookup k (df_cols d)); split; intros H; try reflexivity; try discriminate. exfalso; apply H; reflexivity. Qed.
Lemma has_false d k : has_col k (df_cols d) = false -> ~ given d k.
Proof. intros H G. apply given_has in G. congruence. Qed.
Lemma added_ok d k out v : has_col k (df_cols d) = false -> column out k = Some v ->
  added d (DF (df_index d) (df_cols d ++ [(k, v)])) k out.
Proof.
  intros H O. split; [reflexivity|]. exists v. split; [exact O|]. rewrite has_col_lookup in H. cbn [df_cols]. unfold column. split.
  - rewrite lookup_app. destruct (lookup k (df_cols d)); [discriminate|]. cbn. rewrite String.eqb_refl. reflexivity.
  - intros k' N. rewrite lookup_app. destruct (lookup k' (df_cols d)); [reflexivity|]. cbn. destruct (String.eqb_spec k' k); [contradiction|reflexivity].
Qed.
Ltac rb H a := match type of H with bind ?m _ = Ok _ => let Hm := fresh "B" in destruct m as [a|] eqn:Hm; [cbn [bind] in H|discriminate H] end.
Lemma complete_one_ok t sp d w : complete_one E c t sp d = Ok w -> completed E c sp d w.
Proof.
  unfold complete_one. cbv zeta. intros H.
  destruct (has_col "ghi" (df_cols d)) eqn:G, (has_col "dhi" (df_cols d)) eqn:D, (has_col "dni" (df_cols d)) eqn:N; cbn [andb negb] in H;
  try (right; right; right; split; [|congruence];
       repeat match goal with X : has_col _ _ = true |- _ => apply given_has in X | X : has_col _ _ = false |- _ => apply has_false in X end; tauto).
  - left. rb H cs. rb H z. rb H cd. rb H out. rb H v. injection H as <-. split; [apply given_has; exact G|]. split; [apply given_has; exact D|].
    split; [apply has_false; exact N|]. exists cs, z, cd, out. repeat split; auto; try (apply getitem_inv; assumption).
    apply added_ok; [exact N|apply getitem_inv; assumption].
  - right; right; left. rb H z. rb H out. rb H v. injection H as <-. split; [apply given_has; exact N|]. split; [apply given_has; exact G|].
    split; [apply has_false; exact D|]. exists z, out. repeat split; auto; try (apply getitem_inv; assumption).
    apply added_ok; [exact D|apply getitem_inv; assumption].
  - right; left. rb H z. rb H out. rb H v. injection H as <-. split; [apply given_has; exact N|]. split; [apply given_has; exact D|].
    split; [apply has_false; exact G|]. exists z, out. repeat split; auto; try (apply getitem_inv; assumption).
    apply added_ok; [exact G|apply getitem_inv; assumption].
Qed.
Lemma complete_ok i r r' : arrays (c_system c) <> [] -> complete_irradiance E c i r = (r', Ok tt) ->
  complete_computes E c i r' /\ same_index i.
Proof.
  intros Hne H. assert (N0 : n <> 0%nat) by (unfold n, num_arrays; destruct (arrays _); [congruence|discriminate]).
  unfold complete_irradiance in H. cbv zeta in H. bi H. li B. destruct (check_fits c _ _ _ X) as [HF HST]. specialize (HST eq_refl).
  assert (SI : same_index i).
  { destruct (check_iff c i true) as [(Q & _)|[(_ & _ & _ & Q)|(_ & Q)]]; [apply Q|congruence|congruence]. }
  bi H. apply upd_inv in B. subst r0. bi H. unfold assign_times in B. bi B. ni B0.
  cbn [weather set_weather] in X0. injection X0 as <-.
  bi H. ni B0. bi H. li B0. bi H. apply upd_inv in B0. subst. bi H. ni B0. cbn [weather set_solar_position] in X1.
  assert (Hw : exists d0, (match to_tuple i with Tup (d :: _) | Bare d => d = d0 | Tup [] => False end) /\ times r0 = Some (df_index d0) /\
      weather r0 = Some (wrap r (to_tuple i))).
  { destruct (to_tuple i) as [[|d l]|d]; cbn [wrap] in B; unfold wrap in B.
    - destruct (singleton_tuples r); apply lift_inv in B as [_ B]; discriminate.
    - exists d. destruct (singleton_tuples r); apply upd_inv in B; subst r0; cbn; unfold wrap; repeat split.
    - exists d. destruct (singleton_tuples r) eqn:Fl; apply upd_inv in B; subst r0; cbn; unfold wrap; rewrite ?Fl; repeat split; congruence. }
  destruct Hw as (d0 & D0 & T0 & W0). 
  split; [|exact SI]. rewrite T0 in X0. injection X0 as <-.
  cbn [weather set_solar_position] in X2. rewrite W0 in X2. injection X2 as <-.
  assert (I0 : input_for i 0 = Some d0) by (apply (first_input c); assumption).
  destruct (to_tuple i) as [l|d] eqn:TI; unfold wrap in H.
  - assert (H' : mbind (lift (mapM (complete_one E c (df_index d0) a3) l)) (fun l1 => upd (set_weather (Tup l1))) (set_solar_position a3 r0) = (r', Ok tt))
      by (destruct (singleton_tuples r); exact H). clear H. rename H' into H.
    bi H. li B0. apply upd_inv in H. subst r'.
    exists d0, a3. split; [exact I0|]. split; [exact T0|]. split; [reflexivity|]. split; [exact X1|]. intros k d K Hd.
    rewrite <- (datal_input c) in Hd by exact K. rewrite TI in Hd. cbn [datal] in Hd.
    destruct (mapM_at1 _ _ _ X0) as [_ Q]. destruct (Q k d Hd) as (w & W1 & W2). exists w. split; [|eapply complete_one_ok; exact W2].
    cbn [weather set_weather]. unfold wrap. destruct (singleton_tuples _); exact W1.
  - destruct (singleton_tuples r) eqn:Fl; [apply lift_inv in H as [_ H]; discriminate|].
    bi H. li B0. apply upd_inv in H. subst r'. assert (N1 : num_arrays (c_system c) = 1%nat) by (destruct HST; [assumption|discriminate]).
    exists d0, a3. split; [exact I0|]. split; [exact T0|]. split; [reflexivity|]. split; [exact X1|]. intros k d' K Hd.
    rewrite <- (datal_input c) in Hd by exact K. rewrite TI in Hd. cbn [datal] in Hd. rewrite N1 in Hd. fold (num_arrays (c_system c)) in K. rewrite N1 in K.
    assert (k = 0%nat) by lia. subst k. cbn in Hd. injection Hd as <-. match type of X0 with _ = Ok ?w => exists w end. split; [|eapply complete_one_ok; exact X0].
    cbn [weather set_weather set_solar_position]. unfold wrap.
    change (singleton_tuples (set_solar_position a3 r0)) with (singleton_tuples r0). destruct (singleton_tuples r0); reflexivity.
Qed.
(** a bare frame after a run on a 1-tuple *)
Lemma complete_stale d r : n = 1%nat -> singleton_tuples r = true ->
  exists e, snd (complete_irradiance E c (InFrame d) r) = Err e.
Proof.
  intros N1 Fl. unfold complete_irradiance, mbind, lift, upd, need, assign_times, check_multiple_input. cbn [to_tuple]. fold n. rewrite N1. cbn.
  unfold wrap. rewrite Fl. cbn. destruct (e_solarposition E _ _ None None); cbn; eauto. unfold wrap. rewrite Fl. eexists. reflexivity.
Qed.
End X.
