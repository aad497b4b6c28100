(** Histories, wrapping and validation of the run methods. *)
From Verif Require Import Base.Fl Base.FlFacts Base.Py Model.Tools Model.Pvsystem Model.System Model.ModelChain Spec.ChainSpec
  Proofs.ChainP Proofs.ChainW.
From Coq Require Import ZArith Lia.
Open Scope string_scope.
Open Scope list_scope.

Lemma rel_same_outcome l (m : M unit) r1 r2 : run_rel m l -> same_outcome l (m r1) (m r2).
Proof.
  intros H. specialize (H r1 r2 I). unfold same_outcome. destruct (m r1) as [r1' [[]|e1]], (m r2) as [r2' [[]|e2]]; auto.
  destruct H as [_ H]. intros f Hf. eapply agree_in; eauto.
Qed.
Lemma rel_wrapped_outcome l (m1 m2 : M unit) r1 r2 : rel2 (fun _ _ => True) (wag l) eq m1 m2 -> wrapped_outcome l (m1 r1) (m2 r2).
Proof.
  intros H. specialize (H r1 r2 I). unfold wrapped_outcome. destruct (m1 r1) as [r1' [[]|e1]], (m2 r2) as [r2' [[]|e2]]; auto.
  destruct H as [_ H]. intros f Hf. eapply wag_in; eauto.
Qed.
Lemma tuple_same E c l r : run_model E c (InTuple l) r = run_model E c (InList l) r /\
  run_model_from_poa E c (InTuple l) r = run_model_from_poa E c (InList l) r /\
  run_model_from_effective_irradiance E c (InTuple l) r = run_model_from_effective_irradiance E c (InList l) r.
Proof. repeat split. Qed.

Lemma bind_ok {A B} (m : M A) (k : A -> M B) r r' a : m r = (r', Ok a) -> mbind m k r = k a r'.
Proof. intros H. unfold mbind. rewrite H. reflexivity. Qed.
Lemma bind_err {A B} (m : M A) (k : A -> M B) r r' e : m r = (r', Err e) -> mbind m k r = (r', Err e).
Proof. intros H. unfold mbind. rewrite H. reflexivity. Qed.

Section Valid.
Variable E : env.
Variable c : chain.
Let n := num_arrays (c_system c).
Lemma all_same_index_iff l : all_same_index l = true <-> (forall d d', In d l -> In d' l -> df_index d = df_index d').
Proof.
  destruct l as [|d l]; simpl; [split; [intros _ ? ? []|reflexivity]|]. rewrite forallb_forall. unfold index_eqb. split.
  - intros H. assert (G : forall x, d = x \/ In x l -> df_index x = df_index d).
    { intros x [<-|Hx]; [reflexivity|]. specialize (H x Hx). destruct (list_eq_dec Z.eq_dec (df_index x) (df_index d)); [assumption|discriminate]. }
    intros x y Hx Hy. rewrite (G x Hx), (G y Hy). reflexivity.
  - intros H x Hx. destruct (list_eq_dec Z.eq_dec (df_index x) (df_index d)); [reflexivity|]. exfalso. apply n0. apply H; auto.
Qed.
Lemma verify_iff i keys : (has_columns keys i /\ verify_df (to_tuple i) keys = Ok tt) \/ (~ has_columns keys i /\ verify_df (to_tuple i) keys = Err ValueError).
Proof.
  unfold verify_df. assert (T : tuple_of (to_tuple i) = frames i) by (destruct i; reflexivity). rewrite T.
  destruct (forallb _ (frames i)) eqn:B.
  - left. split; [|reflexivity]. rewrite forallb_forall in B. intros d k Hd Hk. specialize (B d Hd). rewrite subset_iff in B. auto.
  - right. split; [|reflexivity]. intros H. assert (forallb (fun d => subset keys (map fst (df_cols d))) (frames i) = true); [|congruence].
    apply forallb_forall. intros d Hd. apply subset_iff. intros k Hk. apply H; auto.
Qed.
Lemma check_iff i strict :
  let ok := one_per_array n i /\ same_index i in
  (ok /\ (strict = false \/ n = 1%nat \/ (forall d, i <> InFrame d)) /\ check_multiple_input c (to_tuple i) strict = Ok tt) \/
  (strict = true /\ n <> 1%nat /\ (exists d, i = InFrame d) /\ check_multiple_input c (to_tuple i) strict = Err TypeError) \/
  (~ ok /\ check_multiple_input c (to_tuple i) strict = Err ValueError).
Proof.
  cbv zeta. assert (G : forall i l, frames i = l -> to_tuple i = Tup l -> (one_per_array n i <-> length l = n) -> (forall d, i <> InFrame d) ->
    ((one_per_array n i /\ same_index i) /\ (strict = false \/ n = 1%nat \/ (forall d, i <> InFrame d)) /\ check_multiple_input c (to_tuple i) strict = Ok tt) \/
    (~ (one_per_array n i /\ same_index i) /\ check_multiple_input c (to_tuple i) strict = Err ValueError)).
  { intros i0 l Hf Ht Ho Hd. rewrite Ht. cbn [check_multiple_input]. fold n. destruct (Nat.eqb_spec (length l) n) as [E1|E1]; cbn [negb].
    - destruct (all_same_index l) eqn:A.
      + left. rewrite all_same_index_iff in A. unfold same_index. rewrite Hf. split; [split; [apply Ho; auto|exact A]|]. auto.
      + right. split; [|reflexivity]. intros [_ B]. unfold same_index in B. rewrite Hf in B. apply all_same_index_iff in B. congruence.
    - right. split; [|reflexivity]. intros [A _]. apply Ho in A. contradiction. }
  destruct i as [d|l|l].
  - cbn [to_tuple check_multiple_input]. fold n. destruct strict; cbn [negb orb].
    + destruct (Nat.eqb_spec n 1) as [E1|E1].
      * left. split; [split; [exact I|intros ? ? [<-|[]] [<-|[]]; reflexivity]|]. auto.
      * right; left. split; [reflexivity|]. split; [exact E1|]. split; eauto.
    + left. split; [split; [exact I|intros ? ? [<-|[]] [<-|[]]; reflexivity]|]. auto.
  - destruct (G (InTuple l) l) as [H|H]; auto; try reflexivity. intros d; discriminate.
  - destruct (G (InList l) l) as [H|H]; auto; try reflexivity. intros d; discriminate.
Qed.
Lemma invalid_run_model i r :
  ~ (one_per_array n i /\ same_index i /\ has_columns ["ghi"; "dni"; "dhi"] i) -> run_model E c i r = (r, Err ValueError).
Proof.
  intros H. unfold run_model, prepare_inputs, mbind, lift.
  destruct (check_iff i false) as [(A & _ & ->)|[(A & _)|(A & ->)]]; [|discriminate|reflexivity].
  destruct (verify_iff i ["ghi"; "dni"; "dhi"]) as [[B ->]|[B ->]]; [|reflexivity]. exfalso. tauto.
Qed.
Lemma invalid_run_eff i r :
  (n <> 1%nat /\ (exists d, i = InFrame d) /\ run_model_from_effective_irradiance E c i r = (r, Err TypeError)) \/
  ((n = 1%nat \/ forall d, i <> InFrame d) /\
   (~ (one_per_array n i /\ same_index i /\ has_columns ["effective_irradiance"] i) -> run_model_from_effective_irradiance E c i r = (r, Err ValueError))).
Proof.
  unfold run_model_from_effective_irradiance, mbind, lift.
  destruct (check_iff i true) as [(A & B & ->)|[(_ & A & B & ->)|(A & Hc)]].
  - right. split; [destruct B; [discriminate|assumption]|]. intros H.
    destruct (verify_iff i ["effective_irradiance"]) as [[C ->]|[C ->]]; [|reflexivity]. exfalso. tauto.
  - left. auto.
  - right. split.
    + destruct i; [|right; discriminate|right; discriminate]. exfalso. apply A. split; [exact I|intros ? ? [<-|[]] [<-|[]]; reflexivity].
    + intros _. rewrite Hc. reflexivity.
Qed.
Lemma invalid_run_poa i r :
  (n <> 1%nat /\ (exists d, i = InFrame d) /\ run_model_from_poa E c i r = (r, Err TypeError)) \/
  ((n = 1%nat \/ forall d, i <> InFrame d) /\
   (~ (one_per_array n i /\ same_index i) -> run_model_from_poa E c i r = (r, Err ValueError)) /\
   (one_per_array n i /\ same_index i -> frames i <> [] -> ~ has_columns ["poa_global"; "poa_direct"; "poa_diffuse"] i ->
    snd (run_model_from_poa E c i r) = Err ValueError /\
    forall f, f <> F_weather -> f <> F_times -> same_field f (fst (run_model_from_poa E c i r)) r)).
Proof.
  unfold run_model_from_poa, prepare_inputs_from_poa. cbv zeta.
  destruct (check_iff i true) as [(A & B & Hc)|[(_ & A & B & Hc)|(A & Hc)]].
  - right. split; [destruct B; [discriminate|assumption]|]. split; [intros X; contradiction|]. intros _ Hne H.
    destruct (verify_iff i ["poa_global"; "poa_direct"; "poa_diffuse"]) as [[C _]|[C HC]]; [contradiction|].
    pose proof (fun f => k_weather c f (to_tuple i)) as K.
    assert (O : exists r', assign_weather c (to_tuple i) r = (r', Ok tt)).
    { unfold assign_weather, assign_times, mbind, upd, need.
      destruct i as [d|[|d l]|[|d l]]; cbn; unfold wrap; cbn; try (destruct (_ && _)%bool; cbn; eexists; reflexivity); try (exfalso; apply Hne; reflexivity). }
    destruct O as [r' O].
    erewrite bind_err; [|erewrite bind_ok; [|rewrite Hc; reflexivity]; erewrite bind_ok; [|exact O]; erewrite bind_err; [reflexivity|rewrite HC; reflexivity]].
    split; [reflexivity|]. intros f F1 F2. assert (KK : ~ In f [F_weather; F_times]) by (simpl; intuition congruence).
    specialize (K f KK r). rewrite O in K. exact K.
  - left. split; [exact A|]. split; [exact B|]. erewrite bind_err; [reflexivity|]. erewrite bind_err; [reflexivity|]. rewrite Hc. reflexivity.
  - right. split.
    + destruct i; [|right; discriminate|right; discriminate]. exfalso. apply A. split; [exact I|intros ? ? [<-|[]] [<-|[]]; reflexivity].
    + split; [|intros X; contradiction]. intros _. erewrite bind_err; [reflexivity|]. erewrite bind_err; [reflexivity|]. rewrite Hc. reflexivity.
Qed.
End Valid.
