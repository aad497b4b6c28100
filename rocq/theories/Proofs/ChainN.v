(** Model names, inference and input validation. *)
From Verif Require Import Base.Fl Base.FlFacts Base.Py Model.Tools Model.Pvsystem Model.System Model.ModelChain Spec.ChainSpec Proofs.ChainP.
From Coq Require Import ZArith Lia.
Open Scope string_scope.
Open Scope list_scope.

Lemma pvsystem_init_arrays arr st sa al sty m mt mp tp mps spi ip rk lp s :
  pvsystem_init arr st sa al sty m mt mp tp mps spi ip rk lp = Ok s -> arrays s <> [].
Proof.
  unfold pvsystem_init. destruct arr as [|a|l].
  - match goal with |- bind (bind ?x _) _ = _ -> _ => destruct x as [a|e] end; cbn [bind]; [|discriminate].
    intros [= <-]. discriminate.
  - cbn [bind]. intros [= <-]. discriminate.
  - destruct l; cbn [bind]; [discriminate|]. intros [= <-]. discriminate.
Qed.

(** the subset of [keys] in every array *)
Lemma subset_every get s keys : arrays s <> [] ->
  subset keys (common_keys (map get (arrays s))) = true <-> forall key, In key keys -> in_every get s key.
Proof. intros H. rewrite subset_iff. split; intros X k Hk; apply (in_every_common get s k H); auto. Qed.

(** inference *)
Lemma infer_dc_iff s k : arrays s <> [] ->
  (exists nm, infer_dc_model s = Ok (k, nm)) <-> first_match dc_candidates (in_every ar_module_parameters s) k.
Proof.
  intros Hne. rewrite <- (search_iff _ (module_keys s)) by (intros; apply in_every_common; assumption).
  rewrite infer_dc_search. destruct (search dc_candidates (module_keys s)) as [k'|]; split.
  - intros [nm [= -> _]]. reflexivity.
  - intros [= ->]. eauto.
  - intros [nm X]. discriminate.
  - discriminate.
Qed.
Lemma infer_dc_err s e : arrays s <> [] ->
  infer_dc_model s = Err e <-> e = ValueError /\ no_match dc_candidates (in_every ar_module_parameters s).
Proof.
  intros Hne. rewrite <- (search_none_iff _ (module_keys s)) by (intros; apply in_every_common; assumption).
  rewrite infer_dc_search. destruct (search dc_candidates (module_keys s)) as [k'|]; split; try discriminate.
  - intros [_ H]. discriminate.
  - intros [= <-]. auto.
  - intros [-> _]. reflexivity.
Qed.
Lemma infer_dc_name s k nm : infer_dc_model s = Ok (k, nm) -> In (k, nm) dc_names.
Proof.
  rewrite infer_dc_search. destruct (search dc_candidates (module_keys s)) as [[]|]; intros H; try discriminate; injection H as <- <-; simpl; auto 10.
Qed.
Lemma infer_generic {K} cands keys present (k : K) :
  (forall key, In key keys <-> present key) ->
  (match search cands keys with Some k => Ok k | None => Err ValueError end = Ok k) <-> first_match cands present k.
Proof. intros H. rewrite <- (search_iff _ keys) by assumption. destruct (search cands keys); split; intros X; congruence. Qed.
Lemma infer_generic_err {K} cands keys present e :
  (forall key, In key keys <-> present key) ->
  (match search cands keys with Some k => Ok k | None => Err ValueError end = @Err K e) <-> e = ValueError /\ no_match cands present.
Proof.
  intros H. rewrite <- (search_none_iff _ keys) by assumption. destruct (search cands keys); split; intros X; try discriminate; intuition congruence.
Qed.

(** names *)
Lemma eqb_t a b : String.eqb a b = true -> a = b. Proof. apply String.eqb_eq. Qed.
Lemma eqb_f a b : String.eqb a b = false -> a <> b. Proof. apply String.eqb_neq. Qed.
Ltac nm m := repeat match goal with
  | |- context[if String.eqb m ?x then _ else _] => let H := fresh "H" in destruct (String.eqb m x) eqn:H; [apply eqb_t in H|apply eqb_f in H]
  end.
Lemma dc_setter s cur m : arrays s <> [] ->
  let ok k := In (k, lower m) dc_names /\ forall key, In key (dc_required k) -> in_every ar_module_parameters s key in
  let ok_single := lower m = "singlediode" /\ forall key, In key (dc_required DC_desoto) -> in_every ar_module_parameters s key in
  (exists k, ok k /\ set_dc_model s cur (Some m) = (Some k, Ok tt)) \/
  (ok_single /\ set_dc_model s cur (Some m) = (cur, Ok tt)) \/
  ((forall k, ~ ok k) /\ ~ ok_single /\ set_dc_model s cur (Some m) = (cur, Err ValueError)).
Proof.
  intros Hne. cbv zeta. unfold set_dc_model. cbv zeta.
  set (l := lower m). clearbody l.
  assert (D : In l ["sapm"; "desoto"; "cec"; "pvsyst"; "singlediode"; "pvwatts"] \/ ~ In l ["sapm"; "desoto"; "cec"; "pvsyst"; "singlediode"; "pvwatts"])
    by (destruct (mem l ["sapm"; "desoto"; "cec"; "pvsyst"; "singlediode"; "pvwatts"]) eqn:E;
        [left; apply mem_In; exact E|right; intros C; apply mem_In in C; congruence]).
  destruct D as [D|D].
  - assert (G : forall k req, In (k, l) dc_names -> (forall k', In (k', l) dc_names -> k' = k) -> req = dc_required k -> l <> "singlediode" ->
      forall f, (exists k', (In (k', l) dc_names /\ (forall key, In key (dc_required k') -> in_every ar_module_parameters s key)) /\
        (if negb (subset req (module_keys s)) then (cur, Err ValueError) else f) = (Some k', Ok tt)) \/
        ((l = "singlediode" /\ (forall key, In key (dc_required DC_desoto) -> in_every ar_module_parameters s key)) /\
        (if negb (subset req (module_keys s)) then (cur, Err ValueError) else f) = (cur, Ok tt)) \/
        ((forall k', ~ (In (k', l) dc_names /\ (forall key, In key (dc_required k') -> in_every ar_module_parameters s key))) /\
         ~ (l = "singlediode" /\ (forall key, In key (dc_required DC_desoto) -> in_every ar_module_parameters s key)) /\
        (if negb (subset req (module_keys s)) then (cur, Err ValueError) else f) = (cur, Err ValueError)) \/ f <> (Some k, Ok tt)).
    { intros k req Hin Huniq -> Hns f. destruct (subset (dc_required k) (module_keys s)) eqn:S; cbn [negb].
      - destruct f as [o r]. destruct o as [k0|]; [|right; right; right; congruence].
        destruct r as [[]|]; [|right; right; right; congruence].
        assert (DK : {k0 = k} + {k0 <> k}) by decide equality. destruct DK as [->|]; [|right; right; right; congruence].
        left. exists k. split; [split; [exact Hin|]|reflexivity]. apply (subset_every ar_module_parameters); auto.
      - right; right; left. split; [|split; [intros [C _]; contradiction|reflexivity]].
        intros k' [A B]. rewrite (Huniq k' A) in B. apply (subset_every ar_module_parameters) in B; [|exact Hne].
        unfold module_keys in S. congruence. }
    assert (U : forall nm k, In (k, nm) dc_names -> forall k', In (k', nm) dc_names -> k' = k).
    { intros nm0 k A k' B. simpl in A, B. repeat (destruct A as [A|A]; [injection A as <- <-|]); try contradiction;
      repeat (destruct B as [B|B]; [injection B; congruence|]); contradiction. }
    simpl in D. destruct D as [<-|[<-|[<-|[<-|[<-|[<-|[]]]]]]]; cbn [lookup DC_MODEL_PARAMS String.eqb Ascii.eqb Bool.eqb].
    + destruct (G DC_sapm (dc_required DC_sapm) ltac:(simpl; auto) (U "sapm" DC_sapm ltac:(simpl; auto)) eq_refl ltac:(discriminate) (Some DC_sapm, Ok tt)) as [X|[X|[X|X]]]; auto; congruence.
    + destruct (G DC_desoto (dc_required DC_desoto) ltac:(simpl; auto) (U "desoto" DC_desoto ltac:(simpl; auto)) eq_refl ltac:(discriminate) (Some DC_desoto, Ok tt)) as [X|[X|[X|X]]]; auto; congruence.
    + destruct (G DC_cec (dc_required DC_cec) ltac:(simpl; auto) (U "cec" DC_cec ltac:(simpl; auto)) eq_refl ltac:(discriminate) (Some DC_cec, Ok tt)) as [X|[X|[X|X]]]; auto; congruence.
    + destruct (G DC_pvsyst (dc_required DC_pvsyst) ltac:(simpl; auto) (U "pvsyst" DC_pvsyst ltac:(simpl; auto)) eq_refl ltac:(discriminate) (Some DC_pvsyst, Ok tt)) as [X|[X|[X|X]]]; auto; congruence.
    + change ["alpha_sc"; "a_ref"; "I_L_ref"; "I_o_ref"; "R_sh_ref"; "R_s"] with (dc_required DC_desoto).
      destruct (subset (dc_required DC_desoto) (module_keys s)) eqn:S; cbn [negb].
      * right; left. split; [split; [reflexivity|]|reflexivity]. apply (subset_every ar_module_parameters); auto.
      * right; right. split; [|split; [|reflexivity]].
        -- intros k' [A _]. simpl in A. repeat (destruct A as [A|A]; [discriminate|]). exact A.
        -- intros [_ B]. apply (subset_every ar_module_parameters) in B; [|exact Hne]. unfold module_keys in S. congruence.
    + destruct (G DC_pvwatts (dc_required DC_pvwatts) ltac:(simpl; auto 10) (U "pvwatts" DC_pvwatts ltac:(simpl; auto 10)) eq_refl ltac:(discriminate) (Some DC_pvwatts, Ok tt)) as [X|[X|[X|X]]]; auto; congruence.
  - right; right. split; [|split].
    + intros k [A _]. simpl in A. apply D. simpl. repeat (destruct A as [A|A]; [injection A as _ <-; tauto|]). contradiction.
    + intros [-> _]. apply D. simpl. auto 10.
    + replace (lookup l DC_MODEL_PARAMS) with (@None (list string)); [reflexivity|].
      cbn [lookup DC_MODEL_PARAMS].
      repeat match goal with |- context[String.eqb l ?x] => replace (String.eqb l x) with false;
        [|symmetry; apply String.eqb_neq; intros ->; apply D; simpl; auto 10] end. reflexivity.
Qed.
Lemma dc_setter_infer s cur : arrays s <> [] ->
  (no_match dc_candidates (in_every ar_module_parameters s) /\ set_dc_model s cur None = (cur, Err ValueError)) \/
  (exists k, first_match dc_candidates (in_every ar_module_parameters s) k /\
     ((forall key, In key (dc_required k) -> in_every ar_module_parameters s key) /\ set_dc_model s cur None = (Some k, Ok tt) \/
      ~ (forall key, In key (dc_required k) -> in_every ar_module_parameters s key) /\ set_dc_model s cur None = (Some k, Err ValueError))).
Proof.
  intros Hne. destruct (infer_dc_model s) as [[k nm]|e] eqn:E.
  - right. exists k. split; [apply infer_dc_iff; eauto|].
    pose proof (infer_dc_name _ _ _ E) as HN.
    assert (X : set_dc_model s cur None = set_dc_model s (Some k) (Some nm)) by (unfold set_dc_model; rewrite E; reflexivity).
    assert (LN : lower nm = nm) by (simpl in HN; repeat (destruct HN as [HN|HN]; [injection HN as <- <-; reflexivity|]); contradiction).
    rewrite X. destruct (dc_setter s (Some k) nm Hne) as [(k' & [A B] & C)|[[[A B] C]|(A & B & C)]]; rewrite LN in *; rewrite C.
    + assert (k' = k) as ->. { simpl in HN, A. repeat (destruct HN as [HN|HN]; [injection HN as <- <-|]); try contradiction;
      repeat (destruct A as [A|A]; [injection A; congruence|]); contradiction. }
      left. auto.
    + subst nm. simpl in HN. repeat (destruct HN as [HN|HN]; [discriminate|]). contradiction.
    + right. split; [|reflexivity]. intros Y. exact (A k (conj HN Y)).
  - left. apply infer_dc_err in E as [-> N]; [|exact Hne]. split; [exact N|].
    unfold set_dc_model. destruct (infer_dc_model s) as [[k nm]|e] eqn:E2.
    + exfalso. assert (F : first_match dc_candidates (in_every ar_module_parameters s) k) by (apply infer_dc_iff; eauto).
      exact (first_match_no_match _ _ _ F N).
    + apply infer_dc_err in E2 as [-> _]; auto.
Qed.

(** simple setters *)
Ltac simple_setter :=
  let l := fresh "l" in
  intros; cbv zeta; match goal with |- context[lower ?m] => set (l := lower m); clearbody l end; nm l; subst;
  try solve [left; eexists; split; [simpl; auto 10|reflexivity]];
  right; split; [|reflexivity];
  intros k A; simpl in A; repeat (destruct A as [A|A]; [injection A; congruence|]); contradiction.
Lemma aoi_setter s m :
  (exists k, In (k, lower m) aoi_names /\ set_aoi_model s (Some m) = Ok k) \/
  ((forall k, ~ In (k, lower m) aoi_names) /\ set_aoi_model s (Some m) = Err ValueError).
Proof. unfold set_aoi_model. simple_setter. Qed.
Lemma spectral_setter m :
  (exists k, In (k, lower m) spectral_names /\ set_spectral_model (Some m) = Ok k) \/
  ((forall k, ~ In (k, lower m) spectral_names) /\ set_spectral_model (Some m) = Err ValueError).
Proof. unfold set_spectral_model. simple_setter. Qed.
Lemma ohmic_setter m :
  (exists k, In (k, lower m) ohmic_names /\ set_dc_ohmic_model (Some m) = Ok k) \/
  ((forall k, ~ In (k, lower m) ohmic_names) /\ set_dc_ohmic_model (Some m) = Err ValueError).
Proof. unfold set_dc_ohmic_model. simple_setter. Qed.
Lemma losses_setter m :
  (exists k, In (k, lower m) losses_names /\ set_losses_model (Some m) = Ok k) \/
  ((forall k, ~ In (k, lower m) losses_names) /\ set_losses_model (Some m) = Err ValueError).
Proof. unfold set_losses_model. simple_setter. Qed.
(** substrings of 'adr' *)
Lemma startswith_nil s : startswith EmptyString s = true. Proof. destruct s; reflexivity. Qed.
Lemma adr_sub l : contains l "adr" = true <-> In l [""; "a"; "d"; "r"; "ad"; "dr"; "adr"].
Proof.
  split.
  - destruct l as [|a [|b [|c [|d l]]]]; cbn [contains startswith]; rewrite ?orb_false_r, ?andb_false_r; try discriminate; [simpl; auto| | |];
    repeat rewrite ?orb_true_iff, ?andb_true_iff, ?Ascii.eqb_eq, ?orb_false_r, ?andb_false_r, ?andb_true_r; intros H;
    repeat match goal with H : _ \/ _ |- _ => destruct H | H : _ /\ _ |- _ => destruct H end; subst; try discriminate; simpl; auto 10.
  - simpl. intros H. repeat (destruct H as [<-|H]; [reflexivity|]). contradiction.
Qed.
Lemma ac_setter s m :
  (In (lower m) [""; "a"; "d"; "r"; "ad"; "dr"; "adr"] /\ set_ac_model s (Some m) = Ok AC_adr) \/
  (~ In (lower m) [""; "a"; "d"; "r"; "ad"; "dr"; "adr"] /\
   ((exists k, In (k, lower m) ac_names /\ set_ac_model s (Some m) = Ok k) \/
    ((forall k, ~ In (k, lower m) ac_names) /\ set_ac_model s (Some m) = Err ValueError))).
Proof.
  unfold set_ac_model. cbv zeta. destruct (contains (lower m) "adr") eqn:C.
  - left. pose proof C as C'. apply adr_sub in C'. split; [exact C'|].
    destruct (String.eqb (lower m) "sandia") eqn:X; [|reflexivity].
    apply eqb_t in X. rewrite X in C. discriminate.
  - assert (NC : ~ In (lower m) [""; "a"; "d"; "r"; "ad"; "dr"; "adr"]) by (intros Y; apply adr_sub in Y; congruence).
    right. split; [exact NC|]. set (l := lower m) in *. clearbody l. nm l; subst; try solve [left; eexists; split; [simpl; auto 10|reflexivity]].
    right. split; [|reflexivity]. intros k A. simpl in A. repeat (destruct A as [A|A]; [injection A; intros; subst|]); try congruence; try contradiction.
    apply NC. simpl. auto 10.
Qed.
Lemma temp_setter s cur m : arrays s <> [] ->
  (exists k, In (k, lower m) temperature_names /\
     ((first_match temperature_candidates (in_every ar_temperature_model_parameters s) k /\ set_temperature_model s cur (Some m) = (Some k, Ok tt)) \/
      (~ first_match temperature_candidates (in_every ar_temperature_model_parameters s) k /\ set_temperature_model s cur (Some m) = (Some k, Err ValueError)))) \/
  ((forall k, ~ In (k, lower m) temperature_names) /\ set_temperature_model s cur (Some m) = (cur, Err ValueError)).
Proof.
  intros Hne.
  assert (G : forall k, 
    let r := (let* k' := infer_temperature_model s in if String.eqb (temp_name k) (temp_name k') then Ok tt else Err ValueError) in
    (first_match temperature_candidates (in_every ar_temperature_model_parameters s) k /\ r = Ok tt) \/
    (~ first_match temperature_candidates (in_every ar_temperature_model_parameters s) k /\ r = Err ValueError)).
  { intros k. cbv zeta. rewrite <- (infer_generic _ (temperature_keys s)) by (intros; apply in_every_common; assumption).
    rewrite <- infer_temp_search.
    destruct (infer_temperature_model s) as [k'|e] eqn:E; cbn [bind].
    - destruct (String.eqb (temp_name k) (temp_name k')) eqn:X.
      + left. split; [|reflexivity]. f_equal. apply eqb_t in X. destruct k, k'; try reflexivity; discriminate.
      + right. split; [|reflexivity]. intros [= ->]. rewrite String.eqb_refl in X. discriminate.
    - right. split; [discriminate|]. rewrite infer_temp_search in E.
      destruct (search temperature_candidates (temperature_keys s)); [discriminate|]. congruence. }
  unfold set_temperature_model. cbv zeta. set (l := lower m). clearbody l. nm l; subst;
  try match goal with |- context[(Some ?k, bind _ _)] => left; exists k; split; [simpl; auto 10|];
     destruct (G k) as [[A B]|[A B]]; [left|right]; split; auto; exact (f_equal (pair (Some k)) B) end.
  right; split; [|reflexivity]; intros k A; simpl in A; repeat (destruct A as [A|A]; [injection A; congruence|]); contradiction.
Qed.
