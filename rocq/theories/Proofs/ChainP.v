(** Proofs about Model/ModelChain.v. *)
From Verif Require Import Base.Fl Base.FlFacts Base.Py Model.Tools Model.Pvsystem Model.System Model.ModelChain Spec.ChainSpec.
From Coq Require Import ZArith Lia.
Open Scope string_scope.
Open Scope list_scope.

(** ** Inference *)
Lemma subset_iff l keys : subset l keys = true <-> forall k, In k l -> In k keys.
Proof.
  unfold subset. rewrite forallb_forall. split; intros H k Hk; specialize (H k Hk); apply mem_In; exact H.
Qed.
Lemma subset_false l keys : subset l keys = false -> exists k, In k l /\ ~ In k keys.
Proof.
  unfold subset. induction l as [|a l IH]; simpl; [discriminate|].
  rewrite andb_false_iff. intros [H|H].
  - exists a. split; [left; reflexivity|]. intros C. apply mem_In in C. congruence.
  - destruct (IH H) as [k [A B]]. exists k. split; [right; exact A|exact B].
Qed.
Lemma common_keys_iff (ds : list pdict) k : ds <> [] -> In k (common_keys ds) <-> forall d, In d ds -> In k (map fst d).
Proof.
  destruct ds as [|d ds]; [congruence|]. intros _. simpl. rewrite filter_In, forallb_forall. split.
  - intros [A B] d' [<-|H]; [exact A|]. apply mem_In. apply (B d' H).
  - intros H. split; [apply H; left; reflexivity|]. intros d' Hd. apply mem_In. apply H. right; exact Hd.
Qed.
Lemma in_every_common get s k : arrays s <> [] -> In k (common_keys (map get (arrays s))) <-> in_every get s k.
Proof.
  intros Hne. rewrite common_keys_iff by (destruct (arrays s); [congruence|discriminate]).
  unfold in_every. split.
  - intros H a Ha. apply H. apply in_map. exact Ha.
  - intros H d Hd. apply in_map_iff in Hd. destruct Hd as [a [<- Ha]]. apply H. exact Ha.
Qed.

(** the generic search *)
Fixpoint search {K} (cands : list (K * list string)) (params : list string) : option K :=
  match cands with
  | [] => None
  | (k, keys) :: rest => if subset keys params then Some k else search rest params
  end.
Lemma search_some {K} (cands : list (K * list string)) params (present : string -> Prop) k :
  (forall key, In key params <-> present key) ->
  search cands params = Some k -> first_match cands present k.
Proof.
  intros HP. induction cands as [|[k' keys'] rest IH]; simpl; [discriminate|].
  destruct (subset keys' params) eqn:Hs; intros H.
  - injection H as <-. exists [], keys', rest. split; [reflexivity|]. split; [|intros ? ? []].
    intros key Hk. apply HP. rewrite subset_iff in Hs. auto.
  - destruct (IH H) as (pre & keys & post & -> & A & B). exists ((k', keys') :: pre), keys, post.
    split; [reflexivity|]. split; [exact A|]. intros k2 keys2 [E|Hin]; [|eauto].
    injection E as <- <-. destruct (subset_false _ _ Hs) as [key [C D]]. exists key. split; [exact C|]. rewrite <- HP. exact D.
Qed.
Lemma search_none {K} (cands : list (K * list string)) params (present : string -> Prop) :
  (forall key, In key params <-> present key) ->
  search cands params = None -> no_match cands present.
Proof.
  intros HP. induction cands as [|[k' keys'] rest IH]; simpl; intros H k keys; [intros []|].
  destruct (subset keys' params) eqn:Hs; [discriminate|].
  intros [E|Hin]; [|eapply IH; eauto].
  injection E as <- <-. destruct (subset_false _ _ Hs) as [key [C D]]. exists key. split; [exact C|]. rewrite <- HP. exact D.
Qed.
Lemma first_match_no_match {K} (cands : list (K * list string)) present k : first_match cands present k -> ~ no_match cands present.
Proof.
  intros (pre & keys & post & -> & A & B) H. destruct (H k keys) as [key [C D]]; [apply in_or_app; right; left; reflexivity|].
  apply D. apply A. exact C.
Qed.
Lemma first_match_search {K} (cands : list (K * list string)) params (present : string -> Prop) k :
  (forall key, In key params <-> present key) ->
  first_match cands present k -> search cands params = Some k.
Proof.
  intros HP (pre & keys & post & -> & A & B). induction pre as [|[k' keys'] pre IH]; simpl.
  - replace (subset keys params) with true; [reflexivity|]. symmetry. apply subset_iff. intros x Hx. apply HP. auto.
  - destruct (subset keys' params) eqn:Hs.
    + destruct (B k' keys' (or_introl eq_refl)) as [key [C D]]. exfalso. apply D. apply HP. rewrite subset_iff in Hs. auto.
    + apply IH. intros. apply (B k'0 keys'0). right. assumption.
Qed.
Lemma search_iff {K} (cands : list (K * list string)) params (present : string -> Prop) k :
  (forall key, In key params <-> present key) ->
  search cands params = Some k <-> first_match cands present k.
Proof. intros HP; split; [apply search_some|apply first_match_search]; assumption. Qed.
Lemma search_none_iff {K} (cands : list (K * list string)) params (present : string -> Prop) :
  (forall key, In key params <-> present key) ->
  search cands params = None <-> no_match cands present.
Proof.
  intros HP; split; [apply search_none; assumption|]. intros H.
  destruct (search cands params) eqn:E; [|reflexivity]. apply (search_some _ _ present) in E; [|exact HP].
  exfalso. exact (first_match_no_match _ _ _ E H).
Qed.
Lemma infer_dc_search s : infer_dc_model s =
  match search dc_candidates (module_keys s) with
  | Some k => Ok (k, match k with DC_sapm => "sapm" | DC_cec => "cec" | DC_desoto => "desoto" | DC_pvsyst => "pvsyst" | DC_pvwatts => "pvwatts" end)
  | None => Err ValueError end.
Proof.
  unfold infer_dc_model, dc_candidates, search. cbv zeta. set (p := module_keys s).
  destruct (subset _ p); [reflexivity|]. destruct (subset _ p); [reflexivity|]. destruct (subset _ p); [reflexivity|].
  destruct (subset _ p); [reflexivity|]. destruct (subset _ p); reflexivity.
Qed.
Lemma infer_aoi_search s : infer_aoi_model s =
  match search aoi_candidates (module_keys s) with Some k => Ok k | None => Err ValueError end.
Proof.
  unfold infer_aoi_model, aoi_candidates, search. cbv zeta. set (p := module_keys s).
  destruct (subset _ p); [reflexivity|]. destruct (subset _ p); [reflexivity|]. destruct (subset _ p); [reflexivity|].
  destruct (subset _ p); [reflexivity|]. destruct (subset _ p); reflexivity.
Qed.
Lemma infer_temp_search s : infer_temperature_model s =
  match search temperature_candidates (temperature_keys s) with Some k => Ok k | None => Err ValueError end.
Proof.
  unfold infer_temperature_model, temperature_candidates, search. cbv zeta. set (p := temperature_keys s).
  destruct (subset _ p); [reflexivity|]. destruct (subset _ p); [reflexivity|]. destruct (subset _ p); [reflexivity|].
  destruct (subset _ p); [reflexivity|]. destruct (subset _ p); reflexivity.
Qed.
Lemma infer_ac_search s : infer_ac_model s =
  match search ac_candidates (map fst (inverter_parameters s)) with
  | Some AC_adr => if Nat.ltb 1 (num_arrays s) then Err ValueError else Ok AC_adr
  | Some k => Ok k | None => Err ValueError end.
Proof.
  unfold infer_ac_model, ac_candidates, search. cbv zeta. set (p := map fst (inverter_parameters s)).
  destruct (subset _ p); [reflexivity|]. destruct (subset _ p); [reflexivity|]. destruct (subset _ p); reflexivity.
Qed.

(** ** Relational reasoning about two computations *)
Definition rel2 {A B} (P Q : results -> results -> Prop) (V : A -> B -> Prop) (m1 : M A) (m2 : M B) : Prop :=
  forall r1 r2, P r1 r2 ->
    match m1 r1, m2 r2 with
    | (r1', Ok a), (r2', Ok b) => V a b /\ Q r1' r2'
    | (_, Err e1), (_, Err e2) => e1 = e2
    | _, _ => False
    end.
Lemma rel_bind {A B A' B'} P Q R (V : A -> B -> Prop) (V' : A' -> B' -> Prop) m1 m2 k1 k2 :
  rel2 P Q V m1 m2 -> (forall a b, V a b -> rel2 Q R V' (k1 a) (k2 b)) ->
  rel2 P R V' (mbind m1 k1) (mbind m2 k2).
Proof.
  intros H1 H2 r1 r2 HP. specialize (H1 r1 r2 HP). unfold mbind.
  destruct (m1 r1) as [r1' [a|e1]], (m2 r2) as [r2' [b|e2]]; try contradiction; [|exact H1].
  destruct H1 as [HV HQ]. exact (H2 a b HV r1' r2' HQ).
Qed.
Lemma rel_upd (P Q : results -> results -> Prop) f g : (forall r1 r2, P r1 r2 -> Q (f r1) (g r2)) ->
  rel2 P Q eq (upd f) (upd g).
Proof. intros H r1 r2 HP. simpl. split; [reflexivity|auto]. Qed.
Lemma rel_need {A B} (P : results -> results -> Prop) (V : A -> B -> Prop) f g :
  (forall r1 r2, P r1 r2 -> match f r1, g r2 with Some a, Some b => V a b | None, None => True | _, _ => False end) ->
  rel2 P P V (need f) (need g).
Proof. intros H r1 r2 HP. specialize (H r1 r2 HP). unfold need. destruct (f r1), (g r2); auto; contradiction. Qed.
Definition relres {A B} (V : A -> B -> Prop) (x : res A) (y : res B) : Prop :=
  match x, y with Ok a, Ok b => V a b | Err e1, Err e2 => e1 = e2 | _, _ => False end.
Lemma rel_lift {A B} P (V : A -> B -> Prop) x y : relres V x y -> rel2 P P V (lift x) (lift y).
Proof. intros H r1 r2 HP. simpl. destruct x, y; simpl in H; auto. Qed.
Lemma relres_refl {A} (x : res A) : relres eq x x. Proof. destruct x; reflexivity. Qed.
Lemma rel_ret {A B} P (V : A -> B -> Prop) a b : V a b -> rel2 P P V (ret a) (ret b).
Proof. intros H r1 r2 HP. simpl. auto. Qed.
Lemma rel_conseq {A B} (P P' Q Q' : results -> results -> Prop) (V : A -> B -> Prop) m1 m2 :
  (forall r1 r2, P r1 r2 -> P' r1 r2) -> (forall r1 r2, Q' r1 r2 -> Q r1 r2) -> rel2 P' Q' V m1 m2 -> rel2 P Q V m1 m2.
Proof.
  intros H1 H2 H r1 r2 HP. specialize (H r1 r2 (H1 _ _ HP)).
  destruct (m1 r1) as [? [?|?]], (m2 r2) as [? [?|?]]; auto. destruct H; auto.
Qed.

(** ** Agreement on a set of fields, and on the singleton setting *)
Definition agree (l : list field) (r1 r2 : results) : Prop :=
  singleton_tuples r1 = singleton_tuples r2 /\ Forall (fun f => same_field f r1 r2) l.
Lemma agree_in l r1 r2 f : agree l r1 r2 -> In f l -> same_field f r1 r2.
Proof. intros [_ H] Hin. rewrite Forall_forall in H. auto. Qed.
Ltac agree_set :=
  let f := fresh "f" in let H := fresh "H" in let Hin := fresh "Hin" in
  intros ? ? H; split; [exact (proj1 H)|]; apply Forall_forall; intros f Hin;
  destruct (proj1 (List.in_inv Hin)) || idtac.
Lemma ag_step (g1 g2 : results -> results) fx l r1 r2 :
  agree l r1 r2 ->
  (singleton_tuples (g1 r1) = singleton_tuples (g2 r2)) ->
  same_field fx (g1 r1) (g2 r2) ->
  (forall f, f <> fx -> same_field f r1 r2 -> same_field f (g1 r1) (g2 r2)) ->
  agree (fx :: l) (g1 r1) (g2 r2).
Proof.
  intros H Hs Hx Ho. split; [exact Hs|]. apply Forall_forall. intros f Hin.
  assert (D : {f = fx} + {f <> fx}) by decide equality.
  destruct D as [->|Hn]; [exact Hx|]. apply Ho; [exact Hn|]. destruct Hin as [E|Hin]; [congruence|]. eapply agree_in; eauto.
Qed.
Ltac ags := intros; eapply ag_step; [eassumption|match goal with H : agree _ _ _ |- _ => exact (proj1 H) end| |];
  [simpl; unfold wrap; try match goal with H : agree _ _ _ |- _ => rewrite (proj1 H) end; reflexivity
  |intros f Hn Hf; destruct f; simpl in *; try congruence].
Section Agree.
Variable l : list field.
Lemma ag_sp v : rel2 (agree l) (agree (F_solar_position :: l)) eq (upd (set_solar_position v)) (upd (set_solar_position v)).
Proof. apply rel_upd. ags. Qed.
Lemma ag_am v : rel2 (agree l) (agree (F_airmass :: l)) eq (upd (set_airmass v)) (upd (set_airmass v)).
Proof. apply rel_upd. ags. Qed.
Lemma ag_ac v : rel2 (agree l) (agree (F_ac :: l)) eq (upd (set_ac v)) (upd (set_ac v)).
Proof. apply rel_upd. ags. Qed.
Lemma ag_losses v : rel2 (agree l) (agree (F_losses :: l)) eq (upd (set_losses v)) (upd (set_losses v)).
Proof. apply rel_upd. ags. Qed.
Lemma ag_ti v : rel2 (agree l) (agree (F_total_irrad :: l)) eq (upd (set_total_irrad v)) (upd (set_total_irrad v)).
Proof. apply rel_upd. ags. Qed.
Lemma ag_aoi v : rel2 (agree l) (agree (F_aoi :: l)) eq (upd (set_aoi v)) (upd (set_aoi v)).
Proof. apply rel_upd. ags. Qed.
Lemma ag_aoim v : rel2 (agree l) (agree (F_aoi_modifier :: l)) eq (upd (set_aoi_modifier v)) (upd (set_aoi_modifier v)).
Proof. apply rel_upd. ags. Qed.
Lemma ag_spm v : rel2 (agree l) (agree (F_spectral_modifier :: l)) eq (upd (set_spectral_modifier v)) (upd (set_spectral_modifier v)).
Proof. apply rel_upd. ags. Qed.
Lemma ag_ct v : rel2 (agree l) (agree (F_cell_temperature :: l)) eq (upd (set_cell_temperature v)) (upd (set_cell_temperature v)).
Proof. apply rel_upd. ags. Qed.
Lemma ag_eff v : rel2 (agree l) (agree (F_effective_irradiance :: l)) eq (upd (set_effective_irradiance v)) (upd (set_effective_irradiance v)).
Proof. apply rel_upd. ags. Qed.
Lemma ag_dc v : rel2 (agree l) (agree (F_dc :: l)) eq (upd (set_dc v)) (upd (set_dc v)).
Proof. apply rel_upd. ags. Qed.
Lemma ag_dp v : rel2 (agree l) (agree (F_diode_params :: l)) eq (upd (set_diode_params v)) (upd (set_diode_params v)).
Proof. apply rel_upd. ags. Qed.
Lemma ag_ohm v : rel2 (agree l) (agree (F_dc_ohmic_losses :: l)) eq (upd (set_dc_ohmic_losses v)) (upd (set_dc_ohmic_losses v)).
Proof. apply rel_upd. ags. Qed.
Lemma ag_w v : rel2 (agree l) (agree (F_weather :: l)) eq (upd (set_weather v)) (upd (set_weather v)).
Proof. apply rel_upd. ags. Qed.
Lemma ag_t v : rel2 (agree l) (agree (F_times :: l)) eq (upd (set_times v)) (upd (set_times v)).
Proof. apply rel_upd. ags. Qed.
Lemma ag_alb v : rel2 (agree l) (agree (F_albedo :: l)) eq (upd (set_albedo v)) (upd (set_albedo v)).
Proof. apply rel_upd. ags. Qed.
End Agree.

Lemma agree_mono l l' r1 r2 : incl l' l -> agree l r1 r2 -> agree l' r1 r2.
Proof.
  intros Hi [Hs H]. split; [exact Hs|]. rewrite Forall_forall in *. intros f Hf. apply H. apply Hi. exact Hf.
Qed.
Lemma ag_need {A} l (f : results -> option A) fx : In fx l ->
  (forall r1 r2, same_field fx r1 r2 -> f r1 = f r2) -> rel2 (agree l) (agree l) eq (need f) (need f).
Proof.
  intros Hin Hf. apply rel_need. intros r1 r2 H. rewrite (Hf r1 r2 (agree_in _ _ _ _ H Hin)). destruct (f r2); auto.
Qed.
Lemma ag_lift {A} l (x : res A) : rel2 (agree l) (agree l) eq (lift x) (lift x).
Proof. apply rel_lift. apply relres_refl. Qed.
Lemma ag_weaken {A} l l' (m : M A) : incl l l' -> forall l0, rel2 (agree l0) (agree l') eq m m -> rel2 (agree l0) (agree l) eq m m.
Proof. intros Hi l0 H. eapply rel_conseq; [intros ? ? X; exact X| |exact H]. intros r1 r2 HA. eapply agree_mono; eauto. Qed.
Lemma ag_strong {A} l l' (m : M A) Q : incl l' l -> rel2 (agree l') Q eq m m -> rel2 (agree l) Q eq m m.
Proof. intros Hi H. eapply rel_conseq; [|intros ? ? X; exact X|exact H]. intros r1 r2 HA. eapply agree_mono; eauto. Qed.

Ltac inl := unfold incl in *; simpl in *; intuition (subst; auto; try congruence).
Ltac usefield fx := eapply (ag_need _ _ fx); [auto|intros ? ? Hsf; exact Hsf].
Ltac ch1 :=
  match goal with
  | |- rel2 (agree ?l) _ eq (mbind (need solar_position) _) _ => eapply rel_bind; [usefield F_solar_position|intros ? ? <-]
  | |- rel2 (agree ?l) _ eq (mbind (need airmass) _) _ => eapply rel_bind; [usefield F_airmass|intros ? ? <-]
  | |- rel2 (agree ?l) _ eq (mbind (need total_irrad) _) _ => eapply rel_bind; [usefield F_total_irrad|intros ? ? <-]
  | |- rel2 (agree ?l) _ eq (mbind (need r_aoi) _) _ => eapply rel_bind; [usefield F_aoi|intros ? ? <-]
  | |- rel2 (agree ?l) _ eq (mbind (need aoi_modifier) _) _ => eapply rel_bind; [usefield F_aoi_modifier|intros ? ? <-]
  | |- rel2 (agree ?l) _ eq (mbind (need spectral_modifier) _) _ => eapply rel_bind; [usefield F_spectral_modifier|intros ? ? <-]
  | |- rel2 (agree ?l) _ eq (mbind (need cell_temperature) _) _ => eapply rel_bind; [usefield F_cell_temperature|intros ? ? <-]
  | |- rel2 (agree ?l) _ eq (mbind (need effective_irradiance) _) _ => eapply rel_bind; [usefield F_effective_irradiance|intros ? ? <-]
  | |- rel2 (agree ?l) _ eq (mbind (need dc) _) _ => eapply rel_bind; [usefield F_dc|intros ? ? <-]
  | |- rel2 (agree ?l) _ eq (mbind (need weather) _) _ => eapply rel_bind; [usefield F_weather|intros ? ? <-]
  | |- rel2 (agree ?l) _ eq (mbind (need times) _) _ => eapply rel_bind; [usefield F_times|intros ? ? <-]
  | |- rel2 (agree ?l) _ eq (mbind (need r_albedo) _) _ => eapply rel_bind; [usefield F_albedo|intros ? ? <-]
  | |- rel2 (agree ?l) _ eq (mbind (lift _) _) _ => eapply rel_bind; [apply ag_lift|intros ? ? <-]
  | |- rel2 (agree ?l) _ eq (lift (Err _)) _ => intros ? ? ?; reflexivity
  | |- rel2 (agree ?l) _ eq (mbind (upd (set_solar_position _)) _) _ => eapply rel_bind; [apply ag_sp|intros _ _ _]
  | |- rel2 (agree ?l) _ eq (mbind (upd (set_airmass _)) _) _ => eapply rel_bind; [apply ag_am|intros _ _ _]
  | |- rel2 (agree ?l) _ eq (mbind (upd (set_weather _)) _) _ => eapply rel_bind; [apply ag_w|intros _ _ _]
  | |- rel2 (agree ?l) _ eq (mbind (upd (set_times _)) _) _ => eapply rel_bind; [apply ag_t|intros _ _ _]
  | |- rel2 (agree ?l) _ eq (mbind (upd (set_diode_params _)) _) _ => eapply rel_bind; [apply ag_dp|intros _ _ _]
  | |- rel2 (agree ?l) _ eq (mbind (upd (set_dc_ohmic_losses _)) _) _ => eapply rel_bind; [apply ag_ohm|intros _ _ _]
  | |- rel2 (agree ?l) _ eq (mbind (upd (set_losses _)) _) _ => eapply rel_bind; [apply ag_losses|intros _ _ _]
  | |- rel2 (agree ?l) _ eq (mbind (upd (set_effective_irradiance _)) _) _ => eapply rel_bind; [apply ag_eff|intros _ _ _]
  | |- rel2 (agree ?l) _ eq (mbind (upd (set_cell_temperature _)) _) _ => eapply rel_bind; [apply ag_ct|intros _ _ _]
  | |- rel2 (agree ?l) _ eq (upd (set_solar_position _)) _ => eapply ag_weaken; [|apply ag_sp]
  | |- rel2 (agree ?l) _ eq (upd (set_airmass _)) _ => eapply ag_weaken; [|apply ag_am]
  | |- rel2 (agree ?l) _ eq (upd (set_ac _)) _ => eapply ag_weaken; [|apply ag_ac]
  | |- rel2 (agree ?l) _ eq (upd (set_losses _)) _ => eapply ag_weaken; [|apply ag_losses]
  | |- rel2 (agree ?l) _ eq (upd (set_total_irrad _)) _ => eapply ag_weaken; [|apply ag_ti]
  | |- rel2 (agree ?l) _ eq (upd (set_aoi _)) _ => eapply ag_weaken; [|apply ag_aoi]
  | |- rel2 (agree ?l) _ eq (upd (set_aoi_modifier _)) _ => eapply ag_weaken; [|apply ag_aoim]
  | |- rel2 (agree ?l) _ eq (upd (set_spectral_modifier _)) _ => eapply ag_weaken; [|apply ag_spm]
  | |- rel2 (agree ?l) _ eq (upd (set_cell_temperature _)) _ => eapply ag_weaken; [|apply ag_ct]
  | |- rel2 (agree ?l) _ eq (upd (set_effective_irradiance _)) _ => eapply ag_weaken; [|apply ag_eff]
  | |- rel2 (agree ?l) _ eq (upd (set_dc _)) _ => eapply ag_weaken; [|apply ag_dc]
  | |- rel2 (agree ?l) _ eq (upd (set_times _)) _ => eapply ag_weaken; [|apply ag_t]
  | |- rel2 (agree ?l) _ eq (upd (set_albedo _)) _ => eapply ag_weaken; [|apply ag_alb]
  | |- rel2 (agree ?l) _ eq (upd (set_weather _)) _ => eapply ag_weaken; [|apply ag_w]
  | |- rel2 (agree ?l) _ eq (ret tt) _ => eapply ag_weaken; [|apply rel_ret; reflexivity]
  | |- rel2 (agree ?l) _ eq (match ?x with _ => _ end) _ => destruct x
  | |- rel2 (agree ?l) _ eq (if ?x then _ else _) _ => destruct x
  end.
Ltac chs := repeat (ch1; simpl); auto with datatypes.

Ltac inapp := simpl in *; repeat rewrite in_app_iff in *; simpl in *; repeat rewrite in_app_iff in *; simpl in *.
Section History.
Variable E : env.
Variable c : chain.
Lemma h_assign_times l : In F_weather l -> rel2 (agree l) (agree (F_times :: l)) eq assign_times assign_times.
Proof. intros. unfold assign_times. chs; apply incl_refl. Qed.
Lemma h_assign_weather (data : pyarg dframe) r1 r2 :
  agree [] (set_flag (Nat.eqb (num_arrays (c_system c)) 1 && match data with Tup _ => true | Bare _ => false end) r1)
           (set_flag (Nat.eqb (num_arrays (c_system c)) 1 && match data with Tup _ => true | Bare _ => false end) r2).
Proof. split; [reflexivity|constructor]. Qed.
(** whatever the two states were, assigning the weather makes them agree *)
Lemma h_weather data : rel2 (fun _ _ => True) (agree [F_times; F_weather]) eq (assign_weather c data) (assign_weather c data).
Proof.
  unfold assign_weather. eapply rel_bind; [apply (rel_upd _ (agree [])); intros; apply h_assign_weather|intros _ _ _].
  ch1. apply h_assign_times. simpl; auto.
Qed.
Lemma h_solar_pos l data : In F_times l ->
  rel2 (agree l) (agree (F_solar_position :: l)) eq (prep_inputs_solar_pos E c data) (prep_inputs_solar_pos E c data).
Proof. intros. unfold prep_inputs_solar_pos. chs; apply incl_refl. Qed.
Lemma h_airmass l : In F_solar_position l ->
  rel2 (agree l) (agree (F_airmass :: l)) eq (prep_inputs_airmass E c) (prep_inputs_airmass E c).
Proof. intros. unfold prep_inputs_airmass. chs; apply incl_refl. Qed.
Lemma h_albedo l data : rel2 (agree l) (agree (F_albedo :: l)) eq (prep_inputs_albedo c data) (prep_inputs_albedo c data).
Proof. unfold prep_inputs_albedo. chs; apply incl_refl. Qed.
Lemma h_fixed l : In F_solar_position l ->
  rel2 (agree l) (agree (F_aoi :: l)) eq (prep_inputs_fixed E c) (prep_inputs_fixed E c).
Proof. intros. unfold prep_inputs_fixed. chs; apply incl_refl. Qed.
Lemma rel_lift_any {A} (P : results -> results -> Prop) (x : res A) : rel2 P P eq (lift x) (lift x).
Proof. apply rel_lift, relres_refl. Qed.
Lemma h_prepare data :
  rel2 (fun _ _ => True) (agree [F_total_irrad; F_aoi; F_albedo; F_airmass; F_solar_position; F_times; F_weather]) eq
    (prepare_inputs E c data) (prepare_inputs E c data).
Proof.
  unfold prepare_inputs. eapply rel_bind; [apply rel_lift_any|intros _ _ _]. eapply rel_bind; [apply rel_lift_any|intros _ _ _].
  eapply rel_bind; [apply h_weather|intros _ _ _]. eapply rel_bind; [apply h_solar_pos; simpl; auto|intros _ _ _].
  eapply rel_bind; [apply h_airmass; simpl; auto|intros _ _ _]. eapply rel_bind; [apply h_albedo|intros _ _ _].
  eapply rel_bind; [apply h_fixed; simpl; auto|intros _ _ _]. repeat ch1; try (simpl; tauto). apply incl_refl.
Qed.
Lemma h_total l data : rel2 (agree l) (agree (F_total_irrad :: l)) eq (assign_total_irrad data) (assign_total_irrad data).
Proof. unfold assign_total_irrad. chs; apply incl_refl. Qed.
Lemma h_prepare_poa data :
  rel2 (fun _ _ => True) (agree [F_aoi; F_airmass; F_solar_position; F_total_irrad; F_times; F_weather]) eq
    (prepare_inputs_from_poa E c data) (prepare_inputs_from_poa E c data).
Proof.
  unfold prepare_inputs_from_poa. eapply rel_bind; [apply rel_lift_any|intros _ _ _].
  eapply rel_bind; [apply h_weather|intros _ _ _]. eapply rel_bind; [apply rel_lift_any|intros _ _ _].
  eapply rel_bind; [apply h_total|intros _ _ _]. eapply rel_bind; [apply h_solar_pos; simpl; auto|intros _ _ _].
  eapply rel_bind; [apply h_airmass; simpl; auto|intros _ _ _]. apply h_fixed; simpl; auto.
Qed.
Lemma h_aoi_model l : In F_aoi l ->
  rel2 (agree l) (agree (F_aoi_modifier :: l)) eq (run_aoi_model E c) (run_aoi_model E c).
Proof. intros. unfold run_aoi_model. destruct (c_aoi_model c); cbv zeta; chs; apply incl_refl. Qed.
Lemma h_spectral l : In F_weather l -> In F_airmass l ->
  rel2 (agree l) (agree (F_spectral_modifier :: l)) eq (run_spectral_model E c) (run_spectral_model E c).
Proof. intros. unfold run_spectral_model. destruct (c_spectral_model c); chs; apply incl_refl. Qed.
Lemma h_eff l : In F_total_irrad l -> In F_aoi_modifier l -> In F_spectral_modifier l ->
  rel2 (agree l) (agree (F_effective_irradiance :: l)) eq (effective_irradiance_model c) (effective_irradiance_model c).
Proof. intros. unfold effective_irradiance_model. repeat ch1; auto; apply incl_refl. Qed.
Lemma h_irrad l ti : In F_effective_irradiance l ->
  rel2 (agree l) (agree l) eq (fun r => (r, irrad_for_celltemp ti (effective_irradiance r))) (fun r => (r, irrad_for_celltemp ti (effective_irradiance r))).
Proof.
  intros H r1 r2 HA. rewrite (agree_in _ _ _ _ HA H : effective_irradiance r1 = effective_irradiance r2).
  destruct (irrad_for_celltemp _ _); auto.
Qed.
Lemma h_celltemp l : In F_effective_irradiance l -> In F_total_irrad l -> In F_weather l -> In F_times l ->
  rel2 (agree l) (agree (F_cell_temperature :: l)) eq (set_celltemp E c) (set_celltemp E c).
Proof.
  intros. unfold set_celltemp. cbv zeta. ch1. eapply rel_bind; [apply h_irrad; auto|intros ? ? <-]. ch1. ch1. ch1.
  eapply rel_bind with (Q := agree l) (V := eq).
  - destruct (c_temperature_model c); try (apply rel_ret; reflexivity). ch1. destruct a3; apply rel_ret; reflexivity.
  - intros ? ? <-. ch1. ch1. ch1. apply incl_refl.
Qed.
Lemma h_prepare_temp l data : In F_effective_irradiance l -> In F_total_irrad l -> In F_weather l -> In F_times l ->
  rel2 (agree l) (agree (F_cell_temperature :: l)) eq (prepare_temperature E c data) (prepare_temperature E c data).
Proof.
  intros. unfold prepare_temperature. ch1. eapply rel_bind; [apply h_irrad; auto|intros ? ? <-].
  assert (G : forall data0, rel2 (agree l) (agree (F_cell_temperature :: l)) eq
    (let! poa := lift (match a0 with Tup p => Ok p | Bare _ => Err TypeError end) in
      let! given := lift (mapM (fun '(d, (p, a)) => get_cell_temperature_given E c d p (ar_temperature_model_parameters a))
                            (combine data0 (combine poa (arrays (c_system c))))) in
      if forallb (fun g => match g with Some _ => true | None => false end) given then
        upd (set_cell_temperature (Some (Tup (flat_map (fun g => match g with Some x => [x] | None => [] end) given))))
      else
        set_celltemp E c ;;
        let! tc := need cell_temperature in
        let! tc := lift (match tc with Tup l => Ok l | Bare _ => Err TypeError end) in
        upd (set_cell_temperature (Some (Tup (map (fun '(g, m) => match g with Some x => x | None => m end) (combine given tc))))))
    (let! poa := lift (match a0 with Tup p => Ok p | Bare _ => Err TypeError end) in
      let! given := lift (mapM (fun '(d, (p, a)) => get_cell_temperature_given E c d p (ar_temperature_model_parameters a))
                            (combine data0 (combine poa (arrays (c_system c))))) in
      if forallb (fun g => match g with Some _ => true | None => false end) given then
        upd (set_cell_temperature (Some (Tup (flat_map (fun g => match g with Some x => [x] | None => [] end) given))))
      else
        set_celltemp E c ;;
        let! tc := need cell_temperature in
        let! tc := lift (match tc with Tup l => Ok l | Bare _ => Err TypeError end) in
        upd (set_cell_temperature (Some (Tup (map (fun '(g, m) => match g with Some x => x | None => m end) (combine given tc))))))).
  { intros data0. ch1. ch1. ch1; [ch1; apply incl_refl|]. eapply rel_bind; [apply h_celltemp; auto|intros _ _ _].
    eapply rel_bind; [eapply (ag_need _ _ F_cell_temperature); [left; reflexivity|intros ? ? Hsf; exact Hsf]|intros ? ? <-].
    ch1. ch1. intros f Hf. right. exact Hf. }
  destruct data as [dl|d]; [apply G|]. destruct (Nat.eqb (num_arrays (c_system c)) 1); [|apply G].
  destruct (arrays (c_system c)); [apply G|]. ch1. ch1. ch1. destruct a3.
  - ch1. apply incl_refl.
  - eapply ag_weaken; [|apply h_celltemp; right; auto]. intros f [<-|Hf]; [left; reflexivity|right; right; exact Hf].
Qed.
Lemma h_dc l : In F_effective_irradiance l -> In F_cell_temperature l ->
  rel2 (agree l) (agree (F_dc :: match c_dc_model c with Some DC_desoto | Some DC_cec | Some DC_pvsyst => [F_diode_params] | _ => [] end ++ l)) eq
    (run_dc_model E c) (run_dc_model E c).
Proof.
  intros. unfold run_dc_model.
  assert (S : forall w, rel2 (agree l) (agree (F_dc :: F_diode_params :: l)) eq (dc_singlediode E c w) (dc_singlediode E c w)).
  { intros w. unfold dc_singlediode. ch1. ch1. ch1. ch1. ch1. ch1. cbv zeta. ch1; [ch1; ch1|ch1];
    intros f [<-|[<-|Hf]]; simpl; auto. }
  destruct (c_dc_model c) as [[]|]; simpl.
  - unfold dc_sapm. repeat ch1; auto; apply incl_refl.
  - apply S. - apply S. - apply S.
  - unfold dc_pvwatts. repeat ch1; auto; apply incl_refl.
  - intros ? ? ?; reflexivity.
Qed.
Lemma h_ohm l : In F_dc l ->
  rel2 (agree l) (agree (match c_dc_ohmic_model c with OHM_from_percent => [F_dc_ohmic_losses] | OHM_no_loss => [] end ++ l)) eq
    (run_dc_ohmic_model c) (run_dc_ohmic_model c).
Proof.
  intros. unfold run_dc_ohmic_model. destruct (c_dc_ohmic_model c); simpl.
  - ch1. ch1. ch1; repeat ch1; intros f [<-|Hf]; simpl; auto.
  - apply rel_ret. reflexivity.
Qed.
Lemma h_losses l : In F_dc l -> rel2 (agree l) (agree (F_losses :: l)) eq (run_losses_model c) (run_losses_model c).
Proof.
  intros. unfold run_losses_model. cbv zeta. ch1; [|ch1; apply incl_refl].
  ch1. eapply rel_bind; [eapply (ag_need _ _ F_dc); [right; assumption|intros ? ? Hsf; exact Hsf]|intros ? ? <-].
  ch1. intros f [<-|Hf]; simpl; auto.
Qed.
Lemma h_ac l : In F_dc l -> rel2 (agree l) (agree (F_ac :: l)) eq (run_ac_model E c) (run_ac_model E c).
Proof. intros. unfold run_ac_model. ch1. ch1; repeat ch1; apply incl_refl. Qed.
Lemma h_from_eff l data : In F_effective_irradiance l -> In F_total_irrad l -> In F_weather l -> In F_times l ->
  rel2 (agree l) (agree (app [F_cell_temperature; F_dc; F_losses; F_ac] (dc_fields c) ++ l)) eq
    (run_from_effective_irrad E c data) (run_from_effective_irrad E c data).
Proof.
  intros. unfold run_from_effective_irrad. eapply rel_bind; [apply h_prepare_temp; auto|intros _ _ _].
  eapply rel_bind; [apply h_dc; simpl; auto|intros _ _ _].
  eapply rel_bind; [apply h_ohm; simpl; auto|intros _ _ _].
  eapply rel_bind; [apply h_losses; apply in_or_app; right; simpl; auto|intros _ _ _].
  eapply ag_weaken; [|apply h_ac; right; apply in_or_app; right; simpl; auto].
  unfold dc_fields. intros f Hf.
  inapp. tauto.
Qed.
Definition run_rel (m : M unit) (l : list field) : Prop := rel2 (fun _ _ => True) (agree l) eq m m.
Lemma h_rest l data : In F_aoi l -> In F_weather l -> In F_airmass l -> In F_total_irrad l -> In F_times l ->
  rel2 (agree l) (agree (app [F_aoi_modifier; F_spectral_modifier; F_effective_irradiance; F_cell_temperature; F_dc; F_losses; F_ac] (dc_fields c) ++ l)) eq
   (run_aoi_model E c ;; run_spectral_model E c ;; effective_irradiance_model c ;; run_from_effective_irrad E c data)
   (run_aoi_model E c ;; run_spectral_model E c ;; effective_irradiance_model c ;; run_from_effective_irrad E c data).
Proof.
  intros. eapply rel_bind; [apply h_aoi_model; auto|intros _ _ _]. eapply rel_bind; [apply h_spectral; simpl; auto|intros _ _ _].
  eapply rel_bind; [apply h_eff; simpl; auto|intros _ _ _].
  eapply ag_weaken; [|apply h_from_eff; simpl; auto].
  intros f Hf. inapp. tauto.
Qed.
Lemma h_run_model i : run_rel (run_model E c i) (run_fields c).
Proof.
  unfold run_rel, run_model. cbv zeta. eapply rel_bind; [apply h_prepare|intros _ _ _].
  eapply ag_weaken; [|apply h_rest; simpl; auto 10].
  intros f Hf. unfold run_fields, poa_run_fields, eff_run_fields in Hf.
  inapp. tauto.
Qed.
Lemma h_run_poa i : run_rel (run_model_from_poa E c i) (poa_run_fields c).
Proof.
  unfold run_rel, run_model_from_poa. cbv zeta. eapply rel_bind; [apply h_prepare_poa|intros _ _ _].
  eapply ag_weaken; [|apply h_rest; simpl; auto 10].
  intros f Hf. unfold run_fields, poa_run_fields, eff_run_fields in Hf.
  inapp. tauto.
Qed.
Lemma h_run_eff i : run_rel (run_model_from_effective_irradiance E c i) (eff_run_fields c).
Proof.
  unfold run_rel, run_model_from_effective_irradiance. cbv zeta.
  eapply rel_bind; [apply rel_lift_any|intros _ _ _]. eapply rel_bind; [apply rel_lift_any|intros _ _ _].
  eapply rel_bind; [apply h_weather|intros _ _ _]. eapply rel_bind; [apply h_total|intros _ _ _].
  ch1. ch1. eapply ag_weaken; [|apply h_from_eff; simpl; auto 10].
  intros f Hf. unfold run_fields, poa_run_fields, eff_run_fields in Hf.
  inapp. tauto.
Qed.
End History.
