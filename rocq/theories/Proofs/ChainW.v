(** ModelChain: what a run leaves alone, and bare input against a 1-tuple. *)
From Verif Require Import Base.Fl Base.FlFacts Base.Py Model.Tools Model.Pvsystem Model.System Model.ModelChain Spec.ChainSpec Proofs.ChainP.
From Coq Require Import ZArith Lia.
Open Scope string_scope.
Open Scope list_scope.

(** ** Fields a method leaves alone *)
Definition keeps {A} (f : field) (m : M A) : Prop := forall r, same_field f (fst (m r)) r.
Lemma same_field_refl f r : same_field f r r. Proof. destruct f; reflexivity. Qed.
Lemma same_field_trans f a b c : same_field f a b -> same_field f b c -> same_field f a c.
Proof. destruct f; simpl; congruence. Qed.
Lemma keeps_bind {A B} f (m : M A) (k : A -> M B) : keeps f m -> (forall a, keeps f (k a)) -> keeps f (mbind m k).
Proof.
  intros H1 H2 r. unfold mbind. specialize (H1 r). destruct (m r) as [r' [a|e]]; simpl in *; [|exact H1].
  eapply same_field_trans; [apply H2|exact H1].
Qed.
Lemma keeps_lift {A} f (x : res A) : keeps f (lift x). Proof. intros r. apply same_field_refl. Qed.
Lemma keeps_need {A} f (g : results -> option A) : keeps f (need g). Proof. intros r. apply same_field_refl. Qed.
Lemma keeps_ret {A} f (x : A) : keeps f (ret x). Proof. intros r. apply same_field_refl. Qed.
Lemma keeps_read {A} f (g : results -> res A) : keeps f (fun r => (r, g r)). Proof. intros r. apply same_field_refl. Qed.
Ltac kp1 :=
  match goal with
  | |- keeps _ (mbind _ _) => apply keeps_bind; [|intros ?]
  | |- keeps _ (lift _) => apply keeps_lift
  | |- keeps _ (need _) => apply keeps_need
  | |- keeps _ (ret _) => apply keeps_ret
  | |- keeps _ (fun r => (r, _)) => apply keeps_read
  | |- keeps _ (match ?x with _ => _ end) => destruct x
  | |- keeps _ (if ?x then _ else _) => destruct x
  | |- keeps _ (upd _) => intros r; reflexivity
  end.
Ltac kp := repeat kp1.
Section Keep.
Variable E : env.
Variable c : chain.
Ltac kf f H := destruct f; try (exfalso; apply H; simpl; tauto); kp.
Lemma k_times f : f <> F_times -> keeps f assign_times.
Proof. intros H. unfold assign_times. destruct f; try congruence; kp. Qed.
Lemma k_weather f d : ~ In f [F_weather; F_times] -> keeps f (assign_weather c d).
Proof.
  intros H. unfold assign_weather. apply keeps_bind; [|intros _; apply keeps_bind; [|intros _; apply k_times; intros ->; apply H; simpl; auto]].
  - kf f H. - kf f H.
Qed.
Lemma k_sp f d : f <> F_solar_position -> keeps f (prep_inputs_solar_pos E c d).
Proof. intros H. unfold prep_inputs_solar_pos. destruct f; try congruence; kp. Qed.
Lemma k_am f : f <> F_airmass -> keeps f (prep_inputs_airmass E c).
Proof. intros H. unfold prep_inputs_airmass. destruct f; try congruence; kp. Qed.
Lemma k_alb f d : f <> F_albedo -> keeps f (prep_inputs_albedo c d).
Proof. intros H. unfold prep_inputs_albedo. destruct f; try congruence; kp. Qed.
Lemma k_fixed f : f <> F_aoi -> keeps f (prep_inputs_fixed E c).
Proof. intros H. unfold prep_inputs_fixed. destruct f; try congruence; kp. Qed.
Lemma k_aoi f : f <> F_aoi_modifier -> keeps f (run_aoi_model E c).
Proof. intros H. unfold run_aoi_model. cbv zeta. destruct f; try congruence; kp. Qed.
Lemma k_spm f : f <> F_spectral_modifier -> keeps f (run_spectral_model E c).
Proof. intros H. unfold run_spectral_model. destruct f; try congruence; kp. Qed.
Lemma k_eff f : f <> F_effective_irradiance -> keeps f (effective_irradiance_model c).
Proof. intros H. unfold effective_irradiance_model. destruct f; try congruence; kp. Qed.
Lemma k_celltemp f : f <> F_cell_temperature -> keeps f (set_celltemp E c).
Proof. intros H. unfold set_celltemp. cbv zeta. destruct f; try congruence; kp. Qed.
Lemma k_temp f d : f <> F_cell_temperature -> keeps f (prepare_temperature E c d).
Proof.
  intros H. unfold prepare_temperature.
  repeat (kp1 || (apply k_celltemp; assumption)); match goal with |- same_field _ (fst (upd _ ?r)) ?r => destruct f; congruence || reflexivity | _ => idtac end;
  try (intros r; destruct f; congruence || reflexivity).
Qed.
Lemma k_dc f : f <> F_dc -> ~ In f (dc_fields c) -> keeps f (run_dc_model E c).
Proof.
  intros H1 H2. unfold run_dc_model.
  assert (S : forall w, f <> F_diode_params -> keeps f (dc_singlediode E c w)).
  { intros w H3. unfold dc_singlediode. destruct f; try congruence; cbv zeta; kp. }
  unfold dc_fields in H2. destruct (c_dc_model c) as [[]|]; simpl in H2.
  - unfold dc_sapm. destruct f; try congruence; kp.
  - apply S. intros ->. apply H2. auto. - apply S. intros ->. apply H2. auto. - apply S. intros ->. apply H2. auto.
  - unfold dc_pvwatts. destruct f; try congruence; kp.
  - kp.
Qed.
Lemma k_ohm f : f <> F_dc -> ~ In f (dc_fields c) -> keeps f (run_dc_ohmic_model c).
Proof.
  intros H1 H2. unfold run_dc_ohmic_model. unfold dc_fields in H2. destruct (c_dc_ohmic_model c).
  - assert (f <> F_dc_ohmic_losses) by (intros ->; apply H2; apply in_or_app; right; simpl; auto). destruct f; try congruence; kp.
  - kp.
Qed.
Lemma k_losses f : f <> F_dc -> f <> F_losses -> keeps f (run_losses_model c).
Proof. intros H1 H2. unfold run_losses_model. cbv zeta. destruct f; try congruence; kp. Qed.
Lemma k_ac f : f <> F_ac -> keeps f (run_ac_model E c).
Proof. intros H1. unfold run_ac_model. destruct f; try congruence; kp. Qed.
Lemma k_from_eff f d : ~ In f (app [F_cell_temperature; F_dc; F_losses; F_ac] (dc_fields c)) -> keeps f (run_from_effective_irrad E c d).
Proof.
  intros H. unfold run_from_effective_irrad.
  assert (N : f <> F_cell_temperature /\ f <> F_dc /\ f <> F_losses /\ f <> F_ac /\ ~ In f (dc_fields c)).
  { repeat split; try (intros ->; apply H; simpl; tauto). intros C. apply H. apply in_or_app. auto. }
  destruct N as (N1 & N2 & N3 & N4 & N5).
  apply keeps_bind; [apply k_temp; auto|intros _]. apply keeps_bind; [apply k_dc; auto|intros _].
  apply keeps_bind; [apply k_ohm; auto|intros _]. apply keeps_bind; [apply k_losses; auto|intros _]. apply k_ac; auto.
Qed.
Lemma k_total f d : f <> F_total_irrad -> keeps f (assign_total_irrad d).
Proof. intros H. unfold assign_total_irrad. cbv zeta. destruct f; try congruence; kp. Qed.
Lemma k_prepare f d : ~ In f [F_weather; F_times; F_solar_position; F_airmass; F_albedo; F_aoi; F_total_irrad] ->
  keeps f (prepare_inputs E c d).
Proof.
  intros H. unfold prepare_inputs.
  assert (N : f <> F_solar_position /\ f <> F_airmass /\ f <> F_albedo /\ f <> F_aoi /\ f <> F_total_irrad /\ ~ In f [F_weather; F_times]).
  { repeat split; try (intros ->; apply H; simpl; tauto). intros C. apply H. simpl in *. tauto. }
  destruct N as (N1 & N2 & N3 & N4 & N5 & N6).
  apply keeps_bind; [apply keeps_lift|intros _]. apply keeps_bind; [apply keeps_lift|intros _].
  apply keeps_bind; [apply k_weather; auto|intros _]. apply keeps_bind; [apply k_sp; auto|intros _].
  apply keeps_bind; [apply k_am; auto|intros _]. apply keeps_bind; [apply k_alb; auto|intros _].
  apply keeps_bind; [apply k_fixed; auto|intros _]. kp. intros r; destruct f; try congruence; reflexivity.
Qed.
Lemma k_prepare_poa f d : ~ In f [F_weather; F_times; F_solar_position; F_airmass; F_aoi; F_total_irrad] ->
  keeps f (prepare_inputs_from_poa E c d).
Proof.
  intros H. unfold prepare_inputs_from_poa.
  assert (N : f <> F_solar_position /\ f <> F_airmass /\ f <> F_aoi /\ f <> F_total_irrad /\ ~ In f [F_weather; F_times]).
  { repeat split; try (intros ->; apply H; simpl; tauto). intros C. apply H. simpl in *. tauto. }
  destruct N as (N1 & N2 & N3 & N4 & N5).
  apply keeps_bind; [apply keeps_lift|intros _]. apply keeps_bind; [apply k_weather; auto|intros _].
  apply keeps_bind; [apply keeps_lift|intros _]. apply keeps_bind; [apply k_total; auto|intros _].
  apply keeps_bind; [apply k_sp; auto|intros _]. apply keeps_bind; [apply k_am; auto|intros _]. apply k_fixed; auto.
Qed.
Lemma notin_app {A} (x : A) l1 l2 : ~ In x (l1 ++ l2) -> ~ In x l1 /\ ~ In x l2.
Proof. rewrite in_app_iff. tauto. Qed.
Lemma k_rest f d : ~ In f (poa_run_fields c) ->
  keeps f (run_aoi_model E c ;; run_spectral_model E c ;; effective_irradiance_model c ;; run_from_effective_irrad E c d).
Proof.
  intros H.
  apply keeps_bind; [apply k_aoi; intros ->; apply H; simpl; tauto|intros _].
  apply keeps_bind; [apply k_spm; intros ->; apply H; simpl; tauto|intros _].
  apply keeps_bind; [apply k_eff; intros ->; apply H; simpl; tauto|intros _].
  apply k_from_eff. intros C. apply H. unfold poa_run_fields, eff_run_fields. inapp. tauto.
Qed.
Lemma k_run_model f i : ~ In f (run_fields c) -> keeps f (run_model E c i).
Proof.
  intros H. unfold run_model. cbv zeta. apply keeps_bind; [apply k_prepare|intros _; apply k_rest; unfold run_fields in H; simpl in *; tauto].
  intros C. apply H. unfold run_fields, poa_run_fields, eff_run_fields. inapp. tauto.
Qed.
Lemma k_run_poa f i : ~ In f (poa_run_fields c) -> keeps f (run_model_from_poa E c i).
Proof.
  intros H. unfold run_model_from_poa. cbv zeta. apply keeps_bind; [apply k_prepare_poa|intros _; apply k_rest; auto].
  intros C. apply H. unfold poa_run_fields, eff_run_fields. inapp. tauto.
Qed.
Lemma k_run_eff f i : ~ In f (eff_run_fields c) -> keeps f (run_model_from_effective_irradiance E c i).
Proof.
  intros H. unfold run_model_from_effective_irradiance. cbv zeta.
  apply keeps_bind; [apply keeps_lift|intros _]. apply keeps_bind; [apply keeps_lift|intros _].
  apply keeps_bind; [apply k_weather; intros C; apply H; unfold eff_run_fields; inapp; tauto|intros _].
  apply keeps_bind; [apply k_total; intros ->; apply H; simpl; tauto|intros _].
  apply keeps_bind; [apply keeps_lift|intros ?].
  apply keeps_bind; [intros r; destruct f; try reflexivity; exfalso; apply H; simpl; tauto|intros _].
  apply k_from_eff. intros C. apply H. unfold eff_run_fields. inapp. tauto.
Qed.
End Keep.

(** ** Bare input and 1-tuple input *)
Definition wag (l : list field) (r1 r2 : results) : Prop :=
  singleton_tuples r1 = false /\ singleton_tuples r2 = true /\ Forall (fun f => wfield f r1 r2) l.
Lemma wag_in l r1 r2 f : wag l r1 r2 -> In f l -> wfield f r1 r2.
Proof. intros (_ & _ & H) Hin. rewrite Forall_forall in H. auto. Qed.
Lemma wag_mono l l' r1 r2 : incl l' l -> wag l r1 r2 -> wag l' r1 r2.
Proof. intros Hi (A & B & H). repeat split; auto. rewrite Forall_forall in *. intros f Hf. apply H, Hi, Hf. Qed.
Lemma wag_step (g1 g2 : results -> results) fx l r1 r2 :
  wag l r1 r2 ->
  singleton_tuples (g1 r1) = singleton_tuples r1 -> singleton_tuples (g2 r2) = singleton_tuples r2 ->
  wfield fx (g1 r1) (g2 r2) ->
  (forall f, f <> fx -> wfield f r1 r2 -> wfield f (g1 r1) (g2 r2)) ->
  wag (fx :: l) (g1 r1) (g2 r2).
Proof.
  intros H Hs1 Hs2 Hx Ho. destruct H as (A & B & HF). split; [congruence|]. split; [congruence|]. apply Forall_forall. intros f Hin.
  assert (D : {f = fx} + {f <> fx}) by decide equality.
  destruct D as [->|Hn]; [exact Hx|]. apply Ho; [exact Hn|]. destruct Hin as [Eq|Hin]; [congruence|]. rewrite Forall_forall in HF. auto.
Qed.
(** a setter given the same bare value, or the bare value and its 1-tuple *)
Definition same1 {A} (x y : pyarg A) : Prop := exists v, x = Bare v /\ (y = Bare v \/ y = Tup [v]).
Ltac wags := let H := fresh "H" in intros ? ? H;
  eapply wag_step; [exact H|reflexivity|reflexivity| |intros f Hn Hf; destruct f; simpl in *; try congruence; auto];
  destruct H as (? & ? & ?); simpl; unfold wrap.
Ltac wset := match goal with HV : same1 _ _ |- _ => destruct HV as (vv & -> & [-> | ->]) end; apply rel_upd; wags;
  match goal with A : singleton_tuples _ = false, B : singleton_tuples _ = true |- _ => rewrite ?A, ?B end; eexists; split; reflexivity.
Section WAgree.
Variable l : list field.
Lemma w_sp v : rel2 (wag l) (wag (F_solar_position :: l)) eq (upd (set_solar_position v)) (upd (set_solar_position v)).
Proof. apply rel_upd. wags. reflexivity. Qed.
Lemma w_am v : rel2 (wag l) (wag (F_airmass :: l)) eq (upd (set_airmass v)) (upd (set_airmass v)).
Proof. apply rel_upd. wags. reflexivity. Qed.
Lemma w_ac v : rel2 (wag l) (wag (F_ac :: l)) eq (upd (set_ac v)) (upd (set_ac v)).
Proof. apply rel_upd. wags. reflexivity. Qed.
Lemma w_losses v : rel2 (wag l) (wag (F_losses :: l)) eq (upd (set_losses v)) (upd (set_losses v)).
Proof. apply rel_upd. wags. reflexivity. Qed.
Lemma w_t v : rel2 (wag l) (wag (F_times :: l)) eq (upd (set_times v)) (upd (set_times v)).
Proof. apply rel_upd. wags. reflexivity. Qed.
Lemma w_ti v w : same1 v w -> rel2 (wag l) (wag (F_total_irrad :: l)) eq (upd (set_total_irrad v)) (upd (set_total_irrad w)).
Proof. intros HV. wset. Qed.
Lemma w_aoi v w : same1 v w -> rel2 (wag l) (wag (F_aoi :: l)) eq (upd (set_aoi v)) (upd (set_aoi w)).
Proof. intros HV. wset. Qed.
Lemma w_aoim v w : same1 v w -> rel2 (wag l) (wag (F_aoi_modifier :: l)) eq (upd (set_aoi_modifier v)) (upd (set_aoi_modifier w)).
Proof. intros HV. wset. Qed.
Lemma w_spm v w : same1 v w -> rel2 (wag l) (wag (F_spectral_modifier :: l)) eq (upd (set_spectral_modifier v)) (upd (set_spectral_modifier w)).
Proof. intros HV. wset. Qed.
Lemma w_ct v w : same1 v w -> rel2 (wag l) (wag (F_cell_temperature :: l)) eq (upd (set_cell_temperature (Some v))) (upd (set_cell_temperature (Some w))).
Proof. intros HV. wset. Qed.
Lemma w_eff v w : same1 v w -> rel2 (wag l) (wag (F_effective_irradiance :: l)) eq (upd (set_effective_irradiance v)) (upd (set_effective_irradiance w)).
Proof. intros HV. wset. Qed.
Lemma w_dc v w : same1 v w -> rel2 (wag l) (wag (F_dc :: l)) eq (upd (set_dc v)) (upd (set_dc w)).
Proof. intros HV. wset. Qed.
Lemma w_dp v w : same1 v w -> rel2 (wag l) (wag (F_diode_params :: l)) eq (upd (set_diode_params v)) (upd (set_diode_params w)).
Proof. intros HV. wset. Qed.
Lemma w_ohm v w : same1 v w -> rel2 (wag l) (wag (F_dc_ohmic_losses :: l)) eq (upd (set_dc_ohmic_losses v)) (upd (set_dc_ohmic_losses w)).
Proof. intros HV. wset. Qed.
Lemma w_w v w : same1 v w -> rel2 (wag l) (wag (F_weather :: l)) eq (upd (set_weather v)) (upd (set_weather w)).
Proof. intros HV. wset. Qed.
End WAgree.

Lemma w_weaken {A B} l l' (V : A -> B -> Prop) m1 m2 : incl l l' -> forall P, rel2 P (wag l') V m1 m2 -> rel2 P (wag l) V m1 m2.
Proof. intros Hi P H. eapply rel_conseq; [intros ? ? X; exact X| |exact H]. intros r1 r2 HA. eapply wag_mono; eauto. Qed.
Lemma w_need {A} l fx (f : results -> option (pyarg A)) : In fx l ->
  (forall r1 r2, wfield fx r1 r2 -> wrapped (f r1) (f r2)) ->
  rel2 (wag l) (wag l) (fun x y => exists v, x = Bare v /\ y = Tup [v]) (need f) (need f).
Proof.
  intros Hin Hf. apply rel_need. intros r1 r2 H. destruct (Hf r1 r2 (wag_in _ _ _ _ H Hin)) as (v & -> & ->). eauto.
Qed.
Lemma w_need_eq {A} l fx (f : results -> option A) : In fx l ->
  (forall r1 r2, wfield fx r1 r2 -> f r1 = f r2) -> rel2 (wag l) (wag l) eq (need f) (need f).
Proof.
  intros Hin Hf. apply rel_need. intros r1 r2 H. rewrite (Hf r1 r2 (wag_in _ _ _ _ H Hin)). destruct (f r2); auto.
Qed.
Lemma w_lift {A} l (x : res A) : rel2 (wag l) (wag l) eq (lift x) (lift x).
Proof. apply rel_lift, relres_refl. Qed.
Ltac wneed fx := eapply rel_bind; [eapply (w_need _ fx); [auto with datatypes|intros ? ? Hsf; exact Hsf]|intros ? ? (?v & -> & ->)].
Ltac wneede fx := eapply rel_bind; [eapply (w_need_eq _ fx); [auto with datatypes|intros ? ? Hsf; exact Hsf]|intros ? ? <-].
Ltac wlift := eapply rel_bind; [apply w_lift|intros ? ? <-].
Ltac wlift1 := eapply rel_bind; [apply rel_lift|].

Section Single.
Variable E : env.
Variable c : chain.
Variable a : array.
Hypothesis HA : arrays (c_system c) = [a].
Lemma n1 : num_arrays (c_system c) = 1%nat. Proof. unfold num_arrays. rewrite HA. reflexivity. Qed.
Lemma v_bare {A} (v : A) w : validate_per_array (c_system c) (Bare v) w = Ok [v].
Proof. unfold validate_per_array. rewrite n1. destruct w; reflexivity. Qed.
Lemma v_tup {A} (v : A) w : validate_per_array (c_system c) (Tup [v]) w = Ok [v].
Proof. unfold validate_per_array. rewrite n1. destruct w; reflexivity. Qed.
Lemma same1_bt {A} (v : A) : same1 (Bare v) (Tup [v]). Proof. exists v. auto. Qed.
Lemma same1_bb {A} (v : A) : same1 (Bare v) (Bare v). Proof. exists v. auto. Qed.
(** one value computed on both sides, unwrapped *)
Lemma rr_rmap {A B} (f : A -> B) (x : res A) (V : B -> B -> Prop) : (forall y, V (f y) (f y)) -> relres V (rmap f x) (rmap f x).
Proof. intros H. destruct x; simpl; auto. Qed.
Lemma each1 {A B} (f : A -> res B) x : relres (fun u w => exists v, u = Bare v /\ w = Tup [v]) (each f (Bare x)) (each f (Tup [x])).
Proof. simpl. destruct (f x); simpl; eauto. Qed.
Ltac weach := wlift1; [apply each1|intros ? ? (?v & -> & ->)].

Lemma x_weather d : rel2 (fun _ _ => True) (wag [F_times; F_weather]) eq (assign_weather c (Bare d)) (assign_weather c (Tup [d])).
Proof.
  unfold assign_weather. rewrite n1. simpl Nat.eqb. simpl andb.
  eapply rel_bind; [apply (rel_upd _ (wag [])); intros; repeat split; constructor|intros _ _ _].
  eapply rel_bind; [apply w_w; apply same1_bt|intros _ _ _].
  unfold assign_times. wneed F_weather. apply w_t.
Qed.
Lemma x_solar_pos l d : In F_times l ->
  rel2 (wag l) (wag (F_solar_position :: l)) eq (prep_inputs_solar_pos E c (Bare d)) (prep_inputs_solar_pos E c (Tup [d])).
Proof. intros. unfold prep_inputs_solar_pos. wlift. wneede F_times. wlift. apply w_sp. Qed.
Lemma x_airmass l : In F_solar_position l -> rel2 (wag l) (wag (F_airmass :: l)) eq (prep_inputs_airmass E c) (prep_inputs_airmass E c).
Proof. intros. unfold prep_inputs_airmass. wneede F_solar_position. wlift. apply w_am. Qed.
Lemma x_albedo l d : rel2 (wag l) (wag (F_albedo :: l)) eq (prep_inputs_albedo c (Bare d)) (prep_inputs_albedo c (Tup [d])).
Proof.
  unfold prep_inputs_albedo, each. simpl mapM. rewrite HA. simpl map. destruct (dcol "albedo" d) as [x|e]; simpl; apply rel_upd; wags.
  - left. rewrite H, H0. eexists. split; reflexivity.
  - right. rewrite H, H0. eexists. split; reflexivity.
Qed.
Lemma x_fixed l : In F_solar_position l -> rel2 (wag l) (wag (F_aoi :: l)) eq (prep_inputs_fixed E c) (prep_inputs_fixed E c).
Proof.
  intros. unfold prep_inputs_fixed. wneede F_solar_position. wlift. wlift. rewrite HA. simpl. apply w_aoi. apply same1_bb.
Qed.
Lemma check1 d b : check_multiple_input c (Bare d) b = Ok tt /\ check_multiple_input c (Tup [d]) b = Ok tt.
Proof. unfold check_multiple_input. rewrite n1. simpl. rewrite orb_true_r. auto. Qed.
Lemma verify1 d req : verify_df (Bare d) req = verify_df (Tup [d]) req. Proof. reflexivity. Qed.
Lemma x_lift_ok (P : results -> results -> Prop) (x y : res unit) : x = y -> rel2 P P eq (lift x) (lift y).
Proof. intros <-. apply rel_lift, relres_refl. Qed.
Lemma x_prepare d :
  rel2 (fun _ _ => True) (wag [F_total_irrad; F_aoi; F_albedo; F_airmass; F_solar_position; F_times; F_weather]) eq
    (prepare_inputs E c (Bare d)) (prepare_inputs E c (Tup [d])).
Proof.
  unfold prepare_inputs. destruct (check1 d false) as [-> ->]. rewrite <- verify1.
  eapply rel_bind; [apply x_lift_ok; reflexivity|intros _ _ _]. eapply rel_bind; [apply x_lift_ok; reflexivity|intros _ _ _].
  eapply rel_bind; [apply x_weather|intros _ _ _]. eapply rel_bind; [apply x_solar_pos; simpl; auto|intros _ _ _].
  eapply rel_bind; [apply x_airmass; simpl; auto|intros _ _ _]. eapply rel_bind; [apply x_albedo|intros _ _ _].
  eapply rel_bind; [apply x_fixed; simpl; auto|intros _ _ _].
  wneede F_solar_position. wlift. wlift.
  eapply rel_bind; [eapply (w_need _ F_weather); [simpl; tauto|intros ? ? Hsf; exact Hsf]|intros ? ? (w & -> & ->)].
  weach. weach. weach.
  eapply rel_bind with (V := fun x y => forall ww, exists v, validate_per_array (c_system c) x ww = Ok [v] /\ validate_per_array (c_system c) y ww = Ok [v]).
  { apply rel_need. intros r1 r2 H. destruct (wag_in _ _ _ F_albedo H) as [(v2 & -> & ->)|(v2 & -> & ->)]; [simpl; tauto| |]; intros ww; exists v2; rewrite ?v_bare, ?v_tup; auto. }
  intros al1 al2 Hal. wneede F_airmass. wlift.
  eapply rel_bind; [eapply (w_need_eq _ F_times); [simpl; tauto|intros ? ? Hsf; exact Hsf]|intros ? ? <-].
  destruct (Hal true) as (av & A1 & A2).
  wlift1. { unfold sys_irradiance. rewrite !v_bare, !v_tup. simpl bind. rewrite A1, A2. simpl. rewrite HA. simpl.
    destruct (e_irradiance _ _ _ _ _ _ _ _ _ _ _); simpl; [exact (same1_bb _)|reflexivity]. }
  intros x y Hxy. apply w_ti. exact Hxy.
Qed.
Lemma x_total l d : rel2 (wag l) (wag (F_total_irrad :: l)) eq (assign_total_irrad (Bare d)) (assign_total_irrad (Tup [d])).
Proof. unfold assign_total_irrad. cbv zeta. apply w_ti. apply same1_bt. Qed.
Lemma x_prepare_poa d :
  rel2 (fun _ _ => True) (wag [F_aoi; F_airmass; F_solar_position; F_total_irrad; F_times; F_weather]) eq
    (prepare_inputs_from_poa E c (Bare d)) (prepare_inputs_from_poa E c (Tup [d])).
Proof.
  unfold prepare_inputs_from_poa. destruct (check1 d true) as [-> ->]. rewrite <- verify1.
  eapply rel_bind; [apply x_lift_ok; reflexivity|intros _ _ _]. eapply rel_bind; [apply x_weather|intros _ _ _].
  eapply rel_bind; [apply x_lift_ok; reflexivity|intros _ _ _]. eapply rel_bind; [apply x_total|intros _ _ _].
  eapply rel_bind; [apply x_solar_pos; simpl; auto|intros _ _ _]. eapply rel_bind; [apply x_airmass; simpl; auto|intros _ _ _].
  apply x_fixed; simpl; auto.
Qed.
Lemma ones1 : ones c = Bare (Sc #1). Proof. unfold ones. rewrite n1. reflexivity. Qed.
Lemma x_aoi_model l : In F_aoi l -> rel2 (wag l) (wag (F_aoi_modifier :: l)) eq (run_aoi_model E c) (run_aoi_model E c).
Proof.
  intros Hin. unfold run_aoi_model. cbv zeta. rewrite ones1.
  assert (N : forall m, rel2 (wag l) (wag (F_aoi_modifier :: l)) eq
    (let! a0 := need r_aoi in let! x := lift (sys_iam E c a0 m) in upd (set_aoi_modifier x))
    (let! a0 := need r_aoi in let! x := lift (sys_iam E c a0 m) in upd (set_aoi_modifier x))).
  { intros m. wneed F_aoi. wlift1. { unfold sys_iam. rewrite v_bare, v_tup, HA. simpl. destruct (e_iam E a v m); simpl; [exact (same1_bb _)|reflexivity]. }
    intros x y Hxy. apply w_aoim. exact Hxy. }
  destruct (c_aoi_model c); auto. apply w_aoim, same1_bb.
Qed.
Lemma x_spectral l : In F_weather l -> In F_airmass l ->
  rel2 (wag l) (wag (F_spectral_modifier :: l)) eq (run_spectral_model E c) (run_spectral_model E c).
Proof.
  intros H1 H2. unfold run_spectral_model. rewrite ones1. destruct (c_spectral_model c).
  - wneed F_weather. weach. wneede F_airmass. wlift.
    wlift1. { unfold sys_first_solar. rewrite v_bare, v_tup, HA. simpl. destruct (e_first_solar _ _ _ _); simpl; [exact (same1_bb _)|reflexivity]. }
    intros x y Hxy. apply w_spm. exact Hxy.
  - wneede F_airmass. wlift. wlift1. { rewrite HA. simpl. destruct (e_sapm_spectral _ _ _); simpl; [exact (same1_bb _)|reflexivity]. }
    intros x y Hxy. apply w_spm. exact Hxy.
  - apply w_spm, same1_bb.
Qed.
Lemma x_eff l : In F_total_irrad l -> In F_aoi_modifier l -> In F_spectral_modifier l ->
  rel2 (wag l) (wag (F_effective_irradiance :: l)) eq (effective_irradiance_model c) (effective_irradiance_model c).
Proof.
  intros. unfold effective_irradiance_model. wneed F_total_irrad. wneed F_spectral_modifier. wneed F_aoi_modifier.
  rewrite HA. simpl combine. simpl mapM.
  destruct (eff_irrad (ar_module_parameters a) v v0 v1); simpl.
  - apply w_eff, same1_bt.
  - intros ? ? ?. reflexivity.
Qed.
Lemma x_irrad l v : In F_effective_irradiance l ->
  rel2 (wag l) (wag l) (fun x y => exists v, x = Bare v /\ y = Tup [v])
    (fun r => (r, irrad_for_celltemp (Bare v) (effective_irradiance r))) (fun r => (r, irrad_for_celltemp (Tup [v]) (effective_irradiance r))).
Proof.
  intros Hin r1 r2 H. destruct (wag_in _ _ _ _ H Hin) as (e & -> & ->). unfold irrad_for_celltemp. simpl tuple_of.
  destruct (forallb (has_col "poa_global") [v]); [|eauto]. simpl. destruct (col "poa_global" v); simpl; eauto.
Qed.
Lemma x_celltemp l : In F_effective_irradiance l -> In F_total_irrad l -> In F_weather l -> In F_times l ->
  rel2 (wag l) (wag (F_cell_temperature :: l)) eq (set_celltemp E c) (set_celltemp E c).
Proof.
  intros. unfold set_celltemp. cbv zeta. wneed F_total_irrad. eapply rel_bind; [apply x_irrad; auto|intros ? ? (p & -> & ->)].
  wneed F_weather. weach. weach.
  eapply rel_bind with (V := fun x y => exists o, validate_per_array (c_system c) x true = Ok [o] /\ validate_per_array (c_system c) y true = Ok [o]) (Q := wag l).
  { destruct (c_temperature_model c); try (apply rel_ret; exists None; rewrite v_bare; auto).
    wneed F_effective_irradiance. apply rel_ret. exists (Some v3). simpl map. rewrite v_bare, v_tup. auto. }
  intros e1 e2 (o & O1 & O2). wneede F_times.
  wlift1. { rewrite !v_bare, !v_tup. simpl bind. rewrite O1, O2. simpl. rewrite HA. simpl.
    destruct (e_cell_temperature _ _ _ _ _ _ _ _); simpl; [exact (same1_bb _)|reflexivity]. }
  intros x y Hxy. apply w_ct. exact Hxy.
Qed.
Lemma x_prepare_temp l d : In F_effective_irradiance l -> In F_total_irrad l -> In F_weather l -> In F_times l -> ~ In F_cell_temperature l ->
  rel2 (wag l) (wag (F_cell_temperature :: l)) eq (prepare_temperature E c (Bare d)) (prepare_temperature E c (Tup [d])).
Proof.
  intros. unfold prepare_temperature. wneed F_total_irrad. eapply rel_bind; [apply x_irrad; auto|intros ? ? (p & -> & ->)].
  rewrite n1, HA. simpl Nat.eqb. cbv iota.
  eapply rel_bind with (V := fun x y => x = p /\ y = [p]) (Q := wag l). { apply rel_lift. simpl. auto. }
  intros ? ? [-> ->].
  simpl combine. simpl mapM. destruct (get_cell_temperature_given E c d p (ar_temperature_model_parameters a)) as [g|e] eqn:Hg.
  2:{ intros ? ? ?. reflexivity. }
  eapply rel_bind with (V := fun x y => x = g /\ y = [g]) (Q := wag l). { apply rel_lift. simpl. auto. }
  intros ? ? [-> ->]. destruct g as [g|].
  - intros r1 r2 W. pose proof (w_ct l (Bare g) (Tup [g]) (same1_bt g) r1 r2 W) as X. simpl in *. exact X.
  - intros r1 r2 W.
    assert (W' : wag l (set_cell_temperature None r1) r2).
    { destruct W as (W1 & W2 & W3). split; [exact W1|]. split; [exact W2|].
      rewrite Forall_forall in *. intros f Hf. specialize (W3 f Hf). destruct f; try exact W3. contradiction. }
    pose proof (x_celltemp l H H0 H1 H2 (set_cell_temperature None r1) r2 W') as X.
    cbn [forallb andb option_map]. unfold mbind, upd, need, lift. cbv beta iota.
    destruct (set_celltemp E c (set_cell_temperature None r1)) as [r1' [u1|e1]], (set_celltemp E c r2) as [r2' [u2|e2]]; try contradiction; [|exact X].
    destruct X as [_ X].
    destruct (wag_in _ _ _ F_cell_temperature X (or_introl eq_refl)) as (v1 & C1 & C2). rewrite C2. simpl.
    split; [destruct u1; reflexivity|].
    destruct X as (W1 & W2 & W3). split; [exact W1|]. split; [exact W2|]. rewrite Forall_forall in *.
    intros f Hf. specialize (W3 f Hf). destruct f; try exact W3. exists v1. rewrite C1. simpl. unfold wrap. rewrite W2. auto.
Qed.
Lemma sys2_1 {B} (f : array -> ser -> ser -> res B) x y :
  sys2 c f (Tup [x]) (Tup [y]) true = rmap Bare (f a x y) /\ sys2 c f (Bare x) (Bare y) true = rmap Bare (f a x y) /\
  sys2 c f (Tup [x]) (Tup [y]) false = rmap (fun v => Tup [v]) (f a x y) /\ sys2 c f (Bare x) (Bare y) false = rmap (fun v => Tup [v]) (f a x y).
Proof. unfold sys2. rewrite !v_bare, !v_tup, HA. simpl. destruct (f a x y); simpl; auto. Qed.
Definition scale_a (d : frame) : res frame := scale_voltage_current_power d (ar_modules_per_string a) (ar_strings a).
Lemma scale_1 d : sys_scale c (Tup [d]) true = rmap Bare (scale_a d) /\ sys_scale c (Bare d) true = rmap Bare (scale_a d) /\
  sys_scale c (Tup [d]) false = rmap (fun v => Tup [v]) (scale_a d).
Proof. unfold sys_scale, scale_a. rewrite !v_bare, !v_tup, HA. simpl. destruct (scale_voltage_current_power _ _ _); simpl; auto. Qed.
Definition dpf : list field := match c_dc_model c with Some DC_desoto | Some DC_cec | Some DC_pvsyst => [F_diode_params] | _ => [] end.
Lemma x_dc l : In F_effective_irradiance l -> In F_cell_temperature l ->
  rel2 (wag l) (wag (F_dc :: dpf ++ l)) eq (run_dc_model E c) (run_dc_model E c).
Proof.
  intros. unfold run_dc_model.
  assert (S : forall w, rel2 (wag l) (wag (F_dc :: F_diode_params :: l)) eq (dc_singlediode E c w) (dc_singlediode E c w)).
  { intros w. unfold dc_singlediode. cbv zeta. rewrite n1. simpl Nat.eqb. cbv iota. wneed F_effective_irradiance. wneed F_cell_temperature.
    destruct (sys2_1 (e_calcparams E w) v v0) as (_ & _ & -> & ->).
    destruct (e_calcparams E w a v v0) as [p|e]; [|intros ? ? ?; reflexivity].
    simpl rmap. eapply rel_bind with (V := fun x y => x = Tup [p] /\ y = Tup [p]) (Q := wag l). { apply rel_lift. simpl; auto. }
    intros ? ? [-> ->]. simpl tuple_of.
    (* diode_params is a 1-tuple on both sides here and gets overwritten *)
    intros r1 r2 W. unfold mbind, upd, lift. cbn [mapM bind]. destruct (e_singlediode E p) as [d|e]; cbn [bind]; [|reflexivity].
    destruct (scale_1 d) as (_ & _ & ->). destruct (scale_a d) as [d'|e]; cbn [rmap bind]; [|reflexivity].
    simpl. split; [reflexivity|]. destruct W as (W1 & W2 & W3). split; [exact W1|]. split; [exact W2|].
    rewrite Forall_forall in *. intros f Hf. unfold wrap. simpl in Hf.
    assert (D : f = F_dc \/ f = F_diode_params \/ wfield f r1 r2 /\ f <> F_dc /\ f <> F_diode_params).
    { assert (D1 : {f = F_dc} + {f <> F_dc}) by decide equality. assert (D2 : {f = F_diode_params} + {f <> F_diode_params}) by decide equality.
      destruct D1; [auto|]. destruct D2; [auto|]. right. right. split; [|auto]. apply W3. destruct Hf as [Q|[Q|Q]]; congruence. }
    destruct D as [-> | [-> | [D [D1 D2]]]].
    - simpl. unfold wrap. simpl. rewrite W1, W2. eexists; split; reflexivity.
    - simpl. unfold wrap. simpl. rewrite W1, W2. eexists; split; reflexivity.
    - destruct f; simpl in *; auto; congruence. }
  unfold dpf. destruct (c_dc_model c) as [[]|]; simpl.
  - unfold dc_sapm. wneed F_effective_irradiance. wneed F_cell_temperature.
    destruct (sys2_1 (e_sapm E) v v0) as (-> & -> & _). destruct (e_sapm E a v v0) as [d|e]; [|intros ? ? ?; reflexivity].
    simpl rmap. eapply rel_bind with (V := fun x y => x = Bare d /\ y = Bare d) (Q := wag l). { apply rel_lift. simpl; auto. }
    intros ? ? [-> ->]. destruct (scale_1 d) as (_ & -> & _).
    wlift1. { instantiate (1 := same1). destruct (scale_a d); simpl; [exact (same1_bb _)|reflexivity]. }
    intros x y (z & -> & [-> | ->]); simpl; apply w_dc; [apply same1_bb|apply same1_bt].
  - apply S. - apply S. - apply S.
  - unfold dc_pvwatts. wneed F_effective_irradiance. wneed F_cell_temperature.
    destruct (sys2_1 (e_pvwatts_dc E) v v0) as (_ & _ & -> & ->). destruct (e_pvwatts_dc E a v v0) as [d|e]; [|intros ? ? ?; reflexivity].
    simpl rmap. eapply rel_bind with (V := fun x y => x = Tup [d] /\ y = Tup [d]) (Q := wag l). { apply rel_lift. simpl; auto. }
    intros ? ? [-> ->]. cbn [map_arg map]. set (fr := ([("p_mp", d)] : frame)). change (sys_scale c _ true) with (sys_scale c (Tup [fr]) true). destruct (scale_1 fr) as (-> & _).
    destruct (scale_a fr) as [d'|e]; [|intros ? ? ?; reflexivity].
    simpl rmap. eapply rel_bind with (V := fun x y => x = Bare d' /\ y = Bare d') (Q := wag l). { apply rel_lift. simpl; auto. }
    intros ? ? [-> ->]. simpl each.
    wlift1. { instantiate (1 := same1). destruct (col "p_mp" d'); simpl; [exact (same1_bb _)|reflexivity]. }
    intros x y (z & -> & [-> | ->]); simpl; apply w_dc; [apply same1_bb|apply same1_bt].
  - intros ? ? ?; reflexivity.
Qed.
Definition ohmf : list field := match c_dc_ohmic_model c with OHM_from_percent => [F_dc_ohmic_losses] | OHM_no_loss => [] end.
Lemma x_ohm l : In F_dc l -> rel2 (wag l) (wag (ohmf ++ l)) eq (run_dc_ohmic_model c) (run_dc_ohmic_model c).
Proof.
  intros. unfold run_dc_ohmic_model, ohmf. destruct (c_dc_ohmic_model c); simpl; [|apply rel_ret; reflexivity].
  wneed F_dc. rewrite HA. simpl mapM. destruct (array_dc_ohms_from_percent a) as [rw|e]; [|intros ? ? ?; reflexivity].
  simpl bind. eapply rel_bind with (V := fun x y => x = [rw] /\ y = [rw]) (Q := wag l). { apply rel_lift. simpl; auto. }
  intros ? ? [-> ->]. simpl combine. simpl mapM.
  intros r1 r2 W. unfold mbind, upd, lift. cbv beta iota. destruct (ohmic_loss rw v) as [los|e]; simpl; [|reflexivity].
  destruct (minus_loss v los) as [d|e]; simpl; [|reflexivity]. split; [reflexivity|].
  destruct W as (W1 & W2 & W3). split; [exact W1|]. split; [exact W2|].
  rewrite Forall_forall in *. intros f Hf. unfold wrap. simpl. rewrite ?W1, ?W2.
  assert (D : f = F_dc_ohmic_losses \/ wfield f r1 r2 /\ f <> F_dc_ohmic_losses).
  { assert (D1 : {f = F_dc_ohmic_losses} + {f <> F_dc_ohmic_losses}) by decide equality. destruct D1; [auto|]. right. split; [|auto].
    apply W3. destruct Hf as [Q|Q]; congruence. }
  destruct D as [-> | [D D1]]; [simpl; unfold wrap; rewrite W1, W2; eexists; split; reflexivity|].
  destruct f; simpl in *; auto; try congruence. unfold wrap. simpl. rewrite ?W1, ?W2. eexists; split; reflexivity.
Qed.
Lemma x_losses l : In F_dc l -> rel2 (wag l) (wag (F_losses :: l)) eq (run_losses_model c) (run_losses_model c).
Proof.
  intros. unfold run_losses_model. cbv zeta. destruct (c_losses_model c); [|apply w_losses].
  eapply rel_bind; [apply w_losses|intros _ _ _]. wneed F_dc. simpl map_arg.
  eapply w_weaken; [|apply w_dc; apply same1_bt]. intros f [<-|Hf]; simpl; auto.
Qed.
Lemma x_ac l : c_ac_model c <> AC_adr -> In F_dc l -> rel2 (wag l) (wag (F_ac :: l)) eq (run_ac_model E c) (run_ac_model E c).
Proof.
  intros Hadr H. unfold run_ac_model. wneed F_dc. rewrite n1. simpl Nat.ltb. destruct (c_ac_model c); [|congruence|].
  - weach. weach. rewrite !v_bare, !v_tup. simpl bind. wlift. apply w_ac.
  - rewrite !v_bare, !v_tup. simpl bind. wlift. apply w_ac.
Qed.
Lemma x_from_eff l d : c_ac_model c <> AC_adr ->
  In F_effective_irradiance l -> In F_total_irrad l -> In F_weather l -> In F_times l -> ~ In F_cell_temperature l ->
  rel2 (wag l) (wag (app [F_cell_temperature; F_dc; F_losses; F_ac] (dc_fields c) ++ l)) eq
    (run_from_effective_irrad E c (Bare d)) (run_from_effective_irrad E c (Tup [d])).
Proof.
  intros. unfold run_from_effective_irrad. eapply rel_bind; [apply x_prepare_temp; auto|intros _ _ _].
  eapply rel_bind; [apply x_dc; simpl; auto|intros _ _ _]. eapply rel_bind; [apply x_ohm; simpl; auto|intros _ _ _].
  eapply rel_bind; [apply x_losses; apply in_or_app; right; simpl; auto|intros _ _ _].
  eapply w_weaken; [|apply x_ac; [assumption|]; right; apply in_or_app; right; simpl; auto].
  unfold dc_fields, ohmf, dpf. intros f Hf. inapp. tauto.
Qed.
Lemma x_rest l d : c_ac_model c <> AC_adr -> In F_aoi l -> In F_weather l -> In F_airmass l -> In F_total_irrad l -> In F_times l -> ~ In F_cell_temperature l ->
  rel2 (wag l) (wag (app [F_aoi_modifier; F_spectral_modifier; F_effective_irradiance; F_cell_temperature; F_dc; F_losses; F_ac] (dc_fields c) ++ l)) eq
   (run_aoi_model E c ;; run_spectral_model E c ;; effective_irradiance_model c ;; run_from_effective_irrad E c (Bare d))
   (run_aoi_model E c ;; run_spectral_model E c ;; effective_irradiance_model c ;; run_from_effective_irrad E c (Tup [d])).
Proof.
  intros. eapply rel_bind; [apply x_aoi_model; auto|intros _ _ _]. eapply rel_bind; [apply x_spectral; simpl; auto|intros _ _ _].
  eapply rel_bind; [apply x_eff; simpl; auto|intros _ _ _].
  eapply w_weaken; [|apply x_from_eff; simpl; auto; intros [C|[C|[C|C]]]; [discriminate C|discriminate C|discriminate C|contradiction]].
  intros f Hf. inapp. tauto.
Qed.
Lemma nin_ct l : Forall (fun f => f <> F_cell_temperature) l -> ~ In F_cell_temperature l.
Proof. rewrite Forall_forall. intros H C. exact (H _ C eq_refl). Qed.
Lemma x_run_model d : c_ac_model c <> AC_adr ->
  rel2 (fun _ _ => True) (wag (run_fields c)) eq (run_model E c (InFrame d)) (run_model E c (InList [d])).
Proof.
  intros Hadr. unfold run_model. simpl to_tuple. cbv zeta. eapply rel_bind; [apply x_prepare|intros _ _ _].
  eapply w_weaken; [|apply x_rest; [assumption|simpl; tauto..|apply nin_ct; repeat constructor; discriminate]].
  intros f Hf. unfold run_fields, poa_run_fields, eff_run_fields in Hf. inapp. tauto.
Qed.
Lemma x_run_poa d : c_ac_model c <> AC_adr ->
  rel2 (fun _ _ => True) (wag (poa_run_fields c)) eq (run_model_from_poa E c (InFrame d)) (run_model_from_poa E c (InList [d])).
Proof.
  intros Hadr. unfold run_model_from_poa. simpl to_tuple. cbv zeta. eapply rel_bind; [apply x_prepare_poa|intros _ _ _].
  eapply w_weaken; [|apply x_rest; [assumption|simpl; tauto..|apply nin_ct; repeat constructor; discriminate]].
  intros f Hf. unfold run_fields, poa_run_fields, eff_run_fields in Hf. inapp. tauto.
Qed.
Lemma x_run_eff d : c_ac_model c <> AC_adr ->
  rel2 (fun _ _ => True) (wag (eff_run_fields c)) eq
    (run_model_from_effective_irradiance E c (InFrame d)) (run_model_from_effective_irradiance E c (InList [d])).
Proof.
  intros Hadr. unfold run_model_from_effective_irradiance. simpl to_tuple. cbv zeta.
  destruct (check1 d true) as [-> ->]. rewrite <- verify1.
  eapply rel_bind; [apply x_lift_ok; reflexivity|intros _ _ _]. eapply rel_bind; [apply x_lift_ok; reflexivity|intros _ _ _].
  eapply rel_bind; [apply x_weather|intros _ _ _]. eapply rel_bind; [apply x_total|intros _ _ _].
  weach. eapply rel_bind; [apply w_eff; apply same1_bt|intros _ _ _].
  eapply w_weaken; [|apply x_from_eff; [assumption|simpl; tauto..|apply nin_ct; repeat constructor; discriminate]].
  intros f Hf. unfold run_fields, poa_run_fields, eff_run_fields in Hf. inapp. tauto.
Qed.
End Single.
