(** What a successful run computes. *)
From Verif Require Import Base.Fl Base.FlFacts Base.Py Model.Tools Model.Pvsystem Model.System Model.ModelChain Spec.ChainSpec
  Spec.PerArraySpec Spec.PipelineSpec Proofs.PvsystemP Proofs.SystemP Proofs.ChainP Proofs.ChainW Proofs.ChainV.
From Coq Require Import ZArith Lia.
Open Scope string_scope.
Open Scope list_scope.
Open Scope nat_scope.

(** ** Inversion of computations *)
Lemma bind_inv {A B} (m : M A) (k : A -> M B) r r' b : mbind m k r = (r', Ok b) -> exists r1 a, m r = (r1, Ok a) /\ k a r1 = (r', Ok b).
Proof. unfold mbind. destruct (m r) as [r1 [a|e]]; [eauto|discriminate]. Qed.
Lemma lift_inv {A} (x : res A) r r' a : lift x r = (r', Ok a) -> r' = r /\ x = Ok a.
Proof. unfold lift. intros [= -> ->]. auto. Qed.
Lemma need_inv {A} (f : results -> option A) r r' a : need f r = (r', Ok a) -> r' = r /\ f r = Some a.
Proof. unfold need. intros [= -> H]. destruct (f r'); [injection H as ->; auto|discriminate]. Qed.
Lemma upd_inv f r r' u : upd f r = (r', Ok u) -> r' = f r.
Proof. unfold upd. intros [= <-]. reflexivity. Qed.
Ltac bi H := let r := fresh "r" in let a := fresh "a" in let H1 := fresh "B" in apply bind_inv in H as (r & a & H1 & H).
Ltac li H := let E := fresh "Er" in let X := fresh "X" in apply lift_inv in H as [E X]; match type of E with ?v = _ => subst v end.
Ltac ni H := let E := fresh "Er" in let X := fresh "X" in apply need_inv in H as [E X]; match type of E with ?v = _ => subst v end.
Lemma res_bind {A B} (x : res A) (k : A -> res B) b : bind x k = Ok b -> exists a, x = Ok a /\ k a = Ok b.
Proof. destruct x; cbn [bind]; [eauto|discriminate]. Qed.
Lemma rmap_inv {A B} (f : A -> B) (x : res A) b : rmap f x = Ok b -> exists a, x = Ok a /\ b = f a.
Proof. unfold rmap. intros H. apply res_bind in H as (a & -> & [= <-]). eauto. Qed.
Lemma getitem_inv {A} (d : list (string * A)) k v : getitem d k = Ok v -> lookup k d = Some v.
Proof. unfold getitem. destruct (lookup k d); [congruence|discriminate]. Qed.

Lemma map_rep {A B} (f : A -> B) x m : map f (repeat x m) = repeat (f x) m.
Proof. induction m as [|m IH]; [reflexivity|]. cbn. rewrite IH. reflexivity. Qed.
Lemma getitem_some {A} (d : list (string * A)) k v : getitem d k = Ok v -> lookup k d <> None.
Proof. intros H. apply getitem_inv in H. congruence. Qed.
(** flag *)
Definition keepf {A} (m : M A) : Prop := forall r, singleton_tuples (fst (m r)) = singleton_tuples r.
Lemma keepf_bind {A B} (m : M A) (k : A -> M B) : keepf m -> (forall a, keepf (k a)) -> keepf (mbind m k).
Proof. intros H1 H2 r. unfold mbind. specialize (H1 r). destruct (m r) as [r' [a|e]]; simpl in *; [|exact H1]. rewrite H2. exact H1. Qed.
Lemma keepf_lift {A} (x : res A) : keepf (lift x). Proof. intros r. reflexivity. Qed.
Lemma keepf_need {A} (g : results -> option A) : keepf (need g). Proof. intros r. reflexivity. Qed.
Lemma keepf_ret {A} (x : A) : keepf (ret x). Proof. intros r. reflexivity. Qed.
Lemma keepf_read {A} (g : results -> res A) : keepf (fun r => (r, g r)). Proof. intros r. reflexivity. Qed.
Ltac kf1 :=
  match goal with
  | |- keepf (mbind _ _) => apply keepf_bind; [|intros ?]
  | |- keepf (lift _) => apply keepf_lift
  | |- keepf (need _) => apply keepf_need
  | |- keepf (ret _) => apply keepf_ret
  | |- keepf (fun r => (r, _)) => apply keepf_read
  | |- keepf (upd _) => intros ?; reflexivity
  | |- keepf (match ?x with _ => _ end) => destruct x
  | |- keepf (if ?x then _ else _) => destruct x
  end.
Ltac kfs := repeat kf1.

Section Pipe.
Variable E : env.
Variable c : chain.
Let s := c_system c.
Let n := num_arrays s.

Lemma f_sp d : keepf (prep_inputs_solar_pos E c d). Proof. unfold prep_inputs_solar_pos. kfs. Qed.
Lemma f_am : keepf (prep_inputs_airmass E c). Proof. unfold prep_inputs_airmass. kfs. Qed.
Lemma f_alb d : keepf (prep_inputs_albedo c d). Proof. unfold prep_inputs_albedo. kfs. Qed.
Lemma f_fixed : keepf (prep_inputs_fixed E c). Proof. unfold prep_inputs_fixed. kfs. Qed.
Lemma f_aoi : keepf (run_aoi_model E c). Proof. unfold run_aoi_model. cbv zeta. kfs. Qed.
Lemma f_spm : keepf (run_spectral_model E c). Proof. unfold run_spectral_model. kfs. Qed.
Lemma f_eff : keepf (effective_irradiance_model c). Proof. unfold effective_irradiance_model. kfs. Qed.
Lemma f_celltemp : keepf (set_celltemp E c). Proof. unfold set_celltemp. cbv zeta. kfs. Qed.
Lemma f_temp d : keepf (prepare_temperature E c d).
Proof. unfold prepare_temperature. repeat (kf1 || apply f_celltemp). Qed.
Lemma f_dc : keepf (run_dc_model E c).
Proof. unfold run_dc_model, dc_sapm, dc_singlediode, dc_pvwatts. cbv zeta. kfs. Qed.
Lemma f_ohm : keepf (run_dc_ohmic_model c). Proof. unfold run_dc_ohmic_model. kfs. Qed.
Lemma f_losses : keepf (run_losses_model c). Proof. unfold run_losses_model. cbv zeta. kfs. Qed.

(** ** Values per array *)
Definition rd {A} (p : pyarg A) (l : list A) : Prop := length l = n /\ l = match p with Tup l0 => l0 | Bare x => repeat x n end.
(** the stored form under singleton setting [b] *)
Definition form {A} (b : bool) (l : list A) : pyarg A := match l with [x] => if b then Tup [x] else Bare x | _ => Tup l end.
Lemma rd_value {A} (p : pyarg A) l k : rd p l -> k < n -> value_for p k = nth_error l k.
Proof. intros [L ->] Hk. destruct p; cbn; [reflexivity|]. symmetry. apply nth_error_repeat. exact Hk. Qed.
Lemma form_rd {A} b (l : list A) : length l = n -> rd (form b l) l.
Proof.
  intros H. split; [exact H|]. destruct l as [|x [|y l]]; cbn [form]; try reflexivity.
  simpl in H. rewrite <- H. destruct b; reflexivity.
Qed.
Lemma wrap_unwrap {A} r (l : list A) : wrap r (unwrap l) = form (singleton_tuples r) l.
Proof. unfold wrap. destruct l as [|x [|y l]]; cbn [unwrap form]; destruct (singleton_tuples r); reflexivity. Qed.
Lemma wrap_tup {A} r (l : list A) : n <> 1 \/ singleton_tuples r = true -> length l = n -> wrap r (Tup l) = form (singleton_tuples r) l.
Proof.
  intros H L. unfold wrap. destruct l as [|x [|y l]]; cbn [form]; destruct (singleton_tuples r); try reflexivity.
  exfalso. simpl in L. destruct H; [lia|discriminate].
Qed.
Lemma rd_validate {A} (p : pyarg A) l w l' : rd p l -> validate_per_array s p w = Ok l' -> l' = l.
Proof.
  intros [L ->] V. unfold validate_per_array in V. destruct p as [l0|x]; [|destruct w].
  - assert (X : (if Nat.eqb (length l0) (num_arrays s) then Ok l0 else Err ValueError) = Ok l') by (destruct w; exact V).
    destruct (Nat.eqb _ _); congruence.
  - injection V as <-. reflexivity.
  - destruct (Nat.eqb (length [x]) (num_arrays s)) eqn:Q; [|discriminate]. injection V as <-. apply Nat.eqb_eq in Q.
    unfold n. rewrite <- Q. reflexivity.
Qed.
Lemma mapM_repeat {A B} (f : A -> res B) x y m : f x = Ok y -> mapM f (repeat x m) = Ok (repeat y m).
Proof. intros H. induction m as [|m IH]; [reflexivity|]. cbn [repeat mapM]. rewrite H. cbn [bind]. rewrite IH. reflexivity. Qed.
Lemma each_rd {A B} (f : A -> res B) p l q : rd p l -> each f p = Ok q ->
  exists l', rd q l' /\ mapM f l = Ok l'.
Proof.
  intros [L ->] X. destruct p as [l0|x]; cbn [each] in X; apply rmap_inv in X as (y & Y & ->).
  - exists y. split; [|exact Y]. split; [|reflexivity]. apply mapM_nth in Y as [Y _]. congruence.
  - exists (repeat y n). split; [split; [apply repeat_length|reflexivity]|]. apply mapM_repeat. exact Y.
Qed.
(** mapM over parallel lists *)
Lemma mapM_at1 {T B} (f : T -> res B) (ts : list T) r : mapM f ts = Ok r ->
  length r = length ts /\ forall k t, nth_error ts k = Some t -> exists y, nth_error r k = Some y /\ f t = Ok y.
Proof. apply mapM_nth. Qed.
Lemma mapM_at2 {T X B} (f : T * X -> res B) (ts : list T) (xs : list X) r : length ts = n -> length xs = n -> mapM f (combine ts xs) = Ok r ->
  length r = n /\ forall k t x, nth_error ts k = Some t -> nth_error xs k = Some x -> exists y, nth_error r k = Some y /\ f (t, x) = Ok y.
Proof.
  intros L1 L2 H. apply mapM_nth in H as [H1 H2]. rewrite combine_length in H1. split; [lia|].
  intros k t x Ht Hx. apply H2. rewrite nth_error_combine, Ht, Hx. reflexivity.
Qed.
Lemma nth_some {A} (l : list A) k : length l = n -> k < n -> exists x, nth_error l k = Some x.
Proof. intros L K. destruct (nth_error l k) eqn:H; [eauto|]. apply nth_error_None in H. lia. Qed.
Lemma combine_len {A B} (l : list A) (l' : list B) : length l = n -> length l' = n -> length (combine l l') = n.
Proof. intros. rewrite combine_length. lia. Qed.
Lemma narr : length (arrays s) = n. Proof. reflexivity. Qed.

Definition datal (data : pyarg dframe) : list dframe := match data with Tup l => l | Bare d => repeat d n end.
Definition fitsd (data : pyarg dframe) : Prop := match data with Tup l => length l = n | Bare _ => True end.
Lemma datal_rd data : fitsd data -> rd data (datal data).
Proof. destruct data; cbn; intros H; split; auto. apply repeat_length. Qed.
Lemma datal_input i k : k < n -> nth_error (datal (to_tuple i)) k = input_for i k.
Proof. intros H. destruct i; cbn; auto. apply nth_error_repeat. exact H. Qed.
Definition F {A} (b : bool) (p : option (pyarg A)) (l : list A) : Prop := p = Some (form b l) /\ length l = n.
Lemma F_at {A} b (p : option (pyarg A)) l k : F b p l -> k < n -> at_k p k = nth_error l k.
Proof. intros [-> L] K. cbn. apply rd_value; [apply form_rd; exact L|exact K]. Qed.
Lemma F_rd {A} b (p : option (pyarg A)) l q : F b p l -> p = Some q -> rd q l.
Proof. intros [-> L] [= <-]. apply form_rd. exact L. Qed.
Definition isTup {A} (p : pyarg A) : bool := match p with Tup _ => true | Bare _ => false end.

Lemma p_weather data r r' : fitsd data -> assign_weather c data r = (r', Ok tt) ->
  singleton_tuples r' = (Nat.eqb n 1 && isTup data)%bool /\
  (exists w, weather r' = Some w /\ rd w (map build_weather (datal data))) /\
  exists d0, (match data with Tup (d :: _) | Bare d => d = d0 | Tup [] => False end) /\ times r' = Some (df_index d0).
Proof.
  intros HF H. unfold assign_weather in H. bi H. apply upd_inv in B. bi H. apply upd_inv in B0. subst r0 r1.
  unfold assign_times in H. bi H. ni B. destruct data as [l|d].
  - cbn [weather set_weather] in X. unfold wrap in X. fold n in X. cbn [singleton_tuples set_flag] in X.
    assert (X' : a1 = Tup (map build_weather l)) by (destruct (_ && _)%bool; congruence). subst a1. clear X.
    destruct l as [|d l]; cbn [map] in H; [apply lift_inv in H as [_ H]; discriminate|]. apply upd_inv in H. subst r'.
    cbn [singleton_tuples set_times set_weather set_flag weather times]. split; [reflexivity|]. split.
    + eexists. split; [unfold wrap; cbn [singleton_tuples set_flag]; destruct (_ && _)%bool; reflexivity|].
      split; [rewrite map_length; exact HF|reflexivity].
    + exists d. split; reflexivity.
  - cbn [weather set_weather] in X. unfold wrap in X. fold n in X. cbn [singleton_tuples set_flag] in X.
    rewrite andb_false_r in X. injection X as <-. apply upd_inv in H. subst r'.
    cbn [singleton_tuples set_times set_weather set_flag weather times]. split; [reflexivity|]. split.
    + eexists. split; [unfold wrap; cbn [singleton_tuples set_flag]; rewrite andb_false_r; reflexivity|].
      split; [rewrite map_length; unfold datal; apply repeat_length|]. cbn [datal]. apply map_rep.
    + exists d. split; reflexivity.
Qed.
Lemma p_sp data r r' : prep_inputs_solar_pos E c data r = (r', Ok tt) ->
  exists d0 t sp, (match data with Tup (d :: _) | Bare d => d = d0 | Tup [] => False end) /\ times r = Some t /\
    solar_position r' = Some sp /\
    e_solarposition E t (c_solar_position_method c) (lookup "pressure" (df_cols d0)) (lookup "temp_air" (df_cols d0)) = Ok sp.
Proof.
  intros H. unfold prep_inputs_solar_pos in H. bi H. li B. bi H. ni B. bi H. li B. apply upd_inv in H. subst r'.
  exists a, a0, a1. split; [destruct data as [[|d l]|d]; congruence|]. auto.
Qed.
Lemma p_am r r' : prep_inputs_airmass E c r = (r', Ok tt) ->
  exists sp am, solar_position r = Some sp /\ airmass r' = Some am /\ e_airmass E sp (c_airmass_model c) = Ok am.
Proof. intros H. unfold prep_inputs_airmass in H. bi H. ni B. bi H. li B. apply upd_inv in H. subst r'. eexists _, _. split; [exact X|]. split; [reflexivity|exact X0]. Qed.
Lemma p_fixed r r' : prep_inputs_fixed E c r = (r', Ok tt) ->
  exists sp l, solar_position r = Some sp /\ F (singleton_tuples r) (r_aoi r') l /\
    forall k a, nth_error (arrays s) k = Some a -> exists x, nth_error l k = Some x /\ incidence E sp a x.
Proof.
  intros H. unfold prep_inputs_fixed in H. bi H. ni B. bi H. li B. bi H. li B. apply upd_inv in H. subst r'.
  exists a, (map (fun x => e_aoi E x a0 a1) (arrays s)). split; [exact X|]. split.
  - split; [cbn [r_aoi set_aoi]; rewrite wrap_unwrap; reflexivity|rewrite map_length; reflexivity].
  - intros k x Hx. exists (e_aoi E x a0 a1). split; [apply map_nth_error with (f := fun x => e_aoi E x a0 a1); exact Hx|].
    exists a0, a1. split; [apply getitem_inv; exact X0|]. split; [apply getitem_inv; exact X1|reflexivity].
Qed.
Lemma mapM_col_none (k : string) (l : list dframe) e : mapM (dcol k) l = Err e -> exists d, In d l /\ lookup k (df_cols d) = None.
Proof.
  induction l as [|d l IH]; cbn [mapM]; [discriminate|]. unfold dcol at 1, col, getitem.
  destruct (lookup k (df_cols d)) eqn:L; cbn [bind]; [|intros _; exists d; split; [left; reflexivity|exact L]].
  destruct (mapM (dcol k) l); cbn [bind]; [discriminate|]. intros [= ->]. destruct (IH eq_refl) as (x & A & B). exists x. split; [right; exact A|exact B].
Qed.
Lemma mapM_col_some (k : string) (l : list dframe) q : mapM (dcol k) l = Ok q -> forall d, In d l -> lookup k (df_cols d) <> None.
Proof.
  intros H d Hd. apply In_nth_error in Hd as [j Hj]. apply mapM_nth in H as [_ H]. destruct (H j d Hj) as (y & _ & Y).
  exact (getitem_some _ _ _ Y).
Qed.
Lemma rd_wrap {A} r (p : pyarg A) l : (singleton_tuples r = true -> n = 1) -> rd p l -> rd (wrap r p) l.
Proof.
  intros HS [L W]. split; [exact L|]. unfold wrap. destruct (singleton_tuples r); [|destruct p; exact W].
  destruct p; [exact W|]. rewrite W, (HS eq_refl). reflexivity.
Qed.
Lemma p_albedo i r r' : (singleton_tuples r = true -> n = 1) -> fitsd (to_tuple i) -> prep_inputs_albedo c (to_tuple i) r = (r', Ok tt) ->
  exists q l, r_albedo r' = Some q /\ rd q l /\
    forall k a, nth_error (arrays s) k = Some a -> exists x, nth_error l k = Some x /\ albedo_used i k a x.
Proof.
  intros HS HF H. unfold prep_inputs_albedo in H.
  destruct (each (dcol "albedo") (to_tuple i)) as [q|e] eqn:X.
  - pose proof X as X0. apply (each_rd _ _ _ _ (datal_rd _ HF)) in X as (l' & R & Ml).
    assert (A : forall d, In d (frames i) -> column (df_cols d) "albedo" <> None).
    { destruct i as [d|l|l]; cbn [to_tuple each] in X0; apply rmap_inv in X0 as (y & Y & _); cbn [frames]; try (apply (mapM_col_some _ _ _ Y)).
      intros d' [<-|[]]. exact (getitem_some _ _ _ Y). }
    assert (Q : rd (match q with Tup l => Tup (map Ser l) | Bare a => Bare (Ser a) end) (map Ser l')).
    { destruct R as [L ->]. destruct q; split; try (rewrite map_length; exact L); [reflexivity|apply map_rep]. }
    exists (wrap r (match q with Tup l => Tup (map Ser l) | Bare a => Bare (Ser a) end)), (map Ser l').
    split; [destruct q; apply upd_inv in H; subst r'; reflexivity|]. split; [apply rd_wrap; assumption|].
    intros k a Ha. assert (K : k < n) by (apply nth_lt in Ha; exact Ha).
    destruct (nth_some (datal (to_tuple i)) k) as [d Hd]; [apply datal_rd; exact HF|exact K|].
    apply mapM_nth in Ml as [_ Ml]. destruct (Ml k d Hd) as (v & V & Y). exists (Ser v). split; [apply map_nth_error; exact V|].
    left. split; [exact A|]. exists d, v. rewrite <- datal_input by exact K. split; [exact Hd|]. split; [|reflexivity].
    apply getitem_inv. exact Y.
  - apply upd_inv in H. subst r'. eexists _, (map (fun a => Sc (ar_albedo a)) (arrays s)). split; [reflexivity|].
    split; [apply rd_wrap; [exact HS|]; split; [apply map_length|reflexivity]|].
    intros k a Ha. exists (Sc (ar_albedo a)). split; [apply map_nth_error with (f := fun a => Sc (ar_albedo a)); exact Ha|].
    right. split; [|reflexivity].
    destruct i as [d|l|l]; cbn [to_tuple each frames] in *; unfold rmap in X.
    + destruct (dcol "albedo" d) as [v|] eqn:D; cbn [bind] in X; [discriminate|]. exists d. split; [left; reflexivity|].
      unfold dcol, col, getitem in D. unfold column. destruct (lookup _ _); [discriminate|reflexivity].
    + destruct (mapM (dcol "albedo") l) as [v|] eqn:D; cbn [bind] in X; [discriminate|]. exact (mapM_col_none _ _ _ D).
    + destruct (mapM (dcol "albedo") l) as [v|] eqn:D; cbn [bind] in X; [discriminate|]. exact (mapM_col_none _ _ _ D).
Qed.
(** weather columns are the input columns *)
Lemma build_weather_col d k : In k ["ghi"; "dhi"; "dni"; "precipitable_water"] -> lookup k (df_cols (build_weather d)) = lookup k (df_cols d).
Proof.
  intros Hk. unfold build_weather. cbn [df_cols].
  assert (G : forall g : frame, (forall k', In k' ["ghi"; "dhi"; "dni"; "precipitable_water"] -> lookup k' g = lookup k' (df_cols d)) ->
    forall nm v, nm = "wind_speed" \/ nm = "temp_air" -> forall k', In k' ["ghi"; "dhi"; "dni"; "precipitable_water"] ->
    lookup k' (if has_col nm g then g else g ++ [(nm, v)]) = lookup k' (df_cols d)).
  { intros g Hg nm v Hnm k' Hk'. destruct (has_col nm g); [apply Hg; exact Hk'|]. rewrite lookup_app, Hg by exact Hk'.
    destruct (lookup k' (df_cols d)) eqn:L; [reflexivity|]. cbn [lookup].
    destruct (String.eqb_spec k' nm) as [->|]; [|reflexivity]. exfalso. destruct Hnm as [-> | ->]; simpl in Hk'; repeat (destruct Hk' as [Hk'|Hk']; [discriminate|]); exact Hk'. }
  apply G; auto. apply G; auto. intros k' Hk'. rewrite lookup_flat_map.
  replace (mem k' WEATHER_KEYS) with true; [reflexivity|]. symmetry. apply mem_In. simpl in *. tauto.
Qed.
Lemma has_col_lookup (k : string) (f : frame) : has_col k f = match lookup k f with Some _ => true | None => false end.
Proof.
  unfold has_col, mem. induction f as [|[k' v] f IH]; [reflexivity|]. cbn [map existsb lookup fst].
  destruct (String.eqb k k'); [reflexivity|exact IH].
Qed.
Lemma build_weather_temp d : lookup "temp_air" (df_cols (build_weather d)) = Some (column_or d "temp_air" #20) /\
  lookup "wind_speed" (df_cols (build_weather d)) = Some (column_or d "wind_speed" #0).
Proof.
  unfold build_weather, column_or. cbn [df_cols].
  rewrite !has_col_lookup, !lookup_flat_map. cbn [mem WEATHER_KEYS existsb String.eqb Ascii.eqb Bool.eqb orb].
  set (g := df_filter WEATHER_KEYS (df_cols d)).
  assert (W : lookup "wind_speed" g = lookup "wind_speed" (df_cols d)) by (unfold g; rewrite lookup_flat_map; reflexivity).
  assert (T : lookup "temp_air" g = lookup "temp_air" (df_cols d)) by (unfold g; rewrite lookup_flat_map; reflexivity).
  clearbody g.
  destruct (lookup "wind_speed" (df_cols d)) as [w|]; destruct (lookup "temp_air" (df_cols d)) as [t|];
  rewrite ?has_col_lookup, ?lookup_app, ?T, ?W; cbn [lookup String.eqb Ascii.eqb Bool.eqb]; rewrite ?T, ?W, ?lookup_app, ?T, ?W;
  cbn [lookup String.eqb Ascii.eqb Bool.eqb]; auto.
Qed.

(** columns of the stored weather *)
Lemma weather_col i w k q : fitsd (to_tuple i) -> In k ["ghi"; "dhi"; "dni"; "precipitable_water"] ->
  rd w (map build_weather (datal (to_tuple i))) -> each (dcol k) w = Ok q ->
  exists l, rd q l /\ forall j d, j < n -> input_for i j = Some d -> exists v, nth_error l j = Some v /\ column (df_cols d) k = Some v.
Proof.
  intros HF Hk R X. apply (each_rd _ _ _ _ R) in X as (l & R' & Ml). exists l. split; [exact R'|].
  intros j d Hj Hd. rewrite <- datal_input in Hd by exact Hj. apply mapM_nth in Ml as [_ Ml].
  destruct (Ml j (build_weather d)) as (v & V & Y); [apply map_nth_error; exact Hd|]. exists v. split; [exact V|].
  unfold column. rewrite <- build_weather_col by exact Hk. apply getitem_inv. exact Y.
Qed.
Lemma weather_temp i w q (k : string) x : fitsd (to_tuple i) -> (k = "temp_air" /\ x = #20 \/ k = "wind_speed" /\ x = #0) ->
  rd w (map build_weather (datal (to_tuple i))) -> each (dcol k) w = Ok q ->
  exists l, rd q l /\ forall j d, j < n -> input_for i j = Some d -> nth_error l j = Some (column_or d k x).
Proof.
  intros HF Hk R X. apply (each_rd _ _ _ _ R) in X as (l & R' & Ml). exists l. split; [exact R'|].
  intros j d Hj Hd. rewrite <- datal_input in Hd by exact Hj. apply mapM_nth in Ml as [_ Ml].
  destruct (Ml j (build_weather d)) as (v & V & Y); [apply map_nth_error; exact Hd|]. rewrite V.
  apply getitem_inv in Y. destruct (build_weather_temp d) as [T W].
  destruct Hk as [[-> ->]|[-> ->]]; [exact (eq_trans (eq_sym Y) T)|exact (eq_trans (eq_sym Y) W)].
Qed.
Lemma weather_n i w : rd w (map build_weather (datal (to_tuple i))) -> length (datal (to_tuple i)) = n.
Proof. intros [L _]. rewrite map_length in L. exact L. Qed.

(** transposition: the last part of prepare_inputs *)
Lemma p_transpose i t sp am z az amr dni ghi dhi alb q :
  fitsd (to_tuple i) ->
  col "apparent_zenith" sp = Ok z -> col "azimuth" sp = Ok az -> col "airmass_relative" am = Ok amr ->
  (exists l, rd dni l /\ forall j d, j < n -> input_for i j = Some d -> exists v, nth_error l j = Some v /\ column (df_cols d) "dni" = Some v) ->
  (exists l, rd ghi l /\ forall j d, j < n -> input_for i j = Some d -> exists v, nth_error l j = Some v /\ column (df_cols d) "ghi" = Some v) ->
  (exists l, rd dhi l /\ forall j d, j < n -> input_for i j = Some d -> exists v, nth_error l j = Some v /\ column (df_cols d) "dhi" = Some v) ->
  forall la, rd alb la ->
  sys_irradiance E c t z az dni ghi dhi alb amr (c_transposition_model c) = Ok q ->
  exists tis, q = unwrap tis /\ length tis = n /\
    forall k a d al, nth_error (arrays s) k = Some a -> input_for i k = Some d -> nth_error la k = Some al ->
      exists ti, nth_error tis k = Some ti /\ transposed E c t sp am al a d ti.
Proof.
  intros HF Hz Ha Hm (l1 & R1 & C1) (l2 & R2 & C2) (l3 & R3 & C3) la Ra H. unfold sys_irradiance in H. fold s in H.
  apply res_bind in H as (d1 & V1 & H). apply res_bind in H as (d2 & V2 & H). apply res_bind in H as (d3 & V3 & H). apply res_bind in H as (d4 & V4 & H).
  apply rmap_inv in H as (tis & Ml & ->).
  rewrite (rd_validate _ _ _ _ R1 V1), (rd_validate _ _ _ _ R2 V2), (rd_validate _ _ _ _ R3 V3), (rd_validate _ _ _ _ Ra V4) in Ml.
  exists tis. split; [reflexivity|].
  assert (Q := mapM_at2 _ _ _ _ narr (combine_len _ _ (proj1 R1) (combine_len _ _ (proj1 R2) (combine_len _ _ (proj1 R3) (proj1 Ra)))) Ml).
  destruct Q as [L Q]. split; [exact L|]. intros k a d al Hk Hd Hal.
  assert (K : k < n) by (apply nth_lt in Hk; exact Hk).
  destruct (C1 k d K Hd) as (v1 & N1 & E1). destruct (C2 k d K Hd) as (v2 & N2 & E2). destruct (C3 k d K Hd) as (v3 & N3 & E3).
  destruct (Q k a (v1, (v2, (v3, al))) Hk) as (ti & T & Y).
  { rewrite !nth_error_combine, N1, N2, N3, Hal. reflexivity. }
  exists ti. split; [exact T|]. exists z, az, amr, v1, v2, v3. unfold column.
  repeat split; try assumption; apply getitem_inv; assumption.
Qed.
Lemma p_total_given i r r' : fitsd (to_tuple i) -> singleton_tuples r = (Nat.eqb n 1 && isTup (to_tuple i))%bool ->
  (n = 1 \/ isTup (to_tuple i) = true) ->
  assign_total_irrad (to_tuple i) r = (r', Ok tt) ->
  exists tis, F (singleton_tuples r) (total_irrad r') tis /\
    forall k d, k < n -> input_for i k = Some d -> exists ti, nth_error tis k = Some ti /\
      forall key, column ti key = if mem key ["poa_global"; "poa_direct"; "poa_diffuse"] then column (df_cols d) key else None.
Proof.
  intros HF Hs Hn H. unfold assign_total_irrad in H. cbv zeta in H. apply upd_inv in H. subst r'.
  exists (map (fun d => df_filter POA_KEYS (df_cols d)) (datal (to_tuple i))). split; [split|].
  - cbn [total_irrad set_total_irrad]. f_equal. destruct (to_tuple i) as [l|d] eqn:T; cbn [datal isTup fitsd] in *.
    + apply wrap_tup; [|rewrite map_length; exact HF]. destruct (Nat.eqb_spec n 1); [right|left; assumption]. rewrite Hs. reflexivity.
    + assert (N1 : n = 1) by (destruct Hn as [Hn|Hn]; [exact Hn|discriminate]). rewrite andb_false_r in Hs.
      unfold wrap. rewrite Hs, N1. reflexivity.
  - rewrite map_length. apply datal_rd. exact HF.
  - intros k d Hk Hd. rewrite <- datal_input in Hd by exact Hk. eexists. split; [apply map_nth_error; exact Hd|].
    intros key. unfold column. apply lookup_flat_map.
Qed.
(** AOI modifiers *)
Lemma p_aoi b r r' aois : singleton_tuples r = b -> F b (r_aoi r) aois -> run_aoi_model E c r = (r', Ok tt) ->
  exists l, F b (aoi_modifier r') l /\
    forall k a x, nth_error (arrays s) k = Some a -> nth_error aois k = Some x -> exists v, nth_error l k = Some v /\ modified E c a x v.
Proof.
  intros Hb FA H.
  assert (G : forall nm, (let! a := need r_aoi in let! x := lift (sys_iam E c a nm) in upd (set_aoi_modifier x)) r = (r', Ok tt) ->
    exists l, F b (aoi_modifier r') l /\ forall k a x, nth_error (arrays s) k = Some a -> nth_error aois k = Some x ->
      exists v, nth_error l k = Some v /\ exists y, e_iam E a x nm = Ok y /\ v = Ser y).
  { intros nm G. bi G. ni B. bi G. li B. apply upd_inv in G. subst r'. unfold sys_iam in X0. fold s in X0.
    apply res_bind in X0 as (l0 & V & X0). apply rmap_inv in X0 as (l & Ml & ->).
    rewrite (rd_validate _ _ _ _ (F_rd _ _ _ _ FA X) V) in Ml.
    destruct (mapM_at2 _ _ _ _ narr (proj2 FA) Ml) as [L Q]. exists l. split.
    - split; [cbn [aoi_modifier set_aoi_modifier]; rewrite wrap_unwrap; congruence|exact L].
    - intros k a1 x Ha Hx. destruct (Q k a1 x Ha Hx) as (y & Y & Z). apply rmap_inv in Z as (w & W & ->). eauto. }
  unfold run_aoi_model in H. cbv zeta in H. unfold modified.
  destruct (c_aoi_model c);
  try (apply G in H as (l & Fl & Q); exists l; split; [exact Fl|]; intros k a x Ha Hx; destruct (Q k a x Ha Hx) as (v & V & y & Y & Z);
       exists v; split; [exact V|]; eexists _, y; split; [simpl; auto 10|]; split; [exact Y|exact Z]).
  apply upd_inv in H. subst r'. exists (repeat (Sc #1) n). split.
  - split; [|apply repeat_length]. cbn [aoi_modifier set_aoi_modifier]. f_equal. unfold ones. fold s. fold n.
    destruct (Nat.eqb_spec n 1) as [->|N1]; [exact (eq_trans (wrap_unwrap r [Sc #1]) (f_equal (fun b => form b [Sc #1]) Hb))|].
    rewrite wrap_tup by (auto using repeat_length). rewrite Hb. reflexivity.
  - intros k a x Ha Hx. exists (Sc #1). split; [|reflexivity]. apply nth_error_repeat. apply nth_lt in Ha. exact Ha.
Qed.
Lemma p_spectral b i r r' w am : singleton_tuples r = b -> fitsd (to_tuple i) -> weather r = Some w ->
  rd w (map build_weather (datal (to_tuple i))) -> airmass r = Some am -> run_spectral_model E c r = (r', Ok tt) ->
  exists l, F b (spectral_modifier r') l /\
    forall k a d, nth_error (arrays s) k = Some a -> input_for i k = Some d -> exists v, nth_error l k = Some v /\ spectral E c am a d v.
Proof.
  intros Hb HF HW RW HA H. unfold run_spectral_model in H. unfold spectral.
  destruct (c_spectral_model c).
  - bi H. ni B. bi H. li B. bi H. ni B. bi H. li B. bi H. li B. apply upd_inv in H. subst r'.
    rewrite HW in X. injection X as <-. rewrite HA in X1. injection X1 as <-.
    destruct (weather_col i w "precipitable_water" a0 HF ltac:(simpl; auto) RW X0) as (l0 & R0 & Q0).
    unfold sys_first_solar in X3. fold s in X3. apply res_bind in X3 as (l1 & V & X3). apply rmap_inv in X3 as (l & Ml & ->).
    rewrite (rd_validate _ _ _ _ R0 V) in Ml. destruct (mapM_at2 _ _ _ _ narr (proj1 R0) Ml) as [L Q]. exists l. split.
    + split; [cbn [spectral_modifier set_spectral_modifier]; rewrite wrap_unwrap; congruence|exact L].
    + intros k a d Ha Hd. assert (K : k < n) by (apply nth_lt in Ha; exact Ha). destruct (Q0 k d K Hd) as (pw & P1 & P2).
      destruct (Q k a pw Ha P1) as (v & V1 & V2). apply rmap_inv in V2 as (x & X1 & ->). exists (Ser x). split; [exact V1|].
      exists a2, pw, x. unfold column. split; [apply getitem_inv; exact X2|]. auto.
  - bi H. ni B. bi H. li B. bi H. li B. apply upd_inv in H. subst r'. rewrite HA in X. injection X as <-.
    apply rmap_inv in X1 as (l & Ml & ->). destruct (mapM_at1 _ _ _ Ml) as [L Q]. exists l. split.
    + split; [cbn [spectral_modifier set_spectral_modifier]; rewrite wrap_unwrap; congruence|exact L].
    + intros k a1 d Ha Hd. destruct (Q k a1 Ha) as (v & V1 & V2). apply rmap_inv in V2 as (x & X1 & ->). exists (Ser x). split; [exact V1|].
      exists a0, x. unfold column. split; [apply getitem_inv; exact X0|]. auto.
  - apply upd_inv in H. subst r'. exists (repeat (Sc #1) n). split.
    + split; [|apply repeat_length]. cbn [spectral_modifier set_spectral_modifier]. f_equal. unfold ones. fold s. fold n.
      destruct (Nat.eqb_spec n 1) as [->|N1]; [exact (eq_trans (wrap_unwrap r [Sc #1]) (f_equal (fun b => form b [Sc #1]) Hb))|].
      rewrite wrap_tup by (auto using repeat_length). rewrite Hb. reflexivity.
    + intros k a x Ha Hx. exists (Sc #1). split; [|reflexivity]. apply nth_error_repeat. apply nth_lt in Ha. exact Ha.
Qed.
(** effective irradiance *)
Lemma nth_zipw f a b j : nth_error (zipw f a b) j = match nth_error a j, nth_error b j with Some x, Some y => Some (f x y) | _, _ => None end.
Proof.
  revert b j. induction a as [|x a IH]; intros b j; [destruct j; reflexivity|].
  destruct b as [|y b]; cbn [zipw]; [destruct j; cbn; [reflexivity|destruct (nth_error a j); reflexivity]|].
  destruct j; cbn; [reflexivity|apply IH].
Qed.
Lemma nth_map' {A B} (f : A -> B) l j : nth_error (map f l) j = option_map f (nth_error l j).
Proof. revert j; induction l as [|x l IH]; intros [|j]; cbn; auto. Qed.
Lemma nth_nmul m x j : nth_error (nmul m x) j = match entry m j, nth_error x j with Some u, Some v => Some (fmul u v) | _, _ => None end.
Proof. destruct m; cbn [nmul entry]; [rewrite nth_map'; destruct (nth_error x j); reflexivity|apply nth_zipw]. Qed.
Lemma eff_irrad_spec a ti sm iam eff : eff_irrad (ar_module_parameters a) ti sm iam = Ok eff -> effective a ti sm iam eff.
Proof.
  unfold eff_irrad. intros H. apply res_bind in H as (fd & Hf & H). apply res_bind in H as (x & Hx & H). apply res_bind in H as (y & Hy & H).
  injection H as <-. exists fd, x, y. split; [|split; [apply getitem_inv; exact Hx|split; [apply getitem_inv; exact Hy|]]].
  - destruct (lookup "FD" (ar_module_parameters a)) as [v|]; [|right; split; congruence]. left. destruct v; cbn in Hf; congruence.
  - intros j. rewrite nth_nmul, nth_zipw, nth_nmul, nth_map'.
    destruct (entry sm j), (entry iam j), (nth_error x j), (nth_error y j); reflexivity.
Qed.
Lemma form_true {A} (l : list A) : form true l = Tup l. Proof. destruct l as [|x [|y l]]; reflexivity. Qed.
Lemma form_tup {A} b (l l' : list A) : form b l = Tup l' -> l' = l /\ (b = true \/ length l <> 1).
Proof. destruct l as [|x [|y l]], b; cbn; intros H; try discriminate; injection H as <-; split; auto; right; cbn; lia. Qed.
Lemma form_bare {A} b (l : list A) x : form b l = Bare x -> l = [x] /\ b = false.
Proof. destruct l as [|y [|z l]], b; cbn; intros H; try discriminate; injection H as <-; auto. Qed.
Lemma F_wrap_tup {A} b r (l : list A) : singleton_tuples r = b -> (b = true \/ n <> 1) -> length l = n -> F b (Some (wrap r (Tup l))) l.
Proof. intros Hb H L. split; [|exact L]. rewrite wrap_tup by (rewrite ?Hb; tauto). congruence. Qed.
Lemma F_wrap_bare {A} b r (x : A) : singleton_tuples r = b -> n = 1 -> F b (Some (wrap r (Bare x))) [x].
Proof. intros Hb N1. split; [|cbn; congruence]. f_equal. rewrite <- Hb. exact (wrap_unwrap r [x]). Qed.
Lemma p_eff b r r' tis sms iams : singleton_tuples r = b -> F b (total_irrad r) tis -> F b (spectral_modifier r) sms -> F b (aoi_modifier r) iams ->
  effective_irradiance_model c r = (r', Ok tt) ->
  exists l, F b (effective_irradiance r') l /\ forall k a t x y, nth_error (arrays s) k = Some a -> nth_error tis k = Some t ->
    nth_error sms k = Some x -> nth_error iams k = Some y -> exists v, nth_error l k = Some v /\ effective a t x y v.
Proof.
  intros Hb FT FS FI H. unfold effective_irradiance_model in H. bi H. ni B. bi H. ni B. bi H. ni B.
  rewrite (proj1 FT) in X. rewrite (proj1 FS) in X0. rewrite (proj1 FI) in X1. injection X as X. injection X0 as X0. injection X1 as X1.
  destruct a as [ti|ti].
  - apply form_tup in X as [-> HB]. rewrite (proj2 FT) in HB.
    destruct a0 as [sm|]; [|apply lift_inv in H as [_ H]; discriminate]. destruct a1 as [am|]; [|apply lift_inv in H as [_ H]; discriminate].
    apply form_tup in X0 as [-> _]. apply form_tup in X1 as [-> _].
    bi H. li B. apply upd_inv in H. subst r'. fold s in X.
    destruct (mapM_at2 _ _ _ _ narr (combine_len _ _ (proj2 FT) (combine_len _ _ (proj2 FS) (proj2 FI))) X) as [L Q].
    exists a. split; [apply F_wrap_tup; auto|]. intros k a0 t x y Ha Ht Hx Hy.
    destruct (Q k a0 (t, (x, y)) Ha) as (v & V & Y); [rewrite !nth_error_combine, Ht, Hx, Hy; reflexivity|].
    exists v. split; [exact V|]. apply eff_irrad_spec. exact Y.
  - apply form_bare in X as [-> HB]. fold s in H. destruct (arrays s) as [|a rest] eqn:HAr; [apply lift_inv in H as [_ H]; discriminate|].
    destruct a0 as [|sm]; [apply lift_inv in H as [_ H]; discriminate|]. destruct a1 as [|am]; [apply lift_inv in H as [_ H]; discriminate|].
    apply form_bare in X0 as [-> _]. apply form_bare in X1 as [-> _].
    bi H. li B. apply upd_inv in H. subst r'. exists [a0]. split; [apply F_wrap_bare; [exact Hb|symmetry; exact (proj2 FT)]|].
    intros k a1 t x y Ha Ht Hx Hy. destruct k as [|k]; [|destruct k; discriminate].
    cbn in Ha, Ht, Hx, Hy. injection Ha as <-. injection Ht as <-. injection Hx as <-. injection Hy as <-.
    exists a0. split; [reflexivity|]. apply eff_irrad_spec. exact X.
Qed.

(** ** Cell temperature *)
Lemma each_form {A B} (f : A -> res B) b l q : each f (form b l) = Ok q -> exists l', q = form b l' /\ mapM f l = Ok l'.
Proof.
  destruct l as [|x [|y l]].
  - cbn [form each mapM]. intros H. apply rmap_inv in H as (a & [= <-] & ->). exists []. auto.
  - cbn [form]. destruct b; cbn [each mapM]; intros H; apply rmap_inv in H as (a & Ha & ->).
    + exists a. split; [symmetry; apply form_true|exact Ha].
    + exists [a]. rewrite Ha. auto.
  - cbn [form each]. intros H. apply rmap_inv in H as (a & Ha & ->). exists a. split; [|exact Ha].
    apply mapM_nth in Ha as [L _]. destruct a as [|u [|v a]]; try discriminate L. reflexivity.
Qed.
Lemma tuple_of_form {A} b (l : list A) : tuple_of (form b l) = l.
Proof. destruct l as [|x [|y l]], b; reflexivity. Qed.
Lemma p_irrad b tis effs q eff : F b eff effs -> length tis = n ->
  irrad_for_celltemp (form b tis) eff = Ok q ->
  exists poas, q = form b poas /\ length poas = n /\ forall k p, nth_error poas k = Some p -> heating tis k (nth_error effs k) p.
Proof.
  intros FE LT H. unfold irrad_for_celltemp in H. rewrite tuple_of_form in H.
  destruct (forallb (has_col "poa_global") tis) eqn:A.
  - apply each_form in H as (l' & -> & Ml). exists l'. split; [reflexivity|]. apply mapM_nth in Ml as [L Q]. split; [congruence|].
    intros k p Hp. left. split.
    + rewrite forallb_forall in A. intros f Hf. specialize (A f Hf). rewrite has_col_lookup in A. unfold column. destruct (lookup _ f); [discriminate|discriminate].
    + destruct (nth_error tis k) as [f|] eqn:Hf.
      * destruct (Q k f Hf) as (y & Y1 & Y2). exists f. split; [reflexivity|]. rewrite Hp in Y1. injection Y1 as <-. apply getitem_inv. exact Y2.
      * apply nth_error_None in Hf. apply nth_lt in Hp. rewrite L in Hp. lia.
  - rewrite (proj1 FE) in H. injection H as <-. exists effs. split; [reflexivity|]. split; [exact (proj2 FE)|].
    intros k p Hp. right. split; [|exact Hp].
    assert (X : exists f, In f tis /\ has_col "poa_global" f = false).
    { clear -A. induction tis as [|f l IH]; [discriminate|]. cbn in A. destruct (has_col "poa_global" f) eqn:Hf.
      - destruct (IH A) as (g & G1 & G2). exists g. split; [right; exact G1|exact G2].
      - exists f. split; [left; reflexivity|exact Hf]. }
    destruct X as (f & F1 & F2). exists f. split; [exact F1|]. rewrite has_col_lookup in F2. unfold column. destruct (lookup _ f); [discriminate|reflexivity].
Qed.
Definition modelled_temp (t : list Z) (a : array) (d : dframe) (poa eff tc : ser) : Prop :=
  e_cell_temperature E t a poa (column_or d "temp_air" #20) (column_or d "wind_speed" #0) (temp_name (c_temperature_model c))
    (match c_temperature_model c with T_noct_sam => Some eff | _ => None end) = Ok tc.
Lemma p_celltemp b i r r' w t tis effs : singleton_tuples r = b -> fitsd (to_tuple i) -> weather r = Some w ->
  rd w (map build_weather (datal (to_tuple i))) -> times r = Some t -> F b (total_irrad r) tis -> F b (effective_irradiance r) effs ->
  set_celltemp E c r = (r', Ok tt) ->
  exists poas tcs, irrad_for_celltemp (form b tis) (effective_irradiance r) = Ok (form b poas) /\ F b (cell_temperature r') tcs /\
    forall k a d eff poa, nth_error (arrays s) k = Some a -> input_for i k = Some d -> nth_error effs k = Some eff -> nth_error poas k = Some poa ->
      exists tc, nth_error tcs k = Some tc /\ modelled_temp t a d poa eff tc.
Proof.
  intros Hb HF HW RW HT FT FE H. unfold set_celltemp in H. cbv zeta in H. bi H. ni B. bi H.
  injection B as <- X0. bi H. ni B. bi H. li B. bi H. li B. bi H.
  rewrite (proj1 FT) in X. injection X as <-. rewrite HW in X1. injection X1 as <-.
  destruct (p_irrad _ _ _ _ _ FE (proj2 FT) X0) as (poas & -> & LP & _).
  destruct (weather_temp i w a2 "temp_air" #20 HF ltac:(auto) RW X2) as (la & Ra & Qa).
  destruct (weather_temp i w a3 "wind_speed" #0 HF ltac:(auto) RW X3) as (lw & Rw & Qw).
  assert (EF : r0 = r /\ exists le, rd a4 le /\ forall k eff, nth_error effs k = Some eff ->
             nth_error le k = Some (match c_temperature_model c with T_noct_sam => Some eff | _ => None end)).
  { assert (G : (r0, Ok a4) = (r, Ok (Bare (@None ser))) -> r0 = r /\ exists le, rd a4 le /\ forall k (eff : ser), nth_error effs k = Some eff -> nth_error le k = Some None).
    { intros [= -> ->]. split; [reflexivity|]. exists (repeat None n). split; [split; [apply repeat_length|reflexivity]|].
      intros k eff Hk. apply nth_error_repeat. apply nth_lt in Hk. rewrite (proj2 FE) in Hk. exact Hk. }
    destruct (c_temperature_model c); try (apply G; symmetry; exact B).
    bi B. ni B0. rewrite (proj1 FE) in X. injection X as <-. injection B as -> B. split; [reflexivity|].
    exists (map Some effs). split.
    - subst a4. destruct effs as [|x [|y l]]; cbn [form]; [| |].
      + split; [rewrite map_length; exact (proj2 FE)|reflexivity].
      + pose proof (proj2 FE) as L1. cbn in L1. destruct b; split; cbn; try congruence. rewrite <- L1. reflexivity.
      + split; [rewrite map_length; exact (proj2 FE)|reflexivity].
    - intros k eff Hk. apply map_nth_error. exact Hk. }
  destruct EF as [-> (le & Re & Qe)]. bi H. ni B0. rewrite HT in X. injection X as <-. bi H. li B0. apply upd_inv in H. subst r'.
  apply res_bind in X as (d1 & V1 & X). apply res_bind in X as (d2 & V2 & X). apply res_bind in X as (d3 & V3 & X). apply res_bind in X as (d4 & V4 & X).
  apply rmap_inv in X as (tcs & Ml & ->). fold s in V1, V2, V3, V4, Ml.
  rewrite (rd_validate _ _ _ _ (form_rd b poas LP) V1), (rd_validate _ _ _ _ Ra V2), (rd_validate _ _ _ _ Rw V3), (rd_validate _ _ _ _ Re V4) in Ml.
  destruct (mapM_at2 _ _ _ _ narr (combine_len _ _ LP (combine_len _ _ (proj1 Ra) (combine_len _ _ (proj1 Rw) (proj1 Re)))) Ml) as [L Q].
  exists poas, tcs. split; [exact X0|]. split.
  - split; [|exact L]. cbn [cell_temperature set_cell_temperature option_map]. rewrite wrap_unwrap. congruence.
  - intros k a1 d eff poa Ha Hd Hf Hp. assert (K : k < n) by (apply nth_lt in Ha; exact Ha).
    destruct (Q k a1 (poa, (column_or d "temp_air" #20, (column_or d "wind_speed" #0, match c_temperature_model c with T_noct_sam => Some eff | _ => None end))) Ha) as (tc & T & Y).
    { rewrite !nth_error_combine, Hp, (Qa k d K Hd), (Qw k d K Hd), (Qe k eff Hf). reflexivity. }
    exists tc. split; [exact T|exact Y].
Qed.
Lemma given_spec t a d poa eff g : get_cell_temperature_given E c d poa (ar_temperature_model_parameters a) = Ok g ->
  match g with Some x => cell_temp E c t a d poa eff x | None => forall tc, modelled_temp t a d poa eff tc -> cell_temp E c t a d poa eff tc end.
Proof.
  intros H. unfold get_cell_temperature_given in H. rewrite !has_col_lookup in H. unfold cell_temp, column.
  destruct (lookup "cell_temperature" (df_cols d)) as [x|] eqn:C1.
  - apply rmap_inv in H as (y & Y & ->). apply getitem_inv in Y. assert (Q := eq_trans (eq_sym C1) Y). congruence.
  - assert (N : forall k, c_temperature_model c = k -> In (k, temp_name k) temperature_names) by (intros [] _; simpl; auto 10).
    specialize (N _ eq_refl). unfold modelled_temp.
    destruct (lookup "module_temperature" (df_cols d)) as [mt|] eqn:C2.
    + destruct (c_temperature_model c); try (injection H as <-; intros tc T; eexists; split; [exact N|exact T]).
      apply res_bind in H as (mt' & M1 & H). apply res_bind in H as (dT & D1 & H). apply rmap_inv in H as (x & X & ->).
      apply getitem_inv in M1. assert (Q := eq_trans (eq_sym C2) M1). injection Q as <-. exists dT. split; [apply getitem_inv; exact D1|exact X].
    + injection H as <-. intros tc T. destruct (c_temperature_model c); (eexists; split; [exact N|exact T]).
Qed.
Lemma same_of_keeps {A} f (m : M A) r r' x : keeps f m -> m r = (r', x) -> same_field f r' r.
Proof. intros K H. specialize (K r). rewrite H in K. exact K. Qed.
Lemma p_temp b i r r' w t tis effs : singleton_tuples r = b -> b = (Nat.eqb n 1 && isTup (to_tuple i))%bool -> fitsd (to_tuple i) -> weather r = Some w ->
  rd w (map build_weather (datal (to_tuple i))) -> times r = Some t -> F b (total_irrad r) tis -> F b (effective_irradiance r) effs ->
  prepare_temperature E c (to_tuple i) r = (r', Ok tt) ->
  exists tcs, F b (cell_temperature r') tcs /\
    forall k a d eff, nth_error (arrays s) k = Some a -> input_for i k = Some d -> nth_error effs k = Some eff ->
      exists poa tc, nth_error tcs k = Some tc /\ heating tis k (Some eff) poa /\ cell_temp E c t a d poa eff tc.
Proof.
  intros Hb Hbv HF HW RW HT FT FE H. unfold prepare_temperature in H. bi H. ni B. bi H. injection B as <- X0.
  rewrite (proj1 FT) in X. injection X as <-.
  destruct (p_irrad _ _ _ _ _ FE (proj2 FT) X0) as (poas & -> & LP & QP).
  assert (G : (b = true \/ n <> 1) ->
    (let! poa := lift (match form b poas with Tup p => Ok p | Bare _ => Err TypeError end) in
      let! given := lift (mapM (fun '(d, (p, a)) => get_cell_temperature_given E c d p (ar_temperature_model_parameters a))
                            (combine (datal (to_tuple i)) (combine poa (arrays s)))) in
      if forallb (fun g => match g with Some _ => true | None => false end) given then
        upd (set_cell_temperature (Some (Tup (flat_map (fun g => match g with Some x => [x] | None => [] end) given))))
      else
        set_celltemp E c ;;
        let! tc := need cell_temperature in
        let! tc := lift (match tc with Tup l => Ok l | Bare _ => Err TypeError end) in
        upd (set_cell_temperature (Some (Tup (map (fun '(g, m) => match g with Some x => x | None => m end) (combine given tc)))))) r = (r', Ok tt) ->
    exists tcs, F b (cell_temperature r') tcs /\
    forall k a d eff, nth_error (arrays s) k = Some a -> input_for i k = Some d -> nth_error effs k = Some eff ->
      exists poa tc, nth_error tcs k = Some tc /\ heating tis k (Some eff) poa /\ cell_temp E c t a d poa eff tc).
  { clear H. intros HB H. bi H. li B. destruct (form b poas) as [pl|] eqn:Fp; [|discriminate]. injection X as <-. apply form_tup in Fp as [-> _].
    bi H. li B. rename a into gv. pose proof (mapM_at2 _ _ _ _ (proj1 (datal_rd _ HF)) (combine_len _ _ LP narr) X) as [LG QG].
    assert (QG' : forall k a d eff, nth_error (arrays s) k = Some a -> input_for i k = Some d -> nth_error effs k = Some eff ->
      exists poa g, nth_error poas k = Some poa /\ nth_error gv k = Some g /\ heating tis k (Some eff) poa /\
        match g with Some x => cell_temp E c t a d poa eff x | None => forall tc, modelled_temp t a d poa eff tc -> cell_temp E c t a d poa eff tc end).
    { intros k a d eff Ha Hd Hf. assert (K : k < n) by (apply nth_lt in Ha; exact Ha).
      destruct (nth_some poas k LP K) as [poa Hp]. rewrite <- datal_input in Hd by exact K.
      destruct (QG k d (poa, a) Hd) as (g & G1 & G2); [rewrite nth_error_combine, Hp, Ha; reflexivity|].
      exists poa, g. split; [exact Hp|]. split; [exact G1|]. split; [rewrite <- Hf; apply QP; exact Hp|]. apply given_spec. exact G2. }
    destruct (forallb _ gv) eqn:FA.
    - apply upd_inv in H. subst r'.
      assert (M0 : map Some (flat_map (fun g : option ser => match g with Some x => [x] | None => [] end) gv) = gv).
      { clear -FA. induction gv as [|[x|] l IH]; cbn in *; [reflexivity| |discriminate]. rewrite IH by exact FA. reflexivity. }
      set (tcs := flat_map (fun g : option ser => match g with Some x => [x] | None => [] end) gv) in *.
      exists tcs. split; [apply F_wrap_tup; auto; rewrite <- (map_length Some), M0; exact LG|].
      intros k a d eff Ha Hd Hf. destruct (QG' k a d eff Ha Hd Hf) as (poa & g & G1 & G2 & G3 & G4).
      rewrite <- M0, nth_map' in G2. destruct (nth_error tcs k) as [tc|]; [|discriminate]. injection G2 as <-. exists poa, tc. auto.
    - bi H. match goal with u : unit |- _ => destruct u end. destruct (p_celltemp b i r r0 w t tis effs Hb HF HW RW HT FT FE B) as (poas' & tcs & P1 & P2 & P3).
      rewrite X0 in P1. injection P1 as P1.
      assert (poas' = poas) as ->. { pose proof (tuple_of_form b poas') as T2. rewrite <- P1 in T2. symmetry. exact T2. }
      bi H. ni B0. rewrite (proj1 P2) in X1. injection X1 as <-. bi H. li B0. apply upd_inv in H. subst r'.
      destruct (form b tcs) as [tl|] eqn:Ft; [|discriminate]. injection X1 as <-. apply form_tup in Ft as [-> _].
      assert (Hb0 : singleton_tuples r0 = b) by (pose proof (f_celltemp r) as K; rewrite B in K; cbn in K; congruence).
      eexists. split; [apply (F_wrap_tup b r0 _ Hb0 HB); rewrite map_length; apply combine_len; [exact LG|exact (proj2 P2)]|].
      intros k a d eff Ha Hd Hf. destruct (QG' k a d eff Ha Hd Hf) as (poa & g & G1 & G2 & G3 & G4).
      destruct (P3 k a d eff poa Ha Hd Hf G1) as (tc & T1 & T2). rewrite nth_map', nth_error_combine, G2, T1. cbn [option_map].
      destruct g as [x|]; [exists poa, x|exists poa, tc]; auto. }
  destruct (to_tuple i) as [dl|d] eqn:TI.
  - apply G; [|exact H]. cbn [isTup] in Hbv. rewrite andb_true_r in Hbv. destruct (Nat.eqb_spec n 1); [left; exact Hbv|right; assumption].
  - cbn [isTup] in Hbv. rewrite andb_false_r in Hbv. fold s in H. fold n in H. destruct (Nat.eqb_spec n 1) as [N1|N1]; [|apply G; [right; exact N1|exact H]].
    destruct (arrays s) as [|a0 rest] eqn:HAr; [exfalso; assert (Z := narr); rewrite HAr in Z; cbn in Z; lia|].
    bi H. li B. destruct (form b poas) as [|pl] eqn:Fp; [discriminate|]. injection X as <-. apply form_bare in Fp as [-> _].
    bi H. li B. rename a into gv. bi H. apply upd_inv in B. subst r0.
    assert (I0 : forall k d', k < n -> input_for i k = Some d' -> k = 0 /\ d' = d).
    { intros k d' K Hk. split; [lia|]. destruct i; cbn in TI; try discriminate. injection TI as ->. cbn in Hk. congruence. }
    assert (E1 : exists eff, effs = [eff]) by (pose proof (proj2 FE) as L1; destruct effs as [|e [|]]; cbn in L1; try lia; eauto).
    destruct E1 as [eff ->]. destruct gv as [x|].
    + injection H as <-. exists [x]. split; [apply F_wrap_bare; assumption|].
      intros k a1 d' eff' Ha Hd Hf. destruct (I0 k d') as [-> ->]; [apply nth_lt in Hf; rewrite (proj2 FE) in Hf; exact Hf|exact Hd|].
      cbn in Ha, Hf. injection Ha as <-. injection Hf as <-. exists pl, x. split; [reflexivity|]. split; [apply (QP 0 pl); reflexivity|].
      exact (given_spec t a0 d pl eff (Some x) X).
    + assert (FT' : F b (total_irrad (set_cell_temperature None r)) tis) by exact FT.
      assert (TI' : fitsd (to_tuple i)) by (rewrite TI; exact I).
      destruct (p_celltemp b i (set_cell_temperature None r) r' w t tis [eff] Hb TI' HW ltac:(rewrite TI; exact RW) HT FT' FE H) as (poas' & tcs & P1 & P2 & P3).
      cbn [effective_irradiance set_cell_temperature] in P1. rewrite X0 in P1. injection P1 as P1.
      assert (poas' = [pl]) as ->. { pose proof (tuple_of_form b poas') as T2. rewrite <- P1 in T2. cbn in T2. congruence. }
      exists tcs. split; [exact P2|]. intros k a1 d' eff' Ha Hd Hf.
      destruct (I0 k d') as [-> ->]; [apply nth_lt in Hf; rewrite (proj2 FE) in Hf; exact Hf|exact Hd|].
      cbn in Ha, Hf. injection Ha as <-. injection Hf as <-.
      destruct (P3 0 a0 d eff pl ltac:(rewrite HAr; reflexivity) Hd eq_refl eq_refl) as (tc & T1 & T2).
      exists pl, tc. split; [exact T1|]. split; [apply (QP 0 pl); reflexivity|]. exact (given_spec t a0 d pl eff None X tc T2).
Qed.

(** ** DC models *)
Lemma unwrap_form {A} (l : list A) : unwrap l = form false l. Proof. destruct l as [|x [|y l]]; reflexivity. Qed.
Lemma wrap_form {A} r (l : list A) : wrap r (form false l) = form (singleton_tuples r) l.
Proof. rewrite <- unwrap_form. apply wrap_unwrap. Qed.
Lemma map_arg_form {A B} (f : A -> B) b l : map_arg f (form b l) = form b (map f l).
Proof. destruct l as [|x [|y l]], b; reflexivity. Qed.
Lemma sys2_inv {B} (f : array -> ser -> ser -> res B) x y xs ys unw q : rd x xs -> rd y ys -> sys2 c f x y unw = Ok q ->
  exists l, q = unwrap_if unw l /\ length l = n /\ forall k a u v, nth_error (arrays s) k = Some a -> nth_error xs k = Some u -> nth_error ys k = Some v ->
    exists z, nth_error l k = Some z /\ f a u v = Ok z.
Proof.
  intros Rx Ry H. unfold sys2 in H. fold s in H. apply res_bind in H as (x1 & V1 & H). apply res_bind in H as (y1 & V2 & H).
  rewrite (rd_validate _ _ _ _ Rx V1), (rd_validate _ _ _ _ Ry V2) in H. apply rmap_inv in H as (l & Ml & ->).
  destruct (mapM_at2 _ _ _ _ narr (combine_len _ _ (proj1 Rx) (proj1 Ry)) Ml) as [L Q]. exists l. split; [reflexivity|]. split; [exact L|].
  intros k a u v Ha Hu Hv. apply (Q k a (u, v) Ha). rewrite nth_error_combine, Hu, Hv. reflexivity.
Qed.
Lemma scale_inv x xs unw q : rd x xs -> sys_scale c x unw = Ok q ->
  exists l, q = unwrap_if unw l /\ length l = n /\ forall k a d, nth_error (arrays s) k = Some a -> nth_error xs k = Some d ->
    exists z, nth_error l k = Some z /\ wired_up a d z.
Proof.
  intros Rx H. unfold sys_scale in H. fold s in H. apply res_bind in H as (x1 & V1 & H).
  rewrite (rd_validate _ _ _ _ Rx V1) in H. apply rmap_inv in H as (l & Ml & ->).
  destruct (mapM_at2 _ _ _ _ narr (proj1 Rx) Ml) as [L Q]. exists l. split; [reflexivity|]. split; [exact L|exact Q].
Qed.
Lemma fillna0_spec d : nan_zeroed d (fillna0 d).
Proof.
  unfold nan_zeroed, fillna0. split; [rewrite map_map; reflexivity|]. intros k v Hv. rewrite map_map.
  rewrite nth_map' in *. destruct (nth_error d k) as [[nm w]|]; [|discriminate]. cbn in *. injection Hv as <-. eexists. split; [reflexivity|].
  split; [apply map_length|]. intros j x Hx. rewrite nth_map', Hx. destruct x; reflexivity.
Qed.
Lemma set_dc_F b r l : singleton_tuples r = b -> length l = n -> F b (dc (set_dc (form false l) r)) l.
Proof. intros Hb L. split; [|exact L]. cbn [dc set_dc]. rewrite wrap_form. congruence. Qed.
Lemma p_singlediode b w r r' effs tcs : singleton_tuples r = b -> F b (effective_irradiance r) effs -> F b (cell_temperature r) tcs ->
  dc_singlediode E c w r = (r', Ok tt) ->
  exists l, F b (dc r') l /\ forall k a eff tc, nth_error (arrays s) k = Some a -> nth_error effs k = Some eff -> nth_error tcs k = Some tc ->
    exists x, nth_error l k = Some x /\ exists p d d' z, e_calcparams E w a eff tc = Ok p /\ at_k (diode_params r') k = Some p /\
      e_singlediode E p = Ok d /\ wired_up a d d' /\ nan_zeroed d' z /\ x = DcF z.
Proof.
  intros Hb FE FT H. unfold dc_singlediode in H. bi H. ni B. bi H. ni B. bi H. li B.
  destruct (sys2_inv _ _ _ _ _ _ _ (F_rd _ _ _ _ FE X) (F_rd _ _ _ _ FT X0) X1) as (ps & -> & LP & QP). cbn [unwrap_if tuple_of] in *.
  bi H. apply upd_inv in B. subst r0. bi H. li B. destruct (mapM_at1 _ _ _ X2) as [LD QD].
  rename a2 into dd. bi H. li B. assert (RD : rd (Tup dd) dd) by (split; [congruence|reflexivity]).
  destruct (scale_inv _ _ _ _ RD X3) as (ds & -> & LS & QS). cbn [unwrap_if map_arg tuple_of] in *.
  set (out := map (fun d => DcF (fillna0 d)) ds) in *.
  assert (LO : length out = n) by (unfold out; rewrite map_length; exact LS).
  assert (Q : forall k a eff tc, nth_error (arrays s) k = Some a -> nth_error effs k = Some eff -> nth_error tcs k = Some tc ->
    exists x, nth_error out k = Some x /\ exists p d d' z, e_calcparams E w a eff tc = Ok p /\ nth_error ps k = Some p /\
      e_singlediode E p = Ok d /\ wired_up a d d' /\ nan_zeroed d' z /\ x = DcF z).
  { intros k a4 eff tc Ha Hf Ht. destruct (QP k a4 eff tc Ha Hf Ht) as (p & P1 & P2). destruct (QD k p P1) as (d & D1 & D2).
    destruct (QS k a4 d Ha D1) as (d' & S1 & S2). exists (DcF (fillna0 d')). split; [unfold out; rewrite nth_map', S1; reflexivity|].
    exists p, d, d', (fillna0 d'). repeat split; auto; apply fillna0_spec. }
  exists out. fold n in H. fold s in H. fold n in H. destruct (Nat.eqb_spec n 1) as [N1|N1].
  - bi H. apply upd_inv in B. subst r0. apply upd_inv in H. subst r'. rewrite !unwrap_form. split; [apply set_dc_F; assumption|].
    intros k a4 eff tc Ha Hf Ht. destruct (Q k a4 eff tc Ha Hf Ht) as (x & X4 & p & d & d' & z & Y1 & Y2 & Y3). exists x. split; [exact X4|].
    exists p, d, d', z. split; [exact Y1|]. split; [|exact Y3]. cbn [diode_params set_dc set_diode_params]. rewrite wrap_form.
    cbn [singleton_tuples]. assert (K : k < n) by (apply nth_lt in Ha; exact Ha). cbn [at_k]. rewrite (rd_value _ _ k (form_rd _ _ LP) K). exact Y2.
  - apply upd_inv in H. subst r'. split; [apply F_wrap_tup; auto|].
    intros k a4 eff tc Ha Hf Ht. destruct (Q k a4 eff tc Ha Hf Ht) as (x & X4 & p & d & d' & z & Y1 & Y2 & Y3). exists x. split; [exact X4|].
    exists p, d, d', z. split; [exact Y1|]. split; [|exact Y3]. cbn [diode_params set_dc set_diode_params at_k].
    unfold wrap. destruct (singleton_tuples r); exact Y2.
Qed.
Lemma p_dc b r r' effs tcs : singleton_tuples r = b -> F b (effective_irradiance r) effs -> F b (cell_temperature r) tcs ->
  run_dc_model E c r = (r', Ok tt) ->
  exists l, F b (dc r') l /\ forall k a eff tc, nth_error (arrays s) k = Some a -> nth_error effs k = Some eff -> nth_error tcs k = Some tc ->
    exists x, nth_error l k = Some x /\ dc_power E c (at_k (diode_params r') k) a eff tc x.
Proof.
  intros Hb FE FT H. unfold run_dc_model in H. unfold dc_power. destruct (c_dc_model c) as [[]|].
  - unfold dc_sapm in H. bi H. ni B. bi H. ni B. bi H. li B.
    destruct (sys2_inv _ _ _ _ _ _ _ (F_rd _ _ _ _ FE X) (F_rd _ _ _ _ FT X0) X1) as (ds & -> & LD & QD). cbn [unwrap_if] in *.
    bi H. li B. rewrite unwrap_form in X2. destruct (scale_inv _ _ _ _ (form_rd _ _ LD) X2) as (zs & -> & LS & QS).
    cbn [unwrap_if] in *. rewrite unwrap_form, map_arg_form in H. apply upd_inv in H. subst r'.
    exists (map DcF zs). split; [apply set_dc_F; [exact Hb|rewrite map_length; exact LS]|].
    intros k a1 eff tc Ha Hf Ht. destruct (QD k a1 eff tc Ha Hf Ht) as (d & D1 & D2). destruct (QS k a1 d Ha D1) as (z & Z1 & Z2).
    exists (DcF z). split; [apply map_nth_error; exact Z1|]. exists d, z. auto.
  - eapply p_singlediode; eassumption.
  - eapply p_singlediode; eassumption.
  - eapply p_singlediode; eassumption.
  - unfold dc_pvwatts in H. bi H. ni B. bi H. ni B. bi H. li B.
    destruct (sys2_inv _ _ _ _ _ _ _ (F_rd _ _ _ _ FE X) (F_rd _ _ _ _ FT X0) X1) as (ds & -> & LD & QD). cbn [unwrap_if map_arg] in *.
    bi H. li B. assert (RD : rd (Tup (map (fun p => [("p_mp", p)]) ds)) (map (fun p => [("p_mp", p)]) ds)) by (split; [rewrite map_length; exact LD|reflexivity]).
    destruct (scale_inv _ _ _ _ RD X2) as (zs & -> & LS & QS). cbn [unwrap_if] in *. rewrite unwrap_form in H.
    bi H. li B. apply each_form in X3 as (qs & -> & Mq). destruct (mapM_at1 _ _ _ Mq) as [LQ QQ].
    rewrite map_arg_form in H. apply upd_inv in H. subst r'. exists (map DcS qs). split; [apply set_dc_F; [exact Hb|rewrite map_length; congruence]|].
    intros k a1 eff tc Ha Hf Ht. destruct (QD k a1 eff tc Ha Hf Ht) as (d & D1 & D2).
    destruct (QS k a1 [("p_mp", d)] Ha) as (z & Z1 & Z2); [rewrite nth_map', D1; reflexivity|].
    destruct (QQ k z Z1) as (q & Q1 & Q2). exists (DcS q). split; [apply map_nth_error; exact Q1|]. exists d, z, q.
    repeat split; auto. apply getitem_inv. exact Q2.
  - apply lift_inv in H as [_ H]. discriminate.
Qed.
(** ** Losses *)
Lemma setcol_same nm v (f : frame) u : lookup nm f = Some u -> lookup nm (setcol nm v f) = Some v.
Proof.
  intros H. unfold setcol. rewrite has_col_lookup, H. induction f as [|[k w] f IH]; [discriminate|]. cbn [map lookup fst] in *.
  rewrite (String.eqb_sym k nm). destruct (String.eqb nm k) eqn:Q; cbn [lookup]; rewrite Q; [reflexivity|apply IH; exact H].
Qed.
Lemma setcol_other nm v (f : frame) k : k <> nm -> lookup k (setcol nm v f) = lookup k f.
Proof.
  intros N. unfold setcol. destruct (has_col nm f).
  - induction f as [|[k' w] f IH]; [reflexivity|]. cbn [map lookup fst].
    destruct (String.eqb_spec k' nm) as [->|]; cbn [lookup]; (destruct (String.eqb_spec k nm); [contradiction|]); try exact IH.
    destruct (String.eqb k k'); [reflexivity|exact IH].
  - rewrite lookup_app. destruct (lookup k f); [reflexivity|]. cbn. destruct (String.eqb_spec k nm); [contradiction|reflexivity].
Qed.
Lemma wiring_one R a x l y : array_dc_ohms_from_percent a = Ok R -> ohmic_loss R x = Ok l -> minus_loss x l = Ok y ->
  c_dc_ohmic_model c = OHM_from_percent -> after_wiring c (Some l) a x y.
Proof.
  intros HR HL HM HC. unfold after_wiring. rewrite HC. unfold ohmic_loss in HL. apply res_bind in HL as (i & Hi & HL). injection HL as <-.
  unfold dccol in Hi. destruct x as [|f]; [discriminate|]. cbn [minus_loss] in HM. apply res_bind in HM as (p & Hp & HM). injection HM as <-.
  apply getitem_inv in Hi. apply getitem_inv in Hp.
  eexists R, f, _, i, p, (zipw fsub p (map (dc_ohmic_losses R) i)), _. split; [reflexivity|]. split; [reflexivity|]. split; [exact HR|].
  split; [exact Hi|]. split; [exact Hp|]. split; [eapply setcol_same; exact Hp|]. split; [reflexivity|]. split; [apply map_length|].
  split; [intros j v Hv; rewrite nth_map', Hv; reflexivity|]. split; [intros j; apply nth_zipw|]. intros k Hk. apply setcol_other. exact Hk.
Qed.
Lemma p_ohm b r r' xs : singleton_tuples r = b -> F b (dc r) xs -> run_dc_ohmic_model c r = (r', Ok tt) ->
  exists ys, F b (dc r') ys /\ forall k a x, nth_error (arrays s) k = Some a -> nth_error xs k = Some x ->
    exists y, nth_error ys k = Some y /\ after_wiring c (at_k (dc_ohmic_losses_ r') k) a x y.
Proof.
  intros Hb FD H. unfold run_dc_ohmic_model in H. destruct (c_dc_ohmic_model c) eqn:HC.
  - bi H. ni B. bi H. li B. fold s in X0. destruct (mapM_at1 _ _ _ X0) as [LR QR]. rewrite (proj1 FD) in X. injection X as X. destruct a as [dl|d].
    + apply form_tup in X as [-> HB]. rewrite (proj2 FD) in HB. bi H. li B.
      destruct (mapM_at2 _ _ _ _ (eq_trans LR narr) (proj2 FD) X) as [LL QL].
      bi H. apply upd_inv in B. subst r0. bi H. li B. destruct (mapM_at2 _ _ _ _ (proj2 FD) LL X1) as [LM QM].
      apply upd_inv in H. subst r'. exists a2. split; [apply F_wrap_tup; auto|].
      intros k a3 x Ha Hx. destruct (QR k a3 Ha) as (R & R1 & R2). destruct (QL k R x R1 Hx) as (l & L1 & L2). destruct (QM k x l Hx L1) as (y & Y1 & Y2).
      exists y. split; [exact Y1|]. cbn [dc_ohmic_losses_ set_dc set_dc_ohmic_losses at_k].
      replace (value_for (wrap r (Tup a)) k) with (Some l) by (unfold wrap; destruct (singleton_tuples r); symmetry; exact L1).
      eapply wiring_one; eassumption.
    + apply form_bare in X as [-> HB]. bi H. li B. bi H. li B. bi H. apply upd_inv in B. subst r0. bi H. li B. apply upd_inv in H. subst r'.
      assert (N1 : n = 1) by (symmetry; exact (proj2 FD)).
      exists [a3]. split; [apply F_wrap_bare; assumption|]. intros k a4 x Ha Hx. destruct k as [|k]; [|destruct k; discriminate]. cbn in Hx. injection Hx as <-.
      exists a3. split; [reflexivity|]. destruct (QR 0 a4 Ha) as (R & R1 & R2). destruct a0 as [|R0 [|]]; try discriminate. injection X as <-.
      cbn in R1. injection R1 as <-. cbn [dc_ohmic_losses_ set_dc set_dc_ohmic_losses at_k].
      replace (value_for (wrap r (Bare a1)) 0) with (Some a1) by (unfold wrap; destruct (singleton_tuples r); reflexivity).
      eapply wiring_one; eassumption.
  - injection H as <-. exists xs. split; [exact FD|]. intros k a x Ha Hx. exists x. split; [exact Hx|]. unfold after_wiring. rewrite HC. reflexivity.
Qed.
Lemma dc_times_spec k x : scaled_by k x (dc_times k x).
Proof.
  destruct x as [p|f]; cbn [dc_times scaled_by].
  - split; [apply map_length|]. intros j v Hv. rewrite nth_map', Hv. reflexivity.
  - split; [unfold df_scale; rewrite map_map; reflexivity|]. intros nm p Hp. unfold column in *. rewrite lookup_scale, Hp. cbn [option_map].
    eexists. split; [reflexivity|]. split; [apply map_length|]. intros j v Hv. rewrite nth_map', Hv. reflexivity.
Qed.
Lemma p_losses b r r' ys : singleton_tuples r = b -> F b (dc r) ys -> run_losses_model c r = (r', Ok tt) ->
  exists zs, F b (dc r') zs /\ forall k y, nth_error ys k = Some y -> exists z, nth_error zs k = Some z /\ after_losses c (losses r') y z.
Proof.
  intros Hb FD H. unfold run_losses_model in H. unfold after_losses. destruct (c_losses_model c).
  - cbv zeta in H. bi H. apply upd_inv in B. subst r0. bi H. ni B. cbn [dc set_losses] in X. rewrite (proj1 FD) in X. injection X as <-.
    rewrite map_arg_form in H. apply upd_inv in H. subst r'. exists (map (dc_times (fdiv (fsub #100 (sys_pvwatts_losses (c_system c))) #100)) ys). split.
    + split; [|rewrite map_length; exact (proj2 FD)]. cbn [dc set_dc set_losses]. unfold wrap. cbn [singleton_tuples set_losses]. rewrite Hb.
      destruct ys as [|y [|y' l]], b; reflexivity.
    + intros k y Hy. eexists. split; [apply map_nth_error; exact Hy|]. cbv zeta. split; [apply dc_times_spec|reflexivity].
  - apply upd_inv in H. subst r'. exists ys. split; [exact FD|]. intros k y Hy. exists y. auto.
Qed.
Lemma dccol_spec k x v : dccol k x = Ok v -> dc_column k x v.
Proof. unfold dccol, dc_column. destruct x as [|f]; [discriminate|]. intros H. exists f. split; [reflexivity|]. apply getitem_inv. exact H. Qed.
Lemma mapM_F2 {A B} (f : A -> res B) (P : A -> B -> Prop) l l' : (forall x y, f x = Ok y -> P x y) -> mapM f l = Ok l' -> Forall2 P l l'.
Proof.
  intros HP. revert l'. induction l as [|x l IH]; cbn [mapM]; intros l' H; [injection H as <-; constructor|].
  apply res_bind in H as (y & Hy & H). apply res_bind in H as (ys & Hys & H). injection H as <-. constructor; auto.
Qed.
Lemma p_ac b r r' zs : n <> 0 -> F b (dc r) zs -> run_ac_model E c r = (r', Ok tt) -> exists out, ac r' = Some out /\ inverted E c zs out.
Proof.
  intros N0 FD H. unfold run_ac_model in H. bi H. ni B. rewrite (proj1 FD) in X. injection X as <-. unfold inverted.
  pose proof (proj2 FD) as LZ. destruct (c_ac_model c).
  - bi H. li B. bi H. li B. bi H. li B. apply upd_inv in H. subst r'. exists a1. split; [reflexivity|].
    apply each_form in X as (ps & -> & Mp). apply each_form in X0 as (vs & -> & Mv).
    pose proof (mapM_F2 _ _ _ _ (dccol_spec "p_mp") Mp) as Fp. pose proof (mapM_F2 _ _ _ _ (dccol_spec "v_mp") Mv) as Fv.
    assert (LP : length ps = n) by (destruct (mapM_at1 _ _ _ Mp) as [Q _]; congruence).
    assert (LV : length vs = n) by (destruct (mapM_at1 _ _ _ Mv) as [Q _]; congruence).
    apply res_bind in X1 as (p1 & V1 & X1). apply res_bind in X1 as (v1 & V2 & X1). fold s in V1, V2, X1.
    rewrite (rd_validate _ _ _ _ (form_rd _ _ LP) V1), (rd_validate _ _ _ _ (form_rd _ _ LV) V2) in X1. fold n in X1. rewrite <- LZ in X1.
    destruct zs as [|z [|z' zs]].
    + cbn in LZ. congruence.
    + inversion Fp as [|? p ? ? P1 P2]; subst. inversion P2; subst. inversion Fv as [|? v ? ? Q1 Q2]; subst. inversion Q2; subst. cbn in X1. eauto.
    + cbn [length Nat.ltb Nat.leb] in X1. eauto.
  - bi H. li B. destruct (form b zs) as [|d] eqn:Fz; [discriminate|]. injection X as <-. apply form_bare in Fz as [-> _].
    bi H. li B. bi H. li B. bi H. li B. apply upd_inv in H. subst r'. exists a1. split; [reflexivity|].
    exists a0, a. split; [apply dccol_spec; exact X0|]. split; [apply dccol_spec; exact X|].
    destruct (Nat.ltb 1 (num_arrays (c_system c))); [discriminate|exact X1].
  - bi H. li B. apply upd_inv in H. subst r'. exists (map (nan_to #0) a). split; [reflexivity|].
    apply res_bind in X as (p1 & V1 & X). fold s in V1, X. rewrite (rd_validate _ _ _ _ (form_rd _ _ LZ) V1) in X. fold n in X. rewrite <- LZ in X.
    destruct zs as [|z [|z' zs]].
    + cbn in LZ. congruence.
    + cbn in X. exists a. split; [exact X|reflexivity].
    + cbn [length Nat.ltb Nat.leb] in X. exists a. split; [exact X|reflexivity].
Qed.

(** ** Putting it together *)
Definition flag_of (i : input) : bool := (Nat.eqb n 1 && isTup (to_tuple i))%bool.
Lemma flag_n1 i : flag_of i = true -> n = 1.
Proof. unfold flag_of. intros H. apply andb_true_iff in H as [H _]. apply Nat.eqb_eq. exact H. Qed.
Lemma F_stored {A} i (p : option (pyarg A)) l : F (flag_of i) p l -> stored n i p.
Proof.
  intros [-> L]. unfold stored, flag_of. destruct i as [d|fl|fl]; cbn [to_tuple isTup]; rewrite ?andb_false_r, ?andb_true_r.
  - destruct (Nat.eq_dec n 1) as [N1|N1].
    + rewrite N1. destruct l as [|x [|y l]]; cbn in L; try lia. exists x. reflexivity.
    + assert (G : exists l0, Some (form false l) = Some (Tup l0) /\ length l0 = n).
      { exists l. split; [|exact L]. destruct l as [|x [|y l]]; try reflexivity. cbn in L. lia. }
      destruct n as [|[|m]]; [exact G|congruence|exact G].
  - exists l. split; [|exact L]. destruct (Nat.eqb_spec n 1); [rewrite form_true; reflexivity|].
    destruct l as [|x [|y l]]; try reflexivity. cbn in L. congruence.
  - exists l. split; [|exact L]. destruct (Nat.eqb_spec n 1); [rewrite form_true; reflexivity|].
    destruct l as [|x [|y l]]; try reflexivity. cbn in L. congruence.
Qed.
Ltac fl_step Hb K B := let Q := fresh "Q" in pose proof (K _ : singleton_tuples (fst (_ _)) = _) as Q; rewrite B in Q; cbn [fst] in Q; rewrite Hb in Q.
Lemma flag_step {A} (m : M A) r r' x b : keepf m -> m r = (r', x) -> singleton_tuples r = b -> singleton_tuples r' = b.
Proof. intros K H Hb. specialize (K r). rewrite H in K. cbn in K. congruence. Qed.
Lemma k_ohm_dp : keeps F_diode_params (run_dc_ohmic_model c).
Proof. unfold run_dc_ohmic_model. kp. Qed.
Lemma p_back i r r' w t tis effs : n <> 0 -> singleton_tuples r = flag_of i -> fitsd (to_tuple i) -> weather r = Some w ->
  rd w (map build_weather (datal (to_tuple i))) -> times r = Some t ->
  F (flag_of i) (total_irrad r) tis -> F (flag_of i) (effective_irradiance r) effs ->
  run_from_effective_irrad E c (to_tuple i) r = (r', Ok tt) ->
  back E c i r' /\ stored n i (cell_temperature r') /\ stored n i (dc r').
Proof.
  intros N0 Hb HF HW RW HT FT FE H.
  assert (KE : forall f, ~ In f (app [F_cell_temperature; F_dc; F_losses; F_ac] (dc_fields c)) -> same_field f r' r)
    by (intros f Hf; exact (same_of_keeps _ _ _ _ _ (k_from_eff E c f _ Hf) H)).
  assert (ND : forall f, In f [F_times; F_total_irrad; F_effective_irradiance; F_weather] -> ~ In f (app [F_cell_temperature; F_dc; F_losses; F_ac] (dc_fields c))).
  { intros f Hf C. unfold dc_fields in C. simpl in Hf. rewrite !in_app_iff in C. simpl in C.
    destruct (c_dc_model c) as [[]|], (c_dc_ohmic_model c); simpl in C; intuition congruence. }
  assert (T' := KE F_times (ND F_times ltac:(simpl; auto))). assert (TI' := KE F_total_irrad (ND F_total_irrad ltac:(simpl; auto))).
  assert (E' := KE F_effective_irradiance (ND F_effective_irradiance ltac:(simpl; auto))). cbn [same_field] in T', TI', E'.
  unfold run_from_effective_irrad in H.
  bi H. destruct a. bi H. destruct a. bi H. destruct a. bi H. destruct a.
  assert (Hb0 := flag_step _ _ _ _ _ (f_temp _) B Hb). assert (Hb1 := flag_step _ _ _ _ _ f_dc B0 Hb0). assert (Hb2 := flag_step _ _ _ _ _ f_ohm B1 Hb1).
  destruct (p_temp _ i r r0 w t tis effs Hb eq_refl HF HW RW HT FT FE B) as (tcs & FTc & QT).
  assert (FE0 : F (flag_of i) (effective_irradiance r0) effs).
  { rewrite (same_of_keeps _ _ _ _ _ (k_temp E c F_effective_irradiance _ ltac:(discriminate)) B : effective_irradiance r0 = effective_irradiance r). exact FE. }
  destruct (p_dc _ _ _ effs tcs Hb0 FE0 FTc B0) as (xs & FX & QX).
  destruct (p_ohm _ _ _ xs Hb1 FX B1) as (ys & FY & QY).
  destruct (p_losses _ _ _ ys Hb2 FY B2) as (zs & FZ & QZ).
  destruct (p_ac _ _ _ zs N0 FZ H) as (out & HO & QO).
  (* carry fields to the end *)
  assert (DC' : dc r' = dc r3) by exact (same_of_keeps _ _ _ _ _ (k_ac E c F_dc ltac:(discriminate)) H).
  assert (LO' : losses r' = losses r3) by exact (same_of_keeps _ _ _ _ _ (k_ac E c F_losses ltac:(discriminate)) H).
  assert (OH' : dc_ohmic_losses_ r' = dc_ohmic_losses_ r2).
  { transitivity (dc_ohmic_losses_ r3); [exact (same_of_keeps _ _ _ _ _ (k_ac E c F_dc_ohmic_losses ltac:(discriminate)) H)|].
    exact (same_of_keeps _ _ _ _ _ (k_losses c F_dc_ohmic_losses ltac:(discriminate) ltac:(discriminate)) B2). }
  pose proof k_ohm_dp as KO.
  assert (DP' : diode_params r' = diode_params r1).
  { transitivity (diode_params r3); [exact (same_of_keeps _ _ _ _ _ (k_ac E c F_diode_params ltac:(discriminate)) H)|].
    transitivity (diode_params r2); [exact (same_of_keeps _ _ _ _ _ (k_losses c F_diode_params ltac:(discriminate) ltac:(discriminate)) B2)|].
    exact (same_of_keeps _ _ _ _ _ KO B1). }
  assert (KC1 : keeps F_cell_temperature (run_dc_model E c)).
  { apply k_dc; [discriminate|]. unfold dc_fields. rewrite in_app_iff. destruct (c_dc_model c) as [[]|], (c_dc_ohmic_model c); simpl; intuition congruence. }
  assert (KC2 : keeps F_cell_temperature (run_dc_ohmic_model c)).
  { apply k_ohm; [discriminate|]. unfold dc_fields. rewrite in_app_iff. destruct (c_dc_model c) as [[]|], (c_dc_ohmic_model c); simpl; intuition congruence. }
  assert (CT' : cell_temperature r' = cell_temperature r0).
  { transitivity (cell_temperature r3); [exact (same_of_keeps _ _ _ _ _ (k_ac E c F_cell_temperature ltac:(discriminate)) H)|].
    transitivity (cell_temperature r2); [exact (same_of_keeps _ _ _ _ _ (k_losses c F_cell_temperature ltac:(discriminate) ltac:(discriminate)) B2)|].
    transitivity (cell_temperature r1); [exact (same_of_keeps _ _ _ _ _ KC2 B1)|]. exact (same_of_keeps _ _ _ _ _ KC1 B0). }
  split; [|split].
  2:{ rewrite CT'. eapply F_stored. exact FTc. }
  2:{ rewrite DC'. eapply F_stored. exact FZ. }
  exists t, tis, zs, out. split; [congruence|]. split; [exact HO|]. split; [exact (proj2 FZ)|]. split; [exact (proj2 FT)|]. split.
  { intros k K. rewrite TI'. symmetry. eapply F_at; [exact FT|exact K]. }
  split; [|exact QO].
  intros k a d Ha Hd. assert (K : k < n) by (apply nth_lt in Ha; exact Ha).
  destruct (nth_some effs k (proj2 FE) K) as [eff Hf]. destruct (QT k a d eff Ha Hd Hf) as (poa & tc & T1 & T2 & T3).
  destruct (QX k a eff tc Ha Hf T1) as (x & X1 & X2). destruct (QY k a x Ha X1) as (y & Y1 & Y2). destruct (QZ k y Y1) as (z & Z1 & Z2).
  exists eff, poa, tc, x, y, z. rewrite E', CT', DP', OH', LO', DC'.
  rewrite (F_at _ _ _ k FE K), (F_at _ _ _ k FTc K), (F_at _ _ _ k FZ K). repeat split; assumption.
Qed.

Lemma check_fits i strict u : check_multiple_input c (to_tuple i) strict = Ok u -> fitsd (to_tuple i) /\ (strict = true -> n = 1 \/ isTup (to_tuple i) = true).
Proof.
  unfold check_multiple_input. fold s. fold n. destruct (to_tuple i) as [l|d]; cbn [fitsd isTup].
  - destruct (Nat.eqb_spec (length l) n); cbn [negb]; [auto|discriminate].
  - intros H. split; [exact I|]. intros ->. cbn in H. destruct (Nat.eqb_spec n 1); [auto|discriminate].
Qed.
Lemma first_input i d0 : n <> 0 -> fitsd (to_tuple i) ->
  (match to_tuple i with Tup (d :: _) | Bare d => d = d0 | Tup [] => False end) -> input_for i 0 = Some d0.
Proof. intros N0 HF H. destruct i as [d|[|d l]|[|d l]]; cbn in *; congruence || contradiction. Qed.
(** from the angle of incidence to the end *)
Lemma p_rest i r r' w t sp am tis aois : n <> 0 -> singleton_tuples r = flag_of i -> fitsd (to_tuple i) -> weather r = Some w ->
  rd w (map build_weather (datal (to_tuple i))) -> times r = Some t -> airmass r = Some am -> F (flag_of i) (total_irrad r) tis ->
  F (flag_of i) (r_aoi r) aois ->
  (forall k a, nth_error (arrays s) k = Some a -> exists x, nth_error aois k = Some x /\ incidence E sp a x) ->
  (run_aoi_model E c ;; run_spectral_model E c ;; effective_irradiance_model c ;; run_from_effective_irrad E c (to_tuple i)) r = (r', Ok tt) ->
  middle E c i r' sp am /\ back E c i r' /\
  stored n i (total_irrad r') /\ stored n i (r_aoi r') /\ stored n i (aoi_modifier r') /\ stored n i (spectral_modifier r') /\
  stored n i (effective_irradiance r') /\ stored n i (cell_temperature r') /\ stored n i (dc r').
Proof.
  intros N0 Hb HF HW RW HT HA FT FAo QAo H. bi H. destruct a. bi H. destruct a. bi H. destruct a.
  assert (Hb0 := flag_step _ _ _ _ _ f_aoi B Hb). assert (Hb1 := flag_step _ _ _ _ _ f_spm B0 Hb0). assert (Hb2 := flag_step _ _ _ _ _ f_eff B1 Hb1).
  assert (K0 : forall f, f <> F_aoi_modifier -> same_field f r0 r) by (intros f Hf; exact (same_of_keeps _ _ _ _ _ (k_aoi E c f Hf) B)).
  assert (K1 : forall f, f <> F_spectral_modifier -> same_field f r1 r0) by (intros f Hf; exact (same_of_keeps _ _ _ _ _ (k_spm E c f Hf) B0)).
  assert (K2 : forall f, f <> F_effective_irradiance -> same_field f r2 r1) by (intros f Hf; exact (same_of_keeps _ _ _ _ _ (k_eff c f Hf) B1)).
  assert (KE : forall f, In f [F_times; F_total_irrad; F_effective_irradiance; F_weather; F_aoi; F_aoi_modifier; F_spectral_modifier; F_airmass; F_solar_position] -> same_field f r' r2).
  { intros f Hf. refine (same_of_keeps _ _ _ _ _ (k_from_eff E c f _ _) H). intros C. unfold dc_fields in C. simpl in Hf. rewrite !in_app_iff in C. simpl in C.
    destruct (c_dc_model c) as [[]|], (c_dc_ohmic_model c); simpl in C; intuition congruence. }
  destruct (p_aoi _ _ _ aois Hb FAo B) as (iams & FI & QI).
  assert (W0 : weather r0 = Some w) by (rewrite (K0 F_weather ltac:(discriminate) : weather r0 = weather r); exact HW).
  assert (A0 : airmass r0 = Some am) by (rewrite (K0 F_airmass ltac:(discriminate) : airmass r0 = airmass r); exact HA).
  destruct (p_spectral _ i r0 r1 w am Hb0 HF W0 RW A0 B0) as (sms & FS & QS).
  assert (FT1 : F (flag_of i) (total_irrad r1) tis) by (rewrite (K1 F_total_irrad ltac:(discriminate) : total_irrad r1 = _), (K0 F_total_irrad ltac:(discriminate) : total_irrad r0 = _); exact FT).
  assert (FI1 : F (flag_of i) (aoi_modifier r1) iams) by (rewrite (K1 F_aoi_modifier ltac:(discriminate) : aoi_modifier r1 = _); exact FI).
  destruct (p_eff _ _ _ tis sms iams Hb1 FT1 FS FI1 B1) as (effs & FE & QE).
  assert (W2 : weather r2 = Some w) by (rewrite (K2 F_weather ltac:(discriminate) : weather r2 = _), (K1 F_weather ltac:(discriminate) : weather r1 = _); exact W0).
  assert (T2 : times r2 = Some t) by (rewrite (K2 F_times ltac:(discriminate) : times r2 = _), (K1 F_times ltac:(discriminate) : times r1 = _), (K0 F_times ltac:(discriminate) : times r0 = _); exact HT).
  assert (FT2 : F (flag_of i) (total_irrad r2) tis) by (rewrite (K2 F_total_irrad ltac:(discriminate) : total_irrad r2 = _); exact FT1).
  destruct (p_back i r2 r' w t tis effs N0 Hb2 HF W2 RW T2 FT2 FE H) as (BK & S1 & S2).
  assert (E1 : total_irrad r' = total_irrad r2) by exact (KE F_total_irrad ltac:(simpl; tauto)).
  assert (E2 : r_aoi r' = r_aoi r).
  { rewrite (KE F_aoi ltac:(simpl; tauto) : r_aoi r' = _), (K2 F_aoi ltac:(discriminate) : r_aoi r2 = _), (K1 F_aoi ltac:(discriminate) : r_aoi r1 = _). exact (K0 F_aoi ltac:(discriminate)). }
  assert (E3 : aoi_modifier r' = aoi_modifier r1) by (rewrite (KE F_aoi_modifier ltac:(simpl; tauto) : aoi_modifier r' = _); exact (K2 F_aoi_modifier ltac:(discriminate))).
  assert (E4 : spectral_modifier r' = spectral_modifier r1) by (rewrite (KE F_spectral_modifier ltac:(simpl; tauto) : spectral_modifier r' = _); exact (K2 F_spectral_modifier ltac:(discriminate))).
  assert (E5 : effective_irradiance r' = effective_irradiance r2) by exact (KE F_effective_irradiance ltac:(simpl; tauto)).
  split; [|split; [exact BK|]].
  - intros k a d Ha Hd. assert (K : k < n) by (apply nth_lt in Ha; exact Ha).
    destruct (nth_some tis k (proj2 FT) K) as [ti Hti]. destruct (QAo k a Ha) as (x & X1 & X2). destruct (QI k a x Ha X1) as (y & Y1 & Y2).
    destruct (QS k a d Ha Hd) as (z & Z1 & Z2). destruct (QE k a ti z y Ha Hti Z1 Y1) as (v & V1 & V2).
    exists ti, x, y, z, v. rewrite E1, E2, E3, E4, E5.
    rewrite (F_at _ _ _ k FT2 K), (F_at _ _ _ k FAo K), (F_at _ _ _ k FI1 K), (F_at _ _ _ k FS K), (F_at _ _ _ k FE K). repeat split; assumption.
  - rewrite E1, E2, E3, E4, E5. repeat split; try assumption; eapply F_stored; eassumption.
Qed.
Lemma keeps_rest f d : In f [F_times; F_total_irrad; F_weather; F_aoi; F_airmass; F_solar_position; F_albedo] ->
  keeps f (run_aoi_model E c ;; run_spectral_model E c ;; effective_irradiance_model c ;; run_from_effective_irrad E c d).
Proof.
  intros Hf. apply keeps_bind; [apply k_aoi|intros _; apply keeps_bind; [apply k_spm|intros _; apply keeps_bind; [apply k_eff|intros _; apply k_from_eff]]];
  try (intros ->; simpl in Hf; intuition discriminate).
  intros C. unfold dc_fields in C. simpl in Hf. rewrite !in_app_iff in C. simpl in C.
  destruct (c_dc_model c) as [[]|], (c_dc_ohmic_model c); simpl in C; intuition congruence.
Qed.
Theorem pipe_run_model i r r' : arrays s <> [] -> run_model E c i r = (r', Ok tt) -> run_model_computes E c i r' /\ stored_all n i r'.
Proof.
  intros Hne H. assert (N0 : n <> 0) by (unfold n, num_arrays; destruct (arrays s); [congruence|discriminate]).
  unfold run_model in H. cbv zeta in H. bi H. destruct a. rename r0 into rp. rename B into HP.
  unfold prepare_inputs in HP.
  bi HP. li B. destruct (check_fits _ _ _ X) as [HF _]. bi HP. li B. bi HP. destruct a1.
  destruct (p_weather _ _ _ HF B) as (Hb & (w & HW & RW) & (d0 & HD0 & HT)).
  bi HP. destruct a1. destruct (p_sp _ _ _ B0) as (d0' & t & sp & HD1 & HT1 & HS & QS).
  assert (d0' = d0) as -> by (destruct (to_tuple i) as [[|? ?]|?]; congruence || contradiction).
  rewrite HT in HT1. injection HT1 as <-.
  bi HP. destruct a1. destruct (p_am _ _ B1) as (sp' & am & HS' & HA & QA). rewrite HS in HS'. injection HS' as <-.
  bi HP. destruct a1. 
  assert (F1 := flag_step _ _ _ _ _ (f_sp _) B0 Hb). assert (F2 := flag_step _ _ _ _ _ f_am B1 F1). assert (F3 := flag_step _ _ _ _ _ (f_alb _) B2 F2).
  destruct (p_albedo i r2 r3 ltac:(rewrite F2; apply (flag_n1 i)) HF B2) as (alb & la & HAl & RAl & QAl).
  bi HP. destruct a1. destruct (p_fixed _ _ B3) as (sp' & aois & HS' & FAo & QAo).
  assert (F4 := flag_step _ _ _ _ _ f_fixed B3 F3). rewrite F3 in FAo.
  assert (SP3 : solar_position r3 = Some sp).
  { rewrite (same_of_keeps _ _ _ _ _ (k_alb c F_solar_position _ ltac:(discriminate)) B2 : solar_position r3 = _).
    rewrite (same_of_keeps _ _ _ _ _ (k_am E c F_solar_position ltac:(discriminate)) B1 : solar_position r2 = _). exact HS. }
  rewrite SP3 in HS'. injection HS' as <-.
  assert (SP4 : solar_position r4 = Some sp) by (rewrite (same_of_keeps _ _ _ _ _ (k_fixed E c F_solar_position ltac:(discriminate)) B3 : solar_position r4 = _); exact SP3).
  assert (CA : forall f, ~ In f [F_solar_position; F_airmass; F_albedo; F_aoi] -> same_field f r4 r0).
  { intros f Hf. eapply same_field_trans; [exact (same_of_keeps _ _ _ _ _ (k_fixed E c f ltac:(intros ->; apply Hf; simpl; tauto)) B3)|].
    eapply same_field_trans; [exact (same_of_keeps _ _ _ _ _ (k_alb c f _ ltac:(intros ->; apply Hf; simpl; tauto)) B2)|].
    eapply same_field_trans; [exact (same_of_keeps _ _ _ _ _ (k_am E c f ltac:(intros ->; apply Hf; simpl; tauto)) B1)|].
    exact (same_of_keeps _ _ _ _ _ (k_sp E c f _ ltac:(intros ->; apply Hf; simpl; tauto)) B0). }
  assert (W4 : weather r4 = Some w) by (rewrite (CA F_weather ltac:(simpl; intuition discriminate) : weather r4 = _); exact HW).
  assert (T4 : times r4 = Some (df_index d0)) by (rewrite (CA F_times ltac:(simpl; intuition discriminate) : times r4 = _); exact HT).
  assert (AM4 : airmass r4 = Some am).
  { rewrite (same_of_keeps _ _ _ _ _ (k_fixed E c F_airmass ltac:(discriminate)) B3 : airmass r4 = _).
    rewrite (same_of_keeps _ _ _ _ _ (k_alb c F_airmass _ ltac:(discriminate)) B2 : airmass r3 = _). exact HA. }
  assert (AL4 : r_albedo r4 = Some alb) by (rewrite (same_of_keeps _ _ _ _ _ (k_fixed E c F_albedo ltac:(discriminate)) B3 : r_albedo r4 = _); exact HAl).
  bi HP. ni B4. rewrite SP4 in X1. injection X1 as <-. bi HP. li B4. bi HP. li B4. bi HP. ni B4. rewrite W4 in X3. injection X3 as <-.
  bi HP. li B4. bi HP. li B4. bi HP. li B4. bi HP. ni B4. rewrite AL4 in X6. injection X6 as <-. bi HP. ni B4. rewrite AM4 in X6. injection X6 as <-.
  bi HP. li B4. bi HP. ni B4. rewrite T4 in X7. injection X7 as <-. bi HP. li B4. apply upd_inv in HP. subst rp.
  destruct (p_transpose i _ sp am _ _ _ _ _ _ _ _ HF X1 X2 X6 (weather_col i w "dni" _ HF ltac:(simpl; tauto) RW X3) (weather_col i w "ghi" _ HF ltac:(simpl; tauto) RW X4)
    (weather_col i w "dhi" _ HF ltac:(simpl; tauto) RW X5) la RAl X7) as (tis & -> & LT & QT).
  set (rp := set_total_irrad (unwrap tis) r4) in *.
  assert (FT : F (flag_of i) (total_irrad rp) tis) by (split; [unfold rp; cbn [total_irrad set_total_irrad]; rewrite wrap_unwrap; unfold flag_of; congruence|exact LT]).
  pose proof (same_of_keeps _ _ _ _ _ (keeps_rest F_times _ ltac:(simpl; tauto)) H) as KT. pose proof (same_of_keeps _ _ _ _ _ (keeps_rest F_total_irrad _ ltac:(simpl; tauto)) H) as KTi.
  pose proof (same_of_keeps _ _ _ _ _ (keeps_rest F_solar_position _ ltac:(simpl; tauto)) H) as KS. pose proof (same_of_keeps _ _ _ _ _ (keeps_rest F_airmass _ ltac:(simpl; tauto)) H) as KA.
  pose proof (same_of_keeps _ _ _ _ _ (keeps_rest F_albedo _ ltac:(simpl; tauto)) H) as KAl. cbn [same_field] in KT, KTi, KS, KA, KAl.
  destruct (p_rest i rp r' w (df_index d0) sp am tis aois N0 F4 HF W4 RW T4 AM4 FT FAo QAo H) as (M & BK & S1 & S2 & S3 & S4 & S5 & S6 & S7).
  split; [|repeat split; assumption].
  exists sp, am, (df_index d0). split; [|split; [rewrite KT; exact T4|split; [|split; assumption]]].
  - exists d0. split; [apply first_input; assumption|]. split; [rewrite KT; exact T4|]. split; [rewrite KS; exact SP4|]. split; [rewrite KA; exact AM4|].
    split; [exact QS|exact QA].
  - intros k ax d Ha Hd. assert (K : k < n) by (apply nth_lt in Ha; exact Ha). destruct (QAl k ax Ha) as (al & A1 & A2).
    destruct (QT k ax d al Ha Hd A1) as (ti & T1 & T2). exists ti, al. rewrite KTi, KAl, (F_at _ _ _ k FT K).
    split; [exact T1|]. split; [|split; assumption]. change (r_albedo rp) with (r_albedo r4). rewrite AL4. cbn [at_k]. rewrite (rd_value _ _ k RAl K). exact A1.
Qed.
Theorem pipe_run_poa i r r' : arrays s <> [] -> run_model_from_poa E c i r = (r', Ok tt) -> run_from_poa_computes E c i r' /\ stored_all n i r'.
Proof.
  intros Hne H. assert (N0 : n <> 0) by (unfold n, num_arrays; destruct (arrays s); [congruence|discriminate]).
  unfold run_model_from_poa in H. cbv zeta in H. bi H. destruct a. rename r0 into rp. rename B into HP.
  unfold prepare_inputs_from_poa in HP.
  bi HP. li B. destruct (check_fits _ _ _ X) as [HF HST]. specialize (HST eq_refl). bi HP. destruct a0.
  destruct (p_weather _ _ _ HF B) as (Hb & (w & HW & RW) & (d0 & HD0 & HT)). bi HP. li B0.
  bi HP. destruct a1. destruct (p_total_given i _ _ HF Hb HST B0) as (tis & FT & QT). rewrite Hb in FT.
  assert (F0 : keepf (assign_total_irrad (to_tuple i))) by (unfold assign_total_irrad; cbv zeta; kfs).
  assert (Fa := flag_step _ _ _ _ _ F0 B0 Hb).
  bi HP. destruct a1. destruct (p_sp _ _ _ B1) as (d0' & t & sp & HD1 & HT1 & HS & QS).
  assert (d0' = d0) as -> by (destruct (to_tuple i) as [[|? ?]|?]; congruence || contradiction).
  assert (Ta : times r1 = Some (df_index d0)) by (rewrite (same_of_keeps _ _ _ _ _ (k_total F_times _ ltac:(discriminate)) B0 : times r1 = _); exact HT).
  rewrite Ta in HT1. injection HT1 as <-.
  bi HP. destruct a1. destruct (p_am _ _ B2) as (sp' & am & HS' & HA & QA). rewrite HS in HS'. injection HS' as <-.
  assert (F1 := flag_step _ _ _ _ _ (f_sp _) B1 Fa). assert (F2 := flag_step _ _ _ _ _ f_am B2 F1).
  destruct (p_fixed _ _ HP) as (sp' & aois & HS' & FAo & QAo). assert (F3 := flag_step _ _ _ _ _ f_fixed HP F2). rewrite F2 in FAo.
  assert (SP3 : solar_position r3 = Some sp) by (rewrite (same_of_keeps _ _ _ _ _ (k_am E c F_solar_position ltac:(discriminate)) B2 : solar_position r3 = _); exact HS).
  rewrite SP3 in HS'. injection HS' as <-.
  assert (SP4 : solar_position rp = Some sp) by (rewrite (same_of_keeps _ _ _ _ _ (k_fixed E c F_solar_position ltac:(discriminate)) HP : solar_position rp = _); exact SP3).
  assert (CA : forall f, ~ In f [F_solar_position; F_airmass; F_aoi] -> same_field f rp r1).
  { intros f Hf. eapply same_field_trans; [exact (same_of_keeps _ _ _ _ _ (k_fixed E c f ltac:(intros ->; apply Hf; simpl; tauto)) HP)|].
    eapply same_field_trans; [exact (same_of_keeps _ _ _ _ _ (k_am E c f ltac:(intros ->; apply Hf; simpl; tauto)) B2)|].
    exact (same_of_keeps _ _ _ _ _ (k_sp E c f _ ltac:(intros ->; apply Hf; simpl; tauto)) B1). }
  assert (W4 : weather rp = Some w).
  { rewrite (CA F_weather ltac:(simpl; intuition discriminate) : weather rp = _).
    rewrite (same_of_keeps _ _ _ _ _ (k_total F_weather _ ltac:(discriminate)) B0 : weather r1 = _). exact HW. }
  assert (T4 : times rp = Some (df_index d0)) by (rewrite (CA F_times ltac:(simpl; intuition discriminate) : times rp = _); exact Ta).
  assert (AM4 : airmass rp = Some am) by (rewrite (same_of_keeps _ _ _ _ _ (k_fixed E c F_airmass ltac:(discriminate)) HP : airmass rp = _); exact HA).
  assert (FT4 : F (flag_of i) (total_irrad rp) tis) by (rewrite (CA F_total_irrad ltac:(simpl; intuition discriminate) : total_irrad rp = _); exact FT).
  pose proof (same_of_keeps _ _ _ _ _ (keeps_rest F_times _ ltac:(simpl; tauto)) H) as KT. pose proof (same_of_keeps _ _ _ _ _ (keeps_rest F_total_irrad _ ltac:(simpl; tauto)) H) as KTi.
  pose proof (same_of_keeps _ _ _ _ _ (keeps_rest F_solar_position _ ltac:(simpl; tauto)) H) as KS. pose proof (same_of_keeps _ _ _ _ _ (keeps_rest F_airmass _ ltac:(simpl; tauto)) H) as KA.
  cbn [same_field] in KT, KTi, KS, KA.
  destruct (p_rest i rp r' w (df_index d0) sp am tis aois N0 F3 HF W4 RW T4 AM4 FT4 FAo QAo H) as (M & BK & S1 & S2 & S3 & S4 & S5 & S6 & S7).
  split; [|repeat split; assumption].
  exists sp, am. split; [|split; [|split; assumption]].
  - exists d0. split; [apply first_input; assumption|]. split; [rewrite KT; exact T4|]. split; [rewrite KS; exact SP4|]. split; [rewrite KA; exact AM4|].
    split; [exact QS|exact QA].
  - intros k d K Hd. destruct (QT k d K Hd) as (ti & T1 & T2). exists ti. split; [|exact T2]. rewrite KTi, (F_at _ _ _ k FT4 K). exact T1.
Qed.
Theorem pipe_run_eff i r r' : arrays s <> [] -> run_model_from_effective_irradiance E c i r = (r', Ok tt) -> run_from_effective_computes E c i r' /\ stored_back n i r'.
Proof.
  intros Hne H. assert (N0 : n <> 0) by (unfold n, num_arrays; destruct (arrays s); [congruence|discriminate]).
  unfold run_model_from_effective_irradiance in H. cbv zeta in H. bi H. li B. destruct (check_fits _ _ _ X) as [HF HST]. specialize (HST eq_refl).
  bi H. li B. bi H. destruct a1. destruct (p_weather _ _ _ HF B) as (Hb & (w & HW & RW) & (d0 & HD0 & HT)).
  bi H. destruct a1. destruct (p_total_given i _ _ HF Hb HST B0) as (tis & FT & QT). rewrite Hb in FT.
  assert (F0 : keepf (assign_total_irrad (to_tuple i))) by (unfold assign_total_irrad; cbv zeta; kfs).
  assert (Fa := flag_step _ _ _ _ _ F0 B0 Hb).
  bi H. li B1. bi H. apply upd_inv in B1. subst r2.
  assert (FE : exists effs, F (flag_of i) (effective_irradiance (set_effective_irradiance a1 r1)) effs /\
     forall k d, k < n -> input_for i k = Some d -> exists e, nth_error effs k = Some e /\ column (df_cols d) "effective_irradiance" = Some e).
  { assert (Q : exists effs, a1 = (match to_tuple i with Tup _ => Tup effs | Bare _ => form false effs end) /\ mapM (dcol "effective_irradiance") (datal (to_tuple i)) = Ok effs).
    { destruct (to_tuple i) as [l|d]; cbn [each datal isTup] in *; apply rmap_inv in X1 as (e & Y & ->).
      - exists e. auto.
      - assert (N1 : n = 1) by (destruct HST; [assumption|discriminate]). exists [e]. rewrite N1. cbn [repeat mapM]. rewrite Y. auto. }
    destruct Q as (effs & -> & Me). destruct (mapM_at1 _ _ _ Me) as [LE QE]. rewrite (proj1 (datal_rd _ HF)) in LE. exists effs. split.
    - cbn [effective_irradiance set_effective_irradiance]. unfold flag_of. destruct (to_tuple i) as [l|d]; cbn [isTup] in *.
      + apply F_wrap_tup; [exact Fa| |exact LE]. rewrite andb_true_r. destruct (Nat.eqb_spec n 1); auto.
      + split; [|exact LE]. rewrite wrap_form. rewrite Fa. reflexivity.
    - intros k d K Hd. rewrite <- datal_input in Hd by exact K. destruct (QE k d Hd) as (e & E1 & E2). exists e. split; [exact E1|]. apply getitem_inv. exact E2. }
  destruct FE as (effs & FE & QE). set (rp := set_effective_irradiance a1 r1) in *.
  assert (Fp : singleton_tuples rp = flag_of i) by exact Fa.
  assert (FTp : F (flag_of i) (total_irrad rp) tis) by exact FT.
  assert (Wp : weather rp = Some w) by (change (weather rp) with (weather r1); rewrite (same_of_keeps _ _ _ _ _ (k_total F_weather _ ltac:(discriminate)) B0 : weather r1 = _); exact HW).
  assert (Tp : times rp = Some (df_index d0)) by (change (times rp) with (times r1); rewrite (same_of_keeps _ _ _ _ _ (k_total F_times _ ltac:(discriminate)) B0 : times r1 = _); exact HT).
  destruct (p_back i rp r' w (df_index d0) tis effs N0 Fp HF Wp RW Tp FTp FE H) as (BK & S1 & S2).
  assert (KE : forall f, In f [F_times; F_total_irrad; F_effective_irradiance] -> same_field f r' rp).
  { intros f Hf. refine (same_of_keeps _ _ _ _ _ (k_from_eff E c f _ _) H). intros C. unfold dc_fields in C. simpl in Hf. rewrite !in_app_iff in C. simpl in C.
    destruct (c_dc_model c) as [[]|], (c_dc_ohmic_model c); simpl in C; intuition congruence. }
  assert (E1 := KE F_times ltac:(simpl; tauto)). assert (E2 := KE F_total_irrad ltac:(simpl; tauto)). assert (E3 := KE F_effective_irradiance ltac:(simpl; tauto)).
  cbn [same_field] in E1, E2, E3. split.
  - split; [exists d0; split; [apply first_input; assumption|rewrite E1; exact Tp]|]. split; [|split; [|exact BK]].
    + intros k d K Hd. destruct (QT k d K Hd) as (ti & T1 & T2). exists ti. rewrite E2, (F_at _ _ _ k FTp K). auto.
    + intros k d K Hd. destruct (QE k d K Hd) as (e & T1 & T2). exists e. rewrite E3, (F_at _ _ _ k FE K). auto.
  - split; [rewrite E2; eapply F_stored; exact FTp|]. split; [rewrite E3; eapply F_stored; exact FE|]. split; assumption.
Qed.
End Pipe.
