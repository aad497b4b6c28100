(** Lemmas: pvlib/atmosphere.py and albedo.py. *)
From Verif Require Import Base.Fl Base.FlFacts Base.Py Model.Atmosphere.
From Coq Require Import Psatz.
Open Scope R_scope.

Definition airmass_models : list string :=
  ["kastenyoung1989"; "kasten1966"; "simple"; "pickering2002"; "youngirvine1967"; "young1994";
   "gueymard1993"; "gueymard2003"]%string.

Lemma Rpower_pos a b : 0 < Rpower a b. Proof. apply exp_pos. Qed.
Lemma Rpower_le_incr a b c : 0 < a -> a <= b -> 0 <= c -> Rpower a c <= Rpower b c.
Proof.
  intros Ha Hab Hc. unfold Rpower. destruct Hab as [H| ->]; [|lra].
  assert (ln a < ln b) by (apply ln_increasing; lra).
  destruct (Rle_lt_or_eq_dec 0 c Hc) as [L|<-]; [|rewrite !Rmult_0_l; lra].
  left. apply exp_increasing. nra.
Qed.

Lemma relative_airmass_unknown z m e :
  get_relative_airmass z m = Err e <-> e = ValueError /\ ~ In (lower m) airmass_models.
Proof.
  unfold get_relative_airmass. cbv zeta. set (s := lower m). clearbody s.
  repeat match goal with |- context [String.eqb s ?t] =>
    destruct (String.eqb_spec s t); [subst; split; [discriminate|simpl; tauto]|] end.
  split; [intros H; injection H as <-; split; [reflexivity|]|intros [-> _]; reflexivity].
  simpl. intros H. repeat destruct H as [H|H]; try congruence.
Qed.
Lemma relative_airmass_case z m m' : lower m = lower m' -> get_relative_airmass z m = get_relative_airmass z m'.
Proof. intros H. unfold get_relative_airmass. rewrite H. reflexivity. Qed.

(** below the horizon (or zenith nan): nan in every model *)
Lemma relative_airmass_below z m v :
  (z = NaN \/ fgtb z #90 = true) -> get_relative_airmass z m = Ok v -> v = NaN.
Proof.
  intros Hz. unfold get_relative_airmass, airmass_z, where_. cbv zeta.
  assert (E : (if fgtb z #90 then NaN else z) = NaN) by (destruct Hz as [->| ->]; reflexivity).
  rewrite E.
  repeat match goal with |- context [String.eqb (lower m) ?t] => destruct (String.eqb (lower m) t) end;
  intros H; try discriminate H; injection H as <-; reflexivity.
Qed.

Lemma airmass_z_up z : z <= 90 -> airmass_z #z = #z.
Proof. intros H. unfold airmass_z, where_. fin. rdec. reflexivity. Qed.

(** the published formulas *)
Lemma ky_fin z : 0 <= z <= 90 ->
  am_kastenyoung1989 #z = #(1 / (cosD z + 0.50572 * Rpower (6.07995 + (90 - z)) (-1.6364))).
Proof.
  intros H. unfold am_kastenyoung1989. fin. fold (cosD z).
  pose proof (cosD_nonneg z ltac:(lra)). pose proof (Rpower_pos (6.07995 + (90 - z)) (-1.6364)).
  rewrite fdiv_fin by lra. reflexivity.
Qed.
Lemma k66_fin z : 0 <= z <= 90 ->
  am_kasten1966 #z = #(1 / (cosD z + 0.15 * Rpower (93.885 - z) (-1.253))).
Proof.
  intros H. unfold am_kasten1966. fin. fold (cosD z).
  pose proof (cosD_nonneg z ltac:(lra)). pose proof (Rpower_pos (93.885 - z) (-1.253)).
  rewrite fdiv_fin by lra. reflexivity.
Qed.
Lemma simple_fin z : cosD z <> 0 -> am_simple #z = #(1 / cosD z).
Proof. intros H. unfold am_simple. fin. fold (cosD z). try (rewrite fdiv_fin by exact H). reflexivity. Qed.
Lemma simple_90 : am_simple #90 = PInf.
Proof.
  unfold am_simple. fin. fold (cosD 90). rewrite cosD_90, fdiv_zero. unfold sinf, Rpos. rdec. reflexivity.
Qed.
Lemma y94_fin z : 0 <= z <= 90 -> let c := cosD z in
  am_young1994 #z = #((1.002432 * c ^ 2 + 0.148386 * c + 0.0096467)
                      / (c ^ 3 + 0.149864 * c ^ 2 + 0.0102963 * c + 0.000303978)).
Proof.
  intros H c. unfold am_young1994. fin. fold (cosD z). fold c.
  pose proof (cosD_nonneg z ltac:(lra)) as Hc. fold c in Hc.
  pose proof (pow_le c 2 Hc). pose proof (pow_le c 3 Hc).
  rewrite fdiv_fin by lra. reflexivity.
Qed.
Lemma g93_fin z : 0 <= z <= 90 ->
  am_gueymard1993 #z = #(1 / (cosD z + 0.00176759 * z * Rpower (94.37515 - z) (-1.21563))) /\
  0 < cosD z + 0.00176759 * z * Rpower (94.37515 - z) (-1.21563).
Proof.
  intros H. unfold am_gueymard1993. fin. fold (cosD z).
  pose proof (cosD_nonneg z ltac:(lra)). pose proof (Rpower_pos (94.37515 - z) (-1.21563)) as Hp.
  assert (P : 0 < cosD z + 0.00176759 * z * Rpower (94.37515 - z) (-1.21563)).
  { set (p := Rpower _ _) in *. destruct (Rle_lt_dec z 0).
    - replace z with 0 by lra. rewrite cosD_0. lra.
    - assert (0 < 0.00176759 * z * p) by (apply Rmult_lt_0_compat; lra). lra. }
  rewrite fdiv_fin by lra. split; [reflexivity|exact P].
Qed.
Lemma g03_fin z : 0 <= z <= 90 -> exists q, fpow #z #0.095846 = #q /\ 0 <= q /\ (0 < z -> q = Rpower z 0.095846) /\
  am_gueymard2003 #z = #(1 / (cosD z + 0.48353 * q / Rpower (96.741 - z) 1.754)) /\
  0 < cosD z + 0.48353 * q / Rpower (96.741 - z) 1.754.
Proof.
  intros H. pose proof (cosD_nonneg z ltac:(lra)). pose proof (Rpower_pos (96.741 - z) 1.754) as Hp.
  unfold am_gueymard2003. fin. fold (cosD z). destruct (Rle_lt_dec z 0).
  - assert (z = 0) by lra. subst z. exists 0. rewrite fpow_zero by lra. fin.
    rewrite cosD_0. set (p := Rpower _ _) in *.
    replace (0.48353 * 0 / p) with 0 by (field; lra).
    rewrite fdiv_fin by lra. repeat split; try reflexivity; lra.
  - exists (Rpower z 0.095846). rewrite fpow_fin by lra. fin.
    pose proof (Rpower_pos z 0.095846) as Hq. set (q := Rpower z _) in *. set (p := Rpower _ _) in *.
    assert (0 < 0.48353 * q / p) by (apply Rdiv_lt_0_compat; lra).
    rewrite fdiv_fin by lra. repeat split; try reflexivity; lra.
Qed.
(** Pickering: airmass of the refraction-corrected elevation *)
Lemma p02_fin z : 0 <= z <= 90 -> exists q, fpow #(90 - z) #1.1 = #q /\ 0 <= q /\
  let h := 90 - z + 244 / (165 + 47 * q) in
  am_pickering2002 #z = #(1 / sinD h) /\ 0 < sinD h /\ 90 - z < h < 90 - z + 1.48.
Proof.
  intros H.
  assert (Q : exists q, fpow #(90 - z) #1.1 = #q /\ 0 <= q).
  { destruct (Rle_lt_dec (90 - z) 0).
    - replace (90 - z) with 0 by lra. exists 0. split; [apply fpow_zero; lra|lra].
    - exists (Rpower (90 - z) 1.1). split; [apply fpow_fin; lra|left; apply Rpower_pos]. }
  destruct Q as (q & Eq & Hq). exists q. split; [exact Eq|]. split; [exact Hq|]. intros h.
  unfold am_pickering2002. fin. rewrite Eq. fin. fold h. fold (sinD h).
  assert (Hh : 90 - z < h < 90 - z + 1.48).
  { unfold h. assert (0 < 244 / (165 + 47 * q)) by (apply Rdiv_lt_0_compat; lra).
    assert (244 / (165 + 47 * q) < 1.48); [|lra].
    apply Rmult_lt_reg_r with (165 + 47 * q); [lra|]. unfold Rdiv. rewrite Rmult_assoc, Rinv_l by lra. lra. }
  assert (0 < sinD h) by (apply sinD_pos; lra).
  rewrite fdiv_fin by lra. repeat split; auto; lra.
Qed.
Lemma yi67_fin z : cosD z <> 0 -> let s := 1 / cosD z in
  am_youngirvine1967 #z = #(s * (1 - 0.0012 * (s * s - 1))).
Proof. intros H s. unfold am_youngirvine1967. fin. fold (cosD z). try (rewrite fdiv_fin by exact H). fin. reflexivity. Qed.
Lemma yi67_90 : am_youngirvine1967 #90 = NInf.
Proof.
  unfold am_youngirvine1967. fin. fold (cosD 90). rewrite cosD_90, fdiv_zero. unfold sinf, Rpos, Rneg. rdec.
  cbn. unfold sinf, Rpos, Rneg. rdec. cbn. reflexivity.
Qed.

Lemma inv_pos c : 0 < c -> 0 < 1 / c. Proof. intros. apply Rdiv_lt_0_compat; lra. Qed.

(** above the horizon: never nan; finite and positive below 90 degrees in every model but youngirvine1967 *)
Lemma relative_airmass_above z m v : 0 <= z <= 90 -> get_relative_airmass #z m = Ok v ->
  v <> NaN /\ (z < 90 -> exists a, v = #a /\ (lower m <> "youngirvine1967"%string -> 0 < a)).
Proof.
  intros Hz. unfold get_relative_airmass. cbv zeta. rewrite airmass_z_up by lra.
  set (s := lower m). clearbody s.
  pose proof (cosD_nonneg z ltac:(lra)) as Hc.
  assert (Hcp : z < 90 -> 0 < cosD z) by (intros; apply cosD_pos; lra).
  repeat match goal with |- context [String.eqb s ?t] => destruct (String.eqb_spec s t) as [?|?];
    [subst s; intros H; injection H as <-|] end; [.. |discriminate].
  - rewrite ky_fin by lra. split; [discriminate|]. intros _. eexists; split; [reflexivity|]. intros _.
    apply inv_pos. pose proof (Rpower_pos (6.07995 + (90 - z)) (-1.6364)). lra.
  - rewrite k66_fin by lra. split; [discriminate|]. intros _. eexists; split; [reflexivity|]. intros _.
    apply inv_pos. pose proof (Rpower_pos (93.885 - z) (-1.253)). lra.
  - split.
    + destruct (Req_dec z 90) as [->|]; [rewrite simple_90; discriminate|].
      rewrite simple_fin by (specialize (Hcp ltac:(lra)); lra). discriminate.
    + intros L. specialize (Hcp L). rewrite simple_fin by lra. eexists; split; [reflexivity|]. intros _.
      apply inv_pos. lra.
  - destruct (p02_fin z Hz) as (q & _ & _ & E & P & _). rewrite E. split; [discriminate|].
    intros _. eexists; split; [reflexivity|]. intros _. apply inv_pos. exact P.
  - split.
    + destruct (Req_dec z 90) as [->|]; [rewrite yi67_90; discriminate|].
      rewrite yi67_fin by (specialize (Hcp ltac:(lra)); lra). discriminate.
    + intros L. specialize (Hcp L). rewrite yi67_fin by lra. eexists; split; [reflexivity|]. congruence.
  - rewrite y94_fin by lra. split; [discriminate|]. intros _. eexists; split; [reflexivity|]. intros _.
    pose proof (pow_le _ 2 Hc). pose proof (pow_le _ 3 Hc). apply Rdiv_lt_0_compat; lra.
  - destruct (g93_fin z Hz) as [E P]. rewrite E. split; [discriminate|].
    intros _. eexists; split; [reflexivity|]. intros _. apply inv_pos, P.
  - destruct (g03_fin z Hz) as (q & _ & _ & _ & E & P). rewrite E. split; [discriminate|].
    intros _. eexists; split; [reflexivity|]. intros _. apply inv_pos, P.
Qed.

Lemma inv_le_anti a b : 0 < a -> a <= b -> 1 / b <= 1 / a.
Proof. intros. unfold Rdiv. rewrite !Rmult_1_l. apply Rinv_le_contravar; lra. Qed.
Lemma inv_lt_anti a b : 0 < a -> a < b -> 1 / b < 1 / a.
Proof. intros. unfold Rdiv. rewrite !Rmult_1_l. apply Rinv_lt_contravar; [nra|lra]. Qed.

(** the simple model: 1/cos, at least 1, strictly increasing *)
Lemma simple_props :
  (forall z, 0 <= z < 90 -> get_relative_airmass #z "simple" = Ok #(1 / cosD z) /\ 1 <= 1 / cosD z) /\
  (forall z1 z2, 0 <= z1 -> z1 < z2 -> z2 < 90 -> 1 / cosD z1 < 1 / cosD z2).
Proof.
  split.
  - intros z Hz. assert (P : 0 < cosD z) by (apply cosD_pos; lra). split.
    + unfold get_relative_airmass. rewrite airmass_z_up by lra. simpl String.eqb. cbv iota zeta.
      rewrite simple_fin by lra. reflexivity.
    + pose proof (cosD_bound z). replace 1 with (1 / 1) at 1 by field. apply inv_le_anti; lra.
  - intros z1 z2 H1 H2 H3. apply inv_lt_anti; [apply cosD_pos; lra|apply cosD_sdecr; lra].
Qed.
(** the refraction-aware models stay below the simple one; Kasten-Young is below 1 at the zenith *)
Lemma below_simple z m v : 0 <= z < 90 ->
  In (lower m) ["kastenyoung1989"; "kasten1966"; "gueymard1993"; "gueymard2003"]%string ->
  get_relative_airmass #z m = Ok #v -> v <= 1 / cosD z.
Proof.
  intros Hz. assert (P : 0 < cosD z) by (apply cosD_pos; lra).
  unfold get_relative_airmass. cbv zeta. rewrite airmass_z_up by lra.
  set (s := lower m). clearbody s. intros [<-|[<-|[<-|[<-|[]]]]]; simpl String.eqb; cbv iota.
  - rewrite ky_fin by lra. intros H; injection H as <-. apply inv_le_anti; [exact P|].
    pose proof (Rpower_pos (6.07995 + (90 - z)) (-1.6364)). lra.
  - rewrite k66_fin by lra. intros H; injection H as <-. apply inv_le_anti; [exact P|].
    pose proof (Rpower_pos (93.885 - z) (-1.253)). lra.
  - destruct (g93_fin z ltac:(lra)) as [E Q]. rewrite E. intros H; injection H as <-.
    apply inv_le_anti; [exact P|]. pose proof (Rpower_pos (94.37515 - z) (-1.21563)) as R.
    set (p := Rpower _ _) in *. assert (0 <= z * p) by (apply Rmult_le_pos; lra). lra.
  - destruct (g03_fin z ltac:(lra)) as (q & _ & Hq & _ & E & Q). rewrite E. intros H; injection H as <-.
    apply inv_le_anti; [exact P|]. pose proof (Rpower_pos (96.741 - z) 1.754) as R.
    set (p := Rpower _ _) in *. assert (0 <= 0.48353 * q / p).
    { apply Rmult_le_pos; [lra|]. left; apply Rinv_0_lt_compat; lra. } lra.
Qed.
Lemma ky_zenith_below_1 : exists v, get_relative_airmass #0 "kastenyoung1989" = Ok #v /\ v < 1.
Proof.
  unfold get_relative_airmass. rewrite airmass_z_up by lra. simpl String.eqb. cbv iota zeta.
  rewrite ky_fin by lra. eexists; split; [reflexivity|]. rewrite cosD_0.
  pose proof (Rpower_pos (6.07995 + (90 - 0)) (-1.6364)).
  replace 1 with (1 / 1) at 3 by field. apply inv_lt_anti; lra.
Qed.

Lemma absolute_airmass_props :
  (forall am p, get_absolute_airmass #am #p = #(am * p / 101325)) /\
  (forall am, get_absolute_airmass #am #101325 = #am) /\
  (forall p, get_absolute_airmass NaN p = NaN).
Proof.
  repeat split.
  - intros. unfold get_absolute_airmass. fin. reflexivity.
  - intros. unfold get_absolute_airmass. fin. f_equal. field.
Qed.

(** ** dew point and humidity *)
Lemma rh_from_tdew_fin t td c0 c1 c2 : c0 <> 0 -> c2 + td <> 0 -> c2 + t <> 0 ->
  rh_from_tdew #t #td #c0 #c1 #c2 = #(100 * exp (c1 * td / (c2 + td) - c1 * t / (c2 + t))).
Proof.
  intros H0 H1 H2. unfold rh_from_tdew. fin.
  pose proof (exp_pos (c1 * t / (c2 + t))) as P.
  rewrite fdiv_fin by (apply Rmult_integral_contrapositive_currified; lra).
  fin. f_equal. unfold Rminus. rewrite exp_plus, exp_Ropp. field. split; lra.
Qed.
Lemma tdew_of_rh_of_tdew t td c0 c1 c2 rh :
  c0 <> 0 -> c1 <> 0 -> c2 <> 0 -> c2 + td <> 0 -> c2 + t <> 0 ->
  rh_from_tdew #t #td #c0 #c1 #c2 = rh -> tdew_from_rh #t rh #c1 #c2 = #td.
Proof.
  intros H0 H1 H2 H3 H4 <-. rewrite rh_from_tdew_fin by auto. unfold tdew_from_rh. fin.
  replace (100 * exp (c1 * td / (c2 + td) - c1 * t / (c2 + t)) / 100)
    with (exp (c1 * td / (c2 + td) - c1 * t / (c2 + t))) by field.
  rewrite fln_fin by apply exp_pos. rewrite ln_exp. fin.
  replace (c1 * t / (c2 + t) + (c1 * td / (c2 + td) - c1 * t / (c2 + t))) with (c1 * td / (c2 + td)) by ring.
  assert (E : c1 - c1 * td / (c2 + td) = c1 * c2 / (c2 + td)) by (field; auto).
  rewrite fdiv_fin.
  - f_equal. rewrite E. field. auto.
  - rewrite E. unfold Rdiv. repeat apply Rmult_integral_contrapositive_currified; auto.
    apply Rinv_neq_0_compat; auto.
Qed.
Lemma rh_of_tdew_of_rh t rh c0 c1 c2 :
  c0 <> 0 -> c1 <> 0 -> c2 <> 0 -> c2 + t <> 0 -> 0 < rh ->
  c1 <> c1 * t / (c2 + t) + ln (rh / 100) ->
  exists td, tdew_from_rh #t #rh #c1 #c2 = #td /\ rh_from_tdew #t #td #c0 #c1 #c2 = #rh.
Proof.
  intros H0 H1 H2 H3 H4 H5. unfold tdew_from_rh.
  assert (0 < rh / 100) by lra. fin. set (L := c1 * t / (c2 + t) + ln (rh / 100)) in *.
  assert (HL : c1 - L <> 0) by lra. try (rewrite fdiv_fin by exact HL).
  eexists; split; [reflexivity|].
  assert (E : c2 + c2 * L / (c1 - L) = c2 * c1 / (c1 - L)) by (field; auto).
  rewrite rh_from_tdew_fin; auto.
  - f_equal.
    replace (c1 * (c2 * L / (c1 - L)) / (c2 + c2 * L / (c1 - L))) with L.
    + unfold L. replace (c1 * t / (c2 + t) + ln (rh / 100) - c1 * t / (c2 + t)) with (ln (rh / 100)) by ring.
      rewrite exp_ln by lra. field.
    + rewrite E. field. repeat split; auto.
  - rewrite E. unfold Rdiv. repeat apply Rmult_integral_contrapositive_currified; auto.
    apply Rinv_neq_0_compat; auto.
Qed.
(** for positive coefficients humidity is 100% exactly at saturation and increases with dew point *)
Lemma rh_saturation t c0 c1 c2 : c0 <> 0 -> c2 + t <> 0 -> rh_from_tdew #t #t #c0 #c1 #c2 = #100.
Proof.
  intros. rewrite rh_from_tdew_fin by auto. f_equal.
  replace (c1 * t / (c2 + t) - c1 * t / (c2 + t)) with 0 by ring. rewrite exp_0. lra.
Qed.
Lemma rh_incr t td1 td2 c0 c1 c2 r1 r2 :
  0 < c0 -> 0 < c1 -> 0 < c2 -> 0 < c2 + td1 -> 0 < c2 + t -> td1 < td2 ->
  rh_from_tdew #t #td1 #c0 #c1 #c2 = #r1 -> rh_from_tdew #t #td2 #c0 #c1 #c2 = #r2 -> r1 < r2.
Proof.
  intros. rewrite rh_from_tdew_fin in * by lra. apply Fin_inj in H5. apply Fin_inj in H6. subst.
  apply Rmult_lt_compat_l; [lra|]. apply exp_increasing.
  assert (c1 * td1 / (c2 + td1) < c1 * td2 / (c2 + td2)); [|lra].
  assert (E : forall x, 0 < c2 + x -> c1 * x / (c2 + x) = c1 - c1 * c2 * (1 / (c2 + x))) by (intros; field; lra).
  rewrite !E by lra. pose proof (inv_lt_anti (c2 + td1) (c2 + td2) ltac:(lra) ltac:(lra)).
  assert (0 < c1 * c2) by nra. nra.
Qed.

(** ** Angstrom *)
Lemma aod_fin aod0 l0 alpha l1 : 0 < l0 -> 0 < l1 ->
  angstrom_aod_at_lambda #aod0 #l0 #alpha #l1 = #(aod0 * Rpower (l1 / l0) (- alpha)).
Proof.
  intros. unfold angstrom_aod_at_lambda. assert (0 < l1 / l0) by (apply Rdiv_lt_0_compat; lra). fin. reflexivity.
Qed.
Lemma alpha_fin a1 l1 a2 l2 : 0 < a1 -> 0 < a2 -> 0 < l1 -> 0 < l2 -> l1 <> l2 ->
  angstrom_alpha #a1 #l1 #a2 #l2 = #(- ln (a1 / a2) / ln (l1 / l2)) /\ ln (l1 / l2) <> 0.
Proof.
  intros. unfold angstrom_alpha.
  assert (0 < a1 / a2) by (apply Rdiv_lt_0_compat; lra).
  assert (0 < l1 / l2) by (apply Rdiv_lt_0_compat; lra).
  assert (N : ln (l1 / l2) <> 0).
  { intros E. assert (X : l1 / l2 = 1) by (apply ln_inv; [lra|lra|rewrite ln_1; exact E]).
    apply H3. replace l1 with (l1 / l2 * l2) by (field; lra). rewrite X. lra. }
  fin. split; [reflexivity|exact N].
Qed.
Lemma alpha_of_aod aod0 l0 alpha l1 a1 : 0 < aod0 -> 0 < l0 -> 0 < l1 -> l1 <> l0 ->
  angstrom_aod_at_lambda #aod0 #l0 #alpha #l1 = a1 -> angstrom_alpha a1 #l1 #aod0 #l0 = #alpha.
Proof.
  intros H0 H1 H2 H3 <-. rewrite aod_fin by auto. pose proof (Rpower_pos (l1 / l0) (- alpha)).
  destruct (alpha_fin (aod0 * Rpower (l1 / l0) (- alpha)) l1 aod0 l0) as [E N]; auto.
  { apply Rmult_lt_0_compat; lra. }
  rewrite E. f_equal.
  replace (aod0 * Rpower (l1 / l0) (- alpha) / aod0) with (Rpower (l1 / l0) (- alpha)) by (field; lra).
  unfold Rpower. rewrite ln_exp. field. exact N.
Qed.
Lemma aod_of_alpha a1 l1 a2 l2 al : 0 < a1 -> 0 < a2 -> 0 < l1 -> 0 < l2 -> l1 <> l2 ->
  angstrom_alpha #a1 #l1 #a2 #l2 = al -> angstrom_aod_at_lambda #a2 #l2 al #l1 = #a1.
Proof.
  intros H0 H1 H2 H3 H4 <-. destruct (alpha_fin a1 l1 a2 l2) as [E N]; auto. rewrite E, aod_fin by auto.
  f_equal. unfold Rpower.
  replace (- (- ln (a1 / a2) / ln (l1 / l2)) * ln (l1 / l2)) with (ln (a1 / a2)) by (field; exact N).
  rewrite exp_ln by (apply Rdiv_lt_0_compat; lra). field. lra.
Qed.

(** ** wind speed power law *)
Lemma powerlaw_fin v h1 h2 e : 0 <= v -> 0 < h1 -> 0 < h2 ->
  powerlaw_speed #v #h1 #h2 #e = #(v * Rpower (h2 / h1) e).
Proof.
  intros. unfold powerlaw_speed, where_. assert (0 < h2 / h1) by (apply Rdiv_lt_0_compat; lra). fin.
  pose proof (Rpower_pos (h2 / h1) e). rewrite Rltb_f by nra. reflexivity.
Qed.
Lemma powerlaw_negative v h1 h2 e : v < 0 -> 0 < h1 -> 0 < h2 -> powerlaw_speed #v #h1 #h2 #e = NaN.
Proof.
  intros. unfold powerlaw_speed, where_. assert (0 < h2 / h1) by (apply Rdiv_lt_0_compat; lra). fin.
  pose proof (Rpower_pos (h2 / h1) e). rewrite Rltb_t by nra. reflexivity.
Qed.
Lemma powerlaw_props v h1 h2 e : 0 <= v -> 0 < h1 -> 0 < h2 ->
  powerlaw_speed #v #h1 #h1 #e = #v /\
  powerlaw_speed (powerlaw_speed #v #h1 #h2 #e) #h2 #h1 #e = #v.
Proof.
  intros. rewrite !powerlaw_fin by auto. split.
  - f_equal. replace (h1 / h1) with 1 by (field; lra). unfold Rpower. rewrite ln_1, Rmult_0_r, exp_0. lra.
  - pose proof (Rpower_pos (h2 / h1) e). rewrite powerlaw_fin by nra. f_equal.
    rewrite Rmult_assoc. unfold Rpower. rewrite <- exp_plus.
    replace (h1 / h2) with (/ (h2 / h1)) by (field; lra).
    rewrite ln_Rinv by (apply Rdiv_lt_0_compat; lra).
    replace (e * ln (h2 / h1) + e * - ln (h2 / h1)) with 0 by ring. rewrite exp_0. lra.
Qed.
Lemma windspeed_args v h1 h2 e st :
  (forall x, windspeed_powerlaw v h1 h2 (Some x) None = Ok (powerlaw_speed v h1 h2 x)) /\
  (forall s x, In (s, x) HELLMANN_SURFACE_EXPONENTS ->
     windspeed_powerlaw v h1 h2 None (Some s) = Ok (powerlaw_speed v h1 h2 x)) /\
  (forall er, windspeed_powerlaw v h1 h2 e st = Err er <->
     (er = ValueError /\ ((e = None /\ st = None) \/ (e <> None /\ st <> None))) \/
     (er = KeyError /\ e = None /\ exists s, st = Some s /\ ~ In s (map fst HELLMANN_SURFACE_EXPONENTS))).
Proof.
  split; [reflexivity|]. split.
  - intros s x Hin. unfold windspeed_powerlaw, getitem.
    assert (E : lookup s HELLMANN_SURFACE_EXPONENTS = Some x).
    { simpl in Hin. repeat destruct Hin as [Hin|Hin]; try contradiction; injection Hin as <- <-; reflexivity. }
    rewrite E. reflexivity.
  - intros er. destruct e as [x|], st as [s|]; cbn [windspeed_powerlaw].
    + split; [intros H; injection H as <-; left; split; [reflexivity|right; split; discriminate]|].
      intros [[-> _]|(_ & H & _)]; [reflexivity|discriminate].
    + split; [discriminate|]. intros [[_ [[H _]|[_ H]]]|(_ & H & _)]; [discriminate|congruence|discriminate].
    + unfold getitem. destruct (lookup s HELLMANN_SURFACE_EXPONENTS) eqn:E; cbn [bind].
      * split; [discriminate|]. intros [[_ [[_ H]|[H _]]]|(_ & _ & s' & H & Hn)]; [discriminate|congruence|].
        injection H as <-. apply lookup_None in Hn. congruence.
      * split; [intros H; injection H as <-; right; split; [reflexivity|]; split; [reflexivity|]; exists s;
          split; [reflexivity|apply lookup_None, E]|].
        intros [[_ [[_ H]|[H _]]]|(-> & _)]; [discriminate|congruence|reflexivity].
    + split; [intros H; injection H as <-; left; split; [reflexivity|left; split; reflexivity]|].
      intros [[-> _]|(_ & _ & s & H & _)]; [reflexivity|discriminate].
Qed.

(** ** altitude and pressure *)
Lemma alt2pres_decr a b pa pb : a < b -> b < 44331.514 ->
  alt2pres #a = #pa -> alt2pres #b = #pb -> 0 < pb < pa.
Proof.
  intros H1 H2. unfold alt2pres. fin.
  intros Ha Hb. apply Fin_inj in Ha. apply Fin_inj in Hb. subst.
  pose proof (Rpower_pos ((44331.514 - b) / 11880.516) (1 / 0.1902632)). split; [lra|].
  apply Rmult_lt_compat_l; [lra|]. unfold Rpower. apply exp_increasing.
  apply Rmult_lt_compat_l; [apply Rdiv_lt_0_compat; lra|]. apply ln_increasing; [apply Rdiv_lt_0_compat; lra|].
  unfold Rdiv. apply Rmult_lt_compat_r; [apply Rinv_0_lt_compat; lra|lra].
Qed.
Lemma pres2alt_decr p q ap aq : 0 < p -> p < q -> pres2alt #p = #ap -> pres2alt #q = #aq -> aq < ap.
Proof.
  intros H1 H2. unfold pres2alt. fin. intros Ha Hb. apply Fin_inj in Ha. apply Fin_inj in Hb. subst.
  assert (Rpower p 0.190263 < Rpower q 0.190263); [|lra].
  unfold Rpower. apply exp_increasing. apply Rmult_lt_compat_l; [lra|]. apply ln_increasing; lra.
Qed.

(** ** precipitable water, turbidity *)
Lemma pw_min t rh : atleast #0.1 (gueymard94_pw t rh).
Proof. apply fmax_atleast. Qed.
Lemma kasten96_lt_fin am pw aod : 0 < am -> 0 < pw ->
  kasten96_lt #am #pw #aod =
  #((9.4 + 0.9 * am) * (-0.101 + 0.235 * Rpower am (-0.16)
                        + 0.112 * Rpower am (-0.55) * Rpower pw 0.34 + aod)).
Proof.
  intros. unfold kasten96_lt. fin. rewrite fln_fin by apply exp_pos. rewrite ln_exp. fin.
  f_equal. field. lra.
Qed.

(** ** water albedo *)
Lemma dvoracek_fin e c w : 0 < c -> dvoracek_albedo #e #c #w = #(Rpower c (w * sinD (Rmax 0 e) + 1)).
Proof.
  intros Hc. unfold dvoracek_albedo, where_. fin. rcase.
  - rewrite (Rmax_left 0 e) by lra. fin. reflexivity.
  - rewrite (Rmax_right 0 e) by lra. fin. reflexivity.
Qed.
Lemma dvoracek_range e c w v : 0 < c <= 1 -> 0 <= w -> e <= 90 -> dvoracek_albedo #e #c #w = #v -> 0 < v <= c.
Proof.
  intros Hc Hw He. rewrite dvoracek_fin by lra. intros H; apply Fin_inj in H; subst v.
  split; [apply Rpower_pos|].
  assert (0 <= sinD (Rmax 0 e)) by (apply sinD_nonneg; rmm; lra).
  assert (L : ln c <= 0).
  { rewrite <- ln_1. destruct (proj2 Hc) as [L| ->]; [left; apply ln_increasing; lra|lra]. }
  apply Rle_trans with (Rpower c 1); [|rewrite Rpower_1; lra].
  unfold Rpower. set (q := sinD (Rmax 0 e)) in *.
  assert (Q : 0 <= w * q) by (apply Rmult_le_pos; lra). set (wq := w * q) in *.
  assert (X : (wq + 1) * ln c <= 1 * ln c) by nra.
  destruct X as [X|X]; [left; apply exp_increasing; exact X|rewrite X; lra].
Qed.
Lemma dvoracek_decr e1 e2 c w v1 v2 : 0 < c <= 1 -> 0 <= w -> e1 <= e2 -> e2 <= 90 ->
  dvoracek_albedo #e1 #c #w = #v1 -> dvoracek_albedo #e2 #c #w = #v2 -> v2 <= v1.
Proof.
  intros Hc Hw H12 He. rewrite !dvoracek_fin by lra. intros A B; apply Fin_inj in A; apply Fin_inj in B; subst.
  assert (S : sinD (Rmax 0 e1) <= sinD (Rmax 0 e2)) by (apply sinD_incr; rmm; lra).
  assert (L : ln c <= 0).
  { rewrite <- ln_1. destruct (proj2 Hc) as [L| ->]; [left; apply ln_increasing; lra|lra]. }
  unfold Rpower. assert (Y : w * sinD (Rmax 0 e1) <= w * sinD (Rmax 0 e2)) by (apply Rmult_le_compat_l; auto).
  set (q1 := w * sinD (Rmax 0 e1)) in *. set (q2 := w * sinD (Rmax 0 e2)) in *.
  assert (X : (q2 + 1) * ln c <= (q1 + 1) * ln c) by nra.
  destruct X as [X|X]; [left; apply exp_increasing; exact X|rewrite X; lra].
Qed.
Lemma inland_water_args e sc c w :
  (forall x y, inland_water_dvoracek e None (Some x) (Some y) = Ok (dvoracek_albedo e x y)) /\
  (forall s, In s (map fst WATER_COLOR_COEFFS) -> exists x y, 
     In (s, #x) WATER_COLOR_COEFFS /\ In (s, #y) WATER_ROUGHNESS_COEFFS /\ 0 < x <= 1 /\ 0 <= y /\
     inland_water_dvoracek e (Some s) None None = Ok (dvoracek_albedo e #x #y)) /\
  (forall er, inland_water_dvoracek e sc c w = Err er <->
     (er = KeyError /\ c = None /\ w = None /\ exists s, sc = Some s /\ ~ In s (map fst WATER_COLOR_COEFFS)) \/
     (er = ValueError /\ ~ (sc <> None /\ c = None /\ w = None) /\ ~ (sc = None /\ c <> None /\ w <> None))).
Proof.
  assert (K : forall s, In s (map fst WATER_COLOR_COEFFS) -> exists x y, 
     In (s, #x) WATER_COLOR_COEFFS /\ In (s, #y) WATER_ROUGHNESS_COEFFS /\ 0 < x <= 1 /\ 0 <= y /\
     inland_water_dvoracek e (Some s) None None = Ok (dvoracek_albedo e #x #y)).
  { intros s Hs. simpl in Hs. repeat destruct Hs as [Hs|Hs]; try contradiction; subst s; eexists _, _;
    (split; [simpl; eauto 10|]); (split; [simpl; eauto 10|]); (split; [lra|]); (split; [lra|]); reflexivity. }
  split; [reflexivity|]. split; [exact K|].
  intros er. destruct sc as [s|].
  - destruct c as [c|], w as [w|]; cbn [inland_water_dvoracek].
    1-3: split; [intros H; injection H as <-; right; split; [reflexivity|]; split; [intros (_&?&?); congruence|intros (?&_); congruence]
        | intros [(_ & ? & ? & _)|[-> _]]; congruence].
    destruct (in_dec String.string_dec s (map fst WATER_COLOR_COEFFS)) as [Hi|Hi].
    + destruct (K s Hi) as (x & y & _ & _ & _ & _ & E). cbn [inland_water_dvoracek] in E. rewrite E.
      split; [discriminate|]. intros [(_ & _ & _ & s' & H & Hn)|(_ & H & _)]; [injection H as <-; tauto|].
      exfalso. apply H. split; [discriminate|auto].
    + apply lookup_None in Hi as Hl. unfold getitem. rewrite Hl. cbn [bind].
      split; [intros H; injection H as <-; left; eauto 10|].
      intros [(-> & _)|(_ & H & _)]; [reflexivity|]. exfalso; apply H. split; [discriminate|auto].
  - destruct c as [c|], w as [w|]; cbn [inland_water_dvoracek].
    + split; [discriminate|]. intros [(_ & H & _)|(_ & _ & H)]; [discriminate|]. exfalso; apply H. split; [reflexivity|split; discriminate].
    + split; [intros H; injection H as <-; right; split; [reflexivity|]; split; [intros (?&_); congruence|intros (_&_&?); congruence]
        | intros [(_ & ? & ? & _)|[-> _]]; congruence].
    + split; [intros H; injection H as <-; right; split; [reflexivity|]; split; [intros (?&_); congruence|intros (_&?&_); congruence]
        | intros [(_ & ? & ? & _)|[-> _]]; congruence].
    + split; [intros H; injection H as <-; right; split; [reflexivity|]; split; [intros (?&_); congruence|intros (_&?&_); congruence]
        | intros [(_ & _ & _ & s & H & _)|[-> _]]; congruence].
Qed.
