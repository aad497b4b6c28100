(** C95-C98: clear-sky models. *)
From Verif Require Import Base.Fl Base.FlFacts Base.Py Base.Trig Model.Atmosphere Model.Tools Model.Clearsky Spec.ToolsSpec Spec.ClearskySpec Proofs.ClearskyP Proofs.ClearskyT Proofs.ClearskyB Props.PTools.
From Coq Require Import Psatz Lia List ZArith.
Import ListNotations.
Open Scope R_scope.

(** ** C95: ineichen *)
(** the published model by day *)
Theorem C95_ghi : forall z m tl h i0 e, tl <> 0 -> (e = false \/ 0 < m) ->
  cs_ghi (ineichen #z #m #tl #h #i0 e) = #(ip_ghi e (Rmax (cosD z) 0) m tl h i0).
Proof. exact ineichen_ghi_fin. Qed.
Print Assumptions C95_ghi.
Theorem C95_dni : forall z m tl h i0 e, tl <> 0 -> (e = false \/ 0 < m) -> 0 < cosD z -> ln 2 <= tl ->
  cs_dni (ineichen #z #m #tl #h #i0 e) = #(ip_dni 1e20 e (cosD z) m tl h i0).
Proof. intros z m tl h i0 e H1 H2 H3 H4. apply ineichen_dni_day; try assumption. apply share_range, H4. Qed.
Print Assumptions C95_dni.
(** closure: global = diffuse + beam on the horizontal, at every zenith *)
Theorem C95_closure : forall z m tl h i0 e, tl <> 0 -> (e = false \/ 0 < m) -> exists g n d,
  cs_ghi (ineichen #z #m #tl #h #i0 e) = #g /\ cs_dni (ineichen #z #m #tl #h #i0 e) = #n /\ cs_dhi (ineichen #z #m #tl #h #i0 e) = #d /\
  g = d + n * Rmax (cosD z) 0.
Proof.
  intros z m tl h i0 e H1 H2. destruct (ineichen_fin z m tl h i0 e H1 H2) as (n & E & _ & D). eexists _, n, _.
  split; [apply ineichen_ghi_fin; assumption|]. split; [exact E|]. split; [exact D|ring].
Qed.
Print Assumptions C95_closure.
(** no component is negative (altitudes above -17 km, Linke turbidity at least ln 2; a clean dry atmosphere has 1) *)
Theorem C95_not_negative : forall z m tl h i0 e, (e = false \/ 0 < m) -> ln 2 <= tl -> 0 <= i0 -> -17000 <= h -> exists g n d,
  cs_ghi (ineichen #z #m #tl #h #i0 e) = #g /\ cs_dni (ineichen #z #m #tl #h #i0 e) = #n /\ cs_dhi (ineichen #z #m #tl #h #i0 e) = #d /\
  0 <= g /\ 0 <= n /\ 0 <= d.
Proof.
  intros z m tl h i0 e H2 Ht Hi Hh. assert (L2 : 0 < ln 2) by (rewrite <- ln_1; apply ln_increasing; lra). assert (H1 : tl <> 0) by lra.
  destruct (ineichen_fin z m tl h i0 e H1 H2) as (n & E & N & D). pose proof (ineichen_ghi_fin z m tl h i0 e H1 H2) as G.
  assert (PG : forall c, 0 <= c -> 0 <= ip_ghi e c m tl h i0) by (intros; apply ip_ghi_nonneg; assumption).
  destruct (Rle_dec (cosD z) 0) as [C|C].
  - specialize (N C). rewrite (Rmax_right (cosD z) 0) in G, D by lra. assert (Z : ip_ghi e 0 m tl h i0 = 0) by (unfold ip_ghi; ring). rewrite Z in G, D.
    assert (n = 0). { rewrite N. apply Rmin_right. apply Rmult_le_pos; [lra|apply Rmax_r]. } subst n.
    eexists _, _, _. split; [exact G|]. split; [exact E|]. split; [exact D|]. rewrite H. lra.
  - apply Rnot_le_lt in C. rewrite (Rmax_left (cosD z) 0) in G, D by lra.
    pose proof (ineichen_dni_day z m tl h i0 e H1 H2 C (proj1 (share_range tl h Ht))) as E'. rewrite E in E'. apply Fin_inj in E'.
    assert (S := share_range tl h Ht). specialize (PG (cosD z) ltac:(lra)).
    assert (Q : 0 <= ip_beam_share tl h / cosD z) by (apply Rmult_le_pos; [lra|left; apply Rinv_0_lt_compat; lra]).
    assert (QC : Rmin (ip_beam_share tl h / cosD z) 1e20 * cosD z <= 1).
    { apply Rle_trans with (ip_beam_share tl h / cosD z * cosD z); [apply Rmult_le_compat_r; [lra|apply Rmin_l]|]. replace (ip_beam_share tl h / cosD z * cosD z) with (ip_beam_share tl h) by (field; lra). lra. }
    assert (QP : 0 <= Rmin (ip_beam_share tl h / cosD z) 1e20) by (apply Rmin_glb; lra).
    eexists _, _, _. split; [exact G|]. split; [exact E|]. split; [exact D|]. split; [exact PG|].
    assert (B := ip_beam_nonneg m tl h i0 Hi). split.
    + rewrite E'. unfold ip_dni. apply Rmin_glb; [exact B|apply Rmult_le_pos; assumption].
    + assert (L : n <= ip_ghi e (cosD z) m tl h i0 * Rmin (ip_beam_share tl h / cosD z) 1e20) by (rewrite E'; apply Rmin_r).
      assert (n * cosD z <= ip_ghi e (cosD z) m tl h i0 * Rmin (ip_beam_share tl h / cosD z) 1e20 * cosD z) by (apply Rmult_le_compat_r; lra).
      assert (ip_ghi e (cosD z) m tl h i0 * (Rmin (ip_beam_share tl h / cosD z) 1e20 * cosD z) <= ip_ghi e (cosD z) m tl h i0 * 1) by (apply Rmult_le_compat_l; assumption). lra.
Qed.
Print Assumptions C95_not_negative.
(** Finding: below ln 2 the diffuse component can be negative *)
Theorem C95_diffuse_not_negative_refuted : exists d, cs_dhi (ineichen #0 #1 #0.1 #0 #1364 false) = #d /\ d < 0.
Proof.
  destruct (ineichen_fin 0 1 0.1 0 1364 false ltac:(lra) ltac:(left; reflexivity)) as (n & E & _ & D).
  assert (C0 : cosD 0 = 1) by apply cosD_0. rewrite C0, Rmax_left in D by lra. eexists. split; [exact D|].
  assert (Eh : exp (- 0 / 8000) = 1) by (replace (- 0 / 8000) with 0 by field; apply exp_0).
  assert (Eh' : exp (- 0 / 1250) = 1) by (replace (- 0 / 1250) with 0 by field; apply exp_0).
  assert (L : 0.9 < exp (Ropp 0.1)) by (pose proof (exp_ineq1 (Ropp 0.1) ltac:(lra)); lra).
  assert (S : 1 <= ip_beam_share 0.1 0).
  { unfold ip_beam_share. rewrite Eh. assert (ID : 1 <= / (0.1 + 0.882 / 1)) by (rewrite <- Rinv_1 at 1; apply Rinv_le_contravar; lra). unfold Rdiv at 1. set (i := / (0.1 + 0.882 / 1)) in *. assert (0 <= (0.2 * exp (Ropp 0.1) - 0.1) * (i - 1)) by (apply Rmult_le_pos; lra). lra. }
  pose proof (ineichen_dni_day 0 1 0.1 0 1364 false ltac:(lra) ltac:(left; reflexivity) ltac:(lra) ltac:(lra)) as E'. rewrite E in E'. apply Fin_inj in E'. rewrite C0 in E'.
  set (g := ip_ghi false 1 1 0.1 0 1364) in *.
  assert (G : 0 < g < 0.868 * 1364).
  { unfold g, ip_ghi. rewrite Eh, Eh'. assert (0 < exp (- (3.92e-05 * 0 + 0.0387) * 1 * (1 + 1 * (0.1 - 1))) < 1) by (split; [apply exp_pos|apply Rlt_le_trans with (exp 0); [apply exp_increasing; lra|rewrite exp_0; lra]]). cbv iota. lra. }
  assert (B : 0.89 * 1364 < ip_beam 1 0.1 0 1364).
  { unfold ip_beam. rewrite Eh. pose proof (exp_ineq1 (-0.09 * 1 * (0.1 - 1)) ltac:(lra)). set (exp _) in *. lra. }
  assert (Q : 1 <= Rmin (ip_beam_share 0.1 0 / 1) 1e20) by (apply Rmin_glb; lra).
  assert (K : g < n \/ n = g * Rmin (ip_beam_share 0.1 0 / 1) 1e20).
  { rewrite E'. unfold ip_dni. fold g. unfold Rmin at 1 3. destruct Rle_dec; [left; lra|right; reflexivity]. }
  destruct K as [K|K]; [lra|].
  assert (S' : 1.08 < Rmin (ip_beam_share 0.1 0 / 1) 1e20).
  { apply Rmin_glb_lt; [|lra]. unfold ip_beam_share. rewrite Eh. assert (ID : 1 <= / (0.1 + 0.882 / 1)) by (rewrite <- Rinv_1 at 1; apply Rinv_le_contravar; lra). unfold Rdiv at 1. set (i := / (0.1 + 0.882 / 1)) in *. assert (0 <= (0.2 * exp (Ropp 0.1) - 0.1) * (i - 1)) by (apply Rmult_le_pos; lra). lra. }
  assert (g * 1.08 < n) by (rewrite K; apply Rmult_lt_compat_l; lra). lra.
Qed.
Print Assumptions C95_diffuse_not_negative_refuted.
(** at night everything is zero *)
Theorem C95_night : forall z m tl h i0 e, tl <> 0 -> (e = false \/ 0 < m) -> 0 <= i0 -> cosD z <= 0 ->
  ineichen #z #m #tl #h #i0 e = {| cs_ghi := #0; cs_dni := #0; cs_dhi := #0 |}.
Proof.
  intros z m tl h i0 e H1 H2 Hi C. destruct (ineichen_fin z m tl h i0 e H1 H2) as (n & E & N & D). pose proof (ineichen_ghi_fin z m tl h i0 e H1 H2) as G.
  specialize (N C). rewrite (Rmax_right (cosD z) 0) in G, D by lra. assert (Z : ip_ghi e 0 m tl h i0 = 0) by (unfold ip_ghi; ring). rewrite Z in G, D.
  assert (n = 0). { rewrite N. apply Rmin_right. apply Rmult_le_pos; [lra|apply Rmax_r]. } subst n. rewrite H in E, D. replace (0 - 0 * 0) with 0 in D by ring.
  destruct (ineichen _ _ _ _ _ _) as [a b c]. cbn [cs_ghi cs_dni cs_dhi] in *. subst. reflexivity.
Qed.
Print Assumptions C95_night.
(** a missing airmass (sun below the horizon) gives zeros, a missing turbidity, zenith, altitude or dni_extra gives nan *)
Theorem C95_nan_airmass : forall z tl h i0 e, tl <> 0 -> 0 <= i0 ->
  ineichen #z NaN #tl #h #i0 e = {| cs_ghi := #0; cs_dni := #0; cs_dhi := #0 |}.
Proof. exact ineichen_nan_airmass. Qed.
Print Assumptions C95_nan_airmass.
Theorem C95_nan_propagates : forall z m tl h i0 e, (z = NaN \/ tl = NaN \/ h = NaN \/ i0 = NaN) -> ineichen z m tl h i0 e = {| cs_ghi := NaN; cs_dni := NaN; cs_dhi := NaN |}.
Proof. exact ineichen_nan. Qed.
Print Assumptions C95_nan_propagates.
(** more turbidity, less global and beam irradiance *)
Theorem C95_decreasing_in_turbidity : forall z m tl tl' h i0 e, (e = false \/ 0 < m) -> ln 2 <= tl -> tl <= tl' -> 0 <= i0 -> -900 <= h -> 0 <= m -> 0 < cosD z ->
  exists g n g' n', cs_ghi (ineichen #z #m #tl #h #i0 e) = #g /\ cs_dni (ineichen #z #m #tl #h #i0 e) = #n /\
    cs_ghi (ineichen #z #m #tl' #h #i0 e) = #g' /\ cs_dni (ineichen #z #m #tl' #h #i0 e) = #n' /\ g' <= g /\ n' <= n.
Proof.
  intros z m tl tl' h i0 e H2 Ht Ht' Hi Hh Hm C. assert (L2 : 0 < ln 2) by (rewrite <- ln_1; apply ln_increasing; lra).
  eexists _, _, _, _. rewrite !C95_ghi, !C95_dni by (assumption || lra). split; [reflexivity|]. split; [reflexivity|]. split; [reflexivity|]. split; [reflexivity|].
  rewrite Rmax_left by lra. assert (G := ip_ghi_decreasing e (cosD z) m tl tl' h i0 ltac:(lra) Hi Hh Hm Ht'). split; [exact G|].
  assert (PG := ip_ghi_nonneg e (cosD z) m tl' h i0 ltac:(lra) Hi ltac:(lra)). assert (B := ip_beam_decreasing m tl tl' h i0 Hi Hm Ht').
  assert (S := share_decreasing tl tl' h Ht'). assert (S1 := share_range tl' h ltac:(lra)).
  assert (IC : 0 < / cosD z) by (apply Rinv_0_lt_compat; lra).
  assert (Q : Rmin (ip_beam_share tl' h / cosD z) 1e20 <= Rmin (ip_beam_share tl h / cosD z) 1e20).
  { apply Rle_min_compat_r. apply Rmult_le_compat_r; lra. }
  assert (QP : 0 <= Rmin (ip_beam_share tl' h / cosD z) 1e20) by (apply Rmin_glb; [apply Rmult_le_pos; lra|lra]).
  unfold ip_dni. assert (M : ip_ghi e (cosD z) m tl' h i0 * Rmin (ip_beam_share tl' h / cosD z) 1e20 <= ip_ghi e (cosD z) m tl h i0 * Rmin (ip_beam_share tl h / cosD z) 1e20) by (apply Rmult_le_compat; assumption).
  apply Rmin_glb; [eapply Rle_trans; [apply Rmin_l|exact B]|eapply Rle_trans; [apply Rmin_r|exact M]].
Qed.
Print Assumptions C95_decreasing_in_turbidity.
Example C95_nonvacuous : 0 < cosD 40 /\ ln 2 <= 3.
Proof. split; [apply cosD_pos; lra|]. assert (ln 2 < 2 - 1 + 0.5). { assert (exp (ln 2) = 2) by (apply exp_ln; lra). pose proof (exp_ineq1_le (ln 2)). lra. } lra. Qed.

(** ** C96: lookup_linke_turbidity *)
(** without interpolation: a twentieth of the stored value of the cell nearest to the site and the month *)
Theorem C96_monthly : forall table lat lon leap day month, -90 <= lat <= 90 -> -180 <= lon <= 180 -> (1 <= month <= 12)%nat ->
  exists i j, (0 <= i <= 2159)%Z /\ (0 <= j <= 4319)%Z /\ Rabs (lat_centre i - lat) <= 1 / 24 /\ Rabs (lon_centre j - lon) <= 1 / 24 /\
  lookup_linke_turbidity table #lat #lon false leap day month = Ok (nth (month - 1) (table i j) 0 / 20).
Proof.
  intros table lat lon leap day month Ha Ho Hm. destruct (C35_latitude_nearest_cell lat Ha) as (i & Ei & Ri & Ci). destruct (C35_longitude_nearest_cell lon Ho) as (j & Ej & Rj & Cj).
  exists i, j. repeat (split; [assumption || apply Ri || apply Rj|]). unfold lookup_linke_turbidity. rewrite Ei, Ej. reflexivity.
Qed.
Print Assumptions C96_monthly.
(** with interpolation: on the straight line between the values at the two neighbouring middles of months, the last December and the next January included *)
Theorem C96_interpolated : forall table lat lon leap day month, -90 <= lat <= 90 -> -180 <= lon <= 180 ->
  exists i j, (0 <= i <= 2159)%Z /\ (0 <= j <= 4319)%Z /\ Rabs (lat_centre i - lat) <= 1 / 24 /\ Rabs (lon_centre j - lon) <= 1 / 24 /\
  (length (table i j) = 12%nat ->
   let v k := nth k (table i j) 0 in let mid := middle_of_month leap in
   exists t, lookup_linke_turbidity table #lat #lon true leap day month = Ok (t / 20) /\
   (forall k, (k < 11)%nat -> mid k <= day <= mid (S k) -> t = on_line (mid k) (v k) (mid (S k)) (v (S k)) day) /\
   (mid 11%nat - days_in_year leap <= day <= mid 0%nat -> t = on_line (mid 11%nat - days_in_year leap) (v 11%nat) (mid 0%nat) (v 0%nat) day) /\
   (mid 11%nat <= day <= mid 0%nat + days_in_year leap -> t = on_line (mid 11%nat) (v 11%nat) (mid 0%nat + days_in_year leap) (v 0%nat) day)).
Proof.
  intros table lat lon leap day month Ha Ho. destruct (C35_latitude_nearest_cell lat Ha) as (i & Ei & Ri & Ci). destruct (C35_longitude_nearest_cell lon Ho) as (j & Ej & Rj & Cj).
  exists i, j. repeat (split; [assumption || apply Ri || apply Rj|]). intros L. cbn zeta. unfold lookup_linke_turbidity. rewrite Ei, Ej. cbn [bind]. exists (interpolate_turbidity (table i j) leap day). split; [reflexivity|].
  rewrite turbidity_where. destruct (lts14_facts _ L) as (L14 & F0 & F13 & F). set (ys := lts14 (table i j)) in *.
  assert (SEG : forall k, (k < 13)%nat -> nth k (calendar_month_middles leap) 0 <= day <= nth (S k) (calendar_month_middles leap) 0 ->
    np_interp day (calendar_month_middles leap) ys = on_line (nth k (calendar_month_middles leap) 0) (nth k ys 0) (nth (S k) (calendar_month_middles leap) 0) (nth (S k) ys 0) day).
  { intros k Hk Hd. rewrite (np_interp_seg _ ys day k) by (rewrite ?middles_length; [lia|apply middles_ascend|lia|exact Hd] || (rewrite ?middles_length; try lia; try apply middles_ascend; exact Hd)). unfold on_line, Rdiv. ring. }
  assert (M11 : middle_of_month leap 11 - days_in_year leap = - 31 / 2) by (destruct leap; unfold days_in_year; mm; lra).
  assert (M0 : middle_of_month leap 0 + days_in_year leap = (if leap then 366 else 365) + 31 / 2) by (destruct leap; unfold days_in_year; mm; lra).
  split; [|split].
  - intros k Hk Hd. rewrite (SEG (S k)) by (try lia; rewrite !middles_nth by lia; exact Hd). rewrite !middles_nth by lia. rewrite !F by lia. reflexivity.
  - intros Hd. rewrite M11 in *. rewrite (SEG 0%nat) by (try lia; rewrite middles_first, middles_nth by lia; exact Hd). rewrite middles_first, middles_nth, F0, F by lia. reflexivity.
  - intros Hd. rewrite M0 in *. rewrite (SEG 12%nat) by (try lia; rewrite middles_last, middles_nth by lia; exact Hd). rewrite middles_last, middles_nth, F13, F by lia. reflexivity.
Qed.
Print Assumptions C96_interpolated.
(** the series has no jump at New Year: counting days on into the next year gives the next year's values *)
Theorem C96_continuous_over_new_year : forall table lat lon leap leap' month month' t, -90 <= lat <= 90 -> -180 <= lon <= 180 -> - 31 / 2 <= t <= 31 / 2 ->
  (forall i j, length (table i j) = 12%nat) ->
  lookup_linke_turbidity table #lat #lon true leap (days_in_year leap + t) month = lookup_linke_turbidity table #lat #lon true leap' t month'.
Proof.
  intros table lat lon leap leap' month month' t Ha Ho Ht L. destruct (C35_latitude_nearest_cell lat Ha) as (i & Ei & _). destruct (C35_longitude_nearest_cell lon Ho) as (j & Ej & _).
  unfold lookup_linke_turbidity. rewrite Ei, Ej. cbn [bind]. f_equal. f_equal. rewrite !turbidity_where. destruct (lts14_facts _ (L i j)) as (L14 & F0 & F13 & F).
  assert (M0 : forall b, middle_of_month b 0 = 31 / 2) by (intros []; mm; lra). assert (M11 : middle_of_month leap 11 = days_in_year leap - 31 / 2) by (destruct leap; unfold days_in_year; mm; lra).
  rewrite (np_interp_seg (calendar_month_middles leap) _ (days_in_year leap + t) 12) by (rewrite ?middles_length; try lia; try apply middles_ascend; rewrite middles_last, middles_nth, M11 by lia; unfold days_in_year; destruct leap; lra).
  rewrite (np_interp_seg (calendar_month_middles leap') _ t 0) by (rewrite ?middles_length; try lia; try apply middles_ascend; rewrite middles_first, middles_nth, M0 by lia; lra).
  rewrite middles_first, middles_last, !middles_nth, M0, M11, F0, F13, !F by lia. unfold days_in_year. destruct leap; field.
Qed.
Print Assumptions C96_continuous_over_new_year.
(** never outside the range of the stored values, whatever the day *)
Theorem C96_within_stored_range : forall table lat lon interp leap day month lo hi t, (1 <= month <= 12)%nat -> (forall i j, length (table i j) = 12%nat) ->
  (forall i j k, (k < 12)%nat -> lo <= nth k (table i j) 0 <= hi) ->
  lookup_linke_turbidity table lat lon interp leap day month = Ok t -> lo / 20 <= t <= hi / 20.
Proof.
  intros table lat lon interp leap day month lo hi t Hm L B E. unfold lookup_linke_turbidity in E. destruct (degrees_to_index lat Latitude) as [i|]; [|discriminate]. destruct (degrees_to_index lon Longitude) as [j|]; [|discriminate].
  cbn [bind] in E. assert (t = (if interp then interpolate_turbidity (table i j) leap day else nth (month - 1) (table i j) 0) / 20) as -> by congruence.
  assert (K : lo <= (if interp then interpolate_turbidity (table i j) leap day else nth (month - 1) (table i j) 0) <= hi); [|lra].
  destruct interp; [|apply B; lia]. rewrite turbidity_where. destruct (lts14_facts _ (L i j)) as (L14 & F0 & F13 & F).
  apply np_interp_bounds; [apply middles_ascend|intros N; pose proof (middles_length leap) as Q; rewrite N in Q; discriminate|intros N; rewrite N in L14; discriminate|].
  apply Forall_forall. intros y Hy. apply (In_nth _ _ 0) in Hy. destruct Hy as (k & Hk & <-). rewrite L14 in Hk. destruct k as [|k]; [rewrite F0; apply B; lia|].
  destruct (Nat.eq_dec k 12) as [->|N]; [rewrite F13; apply B; lia|rewrite F by lia; apply B; lia].
Qed.
Print Assumptions C96_within_stored_range.
(** refused exactly outside the globe (with the margin of the coordinate conversion) *)
Theorem C96_raises_iff_off_the_globe : forall table lat lon interp leap day month,
  lookup_linke_turbidity table #lat #lon interp leap day month = Err ValueError <->
  (lat < -90 - 0.000001 / 12 \/ 90 + 0.000001 / 12 < lat) \/ (lon < -180 - 0.000001 / 12 \/ 180 + 0.000001 / 12 < lon).
Proof.
  intros. destruct (C35_out_of_range_raises lat) as [A _]. destruct (C35_out_of_range_raises lon) as [_ O]. rewrite <- A, <- O. unfold lookup_linke_turbidity.
  destruct (degrees_to_index #lat Latitude) as [i|e] eqn:E1; cbn [bind].
  - destruct (degrees_to_index #lon Longitude) as [j|e'] eqn:E2; cbn [bind]; [split; [discriminate|intros [E | E]; discriminate]|].
    rewrite (degrees_index_error _ _ _ E2). split; [intros _; right; reflexivity|reflexivity].
  - rewrite (degrees_index_error _ _ _ E1). split; [intros _; left; reflexivity|reflexivity].
Qed.
Print Assumptions C96_raises_iff_off_the_globe.
Example C96_nonvacuous : middle_of_month false 0 <= 20 <= middle_of_month false 1 /\ middle_of_month true 11 <= 366 /\ length (repeat 60 12) = 12%nat.
Proof. repeat split; try (mm; lra). Qed.

(** ** C97: haurwitz and simplified_solis *)
Theorem C97_haurwitz : forall z, haurwitz #z = #(if Rlt_dec 0 (cosD z) then 1098 * cosD z * exp (-0.059 / cosD z) else 0).
Proof. intros z. destruct Rlt_dec; [apply haurwitz_day|apply haurwitz_night]; lra. Qed.
Print Assumptions C97_haurwitz.
Theorem C97_haurwitz_bounds : forall z, exists g, haurwitz #z = #g /\ 0 <= g <= 1098 * Rmax (cosD z) 0.
Proof.
  intros z. eexists. split; [apply C97_haurwitz|]. destruct Rlt_dec as [H|H]; [|rewrite Rmax_right by lra; lra]. rewrite Rmax_left by lra.
  assert (E : exp (-0.059 / cosD z) <= 1). { apply exp_le1. assert (0 < / cosD z) by (apply Rinv_0_lt_compat, H). unfold Rdiv. lra. }
  pose proof (exp_pos (-0.059 / cosD z)). set (e := exp _) in *. split; [apply Rmult_le_pos; lra|]. assert (0 <= 1098 * cosD z * (1 - e)) by (apply Rmult_le_pos; lra). lra.
Qed.
Print Assumptions C97_haurwitz_bounds.
Theorem C97_haurwitz_higher_sun_brighter : forall z z', 0 <= z -> z <= z' -> z' <= 180 -> exists g g', haurwitz #z = #g /\ haurwitz #z' = #g' /\ g' <= g.
Proof.
  intros z z' H0 H1 H2. eexists _, _. split; [apply C97_haurwitz|]. split; [apply C97_haurwitz|]. pose proof (cosD_decr z z' H0 H1 H2).
  destruct (Rlt_dec 0 (cosD z')) as [C|C]; destruct (Rlt_dec 0 (cosD z)) as [D|D]; try lra; [apply haurwitz_mono; lra|].
  pose proof (exp_pos (-0.059 / cosD z)). apply Rmult_le_pos; lra.
Qed.
Print Assumptions C97_haurwitz_higher_sun_brighter.
(** Finding: a missing zenith gives zero, not nan *)
Theorem C97_haurwitz_nan_kept_refuted : haurwitz NaN = #0.
Proof. reflexivity. Qed.
Print Assumptions C97_haurwitz_nan_kept_refuted.
(** the published simplified Solis model; precipitable water is floored at 0.2 cm, the sine of elevation at 1e-30 *)
Theorem C97_solis : forall el aod pw pr i0, 0 <= aod -> 0 < pr ->
  let w := Rmax pw 0.2 in let lp := ln (pr / 101325) in let s := Rmax 1e-30 (sinD el) in
  let '(i, tb, tg, td) := solis_optical_depths w aod lp in let '(b, g, d) := solis_exponents w aod lp in
  simplified_solis #el #aod #pw #pr #i0 =
  {| cs_ghi := #(i0 * i * exp (- tg / Rpower s g) * s); cs_dni := #(i0 * i * exp (- tb / Rpower s b)); cs_dhi := #(i0 * i * exp (- td / Rpower s d)) |}.
Proof. intros el aod pw pr i0 Ha Hp. exact (solis_fin el aod pw pr i0 Ha Hp). Qed.
Print Assumptions C97_solis.
Theorem C97_solis_not_negative : forall el aod pw pr i0, 0 <= aod -> 101325 / 15 <= pr -> 0 <= i0 -> exists g n d,
  simplified_solis #el #aod #pw #pr #i0 = {| cs_ghi := #g; cs_dni := #n; cs_dhi := #d |} /\ 0 <= g /\ 0 <= n /\ 0 <= d.
Proof.
  intros el aod pw pr i0 Ha Hp Hi. pose proof (solis_i0p_nonneg aod pw pr i0 Ha Hi Hp) as P. eexists _, _, _. split; [apply solis_fin; lra|].
  pose proof (Rmax_l 1e-30 (sinD el)). cbn zeta in P. set (i0p := i0 * fst (fst (fst (solis_optical_depths (Rmax pw 0.2) aod (ln (pr / 101325)))))) in *. repeat split; repeat (exact P || (left; apply exp_pos) || apply Rmult_le_pos); lra.
Qed.
Print Assumptions C97_solis_not_negative.
(** below the horizon the result no longer depends on the elevation, and ghi is at most 1e-30 of the irradiance entering *)
Theorem C97_solis_night : forall el el' aod pw pr i0, sinD el <= 1e-30 -> sinD el' <= 1e-30 ->
  simplified_solis #el #aod #pw #pr #i0 = simplified_solis #el' #aod #pw #pr #i0.
Proof.
  intros. unfold simplified_solis. rewrite !fradians_fin, !fsin_fin, !(fmax_fin 1e-30). change (sin (Rrad el)) with (sinD el). change (sin (Rrad el')) with (sinD el'). rewrite (Rmax_left 1e-30 (sinD el)), (Rmax_left 1e-30 (sinD el')) by assumption. reflexivity.
Qed.
Print Assumptions C97_solis_night.
(** dry air is treated as 0.2 cm of water *)
Theorem C97_solis_water_floor : forall el aod pw pr i0, pw <= 0.2 -> simplified_solis el aod #pw pr i0 = simplified_solis el aod #0.2 pr i0.
Proof. intros. unfold simplified_solis. rewrite !fmax_fin, Rmax_right, (Rmax_right 0.2) by lra. reflexivity. Qed.
Print Assumptions C97_solis_water_floor.
(** a missing aerosol, water, pressure or extraterrestrial input makes all three components missing; a missing elevation makes ghi missing *)
Theorem C97_solis_nan : forall el aod pw pr i0, (aod = NaN \/ pw = NaN \/ pr = NaN \/ i0 = NaN) ->
  simplified_solis el aod pw pr i0 = {| cs_ghi := NaN; cs_dni := NaN; cs_dhi := NaN |}.
Proof. exact solis_nan. Qed.
Print Assumptions C97_solis_nan.
Theorem C97_solis_nan_elevation : forall aod pw pr i0, cs_ghi (simplified_solis NaN aod pw pr i0) = NaN.
Proof. exact solis_nan_elevation. Qed.
Print Assumptions C97_solis_nan_elevation.
Example C97_nonvacuous : 0 < cosD 30 /\ 101325 / 15 <= 80000 /\ sinD (-30) <= 1e-30.
Proof. split; [apply cosD_pos; lra|]. split; [lra|]. assert (H : sinD (-30) <= sinD 0) by (apply sinD_incr; lra). rewrite sinD_0 in H. lra. Qed.

(** ** C98: bird *)
Definition bird_published (z m a380 a500 pw oz pr i0 asym alb : R) : R * R * R :=
  let aod := 0.27583 * a380 + 0.35 * a500 in let m' := m * pr / 101325 in
  let ta := bird_aerosol aod m in let taa := bird_absorption m ta in let rs := 0.0685 + (1 - asym) * (1 - ta / taa) in
  let beam := 0.9662 * i0 * ta * bird_water (m * pw) * bird_gases m' * bird_ozone (oz * m) * bird_rayleigh m' in
  let cz := if Rlt_dec z 90 then cosD z else 0 in
  let scattered := i0 * cz * 0.79 * bird_ozone (oz * m) * bird_gases m' * bird_water (m * pw) * taa *
     (0.5 * (1 - bird_rayleigh m') + asym * (1 - ta / taa)) / (1 - m + Rpower m 1.02) in
  (beam, beam * cz, (beam * cz + scattered) / (1 - alb * rs)).
(** the published model for every sun position, with the closure ghi = dhi + direct horizontal *)
Theorem C98_published_model : forall z m a380 a500 pw oz pr i0 asym alb,
  0 < m <= 36 -> 0 < pr -> 0 < 0.27583 * a380 + 0.35 * a500 -> 0 <= pw -> 0 <= oz -> 0 <= asym <= 1 -> 0 <= alb <= 0.9 ->
  let '(dni, direct, ghi) := bird_published z m a380 a500 pw oz pr i0 asym alb in
  bird #z #m #a380 #a500 #pw #oz #pr #i0 #asym #alb = {| bd_direct_horizontal := #direct; bd_ghi := #ghi; bd_dni := #dni; bd_dhi := #(ghi - direct) |}.
Proof.
  intros z m a380 a500 pw oz pr i0 asym alb Hm Hp Ha Hw Ho Hs Hb. apply bird_fin; try lra.
  - pose proof (taa_range m a380 a500 ltac:(lra) Ha ltac:(lra)). pose proof (ta_range m a380 a500 Ha). lra.
  - pose proof (den_range m a380 a500 asym alb ltac:(lra) Ha ltac:(lra) Hs Hb). lra.
Qed.
Print Assumptions C98_published_model.
(** no component is negative and beam is at most 96.62 % of the extraterrestrial irradiance, for absolute airmass up to 29 *)
Theorem C98_ranges : forall z m a380 a500 pw oz pr i0 asym alb,
  0 <= z -> 0 < m <= 36 -> 0 < pr -> m * pr / 101325 <= 29 -> 0 < 0.27583 * a380 + 0.35 * a500 -> 0 <= pw -> 0 <= oz -> oz * m <= 6 -> 0 <= i0 -> 0 <= asym <= 1 -> 0 <= alb <= 0.9 ->
  exists h g n d, bird #z #m #a380 #a500 #pw #oz #pr #i0 #asym #alb = {| bd_direct_horizontal := #h; bd_ghi := #g; bd_dni := #n; bd_dhi := #d |} /\
  0 <= n <= 0.9662 * i0 /\ 0 <= h <= g /\ 0 <= d /\ g = h + d.
Proof.
  intros z m a380 a500 pw oz pr i0 asym alb Hz Hm Hp Hl Ha Hw Ho Hx Hi Hs Hb. pose proof (C98_published_model z m a380 a500 pw oz pr i0 asym alb Hm Hp Ha Hw Ho Hs Hb) as E. cbn zeta in E. unfold bird_published in E.
  eexists _, _, _, _. split; [exact E|].
  pose proof (beam_range m a380 a500 pw oz pr i0 ltac:(lra) Hp Ha Hw Ho Hl Hx Hi) as B.
  pose proof (bird_gh z m a380 a500 pw oz pr i0 asym alb ltac:(lra) Hp Ha Hw Ho ltac:(lra) Hl Hx Hi Hs Hb Hz) as G. cbn zeta in B, G.
  split; [exact B|]. split; [exact G|]. split; [lra|ring].
Qed.
Print Assumptions C98_ranges.
(** with the sun at or below the horizon the horizontal components are zero (the beam component is not) *)
Theorem C98_night : forall z m a380 a500 pw oz pr i0 asym alb, 90 <= z ->
  0 < m <= 36 -> 0 < pr -> 0 < 0.27583 * a380 + 0.35 * a500 -> 0 <= pw -> 0 <= oz -> 0 <= asym <= 1 -> 0 <= alb <= 0.9 ->
  exists n, bird #z #m #a380 #a500 #pw #oz #pr #i0 #asym #alb = {| bd_direct_horizontal := #0; bd_ghi := #0; bd_dni := #n; bd_dhi := #0 |}.
Proof.
  intros z m a380 a500 pw oz pr i0 asym alb Hz Hm Hp Ha Hw Ho Hs Hb. pose proof (C98_published_model z m a380 a500 pw oz pr i0 asym alb Hm Hp Ha Hw Ho Hs Hb) as E. cbn zeta in E. unfold bird_published in E.
  destruct (Rlt_dec z 90) as [L|L]; [lra|]. rewrite E. eexists. f_equal; f_equal; unfold Rdiv; ring.
Qed.
Print Assumptions C98_night.
(** Finding: near the horizon (relative airmass 32 at sea level) Rayleigh transmittance exceeds one, and in dry, almost aerosol-free air beam
    irradiance exceeds the extraterrestrial irradiance *)
Theorem C98_beam_below_extraterrestrial_refuted : forall z i0 asym alb, 0 < i0 -> 0 <= asym <= 1 -> 0 <= alb <= 0.9 ->
  exists n, bd_dni (bird #z #32 #0 #(1 / 100000000) #0 #0 #101325 #i0 #asym #alb) = #n /\ 1.02 * i0 < n.
Proof.
  intros z i0 asym alb Hi Hs Hb. pose proof (C98_published_model z 32 0 (1 / 100000000) 0 0 101325 i0 asym alb ltac:(lra) ltac:(lra) ltac:(lra) ltac:(lra) ltac:(lra) Hs Hb) as E.
  unfold bird_published in E. rewrite E. eexists. split; [reflexivity|]. cbn [bd_dni]. clear E.
  replace (32 * 101325 / 101325) with 32 by field. pose proof rayleigh_32 as R1. pose proof gases_32 as R2. pose proof (aerosol_32 (0.27583 * 0 + 0.35 * (1 / 100000000)) ltac:(lra)) as R3.
  assert (W : bird_water (32 * 0) = 1) by (unfold bird_water; rewrite !Rmult_0_r; unfold Rdiv; rewrite Rmult_0_l; ring).
  assert (O : bird_ozone (0 * 32) = 1) by (unfold bird_ozone; rewrite !Rmult_0_l, !Rmult_0_r; unfold Rdiv; rewrite !Rmult_0_l; ring).
  rewrite W, O. set (r := bird_rayleigh _) in *. set (g := bird_gases _) in *. set (a := bird_aerosol _ _) in *.
  assert (0 < (a - 0.996) * (g - 0.949)) by (apply Rmult_lt_0_compat; lra). assert (A : 0.945 < a * g) by lra.
  assert (0 < (a * g - 0.945) * (r - 1.13)) by (apply Rmult_lt_0_compat; lra). assert (B : 1.0678 < a * g * r) by lra.
  assert (0 < i0 * (a * g * r - 1.0678)) by (apply Rmult_lt_0_compat; lra). lra.
Qed.
Print Assumptions C98_beam_below_extraterrestrial_refuted.
(** a missing airmass (sun below the horizon) makes every component missing *)
Theorem C98_nan_airmass : forall z a380 a500 pw oz pr i0 asym alb,
  bird z NaN a380 a500 pw oz pr i0 asym alb = {| bd_direct_horizontal := NaN; bd_ghi := NaN; bd_dni := NaN; bd_dhi := NaN |}.
Proof. exact bird_nan_airmass. Qed.
Print Assumptions C98_nan_airmass.
Example C98_nonvacuous : 0 < 0.27583 * 0.15 + 0.35 * 0.1 /\ 0.3 * 5 <= 6 /\ 5 * 101325 / 101325 <= 29.
Proof. repeat split; lra. Qed.
