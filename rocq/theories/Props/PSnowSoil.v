(** C29-C33: snow and soiling. *)
From Verif Require Import Base.Fl Base.FlFacts Base.Py Base.Series Model.Snow Model.Soiling Spec.SeriesSpec
  Proofs.SnowSoil.
Open Scope R_scope.

(** ** C29.  [rows] is any weather series; [depths ud rows] passes snow_depth or None. *)
Theorem C29_coverage_follows_recurrence : forall ud ts td cs coef tilt init freq rows,
  (3 <= length rows)%nat -> increasing (map w_time rows) -> 0 <= coef * sinD tilt ->
  coverage_nrel (map w_time rows) (map w_snow rows) (map w_poa rows) (map w_temp rows) tilt (depths ud rows)
    init ts td cs coef freq
  = Ok (snow_recurrence init (snow_rows ud ts td cs (coef * sinD tilt) freq rows)).
Proof. exact coverage_is_recurrence. Qed.
Print Assumptions C29_coverage_follows_recurrence.
Theorem C29_coverage_is_fraction : forall ud ts td cs coef tilt init freq rows out,
  (3 <= length rows)%nat -> increasing (map w_time rows) -> 0 <= coef * sinD tilt -> 0 <= init <= 1 ->
  coverage_nrel (map w_time rows) (map w_snow rows) (map w_poa rows) (map w_temp rows) tilt (depths ud rows)
    init ts td cs coef freq = Ok out ->
  length out = length rows /\ Forall (fun c => 0 <= c <= 1) out /\
  (forall i, (S i < length rows)%nat -> nth (S i) out 0 <= nth i out 0 \/ nth (S i) out 0 = 1).
Proof.
  intros ud ts td cs coef tilt init freq rows out Hl Hi Hk Hc E. rewrite coverage_is_recurrence in E by assumption.
  injection E as <-. set (sr := snow_rows ud ts td cs (coef * sinD tilt) freq rows).
  pose proof (snow_rows_pos ud ts td cs _ freq rows Hi Hk) as HP. fold sr in HP.
  pose proof (snow_rec_range init sr Hc HP) as HR.
  assert (HL : length sr = length rows) by apply snow_rows_length.
  split; [rewrite snow_rec_length; exact HL|]. split; [exact HR|].
  intros i Hi'. destruct (nth_error sr (S i)) as [[b s]|] eqn:EN.
  - rewrite (snow_rec_step init sr i b s 0 EN). destruct b; [right; reflexivity|left].
    apply nth_error_In in EN. rewrite Forall_forall in HP. apply HP in EN. simpl in EN.
    rewrite Forall_forall in HR. assert (0 <= nth i (snow_recurrence init sr) 0 <= 1)
      by (apply HR, nth_In; rewrite snow_rec_length; lia). rmm; lra.
  - apply nth_error_None in EN. lia.
Qed.
Print Assumptions C29_coverage_is_fraction.
Theorem C29_too_short_raises : forall times snow poa temp tilt depth init ts td cs coef freq,
  (length times < 3)%nat ->
  coverage_nrel times snow poa temp tilt depth init ts td cs coef freq = Err ValueError.
Proof.
  intros. unfold coverage_nrel, fully_covered_nrel. destruct (Nat.ltb_spec (length times) 3); [reflexivity|lia].
Qed.
Print Assumptions C29_too_short_raises.
(** a storm, an hour of sliding, then bare ground; the hypotheses hold and the coverage is 1, 0.803.., 0 *)
Definition storm : list weather :=
  [Weather 0 #2 #0 #(-5) #10; Weather 1 #0 #800 #5 #10; Weather 2 #0 #0 #(-50) #10; Weather 3 #0 #0 #0 #0.5].
Example C29_storm : coverage_nrel (map w_time storm) (map w_snow storm) (map w_poa storm) (map w_temp storm) 90
    (depths true storm) 0 #1 #1 #(-80) 0.197 (Some 1) = Ok [1; 0.803; 0.803; 0].
Proof.
  rewrite C29_coverage_follows_recurrence.
  - rewrite sinD_90. unfold storm, snow_rows, snow_rows_after, new_snow, bare, deep, slides.
    cbn [w_time w_snow w_poa w_temp w_depth negb orb andb].
    rewrite !fdiv_fin by lra. unfold fltb, fleb.
    rdec. cbn [andb snow_recurrence]. f_equal.
    repeat (apply (f_equal2 cons); [try reflexivity; rmm; lra|]). reflexivity.
  - simpl; lia.
  - simpl; lra.
  - rewrite sinD_90; lra.
Qed.

(** ** C30 *)
Theorem C30_loss_is_least_multiple : forall c n, (0 < n)%Z ->
  exists k, dc_loss_nrel #c #(IZR n) = #(IZR k / IZR n) /\ (forall j, c <= IZR j / IZR n <-> (k <= j)%Z).
Proof. intros c n H. apply dc_loss_spec. apply (IZR_lt 0 n H). Qed.
Print Assumptions C30_loss_is_least_multiple.
Theorem C30_loss_is_fraction : forall c n, 0 <= c <= 1 -> (0 < n)%Z ->
  exists x, dc_loss_nrel #c #(IZR n) = #x /\ c <= x /\ 0 <= x <= 1.
Proof. exact dc_loss_range. Qed.
Print Assumptions C30_loss_is_fraction.
Theorem C30_nan : forall n, dc_loss_nrel NaN n = NaN.
Proof. intros [r| | |]; reflexivity. Qed.
Print Assumptions C30_nan.
Example C30_half_of_eight : dc_loss_nrel #0.4 #8 = #(4 / 8).
Proof.
  destruct (C30_loss_is_least_multiple 0.4 8) as (k & E & S); [lia|]. rewrite E.
  assert (k <= 4)%Z by (apply S; lra).
  assert (~ (k <= 3)%Z) by (intros Hk; apply S in Hk; lra).
  replace k with 4%Z by lia. reflexivity.
Qed.

(** ** C31 *)
Theorem C31_fraction_every_month : forall months a b c d e,
  length (loss_townsend months a b c d e) = length months /\
  Forall (within #0 #1) (loss_townsend months a b c d e).
Proof.
  intros. unfold loss_townsend. split; [apply zip_length, roll1_length|].
  apply Forall_forall. intros x Hx. apply In_nth_error in Hx as [i Hi]. rewrite zip_nth in Hi.
  destruct (nth_error (roll1 months) i), (nth_error months i); try discriminate.
  injection Hi as <-. apply townsend_range.
Qed.
Print Assumptions C31_fraction_every_month.
(** month i uses month i-1; the first month uses the last *)
Definition previous (n i : nat) : nat := match i with O => n - 1 | S j => j end.
Theorem C31_published_equation : forall months slant edge sf rep ff i pt pe ptilt prh ptemp ppoa t e tilt rh temp poa,
  nth_error months i = Some (fmonth t e tilt rh temp poa) ->
  nth_error months (previous (length months) i) = Some (fmonth pt pe ptilt prh ptemp ppoa) ->
  temp + 273.15 <> 0 -> 0 < poa -> cosD rep <> 0 ->
  nth_error (loss_townsend months #slant #edge #sf #rep #ff) i =
  Some #(Rmin (Rmax (townsend_equation (eff_snow_in pt pe) (eff_snow_in t e) tilt rh temp poa slant edge sf rep ff) 0) 1).
Proof.
  intros. unfold loss_townsend. rewrite zip_nth.
  assert (E : nth_error (roll1 months) i = nth_error months (previous (length months) i)).
  { destruct i; [apply roll1_0|]. apply roll1_S. apply (proj1 (nth_error_Some months (S i))). rewrite H. discriminate. }
  rewrite E, H, H0. rewrite townsend_formula by assumption. reflexivity.
Qed.
Print Assumptions C31_published_equation.
Theorem C31_no_events_no_loss : forall months slant edge sf rep ff i pt pe ptilt prh ptemp ppoa t e tilt rh temp poa,
  nth_error months i = Some (fmonth t e tilt rh temp poa) ->
  nth_error months (previous (length months) i) = Some (fmonth pt pe ptilt prh ptemp ppoa) ->
  temp + 273.15 <> 0 -> 0 < poa -> cosD rep <> 0 -> pe <= 0 -> e <= 0 ->
  nth_error (loss_townsend months #slant #edge #sf #rep #ff) i = Some #0.
Proof.
  intros. unfold loss_townsend. rewrite zip_nth.
  assert (E : nth_error (roll1 months) i = nth_error months (previous (length months) i)).
  { destruct i; [apply roll1_0|]. apply roll1_S. apply (proj1 (nth_error_Some months (S i))). rewrite H. discriminate. }
  rewrite E, H, H0. rewrite townsend_no_events by assumption. reflexivity.
Qed.
Print Assumptions C31_no_events_no_loss.
Example C31_january_after_snowy_december :
  nth_error (loss_townsend [fmonth 0 0 20 80 5 50000; fmonth 0 0 20 80 5 50000; fmonth 50 4 20 80 0 40000]
    #1.7 #1 #1 #0 #1) 1 = Some #0.
Proof.
  eapply C31_no_events_no_loss; [reflexivity|reflexivity|lra|lra|rewrite cosD_0; lra|lra|lra].
Qed.

(** ** C32.  [r_rain] is the rainfall (None for nan), [r_wash] marks manual wash dates. *)
Theorem C32_kimber_follows_recurrence : forall rows thr rate grace_days cap init period,
  (2 <= length rows)%nat -> 0 <= thr ->
  kimber (map r_time rows) (map (fun r => flo (r_rain r)) rows) #thr rate grace_days cap (map r_wash rows) true init period
  = Ok (map (fun s => Rmin s cap) (reset_recurrence 0 (kimber_rows period thr rate grace_days init rows))).
Proof. exact kimber_is_recurrence. Qed.
Print Assumptions C32_kimber_follows_recurrence.
Theorem C32_kimber_bounds : forall rows thr rate grace_days cap init period out,
  (2 <= length rows)%nat -> 0 <= thr -> 0 <= rate -> 0 <= init -> 0 <= cap -> increasing (map r_time rows) ->
  kimber (map r_time rows) (map (fun r => flo (r_rain r)) rows) #thr rate grace_days cap (map r_wash rows) true init period
  = Ok out ->
  length out = length rows /\ Forall (fun s => 0 <= s <= cap) out /\
  (forall i r, nth_error rows i = Some r ->
     damp period thr (grace_days * 24) rows r = true \/ r_wash r = true -> nth i out 1 = 0).
Proof.
  intros rows thr rate G cap init P out Hl Ht Hr Hi Hc Hinc E. rewrite kimber_is_recurrence in E by assumption.
  injection E as <-. destruct rows as [|r0 [|r1 rows]]; try (simpl in Hl; lia).
  assert (HF : Forall (fun cg => 0 <= snd cg) (kimber_rows P thr rate G init (r0 :: r1 :: rows))).
  { cbn [kimber_rows]. constructor; [exact Hi|]. apply Forall_forall. intros cg H.
    apply in_map_iff in H as (x & <- & _). simpl. simpl in Hinc. apply Rmult_le_pos; [exact Hr|]. lra. }
  pose proof (reset_nonneg 0 _ (Rle_refl 0) HF) as HN.
  split; [rewrite map_length, reset_length; cbn [kimber_rows]; simpl; rewrite map_length; reflexivity|]. split.
  - apply Forall_forall. intros s Hs. apply in_map_iff in Hs as (x & <- & Hx).
    rewrite Forall_forall in HN. specialize (HN x Hx). rmm; lra.
  - intros i r Hr' Hcl.
    assert (EN : exists g, nth_error (kimber_rows P thr rate G init (r0 :: r1 :: rows)) i = Some (true, g)).
    { assert (EC : damp P thr (G * 24) (r0 :: r1 :: rows) r || r_wash r = true) by (destruct Hcl as [->| ->]; [reflexivity|apply orb_true_r]).
      cbn [kimber_rows]. destruct i as [|i].
      - simpl in Hr'. injection Hr' as <-. exists init. cbn [nth_error]. rewrite EC. reflexivity.
      - cbn [nth_error] in *. eexists. rewrite nth_error_map, Hr'. cbn [option_map]. rewrite EC. reflexivity. }
    destruct EN as [g EN]. set (kr := kimber_rows _ _ _ _ _ _) in *.
    assert (EZ : nth i (reset_recurrence 0 kr) 1 = 0) by (eapply reset_clean, EN).
    assert (Hlt : (i < length (reset_recurrence 0 kr))%nat)
      by (rewrite reset_length; apply nth_error_Some; congruence).
    rewrite (nth_indep _ 1 (Rmin 1 cap)) by (rewrite map_length; exact Hlt).
    rewrite (map_nth (fun s => Rmin s cap)), EZ. rmm; lra.
Qed.
Print Assumptions C32_kimber_bounds.
Theorem C32_kimber_errors : forall times rain thr rate G cap wash known init P,
  ((length times < 2)%nat -> kimber times rain thr rate G cap wash known init P = Err IndexError) /\
  ((2 <= length times)%nat -> known = false -> kimber times rain thr rate G cap wash known init P = Err KeyError).
Proof.
  intros. unfold kimber. split.
  - intros H. destruct times as [|t0 [|t1 times]]; try reflexivity. simpl in H; lia.
  - intros H ->. destruct times as [|t0 [|t1 times]]; try (simpl in H; lia). reflexivity.
Qed.
Print Assumptions C32_kimber_errors.
Definition rain4 : list rainrow :=
  [RainRow 0 (Some 0) false 0 0; RainRow 24 (Some 0) false 0 0; RainRow 48 (Some 10) false 0 0; RainRow 72 None false 0 0].
Example C32_rain4 : kimber (map r_time rain4) (map (fun r => flo (r_rain r)) rain4) #6 0.1 1 0.15
    (map r_wash rain4) true 0.1 24 = Ok [0.1; 0.15; 0; 0.1].
Proof.
  rewrite C32_kimber_follows_recurrence by (simpl; lia || lra).
  unfold rain4, kimber_rows, damp, heavy. cbn [existsb rain_in_window r_time r_rain r_wash].
  cbn [map r_time r_rain r_wash reset_recurrence]. unfold in_win. rdec. cbn [andb orb]. rdec. cbn [andb orb]. f_equal.
  repeat (apply (f_equal2 cons); [try reflexivity; rmm; lra|]). reflexivity.
Qed.

(** ** C33.  [ratio_of] is 1 - 0.3437 erf(0.17 m^0.8473). *)
Theorem C33_hsu_mass_recurrence : forall erf rows thr tilt v25 v10 period,
  (2 <= length rows)%nat -> 0 < thr ->
  hsu erf (map r_time rows) (map (fun r => flo (r_rain r)) rows) #thr tilt (map r_pm25 rows) (map r_pm10 rows) v25 v10 period
  = Ok (map (ratio_of erf) (reset_recurrence 0 (hsu_rows period thr v25 v10 (cosD tilt) rows))).
Proof. exact hsu_is_recurrence. Qed.
Print Assumptions C33_hsu_mass_recurrence.
Theorem C33_hsu_range_and_cleaning : forall erf rows thr tilt v25 v10 period out,
  erf_like erf -> (2 <= length rows)%nat -> 0 < thr -> 0 <= v25 -> 0 <= v10 -> 0 <= cosD tilt ->
  Forall (fun r => 0 <= r_pm25 r) rows -> increasing (map r_time rows) ->
  hsu erf (map r_time rows) (map (fun r => flo (r_rain r)) rows) #thr tilt (map r_pm25 rows) (map r_pm10 rows) v25 v10 period
  = Ok out ->
  length out = length rows /\
  Forall (fun x => exists a, x = #a /\ 0.6563 <= a <= 1) out /\
  (forall i r, nth_error rows i = Some r -> thr <= rain_in_window period (r_time r) rows -> nth_error out i = Some #1) /\
  (forall i r, nth_error rows (S i) = Some r -> rain_in_window period (r_time r) rows < thr ->
     exists a b, nth_error out i = Some #a /\ nth_error out (S i) = Some #b /\ b <= a).
Proof.
  intros erf rows thr tilt v25 v10 P out HE Hl Ht H1 H2 H3 HF HI E. rewrite C33_hsu_mass_recurrence in E by assumption.
  injection E as <-. set (hr := hsu_rows P thr v25 v10 (cosD tilt) rows).
  assert (HL : length hr = length rows) by (apply hsu_rows_length, Hl).
  assert (HP : Forall (fun cg => 0 <= snd cg) hr) by (apply hsu_rows_pos; assumption).
  pose proof (reset_nonneg 0 hr (Rle_refl 0) HP) as HN. rewrite Forall_forall in HN.
  assert (HC : forall i r, nth_error rows i = Some r ->
     exists g, nth_error hr i = Some (Rleb thr (rain_in_window P (r_time r) rows), g)).
  { intros i r Hi. pose proof (hsu_rows_clean P thr v25 v10 (cosD tilt) rows i Hl) as C. fold hr in C. rewrite Hi in C.
    destruct (nth_error hr i) as [[c g]|]; [|discriminate]. simpl in C. injection C as ->. eauto. }
  split; [rewrite map_length, reset_length; exact HL|]. split; [|split].
  - apply Forall_forall. intros x Hx. apply in_map_iff in Hx as (m & <- & Hm).
    apply ratio_range; [exact HE|apply HN, Hm].
  - intros i r Hi Hr. destruct (HC i r Hi) as [g Hg]. rewrite Rleb_t in Hg by exact Hr.
    rewrite nth_error_map, (nth_error_nth' _ 0) by (rewrite reset_length; apply nth_error_Some; congruence).
    cbn [option_map]. rewrite (reset_clean 0 hr i g 0 Hg), ratio_zero by exact HE. reflexivity.
  - intros i r Hi Hr. destruct (HC (S i) r Hi) as [g Hg]. rewrite Rleb_f in Hg by exact Hr.
    assert (Hlt : (S i < length (reset_recurrence 0 hr))%nat) by (rewrite reset_length; apply nth_error_Some; congruence).
    rewrite !nth_error_map, !(nth_error_nth' _ 0) by lia. cbn [option_map].
    pose proof (reset_step 0 hr i false g 0 Hg) as S. cbn iota in S. rewrite S.
    set (m := nth i (reset_recurrence 0 hr) 0). assert (0 <= m) by (apply HN, nth_In; lia).
    assert (0 <= g) by (apply nth_error_In in Hg; rewrite Forall_forall in HP; apply (HP _ Hg)).
    destruct (ratio_mono erf m (m + g) HE) as (x & y & Ex & Ey & Hxy); [lra|].
    exists x, y. rewrite Ex, Ey. auto.
Qed.
Print Assumptions C33_hsu_range_and_cleaning.
Theorem C33_needs_two_rows : forall erf times rain thr tilt p25 p10 v25 v10 P,
  (length times < 2)%nat -> hsu erf times rain thr tilt p25 p10 v25 v10 P = Err IndexError.
Proof. intros. unfold hsu. destruct times as [|t0 [|t1 times]]; try reflexivity. simpl in H; lia. Qed.
Print Assumptions C33_needs_two_rows.
(** the three facts assumed of erf are jointly satisfiable by a non-constant function *)
Example C33_erf_like_satisfiable : erf_like (fun x => x / (1 + Rabs x)).
Proof.
  repeat split.
  - unfold Rdiv; ring.
  - intros x y H. rewrite !Rabs_pos_eq by lra. apply Rmult_le_reg_r with ((1 + x) * (1 + y)); [nra|].
    replace (x / (1 + x) * ((1 + x) * (1 + y))) with (x * (1 + y)) by (field; lra).
    replace (y / (1 + y) * ((1 + x) * (1 + y))) with (y * (1 + x)) by (field; lra). nra.
  - intros x H. rewrite Rabs_pos_eq by lra. apply Rmult_le_reg_r with (1 + x); [lra|].
    replace (x / (1 + x) * (1 + x)) with x by (field; lra). lra.
Qed.
