(** C85-C89: view factors and shading of rows over the ground (pvlib/bifacial/utils.py). *)
From Verif Require Import Base.Fl Base.FlFacts Base.Py Base.Trig Model.Bifacial Spec.BifacialSpec
  Proofs.BifRow Proofs.BifShade Proofs.BifGround Proofs.BifSky Proofs.BifStrings Proofs.BifMean Proofs.BifProps.
From Coq Require Import Psatz ZArith Lia List.
From Coquelicot Require Import Coquelicot.
Open Scope R_scope.

(** rows that do not touch: ground coverage below 1, or tilted rows *)
Definition separate (tilt gcr : R) : Prop := 0 < gcr < 1 \/ (0 < gcr /\ sinD tilt <> 0).

(** ** C85: a point of the row sees the sky down to the top edge of the row in front *)
Theorem C85_sky_view_factor : forall tilt gcr x, separate tilt gcr -> 0 <= sinD tilt -> 0 <= x <= 1 ->
  exists a v, 0 <= a <= PI /\ seen_at tilt (row_point tilt x) (front_row_point tilt gcr 1) a /\
    vf_row_sky_2d #tilt #gcr #x = #v /\ is_RInt (fun w => / 2 * sin w) 0 a v.
Proof. intros t g x A S X. destruct (sky_view t g x A S X) as (a & v & H1 & H2 & H3 & H4 & _). exists a, v. repeat split; try assumption; apply H1. Qed.
Print Assumptions C85_sky_view_factor.
(** and the ground from the bottom edge of the row in front *)
Theorem C85_ground_view_factor : forall tilt gcr x, separate tilt gcr -> 0 <= sinD tilt -> 0 <= x <= 1 ->
  exists b v, 0 <= b <= PI /\ seen_at tilt (row_point tilt x) (front_row_point tilt gcr 0) b /\
    vf_row_ground_2d #tilt #gcr #x = #v /\ is_RInt (fun w => / 2 * sin w) b PI v.
Proof. intros t g x A S X. destruct (ground_view t g x A S X) as (a & v & H1 & H2 & H3 & H4 & _). exists a, v. repeat split; try assumption; apply H1. Qed.
Print Assumptions C85_ground_view_factor.
Theorem C85_range : forall tilt gcr x, separate tilt gcr -> 0 <= x <= 1 -> exists s g,
  vf_row_sky_2d #tilt #gcr #x = #s /\ vf_row_ground_2d #tilt #gcr #x = #g /\
  0 <= s <= (1 + cosD tilt) / 2 /\ 0 <= g <= (1 - cosD tilt) / 2 /\ s + g <= 1.
Proof. intros t g x A X. destruct (row_bounds t g x A X) as (s & d & H1 & H2 & H3 & H4). exists s, d. repeat split; try assumption; lra. Qed.
Print Assumptions C85_range.
(** the top of the row sees as much sky, and the bottom as much ground, as a single tilted plane *)
Theorem C85_top_and_bottom : forall tilt gcr, separate tilt gcr ->
  vf_row_sky_2d #tilt #gcr #1 = #((1 + cosD tilt) / 2) /\ vf_row_ground_2d #tilt #gcr #0 = #((1 - cosD tilt) / 2).
Proof. intros t g A. split; [apply sky_top, A|apply ground_bottom, A]. Qed.
Print Assumptions C85_top_and_bottom.
Theorem C85_monotone : forall tilt gcr x y, separate tilt gcr -> 0 <= x <= y -> y <= 1 -> exists s s' g g',
  vf_row_sky_2d #tilt #gcr #x = #s /\ vf_row_sky_2d #tilt #gcr #y = #s' /\ s <= s' /\
  vf_row_ground_2d #tilt #gcr #x = #g /\ vf_row_ground_2d #tilt #gcr #y = #g' /\ g' <= g.
Proof.
  intros t g x y A X Y. destruct (sky_mono t g x y A X Y) as (s & s' & H1 & H2 & H3). destruct (ground_mono t g x y A X Y) as (d & d' & H4 & H5 & H6).
  exists s, s', d, d'. repeat split; assumption.
Qed.
Print Assumptions C85_monotone.
Example C85_nonvacuous : separate 30 0.5 /\ 0 <= sinD 30 /\ 0 <= 0.4 <= 1.
Proof. split; [left; lra|]. split; [apply Rlt_le, sinD_gt; lra|lra]. Qed.

(** ** C86: the averaged sky view factor is the mean of the pointwise one *)
Theorem C86_mean_over_segment : forall tilt gcr x0 x1 f, separate tilt gcr -> 0 <= tilt -> 0 <= x0 -> x1 <= 1 -> 1e-6 <= x1 - x0 ->
  (forall x, 0 <= x <= 1 -> vf_row_sky_2d #tilt #gcr #x = #(f x)) ->
  exists v, vf_row_sky_2d_integ #tilt #gcr #x0 #x1 = #v /\ is_RInt f x0 x1 ((x1 - x0) * v).
Proof. exact sky_integ_mean. Qed.
Print Assumptions C86_mean_over_segment.
(** shorter segments are points *)
Theorem C86_short_segment : forall tilt gcr x0 x1, 0 <= tilt -> Rabs (x1 - x0) < 1e-6 ->
  vf_row_sky_2d_integ #tilt #gcr #x0 #x1 = vf_row_sky_2d #tilt #gcr #x0.
Proof. exact sky_integ_point. Qed.
Print Assumptions C86_short_segment.
(** a row tilted the other way is the mirror image: its fraction x is at 1 - x of the mirrored row *)
Theorem C86_negative_tilt : forall tilt gcr x0 x1, 0 < tilt ->
  vf_row_sky_2d_integ #(- tilt) gcr #x0 #x1 = vf_row_sky_2d_integ #tilt gcr #(1 - x1) #(1 - x0).
Proof. exact sky_integ_opp. Qed.
Print Assumptions C86_negative_tilt.
(** equal segments average to the whole row *)
Theorem C86_segments_average : forall tilt gcr n, separate tilt gcr -> 0 <= tilt -> (0 < n)%nat -> INR n <= 1e6 ->
  exists v, vf_row_sky_2d_integ #tilt #gcr #0 #1 = #v /\
    fsum (map (fun i => vf_row_sky_2d_integ #tilt #gcr #(INR i / INR n) #(INR (S i) / INR n)) (seq 0 n)) = #(INR n * v).
Proof. exact sky_segments_average. Qed.
Print Assumptions C86_segments_average.
Example C86_nonvacuous : separate 30 0.5 /\ (exists f, forall x, 0 <= x <= 1 -> vf_row_sky_2d #30 #0.5 #x = #(f x)) /\ INR 10 <= 1e6.
Proof. split; [left; lra|]. split; [eexists; intros x X; apply vf_row_sky_fin; [left; lra|exact X]|]. rewrite INR_IZR_INZ. cbn. lra. Qed.

(** ** C87: the unshaded share of a ground segment *)
Theorem C87_unshaded_share : forall rotation phi gcr height pitch (N : nat) max_zenith g0 g1 (lit : R -> R),
  cosD phi <> 0 -> 0 < pitch -> g0 < g1 -> Rabs phi <= max_zenith ->
  (g0 = 0 /\ g1 = 1 -> False) ->
  (** the shadows of the outermost rows looked at reach past the segment *)
  (exists s, s <= g0 * pitch /\ shades rotation (pitch * gcr) height pitch phi (- Z.of_nat N) s) ->
  (exists s, g1 * pitch <= s /\ shades rotation (pitch * gcr) height pitch phi (Z.of_nat N + 1) s) ->
  (forall s, ground_in_shade rotation (pitch * gcr) height pitch phi s -> lit s = 0) ->
  (forall s, ~ ground_in_shade rotation (pitch * gcr) height pitch phi s -> lit s = 1) ->
  exists v, unshaded_ground_fraction #rotation #phi #gcr (Some #height) (Some #pitch) N #max_zenith #g0 #g1 = Ok #v /\
    0 <= v <= 1 /\ is_RInt lit (g0 * pitch) (g1 * pitch) ((g1 * pitch - g0 * pitch) * v).
Proof.
  intros th ph g h p N mz g0 g1 lit Hc Hp H01 Hz Hdef E1 E2 L0 L1.
  destruct (segment_lit th ph g h p N mz g0 g1 lit Hc Hp H01 Hz E1 E2 L0 L1) as (v & Ev & Rv & Iv). exists v. split; [|split; assumption].
  unfold unshaded_ground_fraction. rewrite !feqb_fin.
  destruct (Reqb_spec g0 0) as [->|]; [destruct (Reqb_spec g1 1) as [->|]|]; cbn [andb]; [exfalso; tauto| |]; rewrite Ev; reflexivity.
Qed.
Print Assumptions C87_unshaded_share.
(** the whole pitch (the default): the width of the shadow in units of the pitch, when enough rows are looked at *)
Theorem C87_default_share : forall rotation phi gcr height pitch (N : nat) max_zenith, 0 < gcr -> cosD phi <> 0 -> Rabs phi <= max_zenith ->
  Rabs (tanD phi) + Rabs (cosD rotation + sinD rotation * tanD phi) / 2 <= INR (N + 1) / gcr ->
  unshaded_ground_fraction #rotation #phi #gcr height pitch N #max_zenith #0 #1 = Ok #(1 - Rmin 1 (gcr * Rabs (cosD rotation + sinD rotation * tanD phi))).
Proof. exact default_fraction. Qed.
Print Assumptions C87_default_share.
(** nothing is lit once the sun is beyond max_zenith *)
Theorem C87_beyond_max_zenith : forall rotation phi gcr height pitch N max_zenith g0 g1 v, max_zenith < Rabs phi ->
  unshaded_ground_fraction rotation #phi gcr height pitch N #max_zenith g0 g1 = Ok v -> v = #0.
Proof.
  intros th ph g h p N mz g0 g1 v H. unfold unshaded_ground_fraction. destruct (if (_ : bool) then _ else _) as [[h'|] [p'|]]; intros E; try discriminate.
  injection E as <-. unfold unshaded_ground_segment. rewrite fabs_fin, fgtb_fin, Rltb_t by exact H. reflexivity.
Qed.
Print Assumptions C87_beyond_max_zenith.
(** height and pitch are needed exactly when the segment is not the whole pitch *)
Theorem C87_missing_dimensions : forall rotation phi gcr height pitch N max_zenith g0 g1,
  unshaded_ground_fraction rotation phi gcr height pitch N max_zenith g0 g1 = Err TypeError <->
  (height = None \/ pitch = None) /\ ~ (g0 = #0 /\ g1 = #1).
Proof.
  intros th ph g h p N mz g0 g1. unfold unshaded_ground_fraction.
  assert (Q : feqb g0 #0 && feqb g1 #1 = true <-> g0 = #0 /\ g1 = #1).
  { rewrite Bool.andb_true_iff. assert (W : forall x y, feqb x #y = true <-> x = #y).
    { intros [x| | |] y; cbn; split; intros E; try discriminate. - destruct (Reqb_spec x y); [congruence|discriminate]. - injection E as ->. apply Reqb_t. reflexivity. }
    rewrite !W. reflexivity. }
  destruct (feqb g0 #0 && feqb g1 #1).
  - split; [discriminate|]. intros [_ K]. exfalso. apply K, Q. reflexivity.
  - assert (K : ~ (g0 = #0 /\ g1 = #1)) by (intros E; apply Q in E; discriminate). destruct h, p; split; try discriminate; try tauto; intros [[E|E] _]; discriminate.
Qed.
Print Assumptions C87_missing_dimensions.
(** Finding: with the default max_rows = 10 and max_zenith = 85, touching horizontal rows leave the ground
    70 % sunlit for some sun angles, although all of it is in shade. *)
Theorem C87_default_rows_suffice_refuted : exists phi, 0 <= phi <= 85 /\
  unshaded_ground_fraction #0 #phi #1 None None 10 #85 #0 #1 = Ok #0.7 /\
  (forall s, ground_in_shade 0 1 1 1 phi s).
Proof.
  set (T := 11.2). assert (EP : Rrad (Rdeg (atan T)) = atan T) by apply Rrad_deg.
  assert (ET : tanD (Rdeg (atan T)) = T) by (unfold tanD; rewrite EP; apply atan_right_inv).
  assert (C1 : cosD 0 = 1) by (unfold cosD; rewrite Rrad_0, cos_0; reflexivity). assert (S1 : sinD 0 = 0) by (unfold sinD; rewrite Rrad_0, sin_0; reflexivity).
  assert (PB : 0 < PI) by apply PI_RGT_0. pose proof (atan_bound T) as AB.
  assert (P0 : 0 <= atan T) by (rewrite <- atan_0; left; apply atan_increasing; unfold T; lra).
  assert (Up : Rdeg (atan T) <= 85).
  { replace 85 with (Rdeg (Rrad 85)) by (unfold Rdeg, Rrad; field; lra). apply Rdeg_le.
    replace (Rrad 85) with (PI / 2 - PI / 36) by (unfold Rrad; field). apply Rnot_lt_le. intros K.
    set (x := PI / 36) in *. assert (PX : PI = 36 * x) by (unfold x; field).
    assert (PU : PI <= 3.19).
    { apply PI_319. }
    assert (X : 0 < x <= 0.0887) by (unfold x; lra).
    assert (SX : sin x < x) by (apply sin_lt_x; lra).
    assert (CX : 1 - x * x / 2 <= cos x).
    { replace x with (2 * (x / 2)) at 3 by field. rewrite cos_2a_sin. assert (0 < sin (x / 2) < x / 2) by (split; [apply sin_gt_0; lra|apply sin_lt_x; lra]).
      assert (sin (x / 2) * sin (x / 2) <= x / 2 * (x / 2)) by (apply Rmult_le_compat; lra). lra. }
    assert (XX : x * x <= 0.0887 * 0.0887) by (apply Rmult_le_compat; lra).
    assert (H : tan (PI / 2 - x) < tan (atan T)) by (apply tan_increasing; lra).
    rewrite atan_right_inv in H. unfold tan in H. rewrite sin_shift, cos_shift in H. assert (0 < sin x) by (apply sin_gt_0; lra).
    assert (cos x < T * sin x). { apply Rmult_lt_reg_r with (/ sin x); [apply Rinv_0_lt_compat; assumption|]. unfold Rdiv in H. rewrite Rmult_assoc, Rinv_r by lra. lra. }
    unfold T in *. lra. }
  exists (Rdeg (atan T)). assert (L0 : 0 <= Rdeg (atan T)) by (unfold Rdeg; apply Rmult_le_pos; [apply Rmult_le_pos; lra|left; apply Rinv_0_lt_compat; lra]).
  assert (CN : cosD (Rdeg (atan T)) <> 0). { unfold cosD. rewrite EP. apply Rgt_not_eq, cos_gt_0; lra. }
  split; [lra|]. split.
  - unfold unshaded_ground_fraction. rewrite !feqb_fin, !Reqb_t by reflexivity. cbn [andb]. rewrite fdiv_fin by lra.
    assert (O1 : 1 / 1 = 1) by field. rewrite O1. rewrite segment_fin; [|exact CN|lra|lra|rewrite Rabs_right by lra; exact Up]. do 2 f_equal.
    rewrite (rsum_ext _ (fun j => overlap (IZR j * 1 + (T - 1 / 2)) (IZR j * 1 + (T + 1 / 2)) 0 1)).
    2:{ intros k _. unfold lo_of, hi_of, half_len. rewrite ET, C1, S1. replace (1 * 1 * 1 + 1 * 1 * 0 * T) with 1 by ring. rewrite Rabs_R1. f_equal; lra. }
    rewrite (cells_sum (T - 1 / 2) (T + 1 / 2) 1) by lra. change (- Z.of_nat 10 + Z.of_nat (2 * 10 + 2) - 1)%Z with 11%Z. change (Z.of_nat 10) with 10%Z.
    match goal with |- context [overlap ?a ?b ?c ?d] => assert (OV : overlap a b c d = 0.3) end.
    { unfold overlap. rewrite opp_IZR. rewrite Rmin_right by (unfold T; lra). rewrite (Rmax_left (T - 1 / 2)) by (unfold T; lra). rewrite Rmax_right by (unfold T; lra). unfold T. lra. }
    rewrite OV. rewrite Rmax_left by lra. rewrite Rmin_left by lra. lra.
  - intros s. destruct (archimed (s - T - 1 / 2)) as [U1 U2]. set (k := up (s - T - 1 / 2)) in *. exists k. apply shades_iff. unfold lo_of, hi_of, half_len.
    rewrite ET, C1, S1. replace (1 * 1 + 1 * 0 * T) with 1 by ring. rewrite Rabs_R1. lra.
Qed.
Print Assumptions C87_default_rows_suffice_refuted.
Example C87_nonvacuous : cosD 0 <> 0 /\
  (exists s, s <= 0.25 * 2 /\ shades 0 (2 * 0.5) 1 2 0 (- Z.of_nat 0) s) /\ (exists s, 0.75 * 2 <= s /\ shades 0 (2 * 0.5) 1 2 0 (Z.of_nat 0 + 1) s).
Proof.
  assert (C1 : cosD 0 = 1) by (unfold cosD; rewrite Rrad_0, cos_0; reflexivity). assert (S1 : sinD 0 = 0) by (unfold sinD; rewrite Rrad_0, sin_0; reflexivity).
  split; [lra|]. unfold shades, sheds_point. change (- Z.of_nat 0)%Z with 0%Z. change (Z.of_nat 0 + 1)%Z with 1%Z. unfold tanD. rewrite Rrad_0, tan_0, C1, S1. cbn [fst snd].
  split; [exists 0|exists 2]; (split; [lra|]); exists 0; lra.
Qed.

(** ** C88: what a ground point sees of the sky between the outermost rows looked at *)
Theorem C88_ground_sky_view_factor : forall rotation gcr x pitch height (N : nat) (f : R -> R) A B,
  0 < pitch -> 0 <= gcr -> gcr * pitch / 2 * Rabs (sinD rotation) < height ->
  let hidden a := exists j, (- Z.of_nat N <= j <= Z.of_nat N + 1)%Z /\ hides rotation (gcr * pitch) height pitch (x * pitch) j a in
  first_hidden rotation (gcr * pitch) height pitch (x * pitch) (Z.of_nat N + 1) A ->
  first_hidden rotation (gcr * pitch) height pitch (x * pitch) (- Z.of_nat N) B ->
  (forall a, hidden a -> f a = 0) -> (forall a, ~ hidden a -> f a = / 2 * sin a) ->
  exists v, vf_ground_sky_2d #rotation #gcr #x #pitch #height N = #v /\ is_RInt f A B v.
Proof. intros th g x p h N f A B Hp Hg Hh hidden. apply ground_sky_first; assumption. Qed.
Print Assumptions C88_ground_sky_view_factor.
Theorem C88_range : forall rotation gcr x pitch height N, 0 < pitch -> 0 <= gcr -> gcr * pitch / 2 * Rabs (sinD rotation) < height ->
  exists v, vf_ground_sky_2d #rotation #gcr #x #pitch #height N = #v /\ 0 <= v <= 1.
Proof. exact vf_ground_sky_range. Qed.
Print Assumptions C88_range.
(** the outermost rows always hide a first direction *)
Theorem C88_first_hidden_exists : forall rotation gcr x pitch height k, 0 < pitch -> 0 <= gcr -> gcr * pitch / 2 * Rabs (sinD rotation) < height ->
  exists a, first_hidden rotation (gcr * pitch) height pitch (x * pitch) k a.
Proof. intros th g x p h k Hp Hg Hh. eexists. apply first_hidden_lo; [assumption|apply Rmult_le_pos; lra|assumption|reflexivity]. Qed.
Print Assumptions C88_first_hidden_exists.
Example C88_nonvacuous : 0 < 2 /\ 0 <= 0.5 /\ 0.5 * 2 / 2 * Rabs (sinD 30) < 1.
Proof. split; [lra|]. split; [lra|]. pose proof (sc1 30). assert (Rabs (sinD 30) <= 1) by (apply Rabs_le; unfold sinD; pose proof (SIN_bound (Rrad 30)); lra). lra. Qed.

(** ** C89: the averaged ground view factor is the mean of the pointwise one *)
Theorem C89_mean_over_segment : forall rotation gcr height pitch (N : nat) g0 g1, (0 < rotation < 180 \/ -180 < rotation < 0) ->
  0 < pitch -> 0 < gcr -> gcr * pitch / 2 * Rabs (sinD rotation) < height -> g0 < g1 ->
  no_grazing (-1/2 :: 1/2 :: nil) rotation (gcr * pitch) height pitch N (g0 * pitch) ->
  no_grazing (-1/2 :: 1/2 :: nil) rotation (gcr * pitch) height pitch N (g1 * pitch) ->
  exists v, vf_ground_sky_2d_integ #rotation #gcr #height #pitch N #g0 #g1 = #v /\
    forall f, (forall x, vf_ground_sky_2d #rotation #gcr #x #pitch #height N = #(f x)) -> is_RInt f g0 g1 ((g1 - g0) * v).
Proof.
  intros th g h p N g0 g1 Hth Hp Hg Hh H G0 G1. assert (L : exists sg, leaning th sg) by (destruct Hth; [exists 1; left|exists (-1); right]; split; (assumption || reflexivity)).
  destruct L as [sg L]. apply (mean_fin th sg); try assumption; apply no_grazing_unclouded; assumption.
Qed.
Print Assumptions C89_mean_over_segment.
Theorem C89_mean_over_segment_flat : forall gcr height pitch (N : nat) g0 g1, 0 < pitch -> 0 < gcr <= 1 -> 0 < height -> g0 < g1 ->
  no_grazing (-1/2 :: 0 :: 1/2 :: nil) 0 (gcr * pitch) height pitch N (g0 * pitch) ->
  no_grazing (-1/2 :: 0 :: 1/2 :: nil) 0 (gcr * pitch) height pitch N (g1 * pitch) ->
  exists v, vf_ground_sky_2d_integ #0 #gcr #height #pitch N #g0 #g1 = #v /\
    forall f, (forall x, vf_ground_sky_2d #0 #gcr #x #pitch #height N = #(f x)) -> is_RInt f g0 g1 ((g1 - g0) * v).
Proof. intros g h p N g0 g1 Hp Hg Hh H G0 G1. apply flat_mean; try assumption; apply no_grazing_flat; assumption. Qed.
Print Assumptions C89_mean_over_segment_flat.
Theorem C89_not_negative : forall rotation gcr height pitch N g0 g1, atleast #0 (vf_ground_sky_2d_integ rotation gcr height pitch N g0 g1).
Proof. exact integ_atleast. Qed.
Print Assumptions C89_not_negative.
Theorem C89_row_ground_not_negative : forall tilt gcr height pitch x0 x1 N g0 g1 v,
  vf_row_ground_2d_integ tilt gcr height pitch x0 x1 N g0 g1 = Ok v -> atleast #0 v.
Proof. exact row_ground_atleast. Qed.
Print Assumptions C89_row_ground_not_negative.
(** a concrete layout without grazing lines: vertical rows 1 m high, 2 m apart *)
Example C89_nonvacuous : no_grazing (-1/2 :: 1/2 :: nil) 90 (0.5 * 2) 1 2 0 (0.25 * 2) /\ no_grazing (-1/2 :: 1/2 :: nil) 90 (0.5 * 2) 1 2 0 (0.75 * 2).
Proof.
  assert (R90 : Rrad 90 = PI / 2) by (unfold Rrad; field). assert (C1 : cosD 90 = 0) by (unfold cosD; rewrite R90; apply cos_PI2). assert (S1 : sinD 90 = 1) by (unfold sinD; rewrite R90; apply sin_PI2).
  assert (PT : forall k t, sheds_point 90 (0.5 * 2) 1 2 k t = (2 * IZR k, 1 + t)) by (intros; unfold sheds_point; rewrite C1, S1; apply f_equal2; lra).
  split; intros i j t u a b Hi Hj _ Ht Hu Sa Sb; rewrite PT in Sa, Sb;
    (assert (Ei : (i = 0 \/ i = 1)%Z) by lia); (assert (Ej : (j = 0 \/ j = 1)%Z) by lia);
    destruct Ei as [->| ->], Ej as [->| ->], Ht as [<-|[<-|[]]], Hu as [<-|[<-|[]]];
    try (left; exact (sees_unique _ _ _ _ Sa Sb));
    (right; apply (sees_far _ _ _ _ _ Sa Sb); cbn [fst snd]; [lra|lra|unfold Rabs; destruct Rcase_abs; lra]).
Qed.
