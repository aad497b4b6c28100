(** Proofs about iam.py *)
From Verif Require Import Base.Fl Base.FlFacts Base.Py Base.Trig Model.Iam Spec.Optics.
From Coq Require Import ZArith Lia Lra Psatz.
Open Scope R_scope.

Lemma gte90_fin a : negb (isnan #a) && fgeb (fabs #a) #90 = Rleb 90 (Rabs a).
Proof. reflexivity. Qed.

(** ** ashrae *)
Lemma ashrae_fin a b : Rabs a < 90 -> ashrae #a #b = #(Rmax 0 (1 - b * (1 / cosD a - 1))).
Proof.
  intros H. unfold ashrae. rewrite gte90_fin, Rleb_f by exact H. cbn [where_].
  assert (0 < cosD a) by (apply cosD_pos; apply Rabs_def2 in H; lra). unfold cosD in *.
  rewrite fradians_fin, fcos_fin, fdiv_fin by lra. fin. reflexivity.
Qed.
Lemma ashrae_back x b : fleb #90 (fabs x) = true -> ashrae x b = #0.
Proof.
  intros H. unfold ashrae. assert (N : isnan x = false) by (destruct x; [reflexivity..|discriminate]).
  rewrite N. unfold fgeb. rewrite H. cbn. f_equal. apply Rmax_left. lra.
Qed.
Lemma inv_cos_ge1 a : Rabs a < 90 -> 0 <= 1 / cosD a - 1.
Proof.
  intros H. assert (H0 : 0 < cosD a) by (apply cosD_pos; apply Rabs_def2 in H; lra). pose proof (cosD_bound a) as [_ H1].
  assert (1 <= 1 / cosD a); [|lra]. apply Rmult_le_reg_r with (cosD a); [exact H0|]. unfold Rdiv. rewrite Rmult_assoc, Rinv_l by lra. lra.
Qed.
Lemma ashrae_range x b : 0 <= b -> within #0 #1 (ashrae x #b).
Proof.
  intros Hb. destruct x as [a| | |].
  - destruct (Rle_dec 90 (Rabs a)) as [H|H].
    + rewrite ashrae_back by (cbn; apply Rleb_t, H). apply within_fin. lra.
    + apply Rnot_le_lt in H. rewrite ashrae_fin by exact H. apply within_fin.
      pose proof (inv_cos_ge1 a H). assert (0 <= b * (1 / cosD a - 1)) by (apply Rmult_le_pos; assumption).
      rmm; lra.
  - rewrite ashrae_back by reflexivity. apply within_fin. lra.
  - rewrite ashrae_back by reflexivity. apply within_fin. lra.
  - left. unfold ashrae. cbn. reflexivity.
Qed.
Lemma cosD_even a : cosD (- a) = cosD a.
Proof. unfold cosD. rewrite Rrad_opp. apply cos_neg. Qed.
Lemma cosD_abs a : cosD (Rabs a) = cosD a.
Proof. unfold Rabs. destruct (Rcase_abs a); [apply cosD_even|reflexivity]. Qed.
Lemma cosD_decr a b : 0 <= a -> a <= b -> b <= 180 -> cosD b <= cosD a.
Proof.
  intros H1 [H2|<-] H3; [|lra]. left. apply cos_decreasing_1.
  - rewrite <- Rrad_0. apply Rrad_le. lra.
  - rewrite <- Rrad_180. apply Rrad_le. lra.
  - rewrite <- Rrad_0. apply Rrad_le. lra.
  - rewrite <- Rrad_180. apply Rrad_le. lra.
  - apply Rrad_lt, H2.
Qed.
Lemma ashrae_even a b : ashrae #(- a) b = ashrae #a b.
Proof.
  unfold ashrae. rewrite !fradians_fin, Rrad_opp, !fcos_fin, cos_neg, !fabs_fin, Rabs_Ropp. reflexivity.
Qed.
(** value on [0,90] as a real function, non-increasing *)
Definition ashraeR (b a : R) : R := if Rle_dec 90 a then 0 else Rmax 0 (1 - b * (1 / cosD a - 1)).
Lemma ashrae_R a b : 0 <= a -> ashrae #a #b = #(ashraeR b a).
Proof.
  intros H. unfold ashraeR. destruct (Rle_dec 90 a).
  - apply ashrae_back. cbn. apply Rleb_t. rewrite Rabs_pos_eq; lra.
  - apply ashrae_fin. rewrite Rabs_pos_eq; lra.
Qed.
Lemma ashraeR_decr b x y : 0 <= b -> 0 <= x -> x <= y -> ashraeR b y <= ashraeR b x.
Proof.
  intros Hb Hx Hxy. unfold ashraeR. destruct (Rle_dec 90 x), (Rle_dec 90 y); try lra.
  - apply Rmax_l.
  - assert (0 < cosD y) by (apply cosD_pos; lra). assert (cosD y <= cosD x) by (apply cosD_decr; lra).
    assert (1 / cosD x <= 1 / cosD y).
    { unfold Rdiv. rewrite !Rmult_1_l. apply Rinv_le_contravar; assumption. }
    apply Rle_max_compat_l. assert (b * (1 / cosD x - 1) <= b * (1 / cosD y - 1)) by (apply Rmult_le_compat_l; lra). lra.
Qed.
(** the x-intercept used when converting to the physical model *)
Lemma ashrae_intercept_zero b : 0 < b ->
  exists a, ashrae_intercept #b = #a /\ 0 < a < 90 /\ ashrae #a #b = #0 /\
    (forall x, 0 <= x < a -> exists y, ashrae #x #b = #y /\ 0 < y).
Proof.
  intros Hb. unfold ashrae_intercept. rewrite fadd_fin, fdiv_fin by lra.
  assert (Hc : 0 < b / (1 + b) < 1).
  { split; [apply Rdiv_lt_0_compat; lra|]. apply Rmult_lt_reg_r with (1 + b); [lra|]. unfold Rdiv. rewrite Rmult_assoc, Rinv_l by lra. lra. }
  rewrite acosd_fin by lra. set (c := b / (1 + b)) in *. exists (Rdeg (acos c)). split; [reflexivity|].
  assert (EC : cosD (Rdeg (acos c)) = c) by (unfold cosD; rewrite Rrad_deg; apply cos_acos; lra).
  pose proof (acos_bound c) as B.
  assert (H0 : 0 <= Rdeg (acos c) <= 180).
  { split; apply Rmult_le_reg_r with (PI / 180); try (apply Rdiv_lt_0_compat; [apply PI_RGT_0|lra]).
    - unfold Rdeg. replace (acos c * 180 / PI * (PI / 180)) with (acos c) by (field; apply PI_neq0). lra.
    - unfold Rdeg. replace (acos c * 180 / PI * (PI / 180)) with (acos c) by (field; apply PI_neq0). lra. }
  assert (HA : 0 < Rdeg (acos c) < 90).
  { split.
    - destruct (proj1 H0) as [H|H]; [exact H|]. rewrite <- H in EC. rewrite cosD_0 in EC. lra.
    - destruct (Rlt_dec (Rdeg (acos c)) 90) as [H|H]; [exact H|]. exfalso.
      pose proof (cosD_decr 90 (Rdeg (acos c)) ltac:(lra) ltac:(lra) ltac:(lra)) as D. rewrite cosD_90, EC in D. lra. }
  split; [exact HA|]. split.
  - rewrite ashrae_fin by (rewrite Rabs_pos_eq; lra). rewrite EC. f_equal. unfold c.
    replace (1 - b * (1 / (b / (1 + b)) - 1)) with 0 by (field; lra). apply Rmax_left. lra.
  - intros x Hx. rewrite ashrae_fin by (rewrite Rabs_pos_eq; lra). eexists. split; [reflexivity|].
    assert (Hcx : c < cosD x).
    { rewrite <- EC. apply cos_decreasing_1.
      - rewrite <- Rrad_0. apply Rrad_le. lra.
      - rewrite <- Rrad_180. apply Rrad_le. lra.
      - rewrite <- Rrad_0. apply Rrad_le. lra.
      - rewrite <- Rrad_180. apply Rrad_le. lra.
      - apply Rrad_lt. lra. }
    assert (1 / cosD x < 1 / c) by (unfold Rdiv; rewrite !Rmult_1_l; apply Rinv_lt_contravar; [apply Rmult_lt_0_compat; lra|lra]).
    assert (E1 : 1 / c = (1 + b) / b) by (unfold c; field; lra).
    assert (b * (1 / cosD x - 1) < b * (1 / c - 1)) by (apply Rmult_lt_compat_l; lra).
    rewrite E1 in H1. replace (b * ((1 + b) / b - 1)) with 1 in H1 by (field; lra). rmm; lra.
Qed.

(** ** martin_ruiz *)
Definition mr_val (ar c : R) : R := (1 - exp (- c / ar)) / (1 - exp (- (1) / ar)).
Lemma exp_lt_1 x : x < 0 -> exp x < 1.
Proof. intros H. rewrite <- exp_0. apply exp_increasing, H. Qed.
Lemma exp_le x y : x <= y -> exp x <= exp y.
Proof. intros [H|<-]; [left; apply exp_increasing, H|lra]. Qed.
Lemma neg_div_lt0 ar : 0 < ar -> - (1) / ar < 0.
Proof. intros H. unfold Rdiv. pose proof (Rinv_0_lt_compat ar H). lra. Qed.
Lemma mr_fin a ar : 0 < ar -> Rabs a < 90 -> martin_ruiz #a #ar = Ok #(mr_val ar (cosD a)).
Proof.
  intros Ha H. unfold martin_ruiz. cbn [fleb]. rewrite Rleb_f by exact Ha. unfold fgeb. rewrite fabs_fin, fleb_fin, Rleb_f by exact H.
  cbn [where_]. rewrite cosd_fin, fneg_fin, !fdiv_fin, !fexp_fin, !fsub_fin by lra.
  replace (-1) with (- (1)) by lra. pose proof (exp_lt_1 _ (neg_div_lt0 ar Ha)). rewrite fdiv_fin by lra. reflexivity.
Qed.
Lemma mr_back x ar : 0 < ar -> fleb #90 (fabs x) = true -> martin_ruiz x #ar = Ok #0.
Proof. intros Ha H. unfold martin_ruiz. cbn [fleb]. rewrite Rleb_f by exact Ha. unfold fgeb. rewrite H. reflexivity. Qed.
Lemma mr_val_mono ar c d : 0 < ar -> c <= d -> mr_val ar c <= mr_val ar d.
Proof.
  intros Ha H. unfold mr_val. pose proof (exp_lt_1 _ (neg_div_lt0 ar Ha)).
  apply Rmult_le_compat_r; [left; apply Rinv_0_lt_compat; lra|].
  assert (exp (- d / ar) <= exp (- c / ar)); [|lra]. apply exp_le. unfold Rdiv. apply Rmult_le_compat_r; [left; apply Rinv_0_lt_compat, Ha|lra].
Qed.
Lemma mr_val_0 ar : 0 < ar -> mr_val ar 0 = 0.
Proof. intros H. unfold mr_val. replace (- 0 / ar) with 0 by (field; lra). rewrite exp_0. unfold Rdiv; ring. Qed.
Lemma mr_val_1 ar : 0 < ar -> mr_val ar 1 = 1.
Proof. intros H. unfold mr_val. pose proof (exp_lt_1 _ (neg_div_lt0 ar H)). field. lra. Qed.
Lemma mr_range x ar : 0 < ar -> exists y, martin_ruiz x #ar = Ok y /\ within #0 #1 y.
Proof.
  intros Ha. destruct x as [a| | |].
  - destruct (Rle_dec 90 (Rabs a)) as [H|H].
    + rewrite mr_back by (auto; cbn; apply Rleb_t, H). eexists; split; [reflexivity|]. apply within_fin. lra.
    + apply Rnot_le_lt in H. rewrite mr_fin by assumption. eexists; split; [reflexivity|]. apply within_fin.
      assert (0 < cosD a) by (apply cosD_pos; apply Rabs_def2 in H; lra). pose proof (cosD_bound a).
      pose proof (mr_val_mono ar 0 (cosD a) Ha). pose proof (mr_val_mono ar (cosD a) 1 Ha).
      rewrite mr_val_0 in * by exact Ha. rewrite mr_val_1 in * by exact Ha. lra.
  - rewrite mr_back by auto. eexists; split; [reflexivity|]. apply within_fin. lra.
  - rewrite mr_back by auto. eexists; split; [reflexivity|]. apply within_fin. lra.
  - exists NaN. unfold martin_ruiz. cbn [fleb]. rewrite Rleb_f by exact Ha. split; [|left; reflexivity]. cbn. reflexivity.
Qed.

(** ** schlick *)
Lemma schlick_fin a : Rabs a < 90 -> schlick #a = #(1 - (1 - cosD a) ^ 5).
Proof.
  intros H. unfold schlick, fgeb. rewrite fabs_fin, fleb_fin, Rleb_f by exact H. cbn [where_]. fin. reflexivity.
Qed.
Lemma schlick_back x : fleb #90 (fabs x) = true -> schlick x = #0.
Proof. intros H. unfold schlick, fgeb. rewrite H. reflexivity. Qed.
Lemma pow5_range x : 0 <= x <= 1 -> 0 <= x ^ 5 <= 1.
Proof. intros H. split; [apply pow_le; lra|]. rewrite <- (pow1 5). apply pow_incr. lra. Qed.
Lemma schlick_range x : within #0 #1 (schlick x).
Proof.
  destruct x as [a| | |].
  - destruct (Rle_dec 90 (Rabs a)) as [H|H].
    + rewrite schlick_back by (cbn; apply Rleb_t, H). apply within_fin. lra.
    + apply Rnot_le_lt in H. rewrite schlick_fin by assumption. apply within_fin.
      assert (0 < cosD a) by (apply cosD_pos; apply Rabs_def2 in H; lra). pose proof (cosD_bound a).
      pose proof (pow5_range (1 - cosD a)). lra.
  - rewrite schlick_back by reflexivity. apply within_fin. lra.
  - rewrite schlick_back by reflexivity. apply within_fin. lra.
  - left. reflexivity.
Qed.

(** ** sapm *)
Lemma sapm_lower aoi m upper : (match upper with Some u => fle #0 u | None => True end) ->
  atleast #0 (iam_sapm aoi m upper).
Proof.
  intros Hu. unfold iam_sapm. destruct (negb (isnan aoi) && fltb aoi #0); cbn [where_].
  - right. apply fle_fin. lra.
  - destruct upper as [u|]; [|apply fmax_atleast]. set (p := polyval _ _). unfold fclip.
    destruct u as [u| | |]; try discriminate Hu.
    + apply fle_fin in Hu. pose proof (fclip_within 0 u p Hu) as [H|[H _]]; [left; exact H|right; exact H].
    + destruct p; cbn; [right; apply fle_fin, Rmax_r|right; reflexivity|right; apply fle_fin; lra|left; reflexivity].
Qed.
Lemma sapm_upper aoi m u : 0 <= u -> atmost #u (iam_sapm aoi m (Some #u)).
Proof.
  intros Hu. unfold iam_sapm. destruct (negb (isnan aoi) && fltb aoi #0); cbn [where_].
  - right. apply fle_fin. lra.
  - pose proof (fclip_within 0 u (polyval [B5 m; B4 m; B3 m; B2 m; B1 m; B0 m] aoi) Hu) as [H|[_ H]]; [left; exact H|right; exact H].
Qed.

(** ** physical (uncoated) *)
(** cosines before and after refraction *)
Definition c1 (a : R) : R := Rmax 0 (cosD a).
Definition c2 (n a : R) : R := sqrt (1 - (1 / n * sqrt (1 - c1 a ^ 2)) ^ 2).
Definition fresnel_s (n a b : R) : R := 1 - ((a - n * b) / (a + n * b)) ^ 2.
Definition fresnel_p (n a b : R) : R := 1 - ((b - n * a) / (b + n * a)) ^ 2.
Definition fresnel_0 (n : R) : R := 1 - ((1 - n) / (1 + n)) ^ 2.
Definition phys_val (n KL a b : R) : R :=
  (fresnel_s n a b * exp (- KL / b) + fresnel_p n a b * exp (- KL / b)) / 2 / (fresnel_0 n * exp (- KL)).
Lemma c1_range a : 0 <= c1 a <= 1.
Proof. unfold c1. pose proof (cosD_bound a). rmm; lra. Qed.
Lemma sqrt_le1 x : x <= 1 -> sqrt x <= 1.
Proof. intros H. pose proof (sqrt_le_1_alt x 1 H) as Q. rewrite sqrt_1 in Q. exact Q. Qed.
Lemma s1_range a : 0 <= sqrt (1 - c1 a ^ 2) <= 1.
Proof.
  pose proof (c1_range a). split; [apply sqrt_pos|]. apply sqrt_le1. pose proof (pow2_ge_0 (c1 a)). lra.
Qed.
Lemma snell n a : 1 <= n -> 0 <= c2 n a <= 1 /\ n * n * (1 - c2 n a * c2 n a) = 1 - c1 a * c1 a /\ c1 a <= c2 n a.
Proof.
  intros Hn. pose proof (c1_range a) as C. pose proof (s1_range a) as S. unfold c2. set (s := sqrt (1 - c1 a ^ 2)) in *.
  assert (ES : s * s = 1 - c1 a ^ 2) by (apply sqrt_sqrt; nra).
  assert (EQ : (1 / n * s) ^ 2 = s * s / (n * n)) by (field; lra).
  assert (Q : 0 <= s * s / (n * n) <= s * s).
  { split; [apply Rmult_le_pos; [nra|left; apply Rinv_0_lt_compat; nra]|].
    apply Rmult_le_reg_r with (n * n); [nra|]. unfold Rdiv. rewrite Rmult_assoc, Rinv_l by nra.
    assert (1 <= n * n) by nra. assert (0 <= s * s) by nra. nra. }
  rewrite EQ. assert (H1 : 0 <= 1 - s * s / (n * n)) by nra.
  split; [split; [apply sqrt_pos|apply sqrt_le1; lra]|]. split.
  - rewrite sqrt_sqrt by exact H1. replace (n * n * (1 - (1 - s * s / (n * n)))) with (s * s) by (field; lra). rewrite ES. ring.
  - rewrite <- (sqrt_square (c1 a)) at 1 by lra. apply sqrt_le_1_alt. simpl in ES. lra.
Qed.
Lemma c2_pos n a : 1 < n \/ (1 <= n /\ 0 < c1 a) -> 0 < c2 n a.
Proof.
  intros H. assert (Hn : 1 <= n) by lra. destruct (snell n a Hn) as ([H1 _] & E & H2).
  destruct H as [H|H]; [|lra]. destruct H1 as [H1|H1]; [exact H1|]. rewrite <- H1 in E.
  pose proof (c1_range a). nra.
Qed.
Lemma fresnel_forms n a b : 0 < a + n * b -> 0 < b + n * a -> 0 < n ->
  fresnel_s n a b = 4 * n * a * b / ((a + n * b) * (a + n * b)) /\
  fresnel_p n a b = 4 * n * a * b / ((b + n * a) * (b + n * a)) /\
  fresnel_0 n = 4 * n / ((1 + n) * (1 + n)).
Proof. intros. unfold fresnel_s, fresnel_p, fresnel_0. repeat split; field; lra. Qed.
Lemma fresnel_0_pos n : 0 < n -> 0 < fresnel_0 n.
Proof.
  intros H. unfold fresnel_0. replace (1 - ((1 - n) / (1 + n)) ^ 2) with (4 * n / ((1 + n) * (1 + n))) by (field; lra).
  apply Rdiv_lt_0_compat; nra.
Qed.
(** unpolarised transmission is largest at normal incidence for 1 <= n <= 2 + sqrt 3 *)
Lemma fresnel_normal_best n a b : 0 < n -> n * n + 1 <= 4 * n -> 0 <= a -> 0 < b ->
  fresnel_s n a b + fresnel_p n a b <= 2 * fresnel_0 n.
Proof.
  intros Hn Hq Ha Hb. set (X := a + n * b). set (Y := b + n * a).
  assert (HX : 0 < X) by (unfold X; nra). assert (HY : 0 < Y) by (unfold Y; nra).
  destruct (fresnel_forms n a b HX HY Hn) as (-> & -> & ->). fold X Y.
  apply Rmult_le_reg_r with ((X * X) * (Y * Y) * ((1 + n) * (1 + n))); [repeat apply Rmult_lt_0_compat; lra|].
  replace ((4 * n * a * b / (X * X) + 4 * n * a * b / (Y * Y)) * (X * X * (Y * Y) * ((1 + n) * (1 + n))))
    with (4 * n * (a * b * ((X * X + Y * Y) * ((1 + n) * (1 + n))))) by (field; lra).
  replace (2 * (4 * n / ((1 + n) * (1 + n))) * (X * X * (Y * Y) * ((1 + n) * (1 + n))))
    with (4 * n * (2 * (X * X) * (Y * Y))) by (field; lra).
  apply Rmult_le_compat_l; [lra|].
  (* with P = ab(1+n)^2, D = n(b-a)^2, XY = P + D, X - Y = (n-1)(b-a) *)
  set (P := a * b * ((1 + n) * (1 + n))). set (D := n * ((b - a) * (b - a))).
  assert (EXY : X * Y = P + D) by (unfold X, Y, P, D; ring).
  assert (HP : 0 <= P) by (unfold P; apply Rmult_le_pos; nra).
  assert (HD : 0 <= D) by (unfold D; apply Rmult_le_pos; [lra|apply Rle_0_sqr]).
  assert (ES : X * X + Y * Y = 2 * (P + D) + (n - 1) * (n - 1) * ((b - a) * (b - a))) by (unfold X, Y, P, D; ring).
  replace (a * b * ((X * X + Y * Y) * ((1 + n) * (1 + n)))) with (P * (X * X + Y * Y)) by (unfold P; ring).
  replace (2 * (X * X) * (Y * Y)) with (2 * ((X * Y) * (X * Y))) by ring. rewrite EXY, ES.
  set (q := (b - a) * (b - a)) in *. assert (Hq0 : 0 <= q) by apply Rle_0_sqr.
  assert (HH : P * ((n - 1) * (n - 1) * q) <= 2 * D * P).
  { unfold D. replace (2 * (n * q) * P) with (P * (2 * n * q)) by ring. apply Rmult_le_compat_l; [exact HP|].
    apply Rmult_le_compat_r; [exact Hq0|]. nra. }
  assert (0 <= D * D) by (apply Rmult_le_pos; assumption).
  replace (P * (2 * (P + D) + (n - 1) * (n - 1) * q)) with (2 * P * P + 2 * (P * D) + P * ((n - 1) * (n - 1) * q)) by ring.
  replace (2 * ((P + D) * (P + D))) with (2 * P * P + 4 * (P * D) + 2 * (D * D)) by ring.
  assert (0 <= P * D) by (apply Rmult_le_pos; assumption). nra.
Qed.
Lemma fresnel_nonneg n a b : 0 < n -> 0 <= a -> 0 < b -> 0 <= fresnel_s n a b /\ 0 <= fresnel_p n a b.
Proof.
  intros Hn Ha Hb. assert (HX : 0 < a + n * b) by nra. assert (HY : 0 < b + n * a) by nra.
  destruct (fresnel_forms n a b HX HY Hn) as (-> & -> & _).
  assert (0 <= 4 * n * a * b) by (repeat apply Rmult_le_pos; lra).
  split; (apply Rmult_le_pos; [assumption|left; apply Rinv_0_lt_compat; nra]).
Qed.
Lemma phys_val_range n KL a b : 0 < n -> n * n + 1 <= 4 * n -> 0 <= KL -> 0 <= a -> 0 < b <= 1 ->
  0 <= phys_val n KL a b <= 1.
Proof.
  intros Hn Hq HK Ha Hb. unfold phys_val. destruct (fresnel_nonneg n a b Hn Ha ltac:(lra)) as [Hs Hp].
  pose proof (fresnel_normal_best n a b Hn Hq Ha ltac:(lra)) as HB. pose proof (fresnel_0_pos n Hn) as H0.
  set (e := exp (- KL / b)). set (e0 := exp (- KL)). assert (He : 0 < e) by apply exp_pos. assert (He0 : 0 < e0) by apply exp_pos.
  assert (Hee : e <= e0).
  { apply exp_le. apply Rmult_le_reg_r with b; [lra|]. unfold Rdiv. rewrite Rmult_assoc, Rinv_l by lra. nra. }
  set (t := fresnel_0 n * e0). assert (Ht : 0 < t) by (unfold t; apply Rmult_lt_0_compat; assumption).
  assert (N0 : 0 <= (fresnel_s n a b * e + fresnel_p n a b * e) / 2) by nra.
  assert (N1 : (fresnel_s n a b * e + fresnel_p n a b * e) / 2 <= t) by (unfold t; nra).
  split.
  - apply Rmult_le_pos; [exact N0|left; apply Rinv_0_lt_compat, Ht].
  - apply Rmult_le_reg_r with t; [exact Ht|]. unfold Rdiv at 1. rewrite Rmult_assoc, Rinv_l by lra. lra.
Qed.
Lemma fclose_self n : fclose #n #n = true.
Proof. cbn. apply Rleb_t. replace (n - n) with 0 by ring. rewrite Rabs_R0. pose proof (Rabs_pos n). lra. Qed.
Lemma phys_fin a n K L : 0 < n -> 0 < c2 n a ->
  physical #a #n #K #L None =
  if fclose #n #1 then where_ (Rleb 90 a) #0 #(phys_val n (K * L) (c1 a) (c2 n a)) else #(phys_val n (K * L) (c1 a) (c2 n a)).
Proof.
  intros Hn Hb. unfold physical, phys_n2. rewrite fclose_self. cbv zeta. rewrite cosd_fin, fmax_fin. fold (c1 a).
  assert (E1 : fsqrt (#1 - (#1 / #n * fsqrt (#1 - #(c1 a) ^ 2)) ^ 2)%fl = #(c2 n a)).
  { pose proof (c1_range a) as C. rewrite fdiv_fin by lra. rewrite (fpown_fin (c1 a)), fsub_fin. rewrite (fsqrt_fin (1 - c1 a ^ 2)) by nra.
    rewrite fmul_fin, fpown_fin, fsub_fin. set (arg := 1 - (1 / n * sqrt (1 - c1 a ^ 2)) ^ 2) in *.
    assert (Harg : 0 <= arg).
    { destruct (Rle_dec 0 arg) as [H|H]; [exact H|]. exfalso. unfold c2 in Hb. fold arg in Hb. rewrite sqrt_neg_0 in Hb by lra. lra. }
    rewrite (fsqrt_fin arg) by exact Harg. reflexivity. }
  rewrite E1. pose proof (c1_range a) as C. rewrite !fmul_fin, !fsub_fin, !fadd_fin.
  assert (HX : 1 * c1 a + n * c2 n a <> 0) by nra. assert (HY : 1 * c2 n a + n * c1 a <> 0) by nra.
  rewrite !fdiv_fin by lra. rewrite !fpown_fin, !fsub_fin.
  rewrite fneg_fin, !fmul_fin, !fdiv_fin by lra. rewrite !fexp_fin, !fmul_fin, !fadd_fin.
  try rewrite !fdiv_fin by lra.
  assert (E0 : 1 - ((1 - n) / (1 + n)) ^ 2 = fresnel_0 n) by reflexivity. rewrite E0.
  pose proof (fresnel_0_pos n ltac:(lra)) as H0. pose proof (exp_pos (- K * L)).
  rewrite fdiv_fin by (apply Rmult_integral_contrapositive_currified; lra).
  assert (EV : ((1 - ((1 * c1 a - n * c2 n a) / (1 * c1 a + n * c2 n a)) ^ 2) * exp (- K * L / c2 n a) +
     (1 - ((1 * c2 n a - n * c1 a) / (1 * c2 n a + n * c1 a)) ^ 2) * exp (- K * L / c2 n a)) / 2 / (fresnel_0 n * exp (- K * L))
     = phys_val n (K * L) (c1 a) (c2 n a)).
  { unfold phys_val, fresnel_s, fresnel_p. rewrite !Rmult_1_l. replace (- K * L) with (- (K * L)) by ring. reflexivity. }
  rewrite EV. reflexivity.
Qed.
Lemma phys_val_normal n KL : 0 < n -> phys_val n KL 1 1 = 1.
Proof.
  intros Hn. unfold phys_val. assert (ES : fresnel_s n 1 1 = fresnel_0 n) by (unfold fresnel_s, fresnel_0; rewrite !Rmult_1_r; reflexivity).
  assert (EP : fresnel_p n 1 1 = fresnel_0 n) by (unfold fresnel_p, fresnel_0; rewrite !Rmult_1_r; reflexivity).
  rewrite ES, EP. replace (- KL / 1) with (- KL) by field. pose proof (fresnel_0_pos n Hn). pose proof (exp_pos (- KL)). field. lra.
Qed.
Lemma phys_val_grazing n KL b : 0 < n -> 0 < b -> phys_val n KL 0 b = 0.
Proof.
  intros Hn Hb. unfold phys_val. destruct (fresnel_forms n 0 b ltac:(nra) ltac:(lra) Hn) as (-> & -> & _).
  unfold Rdiv. rewrite !Rmult_0_r, !Rmult_0_l. ring.
Qed.
Lemma c1_0 : c1 0 = 1. Proof. unfold c1. rewrite cosD_0. apply Rmax_right. lra. Qed.
Lemma c2_0 n : 0 < n -> c2 n 0 = 1.
Proof. intros H. unfold c2. rewrite c1_0. replace (1 - 1 ^ 2) with 0 by ring. rewrite sqrt_0. replace (1 - (1 / n * 0) ^ 2) with 1 by ring. apply sqrt_1. Qed.
Lemma cosD_neg_range a : 90 <= Rabs a <= 180 -> cosD a <= 0.
Proof. intros H. rewrite <- cosD_abs, <- cosD_90. apply cosD_decr; lra. Qed.

(** for larger n the modifier exceeds 1 somewhere *)
Lemma fresnel_above n a b : 0 < n -> 0 < a -> a < b -> 2 * n * n * ((b - a) * (b - a)) < a * b * ((1 + n) * (1 + n)) * (n * n - 4 * n + 1) ->
  2 * fresnel_0 n < fresnel_s n a b + fresnel_p n a b.
Proof.
  intros Hn Ha Hb Hc. set (X := a + n * b). set (Y := b + n * a).
  assert (HX : 0 < X) by (unfold X; nra). assert (HY : 0 < Y) by (unfold Y; nra).
  destruct (fresnel_forms n a b HX HY Hn) as (-> & -> & ->). fold X Y.
  apply Rmult_lt_reg_r with ((X * X) * (Y * Y) * ((1 + n) * (1 + n))); [repeat apply Rmult_lt_0_compat; lra|].
  replace ((4 * n * a * b / (X * X) + 4 * n * a * b / (Y * Y)) * (X * X * (Y * Y) * ((1 + n) * (1 + n))))
    with (4 * n * (a * b * ((X * X + Y * Y) * ((1 + n) * (1 + n))))) by (field; lra).
  replace (2 * (4 * n / ((1 + n) * (1 + n))) * (X * X * (Y * Y) * ((1 + n) * (1 + n))))
    with (4 * n * (2 * (X * X) * (Y * Y))) by (field; lra).
  apply Rmult_lt_compat_l; [lra|].
  set (q := (b - a) * (b - a)) in *. assert (Hq : 0 < q) by (unfold q; apply Rmult_lt_0_compat; lra).
  set (P := a * b * ((1 + n) * (1 + n))) in *.
  assert (EXY : X * Y = P + n * q) by (unfold X, Y, P, q; ring).
  assert (ES : X * X + Y * Y = 2 * (P + n * q) + (n - 1) * (n - 1) * q) by (unfold X, Y, P, q; ring).
  replace (a * b * ((X * X + Y * Y) * ((1 + n) * (1 + n)))) with (P * (X * X + Y * Y)) by (unfold P; ring).
  replace (2 * (X * X) * (Y * Y)) with (2 * ((X * Y) * (X * Y))) by ring. rewrite EXY, ES.
  assert (E : P * (2 * (P + n * q) + (n - 1) * (n - 1) * q) - 2 * ((P + n * q) * (P + n * q)) = q * (P * (n * n - 4 * n + 1) - 2 * n * n * q)) by ring.
  assert (0 < q * (P * (n * n - 4 * n + 1) - 2 * n * n * q)) by (apply Rmult_lt_0_compat; lra). lra.
Qed.
Lemma physical_above_one n K : 1 < n -> 4 * n < n * n + 1 ->
  exists a x, 0 < a < 90 /\ physical #a #n #K #0 None = #x /\ 1 < x.
Proof.
  intros Hn Hq. set (m := (1 + n) * (1 + n) * (n * n - 4 * n + 1)).
  assert (Hm : 0 < m) by (unfold m; apply Rmult_lt_0_compat; nra).
  set (k := 2 * n * n / m + 1). assert (Hk : 1 < k) by (unfold k; assert (0 < 2 * n * n / m) by (apply Rdiv_lt_0_compat; nra); lra).
  set (c := k / (1 + k)). assert (Hc : 0 < c < 1).
  { unfold c. split; [apply Rdiv_lt_0_compat; lra|]. apply Rmult_lt_reg_r with (1 + k); [lra|]. unfold Rdiv. rewrite Rmult_assoc, Rinv_l by lra. lra. }
  set (a := Rdeg (acos c)). assert (EC : cosD a = c) by (unfold cosD, a; rewrite Rrad_deg; apply cos_acos; lra).
  pose proof (acos_bound c) as B.
  assert (H0 : 0 <= a <= 180).
  { split; apply Rmult_le_reg_r with (PI / 180); try (apply Rdiv_lt_0_compat; [apply PI_RGT_0|lra]);
    unfold a, Rdeg; replace (acos c * 180 / PI * (PI / 180)) with (acos c) by (field; apply PI_neq0); lra. }
  assert (HA : 0 < a < 90).
  { split.
    - destruct (proj1 H0) as [H|H]; [exact H|]. rewrite <- H in EC. rewrite cosD_0 in EC. lra.
    - destruct (Rlt_dec a 90) as [H|H]; [exact H|]. exfalso.
      pose proof (cosD_decr 90 a ltac:(lra) ltac:(lra) ltac:(lra)) as D. rewrite cosD_90, EC in D. lra. }
  assert (E1 : c1 a = c) by (unfold c1; rewrite EC; apply Rmax_right; lra).
  destruct (snell n a ltac:(lra)) as ([S1 S2] & S3 & S4). rewrite E1 in *.
  set (b := c2 n a) in *.
  assert (Hb : c < b).
  { destruct S4 as [S4|S4]; [exact S4|]. exfalso. rewrite <- S4 in S3.
    assert (0 < (n * n - 1) * (1 - c * c)) by (apply Rmult_lt_0_compat; nra). lra. }
  exists a. eexists. split; [exact HA|]. rewrite phys_fin by (try lra; fold b; lra). rewrite E1. fold b.
  rewrite (Rmult_0_r K).
  assert (NC : fclose #n #1 = false).
  { cbn. apply Rleb_f. rewrite Rabs_R1, Rabs_pos_eq by lra. assert (3 < n) by nra. lra. }
  rewrite NC. split; [reflexivity|].
  unfold phys_val. replace (- 0 / b) with 0 by (field; lra). rewrite Ropp_0, exp_0, !Rmult_1_r.
  assert (HF : 2 * fresnel_0 n < fresnel_s n c b + fresnel_p n c b).
  { apply fresnel_above; try lra.
    assert (Hd : (b - c) * (b - c) <= (1 - c) * (1 - c)) by nra.
    assert (E2 : 1 - c = c / k) by (unfold c; field; lra).
    assert (Hck : 2 * n * n * ((1 - c) * (1 - c)) < c * c * m).
    { rewrite E2. replace (2 * n * n * (c / k * (c / k))) with (c * c * (2 * n * n / (k * k))) by (field; lra).
      apply Rmult_lt_compat_l; [nra|]. apply Rmult_lt_reg_r with (k * k); [nra|].
      unfold Rdiv. rewrite Rmult_assoc, Rinv_l by nra.
      assert (EM : k * m = 2 * n * n + m) by (unfold k; field; lra).
      replace (m * (k * k)) with (k * m * k) by ring. rewrite EM. nra. }
    assert (Hcb : c * c * m <= c * b * m) by (apply Rmult_le_compat_r; [lra|]; apply Rmult_le_compat_l; lra).
    assert (H5 : 2 * n * n * ((b - c) * (b - c)) <= 2 * n * n * ((1 - c) * (1 - c))) by (apply Rmult_le_compat_l; nra).
    replace (c * b * ((1 + n) * (1 + n)) * (n * n - 4 * n + 1)) with (c * b * m) by (unfold m; ring). lra. }
  pose proof (fresnel_0_pos n ltac:(lra)) as F0.
  apply Rmult_lt_reg_r with (fresnel_0 n); [exact F0|]. unfold Rdiv at 1. rewrite Rmult_assoc, Rinv_l by lra. lra.
Qed.

(** ** martin_ruiz_diffuse *)
Definition mrt (beta : R) : R := sin beta + (PI - beta - sin beta) / (1 + cos beta).
Lemma mrd_fin t ar c1 c2 : 0 < t < 180 -> ar <> 0 ->
  martin_ruiz_diffuse #t #ar #c1 (Some #c2) =
  (#(1 - exp (- (c1 + c2 * mrt (Rrad t)) * mrt (Rrad t) / ar)),
   #(1 - exp (- (c1 + c2 * mrt (Rrad (180 - t))) * mrt (Rrad (180 - t)) / ar))).
Proof.
  intros Ht Ha. unfold martin_ruiz_diffuse, mrd_tilt. cbn [feqb]. rewrite Reqb_f by lra. cbn [where_]. cbn [feqb]. rewrite Reqb_f by lra.
  cbn [where_]. rewrite !fradians_fin, !fsub_fin, !fsin_fin.
  assert (ES : where_ (fltb #t #90) #(sin (Rrad t)) #(sin (PI - Rrad t)) = #(sin (Rrad t))).
  { unfold where_. destruct (fltb #t #90); [reflexivity|]. rewrite sin_PI_x. reflexivity. }
  rewrite ES. rewrite fcos_fin, !fadd_fin, !fsub_fin.
  pose proof PI_RGT_0 as HPI.
  assert (HB : 0 < Rrad t < PI) by (split; [rewrite <- Rrad_0|rewrite <- Rrad_180]; apply Rrad_lt; lra).
  assert (HC : -1 < cos (Rrad t) < 1).
  { split.
    - rewrite <- cos_PI. apply cos_decreasing_1; lra.
    - rewrite <- cos_0. apply cos_decreasing_1; lra. }
  rewrite !fdiv_fin by lra. rewrite !fadd_fin, !fmul_fin, !fadd_fin, !fneg_fin, !fmul_fin, !fdiv_fin by assumption. rewrite !fexp_fin, !fsub_fin.
  assert (EG : sin (Rrad t) + (Rrad t - sin (Rrad t)) / (1 - cos (Rrad t)) = mrt (Rrad (180 - t))).
  { unfold mrt. rewrite Rrad_minus, Rrad_180, sin_PI_x, cos_minus, cos_PI, sin_PI.
    replace (PI - (PI - Rrad t) - sin (Rrad t)) with (Rrad t - sin (Rrad t)) by ring.
    replace (1 + (-1 * cos (Rrad t) + 0 * sin (Rrad t))) with (1 - cos (Rrad t)) by ring. reflexivity. }
  rewrite EG. reflexivity.
Qed.

(** ** schlick_diffuse *)
Definition cukR (t : R) : R :=
  (2 / (PI * (1 + cosD t))) * (30/7 * PI - 160/21 * Rrad t - 10/3 * PI * cosD t + 160/21 * cosD t * sinD t
   - 5/3 * PI * cosD t * sinD t ^ 2 + 20/7 * cosD t * sinD t ^ 3 - 5/16 * PI * cosD t * sinD t ^ 4 + 16/105 * cosD t * sinD t ^ 5).
Lemma schlick_diffuse_fin t : -1 < cosD t < 1 ->
  schlick_diffuse #t = (#(cukR t), if Rltb t 0.000001 then #0 else #(40 / (21 * (1 - cosD t)) - (1 + cosD t) / (1 - cosD t) * cukR t)).
Proof.
  intros HC. unfold schlick_diffuse. rewrite cosd_fin, sind_fin, fradians_fin. cbv zeta.
  rewrite !fpown_fin, !fadd_fin, !fsub_fin, !fmul_fin. pose proof PI_RGT_0.
  rewrite !fdiv_fin by nra. rewrite ?fsub_fin, ?fadd_fin, ?fmul_fin, ?fsub_fin, ?fadd_fin, ?fsub_fin, ?fadd_fin, ?fsub_fin, ?fadd_fin, ?fmul_fin.
  rewrite fltb_fin. fold (cukR t). unfold where_. destruct (Rltb t 0.000001); reflexivity.
Qed.

(** ** Marion integration *)
Lemma cosaoi_bound b p s : -1 <= cos b * cos p + sin b * sin p * cos s <= 1.
Proof.
  pose proof (COS_bound s) as [S1 S2]. pose proof (cos_minus b p) as M. pose proof (cos_plus b p) as Q.
  pose proof (COS_bound (b - p)). pose proof (COS_bound (b + p)).
  (* linear interpolation in cos s between cos(b+p) and cos(b-p) *)
  assert (E : cos b * cos p + sin b * sin p * cos s = (1 + cos s) / 2 * cos (b - p) + (1 - cos s) / 2 * cos (b + p)) by (rewrite M, Q; field).
  rewrite E. split; nra.
Qed.
Lemma acos_lt_cos x : -1 <= x <= 1 -> acos x < PI / 2 -> 0 < x.
Proof. intros H1 H2. rewrite <- (cos_acos x H1). apply cos_gt_0; [|exact H2]. pose proof (acos_bound x). pose proof PI_RGT_0. lra. Qed.
Lemma grid_range r n p : In p (marion_grid r n) -> 0 <= fst p /\ fst p + PI / INR n <= PI.
Proof.
  unfold marion_grid, linspace0. intros H. apply in_flat_map in H as (phi & Hphi & H). apply in_map_iff in H as (psi & <- & _). cbn [fst].
  apply filter_In in Hphi as [Hphi _]. apply in_map_iff in Hphi as (i & <- & Hi). apply in_seq in Hi.
  assert (Hn : 0 < INR n) by (apply lt_0_INR; lia). pose proof PI_RGT_0.
  assert (Hq : 0 < PI / INR n) by (apply Rdiv_lt_0_compat; assumption).
  split; [apply Rmult_le_pos; [apply pos_INR|lra]|].
  assert (INR i + 1 <= INR n) by (rewrite <- S_INR; apply le_INR; lia).
  replace PI with (INR n * (PI / INR n)) at 3 by (field; lra). nra.
Qed.
Lemma patch_weight b r n p : In p (marion_grid r n) -> 0 <= snd (marion_patch b (PI / INR n) p).
Proof.
  intros H. destruct (grid_range r n p H) as [H1 H2]. unfold marion_patch. cbn [snd].
  set (phi := fst p) in *. set (ai := PI / INR n) in *.
  destruct (Rltb_spec (acos (cos b * cos (phi + 0.5 * ai) + sin b * sin (phi + 0.5 * ai) * cos (snd p + 0.5 * ai))) (PI / 2)) as [L|L]; [|lra].
  apply acos_lt_cos in L; [|apply cosaoi_bound].
  assert (Ha : 0 <= ai).
  { unfold ai. destruct (Req_dec (INR n) 0) as [E|E]; [rewrite E; unfold Rdiv; rewrite Rinv_0; lra|].
    apply Rmult_le_pos; [left; apply PI_RGT_0|]. left. apply Rinv_0_lt_compat. pose proof (pos_INR n). lra. }
  apply Rmult_le_pos; [lra|]. apply Rmult_le_pos; [exact Ha|].
  destruct Ha as [Ha|Ha]; [|rewrite <- Ha, Rplus_0_r; lra].
  assert (cos (phi + ai) <= cos phi); [|lra]. left. apply cos_decreasing_1; lra.
Qed.
Lemma weighted_bounds {A} (g w : A -> R) l lo hi :
  (forall x, In x l -> 0 <= w x) -> (forall x, In x l -> w x <> 0 -> lo <= g x <= hi) ->
  0 <= Rlsum (map w l) /\ lo * Rlsum (map w l) <= Rlsum (map (fun x => g x * w x) l) <= hi * Rlsum (map w l).
Proof.
  induction l as [|x l IH]; intros Hw Hg; cbn [map Rlsum fold_right]; [lra|].
  destruct IH as (I1 & I2 & I3); [intros; apply Hw; right; assumption|intros; apply Hg; [right|]; assumption|].
  pose proof (Hw x (or_introl eq_refl)) as W. pose proof (Hg x (or_introl eq_refl)) as G.
  unfold Rlsum in *. split; [lra|]. destruct (Req_dec (w x) 0) as [E|E]; [rewrite E; lra|]. specialize (G E).
  assert (lo * w x <= g x * w x <= hi * w x) by (split; apply Rmult_le_compat_r; lra). lra.
Qed.
Lemma marion_average f t r num n lo hi : region_num num r = Ok n ->
  (forall p, In p (marion_grid r n) -> let q := marion_patch (Rrad t) (PI / INR n) p in snd q <> 0 -> lo <= f (Rdeg (fst q)) <= hi) ->
  exists v, marion_integrate f t r num = Ok v /\
   ((v = 0 /\ forall p, In p (marion_grid r n) -> snd (marion_patch (Rrad t) (PI / INR n) p) = 0) \/ lo <= v <= hi).
Proof.
  intros En Hf. unfold marion_integrate. rewrite En. cbn [bind]. eexists. split; [reflexivity|].
  rewrite !map_map. set (P := marion_patch (Rrad t) (PI / INR n)) in *. set (G := marion_grid r n) in *.
  destruct (weighted_bounds (fun p => f (Rdeg (fst (P p)))) (fun p => snd (P p)) G lo hi) as (W & B1 & B2).
  - intros p Hp. apply (patch_weight _ r n p Hp).
  - exact Hf.
  - destruct (Reqb_spec (Rlsum (map (fun p => snd (P p)) G)) 0) as [E|E].
    + left. split; [reflexivity|].
      assert (W' : forall p, In p G -> 0 <= snd (P p)) by (intros p Hp; apply (patch_weight _ r n p Hp)).
      clear -E W'. induction G as [|x l IH]; intros p []; cbn [map Rlsum fold_right] in E.
      * subst x. assert (0 <= Rlsum (map (fun p => snd (P p)) l)).
        { clear -W'. assert (H : forall q, In q l -> 0 <= snd (P q)) by (intros; apply W'; right; assumption). clear W'.
          induction l as [|y l IH]; cbn [map Rlsum fold_right]; [lra|]. pose proof (H y (or_introl eq_refl)).
          unfold Rlsum in IH. assert (0 <= fold_right Rplus 0 (map (fun p => snd (P p)) l)) by (apply IH; intros; apply H; right; assumption). lra. }
        pose proof (W' p (or_introl eq_refl)). unfold Rlsum in *. lra.
      * assert (0 <= Rlsum (map (fun p => snd (P p)) l)).
        { clear -W'. assert (H : forall q, In q l -> 0 <= snd (P q)) by (intros; apply W'; right; assumption). clear W'.
          induction l as [|y l IH]; cbn [map Rlsum fold_right]; [lra|]. pose proof (H y (or_introl eq_refl)).
          unfold Rlsum in IH. assert (0 <= fold_right Rplus 0 (map (fun p => snd (P p)) l)) by (apply IH; intros; apply H; right; assumption). lra. }
        pose proof (W' x (or_introl eq_refl)). apply IH; [unfold Rlsum in *; lra|intros; apply W'; right; assumption|assumption].
    + right. set (D := Rlsum (map (fun p => snd (P p)) G)) in *. assert (HD : 0 < D) by lra.
      split; apply Rmult_le_reg_r with D; try exact HD; unfold Rdiv; rewrite Rmult_assoc, Rinv_l by lra; lra.
Qed.

(** ** physical in De Soto's angle form *)
Lemma phys_desoto n KL th thr : 0 < n -> 0 < th < PI / 2 -> 0 < thr < PI / 2 -> sin th = n * sin thr ->
  phys_val n KL (cos th) (cos thr) = tau_desoto KL th thr / tau_desoto_normal n KL.
Proof.
  intros Hn H1 H2 HS. unfold phys_val, tau_desoto, tau_desoto_normal, refl_perp, refl_par.
  pose proof PI_RGT_0. assert (S2 : 0 < sin thr) by (apply sin_gt_0; lra). assert (S1 : 0 < sin th) by (apply sin_gt_0; lra).
  assert (C1 : 0 < cos th) by (apply cos_gt_0; lra). assert (C2 : 0 < cos thr) by (apply cos_gt_0; lra).
  assert (SP : 0 < sin (thr + th)) by (apply sin_gt_0; lra). assert (CM : 0 < cos (thr - th)) by (apply cos_gt_0; lra).
  assert (ES : fresnel_s n (cos th) (cos thr) = 1 - (sin (thr - th) / sin (thr + th)) ^ 2).
  { unfold fresnel_s. f_equal. f_equal. rewrite sin_minus, sin_plus, HS. rewrite sin_plus, HS in SP.
    assert (D : 0 < cos th + n * cos thr) by nra.
    replace (sin thr * cos th - cos thr * (n * sin thr)) with (sin thr * (cos th - n * cos thr)) by ring.
    replace (sin thr * cos th + cos thr * (n * sin thr)) with (sin thr * (cos th + n * cos thr)) by ring.
    field. lra. }
  assert (EP : fresnel_p n (cos th) (cos thr) = 1 - (sin (thr - th) * cos (thr + th) / (sin (thr + th) * cos (thr - th))) ^ 2).
  { unfold fresnel_p. f_equal. f_equal.
    assert (D : 0 < cos thr + n * cos th) by nra.
    assert (SP' := SP). assert (CM' := CM).
    apply Rmult_eq_reg_r with ((cos thr + n * cos th) * (sin (thr + th) * cos (thr - th))).
    2:{ apply Rmult_integral_contrapositive_currified; [lra|]. apply Rmult_integral_contrapositive_currified; lra. }
    replace ((cos thr - n * cos th) / (cos thr + n * cos th) * ((cos thr + n * cos th) * (sin (thr + th) * cos (thr - th))))
      with ((cos thr - n * cos th) * (sin (thr + th) * cos (thr - th))) by (field; lra).
    replace (sin (thr - th) * cos (thr + th) / (sin (thr + th) * cos (thr - th)) * ((cos thr + n * cos th) * (sin (thr + th) * cos (thr - th))))
      with (sin (thr - th) * cos (thr + th) * (cos thr + n * cos th)) by (field; split; lra).
    assert (A1 : sin (thr + th) * cos (thr - th) = sin thr * cos thr + sin th * cos th).
    { rewrite sin_plus, cos_minus. pose proof (sin2cos2 th). pose proof (sin2cos2 thr).
      replace ((sin thr * cos th + cos thr * sin th) * (cos thr * cos th + sin thr * sin th))
        with (sin thr * cos thr * (sin th * sin th + cos th * cos th) + sin th * cos th * (sin thr * sin thr + cos thr * cos thr)) by ring.
      rewrite H0, H3. ring. }
    assert (A2 : sin (thr - th) * cos (thr + th) = sin thr * cos thr - sin th * cos th).
    { rewrite sin_minus, cos_plus. pose proof (sin2cos2 th). pose proof (sin2cos2 thr).
      replace ((sin thr * cos th - cos thr * sin th) * (cos thr * cos th - sin thr * sin th))
        with (sin thr * cos thr * (sin th * sin th + cos th * cos th) - sin th * cos th * (sin thr * sin thr + cos thr * cos thr)) by ring.
      rewrite H0, H3. ring. }
    rewrite A1, A2, HS. ring. }
  rewrite ES, EP. unfold fresnel_0. 
  replace (- KL / cos thr) with (- (KL / cos thr)) by (field; lra).
  replace ((1 - n) / (1 + n)) with (- ((n - 1) / (n + 1))) by (field; lra).
  replace ((- ((n - 1) / (n + 1))) ^ 2) with (((n - 1) / (n + 1)) ^ 2) by ring.
  set (e := exp (- (KL / cos thr))). set (p := (sin (thr - th) / sin (thr + th)) ^ 2). set (q := (_ / _) ^ 2).
  rewrite (Rmult_comm _ (exp (- KL))). set (D := exp (- KL) * _).
  replace (((1 - p) * e + (1 - q) * e) / 2) with (e * (1 - (p + q) / 2)) by field. reflexivity.
Qed.
Lemma c2_thr n th thr a : 0 < n -> a = Rdeg th -> 0 < th < PI / 2 -> 0 < thr < PI / 2 -> sin th = n * sin thr ->
  c1 a = cos th /\ c2 n a = cos thr.
Proof.
  intros Hn -> H1 H2 HS. pose proof PI_RGT_0. assert (C1 : 0 < cos th) by (apply cos_gt_0; lra). assert (C2 : 0 < cos thr) by (apply cos_gt_0; lra).
  assert (E1 : c1 (Rdeg th) = cos th) by (unfold c1; rewrite cosD_deg; apply Rmax_right; lra).
  split; [exact E1|]. unfold c2. rewrite E1.
  assert (S1 : 0 < sin th) by (apply sin_gt_0; lra).
  replace (1 - cos th ^ 2) with (sin th * sin th) by (pose proof (sin2cos2 th); simpl; lra). rewrite sqrt_square by lra.
  rewrite HS. replace (1 - (1 / n * (n * sin thr)) ^ 2) with (cos thr * cos thr).
  - apply sqrt_square. lra.
  - replace (1 / n * (n * sin thr)) with (sin thr) by (field; lra). pose proof (sin2cos2 thr). simpl. lra.
Qed.

(** ** physical with n = sin(intercept) < 1, as used by convert(ashrae -> physical, fix_n) *)
Lemma phys_at_critical n a K L : 0 < n -> 0 < a < 90 -> sinD a = n -> 0 < K * L -> physical #a #n #K #L None = #0.
Proof.
  intros Hn Ha HS HK. unfold physical, phys_n2. rewrite fclose_self. cbv zeta. rewrite cosd_fin, fmax_fin. fold (c1 a).
  assert (HC : 0 < cosD a) by (apply cosD_pos; lra).
  assert (E1 : c1 a = cosD a) by (unfold c1; apply Rmax_right; lra). rewrite E1.
  assert (E2 : fsqrt (#1 - (#1 / #n * fsqrt (#1 - #(cosD a) ^ 2)) ^ 2)%fl = #0).
  { pose proof (sc2D a). rewrite fdiv_fin by lra. rewrite fpown_fin, fsub_fin. replace (1 - cosD a ^ 2) with (n * n) by (rewrite <- HS; simpl; lra).
    rewrite fsqrt_fin by nra. rewrite sqrt_square by lra. rewrite fmul_fin, fpown_fin, fsub_fin.
    replace (1 - (1 / n * n) ^ 2) with 0 by (field; lra). rewrite fsqrt_fin by lra. f_equal. apply sqrt_0. }
  rewrite E2. rewrite !fmul_fin, !fsub_fin, !fadd_fin. rewrite !fdiv_fin by nra.
  rewrite !fpown_fin, !fsub_fin, fneg_fin, !fmul_fin, fdiv_zero. unfold sinf.
  replace (- K * L) with (- (K * L)) by ring. assert (EP : Rpos (- (K * L)) = false) by (unfold Rpos; apply Rltb_f; lra).
  assert (EN : Rneg (- (K * L)) = true) by (unfold Rneg; apply Rltb_t; lra). rewrite EP, EN. cbn [fexp]. rewrite !fmul_fin, !fadd_fin.
  rewrite !fdiv_fin by lra.
  assert (E0 : 1 - ((1 - n) / (1 + n)) ^ 2 = fresnel_0 n) by reflexivity. rewrite E0.
  pose proof (fresnel_0_pos n Hn) as F0. pose proof (exp_pos (- (K * L))) as X. rewrite !fdiv_fin by (apply Rmult_integral_contrapositive_currified; lra).
  match goal with |- (if _ then where_ _ _ #?v else #?v) = _ => replace v with 0 end.
  - destruct (fclose #n #1); [|reflexivity]. unfold where_. destruct (fgeb _ _); reflexivity.
  - unfold Rdiv. ring.
Qed.
Lemma phys_beyond_critical n a K L : 0 < n -> 0 < a < 90 -> n < sinD a -> physical #a #n #K #L None = NaN.
Proof.
  intros Hn Ha HS. unfold physical, phys_n2. rewrite fclose_self. cbv zeta. rewrite cosd_fin, fmax_fin. fold (c1 a).
  assert (HC : 0 < cosD a) by (apply cosD_pos; lra).
  assert (E1 : c1 a = cosD a) by (unfold c1; apply Rmax_right; lra). rewrite E1.
  assert (E2 : fsqrt (#1 - (#1 / #n * fsqrt (#1 - #(cosD a) ^ 2)) ^ 2)%fl = NaN).
  { pose proof (sc2D a). rewrite fdiv_fin by lra. rewrite fpown_fin, fsub_fin. replace (1 - cosD a ^ 2) with (sinD a * sinD a) by (simpl; lra).
    rewrite fsqrt_fin by nra. rewrite sqrt_square by lra. rewrite fmul_fin, fpown_fin, fsub_fin. cbn [fsqrt].
    assert (1 < 1 / n * sinD a).
    { apply Rmult_lt_reg_r with n; [lra|]. replace (1 / n * sinD a * n) with (sinD a) by (field; lra). lra. }
    unfold Rneg. rewrite Rltb_t; [reflexivity|]. simpl. nra. }
  rewrite E2. cbn -[Rleb]. rewrite (Rleb_f 90 a) by lra. destruct (Rleb _ _); reflexivity.
Qed.
Lemma phys_below_critical n a K L : 0 < n -> 0 <= a < 90 -> sinD a < n -> exists x, physical #a #n #K #L None = #x /\ 0 < x.
Proof.
  intros Hn Ha HS. assert (HC : 0 < cosD a) by (apply cosD_pos; lra).
  assert (E1 : c1 a = cosD a) by (unfold c1; apply Rmax_right; lra).
  assert (HSn : 0 <= sinD a) by (apply sinD_nonneg; lra).
  assert (H2 : 0 < c2 n a).
  { unfold c2. rewrite E1. pose proof (sc2D a). replace (1 - cosD a ^ 2) with (sinD a * sinD a) by (simpl; lra). rewrite sqrt_square by lra.
    apply sqrt_lt_R0. assert (0 <= 1 / n * sinD a < 1).
    { split; [apply Rmult_le_pos; [left; apply Rdiv_lt_0_compat; lra|lra]|].
      apply Rmult_lt_reg_r with n; [lra|]. replace (1 / n * sinD a * n) with (sinD a) by (field; lra). lra. }
    simpl. nra. }
  rewrite phys_fin by assumption. exists (phys_val n (K * L) (c1 a) (c2 n a)). split.
  - destruct (fclose #n #1); [|reflexivity]. rewrite Rleb_f by lra. reflexivity.
  - rewrite E1. unfold phys_val. set (b := c2 n a) in *.
    destruct (fresnel_forms n (cosD a) b ltac:(nra) ltac:(nra) Hn) as (-> & -> & _).
    assert (X1 : 0 < 4 * n * cosD a * b) by (repeat apply Rmult_lt_0_compat; lra).
    pose proof (exp_pos (- (K * L) / b)). pose proof (exp_pos (- (K * L))). pose proof (fresnel_0_pos n Hn).
    apply Rdiv_lt_0_compat; [|apply Rmult_lt_0_compat; assumption]. apply Rdiv_lt_0_compat; [|lra].
    apply Rplus_lt_0_compat; (apply Rmult_lt_0_compat; [apply Rdiv_lt_0_compat; [assumption|nra]|assumption]).
Qed.

(** coated cover at normal incidence *)
Lemma phys_coated_normal n na K L : 0 < n -> 0 < na -> physical #0 #n #K #L (Some #na) = #1.
Proof.
  intros Hn Hna. unfold physical. assert (H2 : exists m, phys_n2 #n (Some #na) = #m /\ 0 < m).
  { unfold phys_n2. destruct (fclose #na #1); eexists; split; try reflexivity; assumption. }
  destruct H2 as (m & -> & Hm). cbv zeta. rewrite cosd_fin, cosD_0, fmax_fin. rewrite (Rmax_right 0 1) by lra.
  rewrite fpown_fin, fsub_fin. replace (1 - 1 ^ 2) with 0 by ring. rewrite (fsqrt_fin 0), sqrt_0 by lra.
  rewrite !(fdiv_fin 1 m) by lra. rewrite !fmul_fin, fpown_fin, fsub_fin. replace (1 - (1 / m * 0) ^ 2) with 1 by ring.
  rewrite (fsqrt_fin 1), sqrt_1 by lra. rewrite !fmul_fin, !fsub_fin, !fadd_fin. rewrite !Rmult_1_r, ?Rmult_1_l.
  assert (E0 : 1 - ((1 - m) / (1 + m)) ^ 2 = fresnel_0 m) by reflexivity.
  pose proof (fresnel_0_pos m Hm) as F0. rewrite !fdiv_fin by lra. rewrite !fpown_fin, !fsub_fin, E0.
  set (r := ((1 - m) / (1 + m)) ^ 2) in *. assert (R0 : 0 <= r < 1) by (split; [apply pow2_ge_0|unfold fresnel_0 in F0; fold r in F0; lra]).
  assert (FIN : forall t, 0 < t -> let e := fexp (- #K * #L / #1)%fl in ((#t * e + #t * e) / #2 / (#t * fexp (- #K * #L)))%fl = #1).
  { intros t Ht. cbv zeta. rewrite fneg_fin, fmul_fin, fdiv_fin by lra. rewrite !fexp_fin, !fmul_fin, fadd_fin, fdiv_fin by lra.
    replace (- K * L / 1) with (- K * L) by field. pose proof (exp_pos (- K * L)). rewrite fdiv_fin by nra. f_equal. field. lra. }
  destruct (fclose #n #m) eqn:CL.
  - rewrite FIN by lra. destruct (fclose #m #1); [|reflexivity]. unfold fgeb. rewrite fleb_fin, Rleb_f by lra. reflexivity.
  - rewrite !fmul_fin, !fpown_fin, !fsub_fin.
    replace (1 - (m / n * (1 / m * 0)) ^ 2) with 1 by (unfold Rdiv; ring). rewrite (fsqrt_fin 1), sqrt_1 by lra.
    rewrite !fmul_fin, !fsub_fin, !fadd_fin, !Rmult_1_r. rewrite !(fdiv_fin (m - n)) by lra. rewrite !fpown_fin.
    assert (G0 : 0 < 1 - ((m - n) / (m + n)) ^ 2).
    { replace (1 - ((m - n) / (m + n)) ^ 2) with (4 * m * n / ((m + n) * (m + n))) by (field; lra). apply Rdiv_lt_0_compat; nra. }
    set (g := ((m - n) / (m + n)) ^ 2) in *. assert (0 <= g) by apply pow2_ge_0.
    rewrite !fmul_fin, !fsub_fin. assert (0 < 1 - g * r) by nra. rewrite !fdiv_fin by lra. rewrite !fmul_fin.
    rewrite FIN.
    + destruct (fclose #m #1); [|reflexivity]. unfold fgeb. rewrite fleb_fin, Rleb_f by lra. reflexivity.
    + apply Rmult_lt_0_compat; [lra|]. apply Rdiv_lt_0_compat; lra.
Qed.
