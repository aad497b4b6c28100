(** Polar form of atan2, angle reduction. *)
From Verif Require Import Base.Fl Base.FlFacts.
From Coq Require Import Psatz.
Open Scope R_scope.

Lemma hyp_pos x y : x <> 0 \/ y <> 0 -> 0 < sqrt (x * x + y * y).
Proof.
  intros H. apply sqrt_lt_R0. pose proof (Rle_0_sqr x) as Hx. pose proof (Rle_0_sqr y) as Hy.
  unfold Rsqr in *.
  destruct H as [H|H].
  - assert (0 < x * x) by (apply Rsqr_pos_lt in H; exact H). lra.
  - assert (0 < y * y) by (apply Rsqr_pos_lt in H; exact H). lra.
Qed.

Lemma sqrt_1_div x y : 0 < x -> x * sqrt (1 + (y / x)²) = sqrt (x * x + y * y).
Proof.
  intros H. replace (x * x + y * y) with ((x * x) * (1 + (y / x)²)).
  - rewrite sqrt_mult_alt by nra. rewrite sqrt_square by lra. reflexivity.
  - unfold Rsqr. field. lra.
Qed.

Lemma polar_pos x y : 0 < x ->
  sqrt (x * x + y * y) * cos (atan (y / x)) = x /\ sqrt (x * x + y * y) * sin (atan (y / x)) = y.
Proof.
  intros H. rewrite cos_atan, sin_atan.
  assert (P : 0 < sqrt (1 + (y / x)²)).
  { apply sqrt_lt_R0. pose proof (Rle_0_sqr (y / x)). lra. }
  rewrite <- (sqrt_1_div x y H). split; field; lra.
Qed.

Lemma atan2_polar y x :
  sqrt (x * x + y * y) * cos (Ratan2 y x) = x /\ sqrt (x * x + y * y) * sin (Ratan2 y x) = y.
Proof.
  unfold Ratan2. destruct (Rltb_spec 0 x).
  - apply polar_pos; assumption.
  - destruct (Rltb_spec x 0).
    + destruct (polar_pos (- x) (- y)) as [A B]; [lra|].
      replace (- x * - x + - y * - y) with (x * x + y * y) in A, B by ring.
      replace (- y / - x) with (y / x) in A, B by (field; lra).
      destruct (Rltb y 0).
      * rewrite cos_minus, sin_minus, cos_PI, sin_PI. split; lra.
      * rewrite cos_plus, sin_plus, cos_PI, sin_PI. split; lra.
    + assert (x = 0) by lra. subst x. replace (0 * 0 + y * y) with (y * y) by ring.
      change (y * y) with (Rsqr y). rewrite (sqrt_Rsqr_abs y). destruct (Rltb_spec 0 y).
      * rewrite cos_PI2, sin_PI2, Rabs_right by lra. split; lra.
      * destruct (Rltb_spec y 0).
        -- rewrite cos_neg, sin_neg, cos_PI2, sin_PI2, Rabs_left by lra. split; lra.
        -- assert (y = 0) by lra. subst y. rewrite Rabs_R0. split; ring.
Qed.

Lemma atan2_range y x : - PI < Ratan2 y x <= PI.
Proof.
  pose proof PI_RGT_0 as HP. unfold Ratan2. pose proof (atan_bound (y / x)) as Hb.
  destruct (Rltb_spec 0 x); [lra|]. destruct (Rltb_spec x 0).
  - destruct (Rltb_spec y 0).
    + assert (0 < atan (y / x)).
      { rewrite <- atan_0. apply atan_increasing.
        replace (y / x) with (- y / - x) by (field; lra). apply Rdiv_lt_0_compat; lra. }
      lra.
    + assert (atan (y / x) <= 0).
      { destruct (Req_dec y 0) as [->|Hn].
        - unfold Rdiv. rewrite Rmult_0_l, atan_0. lra.
        - left. rewrite <- atan_0. apply atan_increasing.
          assert (0 < y / - x) by (apply Rdiv_lt_0_compat; lra).
          replace (y / x) with (- (y / - x)) by (field; lra). lra. }
      lra.
  - destruct (Rltb 0 y); [lra|]. destruct (Rltb y 0); lra.
Qed.

Lemma Rdeg_lt a b : a < b -> Rdeg a < Rdeg b.
Proof.
  intros H. unfold Rdeg. pose proof PI_RGT_0. apply Rmult_lt_compat_r; [|lra].
  apply Rinv_0_lt_compat; assumption.
Qed.
Lemma Rdeg_le a b : a <= b -> Rdeg a <= Rdeg b.
Proof. intros [H| ->]; [left; apply Rdeg_lt, H|right; reflexivity]. Qed.
Lemma Rdeg_PI : Rdeg PI = 180. Proof. unfold Rdeg. field. apply PI_neq0. Qed.
Lemma Rdeg_PI2 : Rdeg (PI / 2) = 90. Proof. unfold Rdeg. field. apply PI_neq0. Qed.
Lemma Rdeg_opp a : Rdeg (- a) = - Rdeg a. Proof. unfold Rdeg. field. apply PI_neq0. Qed.
Lemma Rdeg_plus a b : Rdeg (a + b) = Rdeg a + Rdeg b. Proof. unfold Rdeg. field. apply PI_neq0. Qed.
Lemma Rdeg_0 : Rdeg 0 = 0. Proof. unfold Rdeg. field. apply PI_neq0. Qed.
Lemma cosD_deg a : cosD (Rdeg a) = cos a. Proof. unfold cosD. rewrite Rrad_deg. reflexivity. Qed.
Lemma sinD_deg a : sinD (Rdeg a) = sin a. Proof. unfold sinD. rewrite Rrad_deg. reflexivity. Qed.
Lemma tanD_deg a : tanD (Rdeg a) = tan a. Proof. unfold tanD. rewrite Rrad_deg. reflexivity. Qed.
Lemma tanD_eq a : tanD a = sinD a / cosD a. Proof. reflexivity. Qed.

(** periodicity for any number of turns *)
Lemma cosD_turn a (k : Z) : cosD (a + 360 * IZR k) = cosD a.
Proof.
  unfold cosD. rewrite Rrad_plus. replace (Rrad (360 * IZR k)) with (2 * IZR k * PI) by (unfold Rrad; field).
  destruct k as [|p|p].
  - f_equal. ring.
  - rewrite <- (positive_nat_Z p), <- INR_IZR_INZ. apply cos_period.
  - change (Z.neg p) with (- Z.pos p)%Z. rewrite opp_IZR, <- (positive_nat_Z p), <- INR_IZR_INZ.
    rewrite <- (cos_period _ (Pos.to_nat p)). f_equal. ring.
Qed.
Lemma sinD_turn a (k : Z) : sinD (a + 360 * IZR k) = sinD a.
Proof.
  unfold sinD. rewrite Rrad_plus. replace (Rrad (360 * IZR k)) with (2 * IZR k * PI) by (unfold Rrad; field).
  destruct k as [|p|p].
  - f_equal. ring.
  - rewrite <- (positive_nat_Z p), <- INR_IZR_INZ. apply sin_period.
  - change (Z.neg p) with (- Z.pos p)%Z. rewrite opp_IZR, <- (positive_nat_Z p), <- INR_IZR_INZ.
    rewrite <- (sin_period _ (Pos.to_nat p)). f_equal. ring.
Qed.

Lemma Rmodp_spec a b : 0 < b -> 0 <= Rmodp a b < b /\ exists k : Z, a = Rmodp a b + b * IZR k.
Proof.
  intros H. unfold Rmodp. destruct (base_Int_part (a / b)) as [A B]. split.
  - assert (E : a = b * (a / b)) by (field; lra).
    set (q := IZR (Int_part (a / b))) in *. split.
    + rewrite E at 1. nra.
    + rewrite E at 1. nra.
  - exists (Int_part (a / b)). ring.
Qed.
Lemma cosD_mod a : cosD (Rmodp a 360) = cosD a.
Proof. destruct (Rmodp_spec a 360) as [_ [k E]]; [lra|]. rewrite E at 2. symmetry. apply cosD_turn. Qed.
Lemma sinD_mod a : sinD (Rmodp a 360) = sinD a.
Proof. destruct (Rmodp_spec a 360) as [_ [k E]]; [lra|]. rewrite E at 2. symmetry. apply sinD_turn. Qed.

Lemma sin_acos_sqrt c : -1 <= c <= 1 -> sin (acos c) = sqrt (1 - c * c).
Proof. intros H. rewrite sin_acos by exact H. reflexivity. Qed.
Lemma acos_in c : 0 <= acos c <= PI. Proof. apply acos_bound. Qed.
Lemma cosD_acos c : -1 <= c <= 1 -> cosD (Rdeg (acos c)) = c.
Proof. intros H. rewrite cosD_deg. apply cos_acos, H. Qed.
