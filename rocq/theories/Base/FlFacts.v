(** Lemmas and tactics about [fl]. *)
From Verif Require Import Base.Fl.
From Coq Require Import Psatz ZArith.
Open Scope R_scope.

(** ** Lifting finite computations to R *)
Lemma fneg_fin a : fneg #a = #(- a). Proof. reflexivity. Qed.
Lemma fadd_fin a b : fadd #a #b = #(a + b). Proof. reflexivity. Qed.
Lemma fsub_fin a b : fsub #a #b = #(a - b). Proof. reflexivity. Qed.
Lemma fmul_fin a b : fmul #a #b = #(a * b). Proof. reflexivity. Qed.
Lemma fdiv_fin a b : b <> 0 -> fdiv #a #b = #(a / b).
Proof. intros H. simpl. destruct (Reqb_spec b 0); [contradiction|reflexivity]. Qed.
Lemma fdiv_zero a : fdiv #a #0 = sinf a.
Proof. simpl. destruct (Reqb_spec 0 0); [reflexivity|lra]. Qed.
Lemma fmax_fin a b : fmax #a #b = #(Rmax a b). Proof. reflexivity. Qed.
Lemma fmin_fin a b : fmin #a #b = #(Rmin a b). Proof. reflexivity. Qed.
Lemma fabs_fin a : fabs #a = #(Rabs a). Proof. reflexivity. Qed.
Lemma fclip_fin a b c : fclip #a #b #c = #(Rmin (Rmax a b) c). Proof. reflexivity. Qed.
Lemma fpown_fin a n : fpown #a n = #(a ^ n).
Proof.
  induction n as [|n IH]; [reflexivity|].
  destruct n as [|n]; [simpl; f_equal; ring|].
  change (fpown #a (S (S n))) with (fmul #a (fpown #a (S n))). rewrite IH. reflexivity.
Qed.
Lemma fexp_fin a : fexp #a = #(exp a). Proof. reflexivity. Qed.
Lemma fsin_fin a : fsin #a = #(sin a). Proof. reflexivity. Qed.
Lemma fcos_fin a : fcos #a = #(cos a). Proof. reflexivity. Qed.
Lemma fatan_fin a : fatan #a = #(atan a). Proof. reflexivity. Qed.
Lemma fatan2_fin a b : fatan2 #a #b = #(Ratan2 a b). Proof. reflexivity. Qed.
Lemma ftan_fin a : cos a <> 0 -> ftan #a = #(tan a).
Proof. intros H. unfold ftan. simpl fsin. simpl fcos. rewrite fdiv_fin by exact H. reflexivity. Qed.
Lemma fsqrt_fin a : 0 <= a -> fsqrt #a = #(sqrt a).
Proof. intros H. simpl. unfold Rneg. destruct (Rltb_spec a 0); [lra|reflexivity]. Qed.
Lemma fln_fin a : 0 < a -> fln #a = #(ln a).
Proof. intros H. simpl. unfold Rpos. destruct (Rltb_spec 0 a); [reflexivity|lra]. Qed.
Lemma facos_fin a : -1 <= a <= 1 -> facos #a = #(acos a).
Proof.
  intros [H1 H2]. simpl. destruct (Rleb_spec (-1) a); [|lra].
  destruct (Rleb_spec a 1); [reflexivity|lra].
Qed.
Lemma fasin_fin a : -1 <= a <= 1 -> fasin #a = #(asin a).
Proof.
  intros [H1 H2]. simpl. destruct (Rleb_spec (-1) a); [|lra].
  destruct (Rleb_spec a 1); [reflexivity|lra].
Qed.
Lemma fradians_fin a : fradians #a = #(Rrad a).
Proof. unfold fradians. rewrite fmul_fin, fdiv_fin by lra. reflexivity. Qed.
Lemma fdegrees_fin a : fdegrees #a = #(Rdeg a).
Proof. unfold fdegrees. rewrite fmul_fin, fdiv_fin by apply PI_neq0. reflexivity. Qed.
Lemma cosd_fin a : cosd #a = #(cosD a).
Proof. unfold cosd. rewrite fradians_fin. reflexivity. Qed.
Lemma sind_fin a : sind #a = #(sinD a).
Proof. unfold sind. rewrite fradians_fin. reflexivity. Qed.
Lemma tand_fin a : cosD a <> 0 -> tand #a = #(tanD a).
Proof. intros H. unfold tand. rewrite fradians_fin, ftan_fin by exact H. reflexivity. Qed.
Lemma acosd_fin a : -1 <= a <= 1 -> acosd #a = #(Rdeg (acos a)).
Proof. intros H. unfold acosd. rewrite facos_fin by exact H. apply fdegrees_fin. Qed.
Lemma asind_fin a : -1 <= a <= 1 -> asind #a = #(Rdeg (asin a)).
Proof. intros H. unfold asind. rewrite fasin_fin by exact H. apply fdegrees_fin. Qed.
Lemma fpow_fin a b : 0 < a -> fpow #a #b = #(Rpower a b).
Proof.
  intros H. simpl. destruct (Reqb_spec b 0) as [->|Hb].
  - rewrite Rpower_O by exact H. reflexivity.
  - unfold Rpos. destruct (Rltb_spec 0 a); [reflexivity|lra].
Qed.
Lemma fpow_zero b : 0 < b -> fpow #0 #b = #0.
Proof.
  intros H. simpl. destruct (Reqb_spec b 0); [lra|]. unfold Rpos.
  destruct (Rltb_spec 0 0); [lra|]. destruct (Reqb_spec 0 0); [|lra].
  destruct (Rltb_spec 0 b); [reflexivity|lra].
Qed.
Lemma fltb_fin a b : fltb #a #b = Rltb a b. Proof. reflexivity. Qed.
Lemma fleb_fin a b : fleb #a #b = Rleb a b. Proof. reflexivity. Qed.
Lemma fgtb_fin a b : fgtb #a #b = Rltb b a. Proof. reflexivity. Qed.
Lemma fgeb_fin a b : fgeb #a #b = Rleb b a. Proof. reflexivity. Qed.
Lemma feqb_fin a b : feqb #a #b = Reqb a b. Proof. reflexivity. Qed.
Lemma fmod_fin a b : b <> 0 -> fmod #a #b = #(Rmodp a b).
Proof. intros H. simpl. destruct (Reqb_spec b 0); [contradiction|reflexivity]. Qed.
Lemma ffloor_fin a : ffloor #a = #(Rfloor a). Proof. reflexivity. Qed.
Lemma fceil_fin a : fceil #a = #(Rceil a). Proof. reflexivity. Qed.

#[export] Hint Rewrite fneg_fin fadd_fin fsub_fin fmul_fin fmax_fin fmin_fin fabs_fin fclip_fin
  fpown_fin fexp_fin fsin_fin fcos_fin fatan_fin fatan2_fin fradians_fin fdegrees_fin cosd_fin sind_fin
  fltb_fin fleb_fin fgtb_fin fgeb_fin feqb_fin ffloor_fin fceil_fin : flfin.
(** push a finite computation down to R; side conditions by lra/nra/assumption *)
Ltac fl_side := first [ assumption | lra | apply PI_neq0 | nra ].
Ltac fin_side :=
  match goal with
  | |- context [fdiv #?a #?b] => rewrite (fdiv_fin a b) by fl_side
  | |- context [fsqrt #?a] => rewrite (fsqrt_fin a) by fl_side
  | |- context [fln #?a] => rewrite (fln_fin a) by fl_side
  | |- context [fpow #?a #?b] => rewrite (fpow_fin a b) by fl_side
  | |- context [facos #?a] => rewrite (facos_fin a) by fl_side
  | |- context [fasin #?a] => rewrite (fasin_fin a) by fl_side
  | |- context [ftan #?a] => rewrite (ftan_fin a) by fl_side
  | |- context [tand #?a] => rewrite (tand_fin a) by fl_side
  | |- context [acosd #?a] => rewrite (acosd_fin a) by fl_side
  | |- context [asind #?a] => rewrite (asind_fin a) by fl_side
  | |- context [fmod #?a #?b] => rewrite (fmod_fin a b) by fl_side
  end.
Ltac fin := repeat first [ progress autorewrite with flfin | fin_side ].

(** destruct one boolean comparison on reals occurring in the goal *)
Ltac rcase :=
  match goal with
  | |- context [Rltb ?a ?b] => destruct (Rltb_spec a b)
  | |- context [Rleb ?a ?b] => destruct (Rleb_spec a b)
  | |- context [Reqb ?a ?b] => destruct (Reqb_spec a b)
  end.
Ltac rcase_in H :=
  match type of H with
  | context [Rltb ?a ?b] => destruct (Rltb_spec a b)
  | context [Rleb ?a ?b] => destruct (Rleb_spec a b)
  | context [Reqb ?a ?b] => destruct (Reqb_spec a b)
  end.
Lemma Rltb_t a b : a < b -> Rltb a b = true. Proof. apply Rltb_true. Qed.
Lemma Rltb_f a b : b <= a -> Rltb a b = false. Proof. apply Rltb_false. Qed.
Lemma Rleb_t a b : a <= b -> Rleb a b = true. Proof. apply Rleb_true. Qed.
Lemma Rleb_f a b : b < a -> Rleb a b = false. Proof. apply Rleb_false. Qed.
Lemma Reqb_t a b : a = b -> Reqb a b = true. Proof. apply Reqb_true. Qed.
Lemma Reqb_f a b : a <> b -> Reqb a b = false. Proof. apply Reqb_false. Qed.
(** decide comparisons that linear arithmetic can decide *)
Ltac rdec :=
  repeat match goal with
  | |- context [Rltb ?a ?b] => first [rewrite (Rltb_t a b) by lra | rewrite (Rltb_f a b) by lra]
  | |- context [Rleb ?a ?b] => first [rewrite (Rleb_t a b) by lra | rewrite (Rleb_f a b) by lra]
  | |- context [Reqb ?a ?b] => first [rewrite (Reqb_t a b) by lra | rewrite (Reqb_f a b) by lra]
  end.

(** ** min/max on reals *)
Ltac no_mm t := lazymatch t with context [Rmax _ _] => fail | context [Rmin _ _] => fail | _ => idtac end.
Ltac rmm :=
  repeat match goal with
  | |- context [Rmax ?a ?b] => no_mm a; no_mm b; let H := fresh in destruct (Rle_dec a b) as [H|H];
      [rewrite (Rmax_right a b) by exact H
      |apply Rnot_le_lt in H; rewrite (Rmax_left a b) by (apply Rlt_le, H)]
  | |- context [Rmin ?a ?b] => no_mm a; no_mm b; let H := fresh in destruct (Rle_dec a b) as [H|H];
      [rewrite (Rmin_left a b) by exact H
      |apply Rnot_le_lt in H; rewrite (Rmin_right a b) by (apply Rlt_le, H)]
  end.
Ltac rmm_in K :=
  repeat match type of K with
  | context [Rmax ?a ?b] => no_mm a; no_mm b; let H := fresh in destruct (Rle_dec a b) as [H|H];
      [rewrite (Rmax_right a b) in K by exact H
      |apply Rnot_le_lt in H; rewrite (Rmax_left a b) in K by (apply Rlt_le, H)]
  | context [Rmin ?a ?b] => no_mm a; no_mm b; let H := fresh in destruct (Rle_dec a b) as [H|H];
      [rewrite (Rmin_left a b) in K by exact H
      |apply Rnot_le_lt in H; rewrite (Rmin_right a b) in K by (apply Rlt_le, H)]
  end.

(** ** Order on fl as a proposition *)
Definition fle (x y : fl) : Prop := fleb x y = true.
Definition flt (x y : fl) : Prop := fltb x y = true.
(** in the closed interval, or nan: the usual reading of "bounded" for array code *)
Definition within (lo hi x : fl) : Prop := x = NaN \/ (fle lo x /\ fle x hi).
(** not less than [lo], or nan *)
Definition atleast (lo x : fl) : Prop := x = NaN \/ fle lo x.
Definition atmost (hi x : fl) : Prop := x = NaN \/ fle x hi.

Lemma fle_fin a b : fle #a #b <-> a <= b.
Proof. unfold fle. simpl. apply Rleb_true. Qed.
Lemma flt_fin a b : flt #a #b <-> a < b.
Proof. unfold flt. simpl. apply Rltb_true. Qed.
Lemma within_fin lo hi a : within #lo #hi #a <-> lo <= a <= hi.
Proof.
  unfold within. rewrite !fle_fin. split.
  - intros [H|H]; [discriminate|exact H].
  - intros H; right; exact H.
Qed.
Lemma within_inv lo hi x : within #lo #hi x -> x = NaN \/ exists a, x = #a /\ lo <= a <= hi.
Proof.
  intros [->|[H1 H2]]; [left; reflexivity|]. destruct x as [a| | |].
  - right. exists a. rewrite fle_fin in H1, H2. tauto.
  - discriminate H2.
  - discriminate H1.
  - left; reflexivity.
Qed.
Lemma atleast_fin lo a : atleast #lo #a <-> lo <= a.
Proof. unfold atleast. rewrite fle_fin. split; [intros [H|H]; [discriminate|exact H]|auto]. Qed.
Lemma atmost_fin hi a : atmost #hi #a <-> a <= hi.
Proof. unfold atmost. rewrite fle_fin. split; [intros [H|H]; [discriminate|exact H]|auto]. Qed.

Lemma fmax_atleast lo x : atleast #lo (fmax x #lo).
Proof.
  unfold atleast, fle. destruct x; simpl; auto; right; apply Rleb_true; try lra.
  apply Rmax_r.
Qed.
Lemma fmin_atmost hi x : atmost #hi (fmin x #hi).
Proof.
  unfold atmost, fle. destruct x; simpl; auto; right; apply Rleb_true; try lra.
  apply Rmin_r.
Qed.
Lemma fclip_within lo hi x : lo <= hi -> within #lo #hi (fclip x #lo #hi).
Proof.
  intros H. unfold within, fle, fclip. destruct x; simpl; auto; right; rewrite !Rleb_true;
  rmm; lra.
Qed.
Lemma fclip_nan lo hi x : fclip x #lo #hi = NaN <-> x = NaN.
Proof. unfold fclip. destruct x; simpl; split; congruence. Qed.

(** nan/finite inversion of arithmetic *)
Lemma fadd_fin_inv x y c : fadd x y = #c -> exists a b, x = #a /\ y = #b /\ c = a + b.
Proof. destruct x as [a| | |], y as [b| | |]; simpl; try discriminate. intros [= <-]. eauto. Qed.
Lemma fmul_fin_inv x y c : fmul x y = #c -> exists a b, x = #a /\ y = #b /\ c = a * b.
Proof.
  destruct x as [a| | |], y as [b| | |]; simpl; try discriminate; unfold sinf;
  try (destruct (Rpos _); [discriminate|]; destruct (Rneg _); discriminate).
  intros [= <-]. eauto.
Qed.
Lemma fadd_nan_l y : fadd NaN y = NaN. Proof. reflexivity. Qed.
Lemma fadd_nan_r x : fadd x NaN = NaN. Proof. destruct x; reflexivity. Qed.
Lemma fmul_nan_l y : fmul NaN y = NaN. Proof. reflexivity. Qed.
Lemma fmul_nan_r x : fmul x NaN = NaN. Proof. destruct x; reflexivity. Qed.
Lemma fdiv_nan_r x : fdiv x NaN = NaN. Proof. destruct x; reflexivity. Qed.
Lemma fmax_nan_r x : fmax x NaN = NaN. Proof. destruct x; reflexivity. Qed.
Lemma fmin_nan_r x : fmin x NaN = NaN. Proof. destruct x; reflexivity. Qed.
Lemma fadd_comm x y : fadd x y = fadd y x.
Proof. destruct x, y; simpl; auto. f_equal; lra. Qed.
Lemma fmul_comm x y : fmul x y = fmul y x.
Proof. destruct x, y; simpl; auto. f_equal; lra. Qed.
Lemma Fin_inj a b : #a = #b -> a = b. Proof. congruence. Qed.

(** ** Trigonometry *)
Lemma Rrad_plus a b : Rrad (a + b) = Rrad a + Rrad b. Proof. unfold Rrad; field. Qed.
Lemma Rrad_minus a b : Rrad (a - b) = Rrad a - Rrad b. Proof. unfold Rrad; field. Qed.
Lemma Rrad_opp a : Rrad (- a) = - Rrad a. Proof. unfold Rrad; field. Qed.
Lemma Rrad_0 : Rrad 0 = 0. Proof. unfold Rrad; field. Qed.
Lemma Rrad_90 : Rrad 90 = PI / 2. Proof. unfold Rrad; field. Qed.
Lemma Rrad_180 : Rrad 180 = PI. Proof. unfold Rrad; field. Qed.
Lemma Rrad_360 : Rrad 360 = 2 * PI. Proof. unfold Rrad; field. Qed.
Lemma Rdeg_rad a : Rdeg (Rrad a) = a. Proof. unfold Rdeg, Rrad. field. apply PI_neq0. Qed.
Lemma Rrad_deg a : Rrad (Rdeg a) = a. Proof. unfold Rdeg, Rrad. field. apply PI_neq0. Qed.
Lemma Rrad_lt a b : a < b -> Rrad a < Rrad b.
Proof. intros. unfold Rrad. pose proof PI_RGT_0. apply Rmult_lt_compat_r; [lra|]. nra. Qed.
Lemma Rrad_le a b : a <= b -> Rrad a <= Rrad b.
Proof. intros [H|<-]; [left; apply Rrad_lt, H|right; reflexivity]. Qed.
Lemma cosD_0 : cosD 0 = 1. Proof. unfold cosD. rewrite Rrad_0. apply cos_0. Qed.
Lemma sinD_0 : sinD 0 = 0. Proof. unfold sinD. rewrite Rrad_0. apply sin_0. Qed.
Lemma cosD_90 : cosD 90 = 0. Proof. unfold cosD. rewrite Rrad_90. apply cos_PI2. Qed.
Lemma sinD_90 : sinD 90 = 1. Proof. unfold sinD. rewrite Rrad_90. apply sin_PI2. Qed.
Lemma cosD_180 : cosD 180 = -1. Proof. unfold cosD. rewrite Rrad_180. apply cos_PI. Qed.
Lemma sinD_180 : sinD 180 = 0. Proof. unfold sinD. rewrite Rrad_180. apply sin_PI. Qed.
Lemma cosD_bound a : -1 <= cosD a <= 1. Proof. apply COS_bound. Qed.
Lemma sinD_bound a : -1 <= sinD a <= 1. Proof. apply SIN_bound. Qed.
Lemma sin2cos2 x : sin x * sin x + cos x * cos x = 1.
Proof. pose proof (sin2_cos2 x) as H. unfold Rsqr in H. exact H. Qed.
Lemma sc2D a : sinD a * sinD a + cosD a * cosD a = 1. Proof. apply sin2cos2. Qed.
Lemma sin2D a : sinD a * sinD a = 1 - cosD a * cosD a. Proof. pose proof (sc2D a); lra. Qed.
Lemma cosD_nonneg a : -90 <= a <= 90 -> 0 <= cosD a.
Proof.
  intros [H1 H2]. apply cos_ge_0.
  - rewrite <- Rrad_90, <- Rrad_opp. apply Rrad_le. lra.
  - rewrite <- Rrad_90. apply Rrad_le. lra.
Qed.
Lemma cosD_pos a : -90 < a < 90 -> 0 < cosD a.
Proof.
  intros [H1 H2]. apply cos_gt_0.
  - rewrite <- Rrad_90, <- Rrad_opp. apply Rrad_lt. lra.
  - rewrite <- Rrad_90. apply Rrad_lt. lra.
Qed.
Lemma sinD_nonneg a : 0 <= a <= 180 -> 0 <= sinD a.
Proof.
  intros [H1 H2]. apply sin_ge_0.
  - rewrite <- Rrad_0. apply Rrad_le. lra.
  - rewrite <- Rrad_180. apply Rrad_le. lra.
Qed.
Lemma sinD_pos a : 0 < a < 180 -> 0 < sinD a.
Proof.
  intros [H1 H2]. apply sin_gt_0.
  - rewrite <- Rrad_0. apply Rrad_lt. lra.
  - rewrite <- Rrad_180. apply Rrad_lt. lra.
Qed.
Lemma cosD_decr a b : 0 <= a -> a <= b -> b <= 180 -> cosD b <= cosD a.
Proof.
  intros H1 H2 H3. destruct H2 as [H2| ->]; [|lra]. left.
  pose proof Rrad_0; pose proof Rrad_180; pose proof (Rrad_le 0 a H1); pose proof (Rrad_lt a b H2);
  pose proof (Rrad_le b 180 H3). apply cos_decreasing_1; lra.
Qed.
Lemma cosD_sdecr a b : 0 <= a -> a < b -> b <= 180 -> cosD b < cosD a.
Proof.
  intros H1 H2 H3.
  pose proof Rrad_0; pose proof Rrad_180; pose proof (Rrad_le 0 a H1); pose proof (Rrad_lt a b H2);
  pose proof (Rrad_le b 180 H3). apply cos_decreasing_1; lra.
Qed.
Lemma sinD_incr a b : -90 <= a -> a <= b -> b <= 90 -> sinD a <= sinD b.
Proof.
  intros H1 H2 H3. destruct H2 as [H2| ->]; [|lra]. left.
  pose proof Rrad_90; pose proof (Rrad_opp 90); assert (Rrad (-(90)) <= Rrad a) by (apply Rrad_le; lra);
  pose proof (Rrad_lt a b H2); pose proof (Rrad_le b 90 H3). apply sin_increasing_1; lra.
Qed.
Lemma cosD_opp a : cosD (- a) = cosD a. Proof. unfold cosD. rewrite Rrad_opp. apply cos_neg. Qed.
Lemma sinD_opp a : sinD (- a) = - sinD a. Proof. unfold sinD. rewrite Rrad_opp. apply sin_neg. Qed.
Lemma cosD_360 a : cosD (a + 360) = cosD a.
Proof. unfold cosD. rewrite Rrad_plus, Rrad_360, cos_plus, cos_2PI, sin_2PI. ring. Qed.
Lemma sinD_360 a : sinD (a + 360) = sinD a.
Proof. unfold sinD. rewrite Rrad_plus, Rrad_360, sin_plus, cos_2PI, sin_2PI. ring. Qed.
Lemma cosD_minus a b : cosD (a - b) = cosD a * cosD b + sinD a * sinD b.
Proof. unfold cosD, sinD. rewrite Rrad_minus. apply cos_minus. Qed.
Lemma cosD_plus a b : cosD (a + b) = cosD a * cosD b - sinD a * sinD b.
Proof. unfold cosD, sinD. rewrite Rrad_plus. apply cos_plus. Qed.
Lemma sinD_minus a b : sinD (a - b) = sinD a * cosD b - cosD a * sinD b.
Proof. unfold cosD, sinD. rewrite Rrad_minus. apply sin_minus. Qed.
Lemma sinD_plus a b : sinD (a + b) = sinD a * cosD b + cosD a * sinD b.
Proof. unfold cosD, sinD. rewrite Rrad_plus. apply sin_plus. Qed.
