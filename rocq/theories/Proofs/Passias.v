(** masking_angle_passias is the mean of masking_angle over the height of the row. *)
From Coquelicot Require Import Coquelicot.
From Verif Require Import Base.Fl Base.FlFacts Model.Shading Proofs.PvsystemP.
Open Scope R_scope.

Section Integral.
  Context (X s c : R) (HX : 1 < X) (Hs : 0 < s) (SC : s * s + c * c = 1).
  Lemma c_lt : -1 <= c <= 1. Proof. nra. Qed.
  Definition D (t : R) : R := X * X - 2 * X * c * t + t * t.
  Lemma D_pos t : 0 < D t.
  Proof.
    unfold D. assert (E : X * X - 2 * X * c * t + t * t = (t - X * c) * (t - X * c) + X * X * (s * s)) by (replace (s * s) with (1 - c * c) by lra; ring).
    rewrite E. pose proof (Rle_0_sqr (t - X * c)) as Q. unfold Rsqr in Q. assert (0 < X * X * (s * s)) by (apply Rmult_lt_0_compat; nra). lra.
  Qed.
  Definition psi (t : R) : R := atan (t * s / (X - t * c)).
  Definition F (t : R) : R := t * psi t - s * X / 2 * ln (D t) - X * c * atan ((t - X * c) / (X * s)).
  Lemma F_derive t : 0 <= t <= 1 -> is_derive F t (psi t).
  Proof.
    intros Ht. assert (0 < X - t * c) by (pose proof c_lt; nra). pose proof (D_pos t) as DP.
    unfold F, psi, D in *. auto_derive.
    repeat split; try lra.
    { assert (XS : 0 < X * s) by (apply Rmult_lt_0_compat; lra).
      set (Y := X + - (t * c)) in *. assert (HY : 0 < Y) by (unfold Y; lra).
      set (d := X * X + - (2 * X * c * t) + t * t) in *. assert (Hd : 0 < d) by (unfold d; lra).
      assert (E1 : 1 + t * s * / Y * (t * s * / Y * 1) = d / (Y * Y)).
      { field_simplify_eq; [|lra]. replace (s ^ 2) with (1 - c * c) by (rewrite <- SC; ring). unfold d, Y. ring. }
      assert (E2 : 1 + (t + - (X * c)) * / (X * s) * ((t + - (X * c)) * / (X * s) * 1) = d / (X * s * (X * s))).
      { field_simplify_eq; [|split; lra]. replace (s ^ 2) with (1 - c * c) by (rewrite <- SC; ring). unfold d. ring. }
      rewrite E1, E2. replace (X - t * c) with Y by (unfold Y; ring). change (t * s / Y) with (t * s * / Y).
      set (a := atan (t * s * / Y)).
      assert (E3 : 1 * a + t * ((1 * s * / Y + t * s * (- - (1 * c) * / (Y * Y))) * / (d / (Y * Y))) = a + t * (s * X / d)).
      { replace (1 * s * / Y + t * s * (- - (1 * c) * / (Y * Y))) with (s * X / (Y * Y)); [field; split; lra|].
        replace X with (Y + t * c) by (unfold Y; ring). field. lra. }
      rewrite E3. field. repeat split; lra. }
  Qed.
  Lemma psi_cont t : 0 <= t <= 1 -> continuous psi t.
  Proof.
    intros Ht. apply (ex_derive_continuous (V := R_NormedModule)). assert (0 < X - t * c) by (pose proof c_lt; nra).
    unfold psi. auto_derive. lra.
  Qed.
  Definition G (x : R) : R := - (180 / PI) * F (1 - x).
  Lemma G_derive x : 0 <= x <= 1 -> is_derive G x (Rdeg (psi (1 - x))).
  Proof.
    intros Hx. unfold G. evar_last.
    - apply (is_derive_scal (fun y => F (1 - y)) x (- (180 / PI))). apply (is_derive_comp F (fun y => 1 - y) x).
      + apply F_derive. lra.
      + auto_derive; [exact I|reflexivity].
    - unfold scal; cbn; unfold mult; cbn. unfold Rdeg. field. apply PI_neq0.
  Qed.
  Lemma psi_int : is_RInt (fun x => Rdeg (psi (1 - x))) 0 1 (Rdeg (F 1 - F 0)).
  Proof.
    replace (Rdeg (F 1 - F 0)) with (minus (G 1) (G 0)).
    2:{ unfold minus, plus, opp; cbn. unfold G, Rdeg. replace (1 - 1) with 0 by ring. replace (1 - 0) with 1 by ring. field. apply PI_neq0. }
    apply (is_RInt_derive G (fun x => Rdeg (psi (1 - x))) 0 1); rewrite Rmin_left, Rmax_right by lra; intros x Hx; [apply G_derive; exact Hx|].
    apply (ex_derive_continuous (V := R_NormedModule)). assert (0 < X - (1 - x) * c) by (pose proof c_lt; nra).
    unfold psi, Rdeg. auto_derive. lra.
  Qed.
  (** difference of the two arctangents *)
  Lemma atan_gap : atan (c / s) - atan ((X * c - 1) / (X * s)) = atan (s / (X - c)).
  Proof.
    pose proof c_lt. assert (XS : 0 < X * s) by (apply Rmult_lt_0_compat; lra).
    set (B := atan (c / s)). set (A := atan ((X * c - 1) / (X * s))).
    assert (TB : tan B = c / s) by apply tan_atan. assert (TA : tan A = (X * c - 1) / (X * s)) by apply tan_atan.
    pose proof (atan_bound (c / s)) as BB. pose proof (atan_bound ((X * c - 1) / (X * s))) as BA. fold B in BB. fold A in BA.
    assert (LT : A < B). { unfold A, B. apply atan_increasing. apply Rmult_lt_reg_r with (X * s); [exact XS|].
      unfold Rdiv at 1. rewrite Rmult_assoc, Rinv_l by lra. replace (c / s * (X * s)) with (c * X) by (field; lra). lra. }
    assert (CA : 0 < cos A) by (apply cos_gt_0; lra). assert (CB : 0 < cos B) by (apply cos_gt_0; lra).
    assert (SB : sin B = c / s * cos B) by (rewrite <- TB; unfold tan; field; lra).
    assert (SA : sin A = (X * c - 1) / (X * s) * cos A) by (rewrite <- TA; unfold tan; field; lra).
    assert (CP : cos (B - A) = cos A * cos B * ((X - c) / (X * (s * s)))).
    { rewrite cos_minus, SB, SA. replace ((X - c) / (X * (s * s))) with (1 + c * (X * c - 1) / (X * (s * s))); [field; split; lra|].
      field_simplify_eq; [|split; lra]. replace (s ^ 2) with (1 - c * c) by (rewrite <- SC; ring). ring. }
    assert (CPos : 0 < cos (B - A)).
    { rewrite CP. apply Rmult_lt_0_compat; [apply Rmult_lt_0_compat; assumption|]. apply Rdiv_lt_0_compat; [lra|]. apply Rmult_lt_0_compat; [lra|nra]. }
    assert (RNG : - (PI / 2) < B - A < PI / 2).
    { split; [lra|]. destruct (Rlt_dec (B - A) (PI / 2)) as [L|N]; [exact L|]. exfalso.
      assert (cos (B - A) <= 0) by (apply cos_le_0; lra). lra. }
    rewrite <- (atan_tan (B - A)) by lra. f_equal. unfold tan. rewrite sin_minus, CP, SB, SA. field. repeat split; lra.
  Qed.
  Lemma F_diff : F 1 - F 0 = - X * s * ln (Rabs (2 * X * c - (X ^ 2 + 1))) / 2 + (X * c - 1) * atan ((X * c - 1) / (X * s))
    + (1 - X * c) * atan (c / s) + X * ln X * s.
  Proof.
    pose proof c_lt. unfold F. rewrite Rmult_0_l, Rmult_1_l. unfold psi at 1. rewrite !Rmult_1_l. rewrite <- atan_gap.
    pose proof (D_pos 1) as D1. assert (E1 : D 1 = Rabs (2 * X * c - (X ^ 2 + 1))).
    { unfold D in *. rewrite Rabs_left; [ring|]. replace (2 * X * c - (X ^ 2 + 1)) with (- (X * X - 2 * X * c * 1 + 1 * 1)) by ring. lra. }
    rewrite E1. assert (E0 : ln (D 0) = 2 * ln X).
    { unfold D. replace (X * X - 2 * X * c * 0 + 0 * 0) with (X * X) by ring. rewrite ln_mult by lra. ring. }
    rewrite E0. replace ((0 - X * c) / (X * s)) with (- (c / s)) by (field; split; lra).
    replace ((1 - X * c) / (X * s)) with (- ((X * c - 1) / (X * s))) by (field; split; lra). rewrite !atan_opp. field.
  Qed.
End Integral.

Lemma passias_fin tilt g : 0 < tilt < 180 -> 0 < g < 1 ->
  masking_angle_passias #tilt #g = #(Rdeg (F (1 / g) (sinD tilt) (cosD tilt) 1 - F (1 / g) (sinD tilt) (cosD tilt) 0)).
Proof.
  intros Ht Hg. pose proof (sinD_pos tilt Ht) as S. pose proof (sc2D tilt) as SC. set (X := 1 / g).
  assert (HX : 1 < X). { unfold X. apply Rmult_lt_reg_r with g; [lra|]. unfold Rdiv. rewrite Rmult_assoc, Rinv_l by lra. lra. }
  rewrite (F_diff X (sinD tilt) (cosD tilt) HX S SC). unfold masking_angle_passias. rewrite fradians_fin, fsin_fin, fcos_fin, (fdiv_fin 1 g) by lra.
  fold (sinD tilt) (cosD tilt) X. pose proof (D_pos X (sinD tilt) (cosD tilt) HX S SC 1) as D1. unfold D in D1.
  fsx. rewrite fabs_fin. rewrite fln_fin.
  2:{ apply Rabs_pos_lt. apply Rlt_not_eq. replace (2 * X * cosD tilt - (X ^ 2 + 1)) with (- (X * X - 2 * X * cosD tilt * 1 + 1 * 1)) by ring. lra. }
  rewrite (fln_fin X) by lra. assert (X * sinD tilt <> 0) by (apply Rmult_integral_contrapositive_currified; lra).
  rewrite !fdiv_fin by lra. rewrite !fatan_fin. fsx. rewrite !fdiv_fin by lra. fsx. cbn [isfinite where_]. rewrite fdegrees_fin. reflexivity.
Qed.
Lemma masking_fin tilt g x : 0 < tilt < 180 -> 0 < g < 1 -> 0 <= x <= 1 ->
  masking_angle #tilt #g #x = #(Rdeg (psi (1 / g) (sinD tilt) (cosD tilt) (1 - x))).
Proof.
  intros Ht Hg Hx. unfold masking_angle. rewrite sind_fin, cosd_fin. fsx. pose proof (cosD_bound tilt).
  assert (0 < 1 - g * (1 - x) * cosD tilt) by (assert (0 <= g * (1 - x) < 1) by nra; nra).
  rewrite fdiv_fin by lra. rewrite fatan_fin, fdegrees_fin. f_equal. f_equal. unfold psi. f_equal.
  assert (1 / g - (1 - x) * cosD tilt <> 0). { apply Rgt_not_eq. replace (1 / g - (1 - x) * cosD tilt) with ((1 - g * (1 - x) * cosD tilt) / g) by (field; lra). apply Rdiv_lt_0_compat; lra. }
  field. repeat split; try lra. 
Qed.
Lemma passias_mean tilt g f : 0 < tilt < 180 -> 0 < g < 1 -> (forall x, 0 <= x <= 1 -> masking_angle #tilt #g #x = #(f x)) ->
  exists m, masking_angle_passias #tilt #g = #m /\ is_RInt f 0 1 m.
Proof.
  intros Ht Hg Hf. rewrite passias_fin by assumption. eexists. split; [reflexivity|].
  apply (is_RInt_ext (fun x => Rdeg (psi (1 / g) (sinD tilt) (cosD tilt) (1 - x)))).
  - rewrite Rmin_left, Rmax_right by lra. intros x Hx. apply Fin_inj. rewrite <- Hf by lra. symmetry. apply masking_fin; lra.
  - apply psi_int; [|apply sinD_pos; assumption|apply sc2D]. apply Rmult_lt_reg_r with g; [lra|]. unfold Rdiv. rewrite Rmult_assoc, Rinv_l by lra. lra.
Qed.
Lemma passias_flat g : 0 < g < 1 -> masking_angle_passias #0 #g = #0.
Proof.
  intros Hg. unfold masking_angle_passias. rewrite fradians_fin, fsin_fin, fcos_fin, (fdiv_fin 1 g) by lra.
  fold (sinD 0) (cosD 0). rewrite sinD_0, cosD_0. set (X := 1 / g).
  assert (HX : 1 < X). { unfold X. apply Rmult_lt_reg_r with g; [lra|]. unfold Rdiv. rewrite Rmult_assoc, Rinv_l by lra. lra. }
  fsx. rewrite fabs_fin. rewrite fln_fin.
  2:{ apply Rabs_pos_lt. nra. }
  rewrite (fln_fin X) by lra. rewrite (Rmult_0_r X), (Rmult_0_r (- X)), !fdiv_zero. unfold sinf, Rpos. rewrite !Rltb_t by lra. cbn [fatan]. fsx.
  rewrite fdiv_fin by lra. fsx. cbn [isfinite where_]. rewrite fdegrees_fin. f_equal. unfold Rdeg. field. apply PI_neq0.
Qed.
