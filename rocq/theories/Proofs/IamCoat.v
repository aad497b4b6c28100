(** physical with an antireflective coating. *)
From Verif Require Import Base.Fl Base.FlFacts Base.Py Base.Trig Model.Iam Spec.Optics Proofs.IamP.
From Coq Require Import Psatz.
Open Scope R_scope.
Section Interface.
Variables (n1 n2 t1 t2 : R).
Hypothesis P1 : 0 < n1.
Hypothesis P2 : 0 < n2.
Hypothesis H1 : 0 < t1 < PI / 2.
Hypothesis H2 : 0 < t2 < PI / 2.
Hypothesis HS : n1 * sin t1 = n2 * sin t2.
Lemma iface_s : ((n1 * cos t1 - n2 * cos t2) / (n1 * cos t1 + n2 * cos t2)) ^ 2 = refl_perp t1 t2.
Proof.
  unfold refl_perp. f_equal. pose proof PI_RGT_0. assert (S2 : 0 < sin t2) by (apply sin_gt_0; lra). assert (S1 : 0 < sin t1) by (apply sin_gt_0; lra).
  assert (C1 : 0 < cos t1) by (apply cos_gt_0; lra). assert (C2 : 0 < cos t2) by (apply cos_gt_0; lra).
  assert (D : 0 < n1 * cos t1 + n2 * cos t2) by (apply Rplus_lt_0_compat; apply Rmult_lt_0_compat; lra).
  rewrite sin_minus, sin_plus. assert (D2 : 0 < sin t2 * cos t1 + cos t2 * sin t1) by (apply Rplus_lt_0_compat; apply Rmult_lt_0_compat; lra).
  assert (E1 : n2 * (sin t2 * cos t1 - cos t2 * sin t1) = sin t1 * (n1 * cos t1 - n2 * cos t2)).
  { replace (n2 * (sin t2 * cos t1 - cos t2 * sin t1)) with (n2 * sin t2 * cos t1 - n2 * cos t2 * sin t1) by ring. rewrite <- HS. ring. }
  assert (E2 : n2 * (sin t2 * cos t1 + cos t2 * sin t1) = sin t1 * (n1 * cos t1 + n2 * cos t2)).
  { replace (n2 * (sin t2 * cos t1 + cos t2 * sin t1)) with (n2 * sin t2 * cos t1 + n2 * cos t2 * sin t1) by ring. rewrite <- HS. ring. }
  apply Rmult_eq_reg_r with ((n1 * cos t1 + n2 * cos t2) * (sin t1 * (n2 * (sin t2 * cos t1 + cos t2 * sin t1)))).
  2:{ apply Rgt_not_eq. repeat (apply Rmult_lt_0_compat; [lra|]). exact D2. }
  transitivity ((n1 * cos t1 - n2 * cos t2) * (sin t1 * (n2 * (sin t2 * cos t1 + cos t2 * sin t1)))); [field; lra|].
  transitivity ((n1 * cos t1 + n2 * cos t2) * sin t1 * (n2 * (sin t2 * cos t1 - cos t2 * sin t1))); [|field; lra].
  rewrite E1, E2. ring.
Qed.
Lemma iface_p : ((n1 * cos t2 - n2 * cos t1) / (n1 * cos t2 + n2 * cos t1)) ^ 2 = refl_par t1 t2.
Proof.
  unfold refl_par. f_equal. pose proof PI_RGT_0. assert (S2 : 0 < sin t2) by (apply sin_gt_0; lra). assert (S1 : 0 < sin t1) by (apply sin_gt_0; lra).
  assert (C1 : 0 < cos t1) by (apply cos_gt_0; lra). assert (C2 : 0 < cos t2) by (apply cos_gt_0; lra).
  assert (A1 : sin (t2 + t1) * cos (t2 - t1) = sin t2 * cos t2 + sin t1 * cos t1).
  { rewrite sin_plus, cos_minus. pose proof (sin2cos2 t1) as Q1. pose proof (sin2cos2 t2) as Q2.
    replace ((sin t2 * cos t1 + cos t2 * sin t1) * (cos t2 * cos t1 + sin t2 * sin t1))
      with (sin t2 * cos t2 * (sin t1 * sin t1 + cos t1 * cos t1) + sin t1 * cos t1 * (sin t2 * sin t2 + cos t2 * cos t2)) by ring. rewrite Q1, Q2. ring. }
  assert (A2 : sin (t2 - t1) * cos (t2 + t1) = sin t2 * cos t2 - sin t1 * cos t1).
  { rewrite sin_minus, cos_plus. pose proof (sin2cos2 t1) as Q1. pose proof (sin2cos2 t2) as Q2.
    replace ((sin t2 * cos t1 - cos t2 * sin t1) * (cos t2 * cos t1 - sin t2 * sin t1))
      with (sin t2 * cos t2 * (sin t1 * sin t1 + cos t1 * cos t1) - sin t1 * cos t1 * (sin t2 * sin t2 + cos t2 * cos t2)) by ring. rewrite Q1, Q2. ring. }
  rewrite A1, A2. assert (D : 0 < n1 * cos t2 + n2 * cos t1) by (apply Rplus_lt_0_compat; apply Rmult_lt_0_compat; lra).
  assert (D2 : 0 < sin t2 * cos t2 + sin t1 * cos t1) by (apply Rplus_lt_0_compat; apply Rmult_lt_0_compat; lra).
  assert (E1 : n2 * (sin t2 * cos t2 - sin t1 * cos t1) = sin t1 * (n1 * cos t2 - n2 * cos t1)).
  { replace (n2 * (sin t2 * cos t2 - sin t1 * cos t1)) with (n2 * sin t2 * cos t2 - n2 * sin t1 * cos t1) by ring. rewrite <- HS. ring. }
  assert (E2 : n2 * (sin t2 * cos t2 + sin t1 * cos t1) = sin t1 * (n1 * cos t2 + n2 * cos t1)).
  { replace (n2 * (sin t2 * cos t2 + sin t1 * cos t1)) with (n2 * sin t2 * cos t2 + n2 * sin t1 * cos t1) by ring. rewrite <- HS. ring. }
  apply Rmult_eq_reg_r with ((n1 * cos t2 + n2 * cos t1) * (sin t1 * (n2 * (sin t2 * cos t2 + sin t1 * cos t1)))).
  2:{ apply Rgt_not_eq. repeat (apply Rmult_lt_0_compat; [lra|]). exact D2. }
  transitivity ((n1 * cos t2 - n2 * cos t1) * (sin t1 * (n2 * (sin t2 * cos t2 + sin t1 * cos t1)))); [field; lra|].
  transitivity ((n1 * cos t2 + n2 * cos t1) * sin t1 * (n2 * (sin t2 * cos t2 - sin t1 * cos t1))); [|field; lra].
  rewrite E1, E2. ring.
Qed.
Lemma refl_range : 0 <= refl_perp t1 t2 < 1 /\ 0 <= refl_par t1 t2 < 1.
Proof.
  pose proof PI_RGT_0. assert (C1 : 0 < cos t1) by (apply cos_gt_0; lra). assert (C2 : 0 < cos t2) by (apply cos_gt_0; lra).
  assert (K : forall a b, 0 < a -> 0 < b -> 0 <= ((a - b) / (a + b)) ^ 2 < 1).
  { intros a b A B. split; [apply pow2_ge_0|]. assert (0 < 1 - ((a - b) / (a + b)) ^ 2); [|lra]. replace (1 - ((a - b) / (a + b)) ^ 2) with (4 * a * b / ((a + b) * (a + b))) by (field; lra).
    apply Rdiv_lt_0_compat; repeat apply Rmult_lt_0_compat; lra. }
  rewrite <- iface_s, <- iface_p. split; apply K; apply Rmult_lt_0_compat; lra.
Qed.
End Interface.
Lemma fclose_iff x y : fclose #x #y = true <-> Rabs (x - y) <= 0.00000001 + 0.00001 * Rabs y.
Proof. cbn. apply Rleb_true. Qed.
Lemma coat_none n a K L na : Rabs (na - 1) <= 0.00001001 -> physical a #n K L (Some #na) = physical a #n K L None.
Proof.
  intros H. unfold physical, phys_n2. rewrite (proj2 (fclose_iff na 1)); [reflexivity|]. rewrite (Rabs_right 1) by lra. lra.
Qed.
Lemma fclose_f x y : 0.00000001 + 0.00001 * Rabs y < Rabs (x - y) -> fclose #x #y = false.
Proof. intros H. destruct (fclose #x #y) eqn:E; [|reflexivity]. apply fclose_iff in E. lra. Qed.
Lemma coat_glass n a K L na : 0.00001001 < Rabs (na - 1) -> Rabs (n - na) <= 0.00000001 + 0.00001 * Rabs na -> physical a #n K L (Some #na) = physical a #na K L None.
Proof.
  intros H1 H2. unfold physical, phys_n2. cbv zeta. assert (E1 : fclose #na #1 = false) by (apply fclose_f; rewrite (Rabs_right 1); lra). assert (E2 : fclose #n #na = true) by (apply fclose_iff; exact H2). repeat rewrite ?E1, ?E2, ?fclose_self. reflexivity.
Qed.
Lemma coat_fin n na K L th thc thg : 0 < n -> 0 < na -> 0.00001001 < Rabs (na - 1) -> 0.00000001 + 0.00001 * Rabs na < Rabs (n - na) ->
  0 < th < PI / 2 -> 0 < thc < PI / 2 -> 0 < thg < PI / 2 -> sin th = na * sin thc -> na * sin thc = n * sin thg ->
  physical #(Rdeg th) #n #K #L (Some #na) = #(tau_coated (K * L) th thc thg / tau_coated_normal na n (K * L)).
Proof.
  intros Pn Pa H1 H2 T1 T2 T3 S12 S23. unfold physical, phys_n2. rewrite (fclose_f na 1) by (rewrite (Rabs_right 1); lra). cbv zeta. rewrite (fclose_f n na) by exact H2. rewrite (fclose_f na 1) by (rewrite (Rabs_right 1); lra).
  pose proof PI_RGT_0 as PP. assert (C1 : 0 < cos th) by (apply cos_gt_0; lra). assert (C2 : 0 < cos thc) by (apply cos_gt_0; lra). assert (C3 : 0 < cos thg) by (apply cos_gt_0; lra).
  assert (Q1 : 0 < sin th) by (apply sin_gt_0; lra). assert (Q2 : 0 < sin thc) by (apply sin_gt_0; lra). assert (Q3 : 0 < sin thg) by (apply sin_gt_0; lra).
  assert (SQ : forall t, 0 < cos t -> 0 < sin t -> fsqrt #(1 - cos t ^ 2) = #(sin t)). { intros t A B. replace (1 - cos t ^ 2) with (sin t * sin t) by (pose proof (sin2cos2 t); simpl; lra). rewrite fsqrt_fin by (apply Rmult_le_pos; lra). rewrite sqrt_square by lra. reflexivity. }
  assert (CQ : forall t, 0 < cos t -> fsqrt #(1 - sin t ^ 2) = #(cos t)). { intros t A. replace (1 - sin t ^ 2) with (cos t * cos t) by (pose proof (sin2cos2 t); simpl; lra). rewrite fsqrt_fin by (apply Rmult_le_pos; lra). rewrite sqrt_square by lra. reflexivity. }
  rewrite cosd_fin, fmax_fin, cosD_deg, Rmax_right by lra. rewrite (fpown_fin (cos th)), fsub_fin, SQ by assumption. rewrite (fdiv_fin 1 na), (fdiv_fin na n) by lra. rewrite !fmul_fin.
  replace (1 / na * sin th) with (sin thc) by (rewrite S12; field; lra). replace (na / n * sin thc) with (sin thg) by (replace (na / n * sin thc) with (na * sin thc / n) by (field; lra); rewrite S23; field; lra).
  rewrite (fpown_fin (sin thc)), (fpown_fin (sin thg)), !fsub_fin, !CQ by assumption. rewrite !fmul_fin, !fsub_fin, !fadd_fin.
  assert (D1 : 0 < 1 * cos th + na * cos thc) by (apply Rplus_lt_0_compat; apply Rmult_lt_0_compat; lra). assert (D2 : 0 < 1 * cos thc + na * cos th) by (apply Rplus_lt_0_compat; apply Rmult_lt_0_compat; lra).
  assert (D3 : 0 < na * cos thc + n * cos thg) by (apply Rplus_lt_0_compat; apply Rmult_lt_0_compat; lra). assert (D4 : 0 < na * cos thg + n * cos thc) by (apply Rplus_lt_0_compat; apply Rmult_lt_0_compat; lra).
  rewrite !(fdiv_fin (1 * cos th - na * cos thc)), !(fdiv_fin (1 * cos thc - na * cos th)), !(fdiv_fin (1 - na)), !(fdiv_fin (na * cos thc - n * cos thg)), !(fdiv_fin (na * cos thg - n * cos thc)), !(fdiv_fin (na - n)) by lra.
  rewrite !fpown_fin. rewrite (iface_s 1 na th thc), (iface_p 1 na th thc), (iface_s na n thc thg), (iface_p na n thc thg) by (assumption || lra).
  destruct (refl_range 1 na th thc ltac:(lra) Pa T1 T2 ltac:(lra)) as [R1 R2]. destruct (refl_range na n thc thg Pa Pn T2 T3 S23) as [R3 R4].
  assert (K0 : forall a b, 0 < a -> 0 < b -> 0 <= ((a - b) / (a + b)) ^ 2 < 1).
  { intros a b A B. split; [apply pow2_ge_0|]. assert (0 < 1 - ((a - b) / (a + b)) ^ 2); [|lra]. replace (1 - ((a - b) / (a + b)) ^ 2) with (4 * a * b / ((a + b) * (a + b))) by (field; lra).
    apply Rdiv_lt_0_compat; repeat apply Rmult_lt_0_compat; lra. }
  pose proof (K0 1 na ltac:(lra) Pa) as R5. pose proof (K0 na n Pa Pn) as R6.
  replace (((1 - na) / (1 + na)) ^ 2) with (((na - 1) / (na + 1)) ^ 2) in * by (field; lra). replace (((na - n) / (na + n)) ^ 2) with (((n - na) / (n + na)) ^ 2) in * by (field; lra).
  set (r1 := refl_perp th thc) in *. set (r2 := refl_par th thc) in *. set (r3 := refl_perp thc thg) in *. set (r4 := refl_par thc thg) in *. set (r5 := (_ / _) ^ 2) in *. set (r6 := ((n - na) / _) ^ 2) in *.
  assert (PR : forall x y, 0 <= x < 1 -> 0 <= y < 1 -> 0 < 1 - x * y). { intros x y X Y. assert (0 <= x * (1 - y)) by (apply Rmult_le_pos; lra). lra. }
  rewrite !fsub_fin, !fmul_fin, !fsub_fin. rewrite !fdiv_fin by (try (apply Rgt_not_eq, PR; assumption); lra). rewrite !fmul_fin, ?fneg_fin, ?fmul_fin. rewrite ?fdiv_fin by lra. rewrite !fexp_fin, !fmul_fin, !fadd_fin.
  rewrite (fdiv_fin _ 2) by lra. pose proof (PR r6 r5 R6 R5) as G. pose proof (exp_pos (- K * L)) as X.
  assert (G2 : 0 < (1 - r5) * ((1 - r6) / (1 - r6 * r5))) by (apply Rmult_lt_0_compat; [lra|apply Rdiv_lt_0_compat; lra]).
  rewrite fdiv_fin by (apply Rgt_not_eq, Rmult_lt_0_compat; assumption).
  f_equal. unfold tau_coated, tau_coated_normal, through_both. fold r1 r2 r3 r4 r5 r6. replace (- K * L / cos thg) with (- (K * L / cos thg)) by (field; lra). replace (- K * L) with (- (K * L)) by ring.
  pose proof (exp_pos (- (K * L))). pose proof (PR r3 r1 R3 R1). pose proof (PR r4 r2 R4 R2). field. repeat split; lra.
Qed.
