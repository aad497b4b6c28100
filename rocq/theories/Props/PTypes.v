(** Property C196: clear-sky models on arrays of integers.  Model: Model/Types.v. *)
From Verif Require Import Base.Fl Base.FlFacts Base.Py Base.Trig Model.Atmosphere Model.Tools Model.Clearsky Model.Types Spec.ToolsSpec Spec.ClearskySpec
  Proofs.ToolsP Proofs.ClearskyP Proofs.ClearskyT Proofs.ClearskyB Props.PTools Props.PClearsky.
From Coq Require Import Psatz Lia List ZArith.
Import ListNotations.
Open Scope R_scope.

(** [k] is the whole part of the non-negative number [r] *)
Definition whole_part (r : R) (k : Z) : Prop := IZR k <= r < IZR k + 1.
(** the published clear-sky irradiance of Haurwitz *)
Definition haurwitz_published (z : R) : R := if Rlt_dec 0 (cosD z) then 1098 * cosD z * exp (-0.059 / cosD z) else 0.
(** float zeniths give the published irradiance, one value per zenith *)
Theorem C196_haurwitz_float : forall zs, haurwitz_series false (map Fin zs) = map (fun z => #(haurwitz_published z)) zs.
Proof. intros zs. unfold haurwitz_series. rewrite map_map. apply map_ext. intros z. rewrite C97_haurwitz. reflexivity. Qed.
Print Assumptions C196_haurwitz_float.
(** Finding: integer zeniths give whole numbers, below the published irradiance by up to one *)
Theorem C196_haurwitz_integer : forall zs, Forall2 (fun z g => exists k, g = #(IZR k) /\ whole_part (haurwitz_published z) k) zs (haurwitz_series true (map Fin zs)).
Proof.
  induction zs as [|z zs IH]; [constructor|]. constructor; [|exact IH]. destruct (C97_haurwitz_bounds z) as (g & E & B). rewrite E. cbn [store]. eexists. split; [reflexivity|].
  rewrite C97_haurwitz in E. apply Fin_inj in E. unfold haurwitz_published, whole_part. rewrite E. apply ftrunc_nonneg. lra.
Qed.
Print Assumptions C196_haurwitz_integer.
Lemma overhead : 1035.03 < 1098 * exp (-0.059) < 1036.
Proof.
  assert (SQ : forall x, exp (2 * x) = exp x * exp x) by (intros x; rewrite <- exp_plus; f_equal; lra).
  assert (L0 : 0.99815625 <= exp (-0.00184375)) by (pose proof (exp_ineq1_le (-0.00184375)); lra).
  assert (STEP : forall x a b, 0 <= a -> a <= exp x -> b <= a * a -> b <= exp (2 * x)) by (intros x a b P A B; rewrite SQ; apply Rle_trans with (a * a); [exact B|apply Rmult_le_compat; assumption]).
  assert (L1 : 0.99631589 <= exp (2 * -0.00184375)) by (apply (STEP _ 0.99815625); lra).
  assert (L2 : 0.99264535 <= exp (2 * (2 * -0.00184375))) by (apply (STEP _ 0.99631589); lra).
  assert (L3 : 0.98534479 <= exp (2 * (2 * (2 * -0.00184375)))) by (apply (STEP _ 0.99264535); lra).
  assert (L4 : 0.97090435 <= exp (2 * (2 * (2 * (2 * -0.00184375))))) by (apply (STEP _ 0.98534479); lra).
  assert (L5 : 0.94265525 <= exp (2 * (2 * (2 * (2 * (2 * -0.00184375)))))) by (apply (STEP _ 0.97090435); lra).
  replace (2 * (2 * (2 * (2 * (2 * -0.00184375))))) with (-0.059) in L5 by lra. split; [lra|].
  pose proof (exp_ineq1_le 0.059) as U. assert (M : exp (-0.059) * exp 0.059 = 1) by (rewrite <- exp_plus, <- exp_0; f_equal; lra). pose proof (exp_pos (-0.059)) as P. set (e := exp (-0.059)) in *. set (f := exp 0.059) in *.
  assert (T : e * 1.0602 <= 1). { rewrite <- M. apply Rmult_le_compat_l; [lra|]. unfold f. assert (E2 : 1.0297 * 1.0297 <= exp (2 * 0.0295)). { rewrite SQ. apply Rmult_le_compat; try lra; (assert (Q : 1.01475 * 1.01475 <= exp (2 * 0.01475)) by (rewrite SQ; pose proof (exp_ineq1_le 0.01475); apply Rmult_le_compat; lra); replace (2 * 0.01475) with 0.0295 in Q by lra; lra). }
    replace (2 * 0.0295) with 0.059 in E2 by lra. lra. }
  lra.
Qed.
Theorem C196_haurwitz_integer_refuted : haurwitz_series true [#0] = [#1035] /\ exists g, haurwitz_series false [#0] = [#g] /\ 1035.03 < g.
Proof.
  assert (E : haurwitz #0 = #(1098 * exp (-0.059))). { rewrite C97_haurwitz. rewrite cosD_0. destruct (Rlt_dec 0 1); [|lra]. f_equal. replace (-0.059 / 1) with (-0.059) by lra. ring. }
  pose proof overhead as [L U]. unfold haurwitz_series. cbn [map]. rewrite E. cbn [store]. split; [|eexists; split; [reflexivity|exact L]]. f_equal. f_equal. f_equal.
  pose proof (ftrunc_nonneg (1098 * exp (-0.059)) ltac:(lra)) as [A B]. set (k := ftrunc _) in *. assert (K1 : (k < 1036)%Z) by (apply lt_IZR; lra). assert (K2 : (1034 < k)%Z) by (apply lt_IZR; lra). lia.
Qed.
Print Assumptions C196_haurwitz_integer_refuted.
(** float optical depths give the model of simplified_solis itself *)
Theorem C196_solis_float : forall el aod pw pr i0, simplified_solis_scalar_water false el aod #pw pr i0 = simplified_solis el aod #pw pr i0.
Proof. intros. unfold simplified_solis_scalar_water. rewrite fmax_fin. cbn [store]. rewrite <- fmax_fin. reflexivity. Qed.
Print Assumptions C196_solis_float.
(** Finding: with integer optical depths and a scalar precipitable water ghi and dni are the published ones, but the diffuse irradiance is that of the whole centimetres
    of water *)
Theorem C196_solis_integer : forall el aod pw pr i0, 0 <= aod -> 0 < pr -> exists k,
  let w := Rmax pw 0.2 in let lp := ln (pr / 101325) in let s := Rmax 1e-30 (sinD el) in
  let '(i, tb, tg, _) := solis_optical_depths w aod lp in let '(_, _, _, td) := solis_optical_depths (IZR k) aod lp in let '(b, g, d) := solis_exponents w aod lp in
  whole_part w k /\ simplified_solis_scalar_water true #el #aod #pw #pr #i0 =
  {| cs_ghi := #(i0 * i * exp (- tg / Rpower s g) * s); cs_dni := #(i0 * i * exp (- tb / Rpower s b)); cs_dhi := #(i0 * i * exp (- td / Rpower s d)) |}.
Proof.
  intros el aod pw pr i0 Pa Pp. exists (ftrunc (Rmax pw 0.2)). cbv zeta.
  assert (Pw : 0 < Rmax pw 0.2) by (pose proof (Rmax_r pw 0.2); lra). assert (Ps : 0 < Rmax 1e-30 (sinD el)) by (pose proof (Rmax_l 1e-30 (sinD el)); lra).
  destruct (solis_optical_depths (Rmax pw 0.2) aod (ln (pr / 101325))) as [[[i tb] tg] td0] eqn:E1. destruct (solis_optical_depths (IZR (ftrunc (Rmax pw 0.2))) aod (ln (pr / 101325))) as [[[i' tb'] tg'] td] eqn:E2.
  destruct (solis_exponents (Rmax pw 0.2) aod (ln (pr / 101325))) as [[b g] d] eqn:E3. split; [apply ftrunc_nonneg; lra|].
  assert (Pq : 0 < pr / 101325) by (apply Rdiv_lt_0_compat; lra).
  unfold simplified_solis_scalar_water, calc_i0p, calc_taub, calc_b, calc_taug, calc_g, calc_taud, calc_d, p0.
  rewrite (fmax_fin pw), fradians_fin, fsin_fin, (fmax_fin 1e-30). cbn [store]. set (w := Rmax pw 0.2) in *. set (w' := IZR (ftrunc w)) in *. clearbody w'. change (sin (Rrad el)) with (sinD el). set (s := Rmax 1e-30 (sinD el)) in *. rewrite (fdiv_fin pr) by lra.
  rewrite !(fln_fin (pr / 101325)), !(fln_fin w) by lra. set (lp := ln (pr / 101325)) in *.
  rewrite !(fpow_fin w) by lra. rewrite !fpown_fin. fl1. rewrite !(fpow_fin (1 + aod)) by lra. rewrite (fdiv_fin 1 (18 + 152 * aod)) by lra. fl1. rewrite !(fpow_fin s) by exact Ps.
  rewrite !fltb_fin. unfold Rltb. unfold solis_optical_depths in E1, E2. unfold solis_exponents in E3. apply pair_equal_spec in E1 as [E1 _]. apply pair_equal_spec in E1 as [E1 <-]. apply pair_equal_spec in E1 as [<- <-].
  apply pair_equal_spec in E2 as [_ <-]. apply pair_equal_spec in E3 as [E3 <-]. apply pair_equal_spec in E3 as [<- <-].
  destruct (Rlt_dec aod 0.05) as [L|L]; cbn [where_]; fl1; rewrite !fdiv_fin by (apply Rgt_not_eq, Rpower_pos); fl1; reflexivity.
Qed.
Print Assumptions C196_solis_integer.
(** so 1.5 cm of water over clear air give the diffuse irradiance of 1 cm in an array of integers, more than in an array of floats *)
Theorem C196_solis_integer_refuted : exists d d', cs_dhi (simplified_solis_scalar_water true #90 #0 #1.5 #101325 #1367) = #d' /\ cs_dhi (simplified_solis_scalar_water false #90 #0 #1.5 #101325 #1367) = #d /\ d < d'.
Proof.
  rewrite C196_solis_float. destruct (C196_solis_integer 90 0 1.5 101325 1367 ltac:(lra) ltac:(lra)) as (k & H). pose proof (C97_solis 90 0 1.5 101325 1367 ltac:(lra) ltac:(lra)) as G. cbv zeta in H, G.
  rewrite (Rmax_left 1.5 0.2), sinD_90, (Rmax_right 1e-30 1) in H, G by lra. replace (101325 / 101325) with 1 in H, G by lra. rewrite ln_1 in H, G.
  destruct (solis_optical_depths 1.5 0 0) as [[[i tb] tg] td0] eqn:E1. destruct (solis_optical_depths (IZR k) 0 0) as [[[i' tb'] tg'] td] eqn:E2. destruct (solis_exponents 1.5 0 0) as [[b g] d] eqn:E3.
  destruct H as [[K1 K2] H]. rewrite H, G. cbn [cs_dhi]. eexists _, _. split; [reflexivity|]. split; [reflexivity|].
  assert (EK : k = 1%Z). { assert ((k < 2)%Z) by (apply lt_IZR; lra). assert ((0 < k)%Z) by (apply lt_IZR; lra). lia. } subst k.
  unfold solis_optical_depths in E1, E2. destruct (Rlt_dec 0 0.05); [|lra]. apply pair_equal_spec in E1 as [E1 T0]. apply pair_equal_spec in E1 as [E1 _]. apply pair_equal_spec in E1 as [EI _]. apply pair_equal_spec in E2 as [_ T1].
  assert (I0 : 0 < i). { rewrite <- EI. pose proof (Rpower_pos 1.5 0.0051). lra. } assert (TT : td < td0) by lra.
  assert (P : 0 < / Rpower 1 d) by (apply Rinv_0_lt_compat, Rpower_pos). apply Rmult_lt_compat_l; [lra|]. apply exp_increasing. unfold Rdiv. apply Rmult_lt_compat_r; [exact P|lra].
Qed.
Print Assumptions C196_solis_integer_refuted.
