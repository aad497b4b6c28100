(** Lemmas for the Sandia fits of the De Soto and PVsyst models. *)
From Verif Require Import Base.Fl Base.FlFacts Base.Py Base.Series Model.SingleDiode Model.SdmSandia Spec.DiodeSpec Spec.IvSpec Proofs.DiodeLW Proofs.LambertP Proofs.SdmP.
From Coq Require Import Psatz.
Open Scope R_scope.
Open Scope list_scope.

Lemma w_pos x : 0 < x -> exists w w', is_W x w /\ lambertw_pvlib #x = #w' /\ 0 <= w - w' <= 1.3e-10 /\ 0 < w'.
Proof.
  intros H. destruct (lambertw_acc x ltac:(lra)) as (w & w' & Hw & E & A & B). exists w, w'. repeat split; try assumption; try apply Hw; try lra.
  destruct (W_log x w H Hw) as [P _]. lra.
Qed.
(** ** the branch taken when the argument overflows *)
Definition aliasR (x : R) : R := x - ln x * (x / (1 + x)).
Lemma alias_fin x : 0 < x -> alias_step #x = #(aliasR x).
Proof. intros H. unfold alias_step. rewrite fln_fin by exact H. rewrite fsub_fin, !fadd_fin. rewrite fdiv_fin by lra. rewrite fmul_fin. f_equal. unfold aliasR. field. lra. Qed.
Lemma ln_small x : 0 < x -> ln x <= 0.4 * x.
Proof.
  intros H. pose proof (ln_le_tangent2 x (exp 1) H (exp_pos 1)) as K. rewrite ln_exp in K. pose proof e_ge as E.
  assert (x / exp 1 <= x * 0.4). { unfold Rdiv. apply Rmult_le_compat_l; [lra|]. replace 0.4 with (/ 2.5) by lra. apply Rinv_le_contravar; lra. } lra.
Qed.
Lemma aliasR_ge x : 1 <= x -> 0.6 * x <= aliasR x.
Proof.
  intros H. unfold aliasR. pose proof (ln_small x ltac:(lra)) as L. assert (0 <= ln x) by (rewrite <- ln_1; apply ln_mono; lra).
  assert (x / (1 + x) <= 1). { apply (Rmult_le_reg_r (1 + x)); [lra|]. unfold Rdiv. rewrite Rmult_assoc, Rinv_l by lra. lra. }
  assert (ln x * (x / (1 + x)) <= ln x * 1) by (apply Rmult_le_compat_l; lra). lra.
Qed.
Lemma ln_243 x : 243 <= x -> 5 <= ln x.
Proof.
  intros H. apply Rle_trans with (ln 243); [|apply ln_mono; lra]. replace 243 with (3 ^ 5) by lra. rewrite ln_pow by lra. simpl INR.
  assert (1 <= ln 3). { rewrite <- (ln_exp 1). apply ln_mono; [apply exp_pos|]. pose proof exp_le_3. lra. } lra.
Qed.
Lemma aliasR_drop x : 243 <= x -> aliasR x <= x - 4.9.
Proof.
  intros H. unfold aliasR. pose proof (ln_243 x H) as L. assert (0.99 <= x / (1 + x)). { apply (Rmult_le_reg_r (1 + x)); [lra|]. unfold Rdiv. rewrite Rmult_assoc, Rinv_l by lra. lra. }
  assert (5 * 0.99 <= ln x * (x / (1 + x))) by (apply Rmult_le_compat; lra). lra.
Qed.
(** one step from the logarithm stays below Lambert's W *)
Lemma alias_first L w : 0 < L -> 0 < w -> w + ln w = L -> aliasR L <= w.
Proof.
  intros HL Hw E. pose proof (ln_le_tangent2 w L Hw HL) as K. unfold aliasR. assert (D : L - w <= ln L + w / L - 1) by lra.
  assert (D2 : (L - w) * (1 + L) <= ln L * L). { replace ((L - w) * (1 + L)) with (L * ((L - w) - (w / L - 1))) by (field; lra). rewrite (Rmult_comm (ln L)). apply Rmult_le_compat_l; lra. }
  assert (L - w <= ln L * (L / (1 + L))); [|lra]. apply (Rmult_le_reg_r (1 + L)); [lra|]. unfold Rdiv. rewrite !Rmult_assoc, Rinv_l by lra. lra.
Qed.
Lemma alias_newton_bad L w : 700 <= L -> 0 < w -> w + ln w = L -> exists x, alias_newton #L = #x /\ 0 < x /\ x + 9.8 <= w.
Proof.
  intros HL Hw E. set (x1 := aliasR L). set (x2 := aliasR x1). set (x3 := aliasR x2).
  pose proof (aliasR_ge L ltac:(lra)) as G1. fold x1 in G1. pose proof (aliasR_ge x1 ltac:(lra)) as G2. fold x2 in G2. pose proof (aliasR_ge x2 ltac:(lra)) as G3. fold x3 in G3.
  pose proof (alias_first L w ltac:(lra) Hw E) as F. fold x1 in F. pose proof (aliasR_drop x1 ltac:(lra)) as D1. fold x2 in D1. pose proof (aliasR_drop x2 ltac:(lra)) as D2. fold x3 in D2.
  exists x3. split; [unfold alias_newton; rewrite (alias_fin L) by lra; fold x1; rewrite (alias_fin x1) by lra; fold x2; rewrite (alias_fin x2) by lra; reflexivity|]. split; lra.
Qed.

(** ** phi *)
Definition phi_arg (imp iph io rsh a : R) : R := rsh * io / a * exp (rsh * (iph + io - imp) / a).
Lemma phi_arg_pos imp iph io rsh a : 0 < io -> 0 < rsh -> 0 < a -> 0 < phi_arg imp iph io rsh a.
Proof. intros. unfold phi_arg. apply Rmult_lt_0_compat; [|apply exp_pos]. apply Rdiv_lt_0_compat; [apply Rmult_lt_0_compat|]; assumption. Qed.
Lemma phi_arg_eq big imp iph io rsh a : a <> 0 ->
  (if feqb #a #0 then NaN else overflow big (#rsh * #io / #a * fexp (#rsh * (#iph + #io - #imp) / #a)))%fl = overflow big #(phi_arg imp iph io rsh a).
Proof. intros H. rewrite feqb_fin, Reqb_f by exact H. rewrite !fadd_fin, !fsub_fin, !fmul_fin. rewrite !fdiv_fin by exact H. reflexivity. Qed.
Lemma calc_phi_val big imp iph io rsh a : 0 < io -> 0 < rsh -> 0 < a -> phi_arg imp iph io rsh a <= big ->
  exists w w', is_W (phi_arg imp iph io rsh a) w /\ calc_phi big #imp #iph #io #rsh #a = #w' /\ 0 <= w - w' <= 1.3e-10 /\ 0 < w'.
Proof.
  intros H1 H2 H3 HB. pose proof (phi_arg_pos imp iph io rsh a H1 H2 H3) as P. destruct (w_pos _ P) as (w & w' & Hw & E & A). exists w, w'. split; [exact Hw|]. split; [|exact A].
  unfold calc_phi. rewrite phi_arg_eq by lra. cbv zeta. unfold overflow. rewrite Rltb_f by lra. cbn [isinf]. rewrite fgtb_fin, Rltb_t by exact P. exact E.
Qed.
Lemma calc_phi_over big imp iph io rsh a : 0 < io -> 0 < rsh -> 0 < a -> big < phi_arg imp iph io rsh a ->
  calc_phi big #imp #iph #io #rsh #a = alias_newton #(ln (phi_arg imp iph io rsh a)).
Proof.
  intros H1 H2 H3 HB. unfold calc_phi. rewrite phi_arg_eq by lra. cbv zeta. unfold overflow. rewrite Rltb_t by exact HB. cbn [isinf].
  rewrite !fln_fin by assumption. rewrite !fadd_fin, !fsub_fin, !fmul_fin. rewrite fdiv_fin by lra. rewrite fadd_fin. do 2 f_equal. unfold phi_arg.
  assert (0 < rsh * io / a) by (apply Rdiv_lt_0_compat; [apply Rmult_lt_0_compat|]; assumption).
  rewrite ln_mult, ln_exp by (try apply exp_pos; assumption). unfold Rdiv at 2. rewrite ln_mult, ln_Rinv, ln_mult by (try apply Rinv_0_lt_compat; try apply Rmult_lt_0_compat; assumption). ring.
Qed.
(** the junction voltage that phi stands for *)
Lemma phi_curve imp iph io rsh a w : 0 < io -> 0 < rsh -> 0 < a -> is_W (phi_arg imp iph io rsh a) w ->
  let x := (iph + io - imp) * rsh - a * w in io * exp (x / a) = a * w / rsh.
Proof.
  intros H1 H2 H3 [_ E] x. unfold x. replace (((iph + io - imp) * rsh - a * w) / a) with (rsh * (iph + io - imp) / a + - w) by (field; lra). rewrite exp_plus.
  assert (N : exp w * exp (- w) = 1) by (rewrite <- exp_plus, Rplus_opp_r; apply exp_0).
  replace (io * (exp (rsh * (iph + io - imp) / a) * exp (- w))) with (phi_arg imp iph io rsh a * a / rsh * exp (- w)) by (unfold phi_arg; field; lra).
  rewrite <- E. replace (w * exp w * a / rsh * exp (- w)) with (w * a / rsh * (exp w * exp (- w))) by (field; lra). rewrite N. field. lra.
Qed.
Definition rsR (vmp imp iph io rsh a w : R) : R := (iph + io - imp) * rsh / imp - a * w / imp - vmp / imp.
Lemma rsR_curve vmp imp iph io rsh a w : 0 < io -> 0 < rsh -> 0 < a -> imp <> 0 -> is_W (phi_arg imp iph io rsh a) w ->
  on_sde_curve iph io (rsR vmp imp iph io rsh a w) rsh a vmp imp.
Proof.
  intros H1 H2 H3 HI Hw. pose proof (phi_curve imp iph io rsh a w H1 H2 H3 Hw) as K. cbv zeta in K. unfold on_sde_curve.
  assert (X : vmp + rsR vmp imp iph io rsh a w * imp = (iph + io - imp) * rsh - a * w) by (unfold rsR; field; exact HI). rewrite X.
  set (x := (iph + io - imp) * rsh - a * w) in *. replace (io * (exp (x / a) - 1)) with (io * exp (x / a) - io) by ring. rewrite K. unfold x. field. lra.
Qed.
Definition rshR (vmp imp iph io rsh a w : R) : R := (1 + w) / w * ((iph + io) * rsh / imp - a * w / imp - 2 * vmp / imp).
Lemma rshR_mpp vmp imp iph io rsh a w : 0 <= iph -> 0 < io -> 0 < rsh -> 0 < a -> 0 < imp -> 0 <= vmp -> is_W (phi_arg imp iph io rsh a) w ->
  let rs := rsR vmp imp iph io rsh a w in 0 <= rs ->
  (rshR vmp imp iph io rsh a w = rsh <-> max_power_at (simple_diode iph io rs (1 / rsh) a) vmp imp).
Proof.
  intros HL H1 H2 H3 HI HV Hw rs HR. destruct (W_log _ w (phi_arg_pos imp iph io rsh a H1 H2 H3) Hw) as [Pw _].
  pose proof (rsR_curve vmp imp iph io rsh a w H1 H2 H3 ltac:(lra) Hw) as C. fold rs in C.
  destruct (mpp_equation iph io rs rsh a vmp imp HL H1 HR H2 H3 HV C) as [D M]. rewrite M. clear M.
  pose proof (phi_curve imp iph io rsh a w H1 H2 H3 Hw) as K. cbv zeta in K.
  assert (X : vmp + imp * rs = (iph + io - imp) * rsh - a * w) by (unfold rs, rsR; field; lra). rewrite X in *. set (e := exp (((iph + io - imp) * rsh - a * w) / a)) in *.
  assert (K1 : io / a * e = w / rsh). { apply (Rmult_eq_reg_l a); [|lra]. replace (a * (io / a * e)) with (io * e) by (field; lra). rewrite K. field. lra. }
  replace (io * rs / a * e) with (rs * (io / a * e)) in * by (field; lra). rewrite K1 in *.
  assert (DEN : 1 + rs * (w / rsh) + rs / rsh = (rsh + rs * (1 + w)) / rsh) by (field; lra). rewrite DEN in *. replace (w / rsh + 1 / rsh) with ((1 + w) / rsh) by (field; lra).
  assert (DP : 0 < rsh + rs * (1 + w)). { assert (0 <= rs * (1 + w)) by (apply Rmult_le_pos; lra). lra. }
  assert (Q : imp - vmp * ((1 + w) / rsh) / ((rsh + rs * (1 + w)) / rsh) = (imp * rsh - (1 + w) * (vmp - imp * rs)) / (rsh + rs * (1 + w))) by (field; lra). rewrite Q.
  assert (Q2 : imp * rsh - (1 + w) * (vmp - imp * rs) = imp * w * (rshR vmp imp iph io rsh a w - rsh)).
  { replace (imp * rs) with ((iph + io - imp) * rsh - a * w - vmp) by lra. unfold rshR. field. lra. }
  rewrite Q2. split.
  - intros ->. unfold Rdiv. rewrite Rminus_eq_0. ring.
  - intros Z. apply Rmult_integral in Z. destruct Z as [Z|Z]; [|exfalso; apply (Rinv_neq_0_compat _ ltac:(apply Rgt_not_eq, DP) Z)].
    apply Rmult_integral in Z. destruct Z as [Z|Z]; [|lra]. apply Rmult_integral in Z. destruct Z; lra.
Qed.
