(** C129-C134: the Sandia method of fitting the De Soto and PVsyst models to many IV curves. *)
From Verif Require Import Base.Fl Base.FlFacts Base.Py Base.Series Model.IvUtils Model.SingleDiode Model.Pvsystem Model.SdmSandia Model.Clearsky Spec.DiodeSpec Spec.IvSpec Spec.ScalingSpec Proofs.ScalingP
  Proofs.DiodeLW Proofs.LambertP Proofs.SdmP Proofs.SdmSandiaP Proofs.ClearskyD Proofs.SdmLoops Model.SdmSandia.
From Coq Require Import String Psatz.
Open Scope R_scope.
Open Scope list_scope.
Import ListNotations.

Lemma Ok_inj {A} (a b : A) : Ok a = Ok b -> a = b. Proof. congruence. Qed.
(** ** C129: series and shunt resistance from the maximum power point *)
(** the intermediate phi is Lambert's W within 1.3e-10, and the series resistance computed from it puts the measured maximum power
    point on the curve, up to 1.3e-10 nNsVth/imp *)
Theorem C129_series_resistance : forall big vmp imp iph io rsh a, 0 < io -> 0 < rsh -> 0 < a -> 0 < imp -> rsh * io / a * exp (rsh * (iph + io - imp) / a) <= big ->
  exists w w' rs rs', is_W (rsh * io / a * exp (rsh * (iph + io - imp) / a)) w /\ calc_phi big #imp #iph #io #rsh #a = #w' /\ 0 <= w - w' <= 1.3e-10 /\
  update_rs big #vmp #imp #iph #io #rsh #a = #rs' /\ on_sde_curve iph io rs rsh a vmp imp /\ 0 <= rs' - rs <= 1.3e-10 * (a / imp).
Proof.
  intros big vmp imp iph io rsh a H1 H2 H3 HI HB. destruct (calc_phi_val big imp iph io rsh a H1 H2 H3 HB) as (w & w' & Hw & E & A & P).
  exists w, w', (rsR vmp imp iph io rsh a w), (rsR vmp imp iph io rsh a w'). split; [exact Hw|]. split; [exact E|]. split; [exact A|]. split; [|split].
  - unfold update_rs. rewrite E. cbv zeta. rewrite !fadd_fin, !fsub_fin, !fmul_fin. rewrite !fdiv_fin by lra. reflexivity.
  - apply rsR_curve; try assumption; lra.
  - replace (rsR vmp imp iph io rsh a w' - rsR vmp imp iph io rsh a w) with ((w - w') * (a / imp)) by (unfold rsR; field; lra).
    assert (0 < a / imp) by (apply Rdiv_lt_0_compat; assumption). split; [apply Rmult_le_pos; lra|apply Rmult_le_compat_r; lra].
Qed.
Print Assumptions C129_series_resistance.
(** what one step of the shunt resistance iteration computes, and that a resistance is left unchanged by the exact step iff,
    with the matching series resistance, the measured point is the maximum power point of the curve *)
Theorem C129_shunt_resistance : forall big vmp imp iph io rsh a, 0 <= iph -> 0 < io -> 0 < rsh -> 0 < a -> 0 < imp -> 0 <= vmp ->
  rsh * io / a * exp (rsh * (iph + io - imp) / a) <= big ->
  exists w w', is_W (rsh * io / a * exp (rsh * (iph + io - imp) / a)) w /\ 0 <= w - w' <= 1.3e-10 /\ 0 < w' /\
  let step z := (1 + z) / z * ((iph + io) * rsh / imp - a * z / imp - 2 * vmp / imp) in
  rsh_step big #vmp #imp #iph #io #a #rsh = #(step w') /\
  (forall rs, 0 <= rs -> on_sde_curve iph io rs rsh a vmp imp -> (step w = rsh <-> max_power_at (simple_diode iph io rs (1 / rsh) a) vmp imp)).
Proof.
  intros big vmp imp iph io rsh a HL H1 H2 H3 HI HV HB. destruct (calc_phi_val big imp iph io rsh a H1 H2 H3 HB) as (w & w' & Hw & E & A & P).
  exists w, w'. split; [exact Hw|]. split; [exact A|]. split; [exact P|]. cbv zeta. split.
  - unfold rsh_step. rewrite E. cbv zeta. rewrite !fadd_fin, !fmul_fin. rewrite !fdiv_fin by lra. reflexivity.
  - intros rs HR C. assert (ER : rs = rsR vmp imp iph io rsh a w).
    { pose proof (rsR_curve vmp imp iph io rsh a w H1 H2 H3 ltac:(lra) Hw) as C2.
      assert (V : vmp + imp * rs = vmp + imp * rsR vmp imp iph io rsh a w).
      { unfold on_sde_curve in C, C2. rewrite (Rmult_comm rs) in C. rewrite (Rmult_comm (rsR _ _ _ _ _ _ _)) in C2. set (x := vmp + imp * rs) in *. set (y := vmp + imp * rsR vmp imp iph io rsh a w) in *.
        assert (MN : forall p q, p < q -> io * (exp (p / a) - 1) + p / rsh < io * (exp (q / a) - 1) + q / rsh).
        { intros p q L. assert (exp (p / a) < exp (q / a)) by (apply exp_increasing; unfold Rdiv; apply Rmult_lt_compat_r; [apply Rinv_0_lt_compat|]; lra).
          assert (io * exp (p / a) < io * exp (q / a)) by (apply Rmult_lt_compat_l; lra). assert (p / rsh < q / rsh) by (unfold Rdiv; apply Rmult_lt_compat_r; [apply Rinv_0_lt_compat|]; lra). lra. }
        destruct (Rtotal_order x y) as [L|[L|L]]; [|exact L|]; [pose proof (MN x y L)|pose proof (MN y x L)]; lra. }
      apply (Rmult_eq_reg_l imp); lra. }
    subst rs. exact (rshR_mpp vmp imp iph io rsh a w HL H1 H2 H3 HI HV Hw HR).
Qed.
Print Assumptions C129_shunt_resistance.
(** the iteration takes that step 500 times; it keeps a fixed point, and a missing value stays missing *)
Theorem C129_five_hundred_steps : forall big vmp imp iph io rsh a, let step := rsh_step big vmp imp iph io a in
  update_rsh_fixed_pt big vmp imp iph io rsh a = Nat.iter 500 step rsh /\ (step rsh = rsh -> update_rsh_fixed_pt big vmp imp iph io rsh a = rsh) /\
  (rsh = NaN -> update_rsh_fixed_pt big vmp imp iph io rsh a = NaN).
Proof.
  intros big vmp imp iph io rsh a step. split; [reflexivity|]. assert (K : step rsh = rsh -> update_rsh_fixed_pt big vmp imp iph io rsh a = rsh).
  { intros E. unfold update_rsh_fixed_pt. fold step. generalize 500%nat. intros n. induction n as [|n IH]; [reflexivity|]. cbn [Nat.iter]. change (step (Nat.iter n step rsh) = rsh). rewrite IH. exact E. }
  split; [exact K|]. intros ->. apply K. unfold step, rsh_step. assert (E : calc_phi big imp iph io NaN a = NaN).
  { unfold calc_phi. replace (if feqb a #0 then NaN else overflow big (NaN * io / a * fexp (NaN * (iph + io - imp) / a))%fl) with NaN; [reflexivity|]. destruct (feqb a #0); reflexivity. }
  rewrite E. reflexivity.
Qed.
Print Assumptions C129_five_hundred_steps.
(** where exp overflows, phi is computed in log space.  The code says that three Newton iterations give about 8 digits; because the
    iterate and the logarithm are one array, the result is too small by more than 9.8 *)
Theorem C129_overflow_accuracy_refuted : forall big imp iph io rsh a, 0 < io -> 0 < rsh -> 0 < a -> exp 700 <= big -> big < rsh * io / a * exp (rsh * (iph + io - imp) / a) ->
  exists w x, is_W (rsh * io / a * exp (rsh * (iph + io - imp) / a)) w /\ calc_phi big #imp #iph #io #rsh #a = #x /\ 0 < x /\ x + 9.8 <= w.
Proof.
  intros big imp iph io rsh a H1 H2 H3 HB HO. fold (phi_arg imp iph io rsh a) in *. pose proof (phi_arg_pos imp iph io rsh a H1 H2 H3) as P.
  destruct (W_exists (phi_arg imp iph io rsh a) ltac:(lra)) as (w & Hw). destruct (W_log _ w P Hw) as [Pw Ew].
  assert (HL : 700 <= ln (phi_arg imp iph io rsh a)) by (rewrite <- (ln_exp 700); apply ln_mono; [apply exp_pos|lra]).
  destruct (alias_newton_bad _ w HL Pw Ew) as (x & E & A). exists w, x. split; [exact Hw|]. split; [|exact A]. rewrite (calc_phi_over big imp iph io rsh a H1 H2 H3 HO). exact E.
Qed.
Print Assumptions C129_overflow_accuracy_refuted.
(** the other output of the same helper, with the same two branches; nan without series resistance *)
Definition theta_arg (vmp iph io rs rsh a : R) : R := rsh / (rsh + rs) * rs * io / a * exp (rsh / (rsh + rs) * (rs * (iph + io) + vmp) / a).
Theorem C129_theta : forall big vmp iph io rs rsh a, 0 < io -> 0 <= rs -> 0 < rsh -> 0 < a -> let x := theta_arg vmp iph io rs rsh a in
  (rs = 0 -> 0 <= big -> calc_theta big #vmp #iph #io #rs #rsh #a = NaN) /\
  (0 < rs -> x <= big -> exists w w', is_W x w /\ calc_theta big #vmp #iph #io #rs #rsh #a = #w' /\ 0 <= w - w' <= 1.3e-10) /\
  (0 < rs -> exp 700 <= big -> big < x -> exists w y, is_W x w /\ calc_theta big #vmp #iph #io #rs #rsh #a = #y /\ y + 9.8 <= w).
Proof.
  intros big vmp iph io rs rsh a H1 HR H2 H3 x.
  assert (E0 : (if feqb #a #0 then NaN else overflow big (#rsh / (#rsh + #rs) * #rs * #io / #a * fexp (#rsh / (#rsh + #rs) * (#rs * (#iph + #io) + #vmp) / #a)))%fl = overflow big #x).
  { rewrite feqb_fin, Reqb_f by lra. rewrite !fadd_fin, !fmul_fin. rewrite !(fdiv_fin rsh) by lra. rewrite !fadd_fin, !fmul_fin. rewrite !fdiv_fin by lra. reflexivity. }
  unfold calc_theta. rewrite E0. cbv zeta. split; [|split].
  - intros Z HB. assert (x = 0) as -> by (unfold x, theta_arg; rewrite Z; unfold Rdiv; ring). unfold overflow. rewrite Rltb_f by lra. cbn [isinf]. rewrite fgtb_fin, Rltb_f by lra. reflexivity.
  - intros HP HB. assert (P : 0 < x). { unfold x, theta_arg. apply Rmult_lt_0_compat; [|apply exp_pos]. apply Rdiv_lt_0_compat; [|assumption]. repeat apply Rmult_lt_0_compat; try assumption. apply Rinv_0_lt_compat. lra. }
    destruct (w_pos x P) as (w & w' & Hw & E & A & _). exists w, w'. split; [exact Hw|]. split; [|exact A]. unfold overflow. rewrite Rltb_f by lra. cbn [isinf]. rewrite fgtb_fin, Rltb_t by lra. exact E.
  - intros HP HB HO. assert (P0 : 0 < rsh / (rsh + rs)) by (apply Rdiv_lt_0_compat; lra). assert (P : 0 < x) by (pose proof (exp_pos 700); lra).
    destruct (W_exists x ltac:(lra)) as (w & Hw). destruct (W_log x w P Hw) as [Pw Ew]. assert (HL : 700 <= ln x) by (rewrite <- (ln_exp 700); apply ln_mono; [apply exp_pos|lra]).
    destruct (alias_newton_bad _ w HL Pw Ew) as (y & E & A). exists w, y. split; [exact Hw|]. split; [|apply A]. unfold overflow. rewrite Rltb_t by exact HO. cbn [isinf]. rewrite <- E. f_equal.
    repeat first [rewrite fadd_fin | rewrite fsub_fin | rewrite fmul_fin | rewrite fdiv_fin by lra | rewrite fln_fin by lra]. f_equal.
    assert (P1 : 0 < rsh / (rsh + rs) * rs * io) by (exact (Rmult_lt_0_compat _ _ (Rmult_lt_0_compat _ _ P0 HP) H1)). assert (P2 : 0 < rsh / (rsh + rs) * rs * io / a) by (apply Rdiv_lt_0_compat; assumption).
    unfold x, theta_arg. rewrite ln_mult, ln_exp; [|exact P2|apply exp_pos].
    assert (L1 : ln (rsh / (rsh + rs) * rs * io / a) = ln rsh - ln (rsh + rs) + ln rs + ln io - ln a).
    { unfold Rdiv at 1. rewrite ln_mult, ln_Rinv; [|assumption|exact P1|apply Rinv_0_lt_compat; assumption].
      rewrite ln_mult; [|apply Rmult_lt_0_compat; assumption|assumption]. rewrite ln_mult by assumption. unfold Rdiv. rewrite ln_mult, ln_Rinv; [ring|lra|lra|apply Rinv_0_lt_compat; lra]. }
    rewrite L1. ring.
Qed.
Print Assumptions C129_theta.
Example C129_nonvacuous : let rsh := 300 in let io := 1 in let a := 1 in let iph := 5 in let imp := 3 in 0 < rsh * io / a * exp (rsh * (iph + io - imp) / a) <= exp 1200 /\
  exp 700 < 300 * 1 / 1 * exp (300 * (5 + 1 - 3) / 1).
Proof.
  cbv zeta. replace (300 * 1 / 1) with 300 by field. replace (300 * (5 + 1 - 3) / 1) with 900 by field. pose proof (exp_pos 900) as P. repeat split; [apply Rmult_lt_0_compat; lra| |].
  - replace 1200 with (300 + 900) by ring. rewrite exp_plus. apply Rmult_le_compat_r; [lra|]. pose proof (exp_ineq1_le 300). lra.
  - assert (exp 700 < exp 900) by (apply exp_increasing; lra). lra.
Qed.

(** ** C130: the saturation current from the open circuit voltage *)
(** one step: from the open circuit voltage of the present parameters (exact up to 1.3e-10 nNsVth) *)
Theorem C130_step : forall big voc a iph io rs rsh, 100 <= big -> 0 < io -> 0 < a -> 0 < rsh ->
  exists v v', on_sde_curve iph io rs rsh a v 0 /\ 0 <= v' - v <= 1.3e-10 * a /\ let d := v' - voc in
  (d <> 2 * a -> io_step big #voc #a (Pars #iph #io #rs #rsh) #io = #(io * (1 + 2 * d / (2 * a - d)))) /\
  (Rabs d < 2 * a -> let new := io * (1 + 2 * d / (2 * a - d)) in 0 < new /\ (io < new <-> voc < v') /\ (new < io <-> v' < voc)).
Proof.
  intros big voc a iph io rs rsh HB H1 H2 H3. assert (SH : shunt_of #rsh (1 / rsh)) by (left; exists rsh; auto).
  assert (G0 : 1 / rsh = 0 -> 0 < iph + io). { intros K. assert (0 < 1 / rsh) by (apply Rdiv_lt_0_compat; lra). lra. }
  destruct (v_from_i_acc big 0 iph io rs #rsh (1 / rsh) a HB H1 H2 SH G0) as (v & v' & C & E & A). exists v, v'. split; [apply sde_simple; exact C|]. split; [exact A|]. cbv zeta. set (d := v' - voc). split.
  - intros N. unfold io_step. cbn [q_iph q_rs q_rsh]. rewrite E. cbv zeta. rewrite fsub_fin. fold d. rewrite !fmul_fin, fsub_fin. rewrite fdiv_fin by lra. rewrite fadd_fin, fmul_fin. reflexivity.
  - intros D. apply Rabs_def2 in D. assert (X : 1 + 2 * d / (2 * a - d) = (2 * a + d) / (2 * a - d)) by (field; lra). rewrite X.
    assert (Y : io * ((2 * a + d) / (2 * a - d)) - io = io * 2 / (2 * a - d) * d) by (field; lra). assert (P : 0 < io * 2 / (2 * a - d)) by (apply Rdiv_lt_0_compat; lra).
    split; [apply Rmult_lt_0_compat; [exact H1|apply Rdiv_lt_0_compat; lra]|]. split; split; intros L.
    + assert (0 < io * 2 / (2 * a - d) * d) by lra. assert (0 < d); [|unfold d in *; lra]. apply (Rmult_lt_reg_l (io * 2 / (2 * a - d))); lra.
    + assert (0 < io * 2 / (2 * a - d) * d) by (apply Rmult_lt_0_compat; [exact P|unfold d; lra]). lra.
    + assert (io * 2 / (2 * a - d) * d < 0) by lra. assert (d < 0); [|unfold d in *; lra]. apply (Rmult_lt_reg_l (io * 2 / (2 * a - d))); lra.
    + assert (0 < io * 2 / (2 * a - d) * - d) by (apply Rmult_lt_0_compat; [exact P|unfold d; lra]). lra.
Qed.
Print Assumptions C130_step.
(** when the change is below the tolerance, the open circuit voltage is met to 1.1e-8 nNsVth *)
Theorem C130_accuracy : forall big voc a iph io rs rsh new, 100 <= big -> 0 < io -> 0 < a -> 0 < rsh -> io_step big #voc #a (Pars #iph #io #rs #rsh) #io = #new ->
  fgtb (fabs (#new - #io) / #io * #100)%fl #1e-6 = false -> exists v, on_sde_curve iph io rs rsh a v 0 /\ Rabs (v - voc) <= 1.1e-8 * a.
Proof.
  intros big voc a iph io rs rsh new HB H1 H2 H3 E S. destruct (C130_step big voc a iph io rs rsh HB H1 H2 H3) as (v & v' & C & A & F & _). cbv zeta in F. exists v. split; [exact C|]. set (d := v' - voc) in *.
  rewrite fsub_fin, fabs_fin in S. rewrite fdiv_fin in S by lra. rewrite fmul_fin, fgtb_fin in S. apply Rltb_false in S.
  destruct (Req_EM_T d (2 * a)) as [Z|Z].
  { exfalso. unfold io_step in E. cbn [q_iph q_rs q_rsh] in E.
    assert (SH : shunt_of #rsh (1 / rsh)) by (left; exists rsh; auto).
    destruct (v_from_i_acc big 0 iph io rs #rsh (1 / rsh) a HB H1 H2 SH) as (v0 & v0' & C0 & E0 & A0). { intros K. assert (0 < 1 / rsh) by (apply Rdiv_lt_0_compat; lra). lra. }
    assert (EV : v0 = v). { apply sde_simple in C. unfold on_sde_curve, on_curve in *. rewrite simple_terminal in C, C0. cbn [simple_diode dRs] in C, C0. rewrite Rmult_0_l, Rplus_0_r in C, C0.
      assert (MN : forall p q, p < q -> io * (exp (p / a) - 1) + p * (1 / rsh) < io * (exp (q / a) - 1) + q * (1 / rsh)).
      { intros p q L. assert (exp (p / a) < exp (q / a)) by (apply exp_increasing; unfold Rdiv; apply Rmult_lt_compat_r; [apply Rinv_0_lt_compat|]; lra).
        assert (io * exp (p / a) < io * exp (q / a)) by (apply Rmult_lt_compat_l; lra). assert (p * (1 / rsh) < q * (1 / rsh)) by (apply Rmult_lt_compat_r; [apply Rdiv_lt_0_compat|]; lra). lra. }
      destruct (Rtotal_order v0 v) as [L|[L|L]]; [|exact L|]; [pose proof (MN v0 v L)|pose proof (MN v v0 L)]; lra. }
    rewrite E0 in E. cbv zeta in E. rewrite fsub_fin, !fmul_fin, fsub_fin in E. destruct (Req_EM_T (2 * a - (v0' - voc)) 0) as [Y|Y].
    - rewrite Y in E. rewrite fdiv_zero in E. assert (P : 0 < 2 * (v0' - voc)) by lra. unfold sinf, Rpos in E. rewrite Rltb_t in E by exact P. cbn in E. unfold sinf, Rpos in E. rewrite Rltb_t in E by exact H1. discriminate.
    - rewrite fdiv_fin in E by exact Y. rewrite fadd_fin, fmul_fin in E. injection E as E. rewrite <- E in S. set (d0 := v0' - voc) in *.
      replace (io * (1 + 2 * d0 / (2 * a - d0)) - io) with (io * (2 * d0 / (2 * a - d0))) in S by ring. rewrite Rabs_mult, (Rabs_right io) in S by lra. replace (io * Rabs (2 * d0 / (2 * a - d0)) / io) with (Rabs (2 * d0 / (2 * a - d0))) in S by (field; lra).
      assert (DD : - (1.3e-10 * a) <= d0 - d <= 1.3e-10 * a) by (unfold d0, d; lra). rewrite Z in DD.
      assert (SM : Rabs (2 * a - d0) <= 1.3e-10 * a) by (apply Rabs_le; lra). unfold Rdiv in S. rewrite Rabs_mult, Rabs_inv in S by exact Y. rewrite (Rabs_right (2 * d0)) in S by lra.
      assert (Q : 0 < Rabs (2 * a - d0)) by (apply Rabs_pos_lt; exact Y). assert (K : 2 * d0 * 100 <= 1e-6 * Rabs (2 * a - d0)).
      { apply (Rmult_le_reg_r (/ Rabs (2 * a - d0))); [apply Rinv_0_lt_compat; exact Q|]. rewrite (Rmult_assoc 1e-6), Rinv_r by lra. lra. } lra. }
  specialize (F Z). rewrite E in F. injection F as ->. replace (io * (1 + 2 * d / (2 * a - d)) - io) with (io * (2 * d / (2 * a - d))) in S by ring. rewrite Rabs_mult, (Rabs_right io) in S by lra.
  replace (io * Rabs (2 * d / (2 * a - d)) / io) with (Rabs (2 * d / (2 * a - d))) in S by (field; lra). assert (Y : 2 * a - d <> 0) by lra. unfold Rdiv in S. rewrite Rabs_mult, Rabs_inv in S by exact Y.
  assert (Q : 0 < Rabs (2 * a - d)) by (apply Rabs_pos_lt; exact Y). assert (K : Rabs (2 * d) * 100 <= 1e-6 * Rabs (2 * a - d)).
  { apply (Rmult_le_reg_r (/ Rabs (2 * a - d))); [apply Rinv_0_lt_compat; exact Q|]. rewrite (Rmult_assoc 1e-6), Rinv_r by lra. lra. }
  rewrite Rabs_mult, (Rabs_right 2) in K by lra. pose proof (Rabs_triang (2 * a) (- d)) as T. replace (2 * a + - d) with (2 * a - d) in T by ring. rewrite Rabs_Ropp, (Rabs_right (2 * a)) in T by lra.
  replace (v - voc) with (d - (v' - v)) by (unfold d; ring). pose proof (Rabs_triang d (- (v' - v))) as T2. replace (d + - (v' - v)) with (d - (v' - v)) in T2 by ring. rewrite Rabs_Ropp, (Rabs_right (v' - v)) in T2 by lra. lra.
Qed.
Print Assumptions C130_accuracy.
(** the largest relative change of a round; nan if any is missing *)
Definition worst_change (new old : list fl) : fl := fold_left fmax (zip_with (fun n o => fabs (n - o) / o)%fl new old) NInf.
(** all good curves are updated together, one to nine times, until the largest change is at most 1e-6 per cent (or missing) *)
Theorem C130_rounds : forall big rows, rows <> [] -> let io k := Nat.iter k (io_round big rows) (map (fun r => q_io (snd r)) rows) in
  exists n, (1 <= n <= 9)%nat /\ update_io big rows = Ok (io n) /\
    (forall k, (1 <= k < n)%nat -> fgtb (worst_change (io k) (io (k - 1)%nat) * #100)%fl #1e-6 = true) /\
    ((n < 9)%nat -> fgtb (worst_change (io n) (io (n - 1)%nat) * #100)%fl #1e-6 = false).
Proof.
  intros big rows NE io. assert (NM : forall x y : list fl, List.length x = List.length y -> x <> [] -> np_max (zip_with io_change x y) = Ok (worst_change x y)).
  { intros x y L N. destruct x as [|a x]; [contradiction|]. destruct y as [|b y]; [discriminate|]. cbn [zip_with]. unfold np_max, worst_change. cbn [zip_with fold_left]. fold (io_change a b).
    replace (fmax NInf (io_change a b)) with (io_change a b) by (destruct (io_change a b); reflexivity). reflexivity. }
  assert (ZL : forall (f : fl * fl * pars -> fl -> fl) l m, List.length l = List.length m -> List.length (zip_with f l m) = List.length l).
  { intros f l. induction l as [|x l IH]; intros [|y m] H; try reflexivity; try discriminate. cbn [zip_with List.length]. f_equal. apply IH. cbn in H. lia. }
  assert (LEN : forall k, List.length (io k) = List.length rows).
  { induction k as [|k IH]; [unfold io; cbn [Nat.iter]; apply map_length|]. change (io (S k)) with (io_round big rows (io k)). unfold io_round. apply ZL. symmetry. exact IH. }
  assert (NN : forall k, io k <> []). { intros k E. pose proof (LEN k) as L. rewrite E in L. destruct rows; [contradiction|discriminate]. }
  assert (LOOP : forall fuel j, (1 <= fuel)%nat -> (forall k, (1 <= k <= j)%nat -> fgtb (worst_change (io k) (io (k - 1)%nat) * #100)%fl #1e-6 = true) ->
    exists n, (j < n <= j + fuel)%nat /\ io_loop big fuel rows (io j) = Ok (io n) /\ (forall k, (1 <= k < n)%nat -> fgtb (worst_change (io k) (io (k - 1)%nat) * #100)%fl #1e-6 = true) /\
      ((n < j + fuel)%nat -> fgtb (worst_change (io n) (io (n - 1)%nat) * #100)%fl #1e-6 = false)).
  { induction fuel as [|fuel IH]; intros j F H; [lia|]. cbn [io_loop]. change (io_round big rows (io j)) with (io (S j)). rewrite NM by (try apply NN; rewrite !LEN; reflexivity). cbn [bind].
    destruct (fgtb (worst_change (io (S j)) (io j) * #100)%fl #1e-6) eqn:G.
    - destruct fuel as [|fuel].
      + exists (S j). cbn [io_loop]. split; [lia|]. split; [reflexivity|]. split; [intros k Hk; apply H; lia|lia].
      + destruct (IH (S j) ltac:(lia)) as (n & N1 & N2 & N3 & N4).
        { intros k Hk. destruct (Nat.eq_dec k (S j)) as [->|]; [rewrite Nat.sub_succ, Nat.sub_0_r; exact G|apply H; lia]. }
        exists n. split; [lia|]. split; [exact N2|]. split; [exact N3|]. intros L. apply N4. lia.
    - exists (S j). split; [lia|]. split; [reflexivity|]. split; [intros k Hk; apply H; lia|]. intros _. rewrite Nat.sub_succ, Nat.sub_0_r. exact G. }
  destruct (LOOP 9%nat 0%nat ltac:(lia)) as (n & N1 & N2 & N3 & N4); [intros k Hk; lia|]. exists n. split; [lia|]. split; [exact N2|]. split; [exact N3|]. intros L. apply N4. lia.
Qed.
Print Assumptions C130_rounds.
Theorem C130_no_curves : forall big, update_io big [] = Err ValueError.
Proof. reflexivity. Qed.
Print Assumptions C130_no_curves.
Example C130_nonvacuous : 100 <= exp 700 /\ [(#40, #2, Pars #9 #1 #0 #100)] <> [].
Proof. split; [pose proof (exp_ineq1_le 700); lra|discriminate]. Qed.

(** ** C131: which curves are kept *)
(** the summed squared difference of the short circuit currents from a multiple of the irradiance (in kW/m2) *)
Definition isc_sse (e : R) (cs : list curve) : R := fold_right Rplus 0 (map (fun c => (e * (c_ee c / 1000) - c_isc c) ^ 2) cs).
(** the reference line is the least squares one *)
Theorem C131_line : forall cs e, isc_sse (efficiency cs) cs <= isc_sse e cs.
Proof.
  intros cs e. unfold efficiency. cbv zeta. set (xx := fold_right Rplus 0 (map (fun c => (c_ee c / 1000) ^ 2) cs)). set (xy := fold_right Rplus 0 (map (fun c => c_ee c / 1000 * c_isc c) cs)).
  set (yy := fold_right Rplus 0 (map (fun c => c_isc c ^ 2) cs)).
  assert (K : forall e, isc_sse e cs = e * e * xx - 2 * e * xy + yy).
  { intros f. unfold isc_sse, xx, xy, yy. induction cs as [|c cs IH]; cbn [map fold_right]; [ring|]. rewrite IH. ring. }
  rewrite !K. assert (P : 0 <= xx). { unfold xx. clear. induction cs as [|c cs IH]; cbn [map fold_right]; [lra|]. pose proof (pow2_ge_0 (c_ee c / 1000)). lra. }
  destruct (Req_EM_T xx 0) as [Z|Z].
  - rewrite Reqb_t by exact Z. assert (XY : xy = 0). { revert Z. unfold xx, xy. clear. induction cs as [|c cs IH]; cbn [map fold_right]; [reflexivity|]. intros Z.
      assert (P : 0 <= fold_right Rplus 0 (map (fun c => (c_ee c / 1000) ^ 2) cs)). { clear. induction cs as [|d cs IH]; cbn [map fold_right]; [lra|]. pose proof (pow2_ge_0 (c_ee d / 1000)). lra. }
      pose proof (pow2_ge_0 (c_ee c / 1000)) as Q. assert (Z1 : (c_ee c / 1000) ^ 2 = 0) by lra. assert (Z2 : c_ee c / 1000 = 0). { apply Rsqr_0_uniq. unfold Rsqr. rewrite <- Z1. ring. } rewrite Z2, IH by lra. ring. }
    rewrite XY, Z. lra.
  - rewrite Reqb_f by exact Z. assert (T : (e - xy / xx) ^ 2 * xx = e * e * xx - 2 * e * xy + yy - (xy / xx * (xy / xx) * xx - 2 * (xy / xx) * xy + yy)) by (field; exact Z).
    assert (0 <= (e - xy / xx) ^ 2 * xx) by (apply Rmult_le_pos; [apply pow2_ge_0|exact P]). lra.
Qed.
Print Assumptions C131_line.
(** a curve is kept exactly if 0 <= Rs <= Rsh, Io > 0 (nothing missing) and its Isc is within 5 % of the line *)
Theorem C131_filter : forall cs st i c p, nth_error cs i = Some c -> nth_error st i = Some p -> 0 < c_isc c ->
  exists b, nth_error (filter_params cs st) i = Some b /\
  (b = true <-> fleb #0 (q_rs p) = true /\ fleb (q_rs p) (q_rsh p) = true /\ fltb #0 (q_io p) = true /\ Rabs (efficiency cs * c_ee c / 1000 - c_isc c) <= 0.05 * c_isc c).
Proof.
  intros cs st i c p C P I. unfold filter_params. exists (good (efficiency cs) c p). split.
  { generalize (efficiency cs). revert cs st C P. induction i as [|i IH]; intros [|c' cs] [|p' st] C P e; try discriminate; cbn in *; [congruence|]. apply IH; assumption. }
  unfold good. cbv zeta. rewrite fdiv_fin by lra. rewrite fgtb_fin.
  assert (B : Rltb 0.05 (Rabs (efficiency cs * c_ee c / 1000 - c_isc c) / c_isc c) = false <-> Rabs (efficiency cs * c_ee c / 1000 - c_isc c) <= 0.05 * c_isc c).
  { set (z := Rabs _). rewrite Rltb_false. assert (E : z = z / c_isc c * c_isc c) by (field; lra). split; intros L.
    - rewrite E. apply Rmult_le_compat_r; lra.
    - apply (Rmult_le_reg_r (c_isc c)); lra. }
  rewrite !Bool.andb_true_iff, !Bool.negb_true_iff, !Bool.orb_false_iff. rewrite B. clear B. destruct p as [ph io rs rsh]. cbn [q_iph q_io q_rs q_rsh].
  unfold fgtb. destruct rsh as [rsh| | |], rs as [rs| | |], io as [io| | |]; cbn [fltb fleb isnan]; rewrite ?Rltb_false, ?Rleb_false, ?Rltb_true, ?Rleb_true; intuition (try discriminate; try lra).
Qed.
Print Assumptions C131_filter.
(** "non-positive" parameters do not all count as bad: a curve with Rsh = Rs = 0 is kept *)
Theorem C131_zero_resistance_refuted : exists cs st, cs <> [] /\ Forall (fun p => q_rsh p = #0 /\ q_rs p = #0) st /\ Forall (eq true) (filter_params cs st) /\ List.length (filter_params cs st) = List.length cs.
Proof.
  exists [Curve 1000 25 9 40 8 32 []], [Pars #9 #1 #0 #0]. split; [discriminate|]. split; [repeat constructor|].
  destruct (C131_filter [Curve 1000 25 9 40 8 32 []] [Pars #9 #1 #0 #0] 0 _ _ eq_refl eq_refl) as (b & B & H); [cbn; lra|].
  assert (b = true). { apply H. cbn [q_rs q_rsh q_io]. split; [|split; [|split]]; [cbn; apply Rleb_t; lra|cbn; apply Rleb_t; lra|cbn; apply Rltb_t; lra|].
    unfold efficiency. cbn [map fold_right c_ee c_isc]. replace ((1000 / 1000) ^ 2 + 0) with 1 by field. rewrite Reqb_f by lra. replace ((1000 / 1000 * 9 + 0) / 1 * 1000 / 1000 - 9) with 0 by field. rewrite Rabs_R0. lra. }
  subst b. cbn in B. injection B as B. cbn [filter_params zip_with]. unfold filter_params. cbn [zip_with]. rewrite B. repeat constructor.
Qed.
Print Assumptions C131_zero_resistance_refuted.
Example C131_nonvacuous : exists c p, nth_error [c] 0 = Some c /\ nth_error [p] 0 = Some p /\ 0 < c_isc c /\ 0 <= 0.3 <= 300 /\ q_rs p = #0.3.
Proof. exists (Curve 1000 25 9 40 8 32 []), (Pars #9 #1e-9 #0.3 #300). repeat split; cbn; lra. Qed.

(** ** C132: the two loops *)
Lemma meets_isc_curve c a0 p iph io rs rsh a : p = Pars #iph #io #rs #rsh -> a0 = #a -> a <> 0 -> rsh <> 0 -> q_iph p = iph_from_isc c a0 p -> on_sde_curve iph io rs rsh a 0 (c_isc c).
Proof.
  intros -> -> A B E. cbn [q_iph] in E. unfold iph_from_isc in E. cbn [q_io q_rs q_rsh] in E. rewrite !fmul_fin in E. rewrite !fdiv_fin in E by assumption. change (fexpm1 #(rs * c_isc c / a)) with (#(exp (rs * c_isc c / a) - 1)) in E. rewrite fmul_fin, !fadd_fin in E.
  assert (H : iph = c_isc c + io * (exp (rs * c_isc c / a) - 1) + c_isc c * rs / rsh) by congruence. unfold on_sde_curve. rewrite !Rplus_0_l, H. field. exact B.
Qed.
(** the initial estimates: every curve keeps its Rsh, has the Rs of its own data, and meets its own short circuit; without a positive Rsh
    everything is missing and the curve is not used *)
Theorem C132_initial : forall big cs rsh nn st u, List.length rsh = List.length cs -> List.length nn = List.length cs -> initial_iv_params big cs rsh nn = Ok (st, u) ->
  (0 < List.length cs)%nat /\ List.length st = List.length cs /\ List.length u = List.length cs /\
  forall i c a r, nth_error cs i = Some c -> nth_error nn i = Some a -> nth_error rsh i = Some r ->
  exists p, nth_error st i = Some p /\ q_rsh p = r /\ q_rs p = q_rs (initial_pars c a r) /\
    (fgtb r #0 = false -> p = Pars NaN NaN NaN r /\ nth_error u i = Some false) /\
    (forall iph io rs rsh' a', p = Pars #iph #io #rs #rsh' -> a = #a' -> a' <> 0 -> rsh' <> 0 -> on_sde_curve iph io rs rsh' a' 0 (c_isc c)).
Proof.
  intros big cs rsh nn st u L1 L2 E. unfold initial_iv_params in E.
  destruct (initial_loop_ok big cs nn rsh L2 L1 (seq 0 (List.length cs)) 0 (map (fun r => Pars #1 #1 #1 r) rsh) None) with (st' := st) (u' := u) as (H1 & H2 & H3 & H4); try assumption; try reflexivity; try lia.
  - rewrite Nat.sub_0_r. reflexivity.
  - split; [rewrite map_length; exact L1|]. split; [|intros; lia]. intros i r Hr _. exists (Pars #1 #1 #1 r). split; [|reflexivity]. rewrite (map_nth_error _ i rsh Hr). reflexivity.
  - destruct H4 as (s & LS & -> & HS); [rewrite seq_length; exact H1|]. destruct H2 as (G1 & G2 & G3). split; [exact H1|]. split; [exact G1|]. split; [apply filter_length; lia|].
    intros i c a r C A Hr. destruct (G2 i r Hr ltac:(apply nth_lt in C; exact C)) as (p & P & Q). exists p. destruct (G3 i c a r p ltac:(apply nth_lt in C; exact C) C A Hr P) as (Q1 & Q2). split; [exact P|]. split; [exact Q|]. split; [exact Q1|]. split.
    + intros G. specialize (Q2 G). pose proof (H3 i c a p C A P) as QI. assert (QR : q_rs p = NaN) by (rewrite Q1; unfold initial_pars; rewrite G; reflexivity).
      destruct p as [ph io rs rs']. cbn in Q, QR, Q2. subst rs' rs io. split.
      * f_equal. cbn [q_iph] in QI. rewrite QI. unfold iph_from_isc. cbn [q_io q_rs q_rsh]. destruct (fexpm1 (NaN * #(c_isc c) / a)%fl); reflexivity.
      * destruct (nth_ex s i) as [q Qs]; [apply nth_lt in C; lia|]. rewrite (filter_nth cs s i c q C Qs). f_equal.
        destruct (refine_io_ok big cs nn _ s st L2 LS HS) as (_ & F). destruct (F i c a q C A Qs) as (p' & P' & R1 & _). assert (p' = Pars ph NaN NaN r) by congruence. subst p'. cbn in R1.
        unfold good. rewrite <- R1. cbn [fltb isnan fgtb]. unfold fgtb. replace (fltb (q_rsh q) NaN) with false by (destruct (q_rsh q); reflexivity). cbn [orb negb]. rewrite !Bool.andb_false_r. reflexivity.
    + intros iph io rs rsh' a' EP EA NA NR. apply (meets_isc_curve c a p iph io rs rsh' a' EP EA NA NR). apply (H3 i c a p C A P).
Qed.
Print Assumptions C132_initial.
(** without curves it fails with UnboundLocalError; otherwise it can only fail with ValueError, and it does if no curve has a positive Rsh *)
Theorem C132_initial_errors : forall big cs rsh nn, List.length rsh = List.length cs -> List.length nn = List.length cs ->
  (cs = [] -> initial_iv_params big cs rsh nn = Err UnboundLocalError) /\
  (cs <> [] -> forall e, initial_iv_params big cs rsh nn = Err e -> e = ValueError) /\
  (cs <> [] -> Forall (fun r => fgtb r #0 = false) rsh -> initial_iv_params big cs rsh nn = Err ValueError).
Proof.
  intros big cs rsh nn L1 L2. split; [|split].
  - intros ->. reflexivity.
  - intros N e E. apply initial_err in E. destruct E as [E|(_ & E & _)]; [exact E|]. destruct cs; [contradiction|discriminate].
  - intros N F. destruct (initial_iv_params big cs rsh nn) as [[st u]|e] eqn:E.
    2:{ f_equal. pose proof E as E'. unfold initial_iv_params in E. apply initial_err in E. destruct E as [E|(_ & E & _)]; [exact E|]. destruct cs; [contradiction|discriminate]. }
    exfalso. unfold initial_iv_params in E. destruct cs as [|c cs]; [contradiction|]. destruct rsh as [|r rsh]; [discriminate|]. destruct nn as [|a nn]; [discriminate|]. cbn [List.length seq] in E. cbn [initial_loop] in E. cbv zeta in E.
    set (s := set_nth 0 _ _) in E. set (CS := c :: cs) in *. set (NN := a :: nn) in *.
    assert (Z : filter_params CS s = map (fun _ => false) CS).
    { assert (G : forall i c' p, nth_error CS i = Some c' -> nth_error s i = Some p -> good (efficiency CS) c' p = false).
      { intros i c' p C P. destruct i as [|i].
        - unfold s in P. cbn [map set_nth nth_error nth q_rsh] in P. assert (p = initial_pars (nth 0 CS (Curve 0 0 0 0 0 0 [])) (nth 0 NN NaN) r) by congruence. subst p.
          unfold initial_pars. rewrite (Forall_inv F). unfold good. cbn [q_io q_rs q_rsh isnan]. rewrite !Bool.orb_true_r. cbn [negb]. rewrite !Bool.andb_false_r. reflexivity.
        - unfold s in P. cbn [map set_nth nth_error] in P. apply nth_error_In in P. apply in_map_iff in P. destruct P as (r' & <- & I). pose proof (proj1 (Forall_forall _ _) (Forall_inv_tail F) r' I) as R. cbn beta in R.
          unfold good. cbn [q_io q_rs q_rsh]. unfold fgtb in *. destruct r' as [x| | |]; cbn [fltb isnan orb negb andb] in *; try reflexivity; try discriminate.
          apply Rltb_false in R. rewrite (Rltb_t x 1) by lra. cbn [orb negb]. rewrite !Bool.andb_false_r. reflexivity. }
      assert (LS : List.length s = List.length CS) by (unfold s; rewrite set_nth_length, map_length; exact L1).
      clear E. clearbody s. unfold filter_params. generalize dependent (efficiency CS). clear - LS. intros e G. revert s LS G. generalize CS. intros l. induction l as [|c0 l IH]; intros [|p s] LS G; try discriminate; [reflexivity|]. cbn [zip_with map]. rewrite (G O c0 p eq_refl eq_refl). f_equal.
      apply IH; [cbn in LS; lia|]. intros i c1 p1 H1 H2. apply (G (S i)); assumption. }
    destruct (refine_io big CS NN (filter_params CS s) s) as [x|] eqn:R; [|discriminate]. unfold refine_io in R. cbv zeta in R. rewrite Z in R.
    assert (SE : forall (l : list curve) (rows : list (fl * fl * pars)), select (map (fun _ => false) l) rows = []). { clear. induction l as [|c l IH]; intros [|x rows]; try reflexivity. unfold select in *. cbn [map combine filter fst]. apply IH. }
    rewrite SE in R. discriminate.
Qed.
Print Assumptions C132_initial_errors.
(** the starting values of one curve: Io from the open circuit, Rs the mean of the positive slope estimates between 0.5 Voc and 0.9 Voc,
    0 if there is no such slope and missing if no estimate is positive *)
Theorem C132_start : forall c a rsh, 0 < rsh -> a <> 0 -> c_isc c <> 0 ->
  let pts := rectify_iv_curve (c_points c) None in
  let didv := fst (numdiff (map fst pts) (map snd pts)) in
  let used (r : R * fl) := 0.5 * c_voc c < fst r < 0.9 * c_voc c /\ exists d, snd r = #d /\ 0 < - rsh * d - 1 in
  let io := (c_isc c - c_voc c / rsh) * exp (- c_voc c / a) in
  let est v d := a / c_isc c * (ln ((- rsh * d - 1) * a / (rsh * io)) - v / a) in
  let p := initial_pars c #a #rsh in
  q_rsh p = #rsh /\ q_io p = #io /\
  (Forall (fun r => isinf (snd r) = false) (combine (map fst pts) didv) ->
   (Forall (fun r => ~ used r) (combine (map fst pts) didv) -> q_rs p = #0) /\
   (Exists used (combine (map fst pts) didv) -> 0 < io -> 0 < a ->
    exists l, (forall x, In x l <-> 0 < x /\ exists v d, In (v, #d) (combine (map fst pts) didv) /\ used (v, #d) /\ x = est v d) /\ q_rs p = fmean (map Fin l))) /\
  (forall rs, q_rs p = #rs -> q_iph p = #(c_isc c + io * (exp (c_isc c / a) - 1) + c_isc c * rs / rsh)).
Proof.
  intros c a rsh HR HA HI. cbv zeta. set (pts := rectify_iv_curve (c_points c) None). set (didv := fst (numdiff (map fst pts) (map snd pts))). set (io := (c_isc c - c_voc c / rsh) * exp (- c_voc c / a)).
  unfold initial_pars. cbv zeta. rewrite fgtb_fin, Rltb_t by exact HR. fold pts. fold didv.
  assert (IO : ((#(c_isc c) - #(c_voc c) / #rsh) * fexp (- #(c_voc c) / #a))%fl = #io).
  { rewrite fneg_fin. rewrite !fdiv_fin by lra. rewrite fsub_fin, fexp_fin, fmul_fin. reflexivity. }
  rewrite IO. cbn [q_rsh q_io q_rs q_iph]. split; [reflexivity|]. split; [reflexivity|]. split.
  2:{ intros rs E. rewrite E. rewrite (fdiv_fin (c_isc c) a) by exact HA. change (fexpm1 #(c_isc c / a)) with (#(exp (c_isc c / a) - 1)). rewrite !fmul_fin. rewrite fdiv_fin by lra. rewrite !fadd_fin. reflexivity. }
  intros NI. set (rows := combine (map fst pts) didv) in *.
  set (sel := filter _ rows).
  assert (U : forall v d, In (v, d) sel <-> In (v, d) rows /\ (0.5 * c_voc c < v < 0.9 * c_voc c /\ exists x, d = #x /\ 0 < - rsh * x - 1)).
  { intros v d. unfold sel. rewrite filter_In. rewrite !Bool.andb_true_iff, Bool.negb_true_iff. split.
    - intros (I & ((H1 & H2) & H3) & H4). apply Rltb_true in H1, H2. split; [exact I|]. split; [split; assumption|]. pose proof (proj1 (Forall_forall _ _) NI _ I) as Q. cbn [snd] in Q. destruct d as [x| | |]; try discriminate.
      exists x. split; [reflexivity|]. rewrite fneg_fin, fmul_fin, fsub_fin, fgtb_fin in H4. apply Rltb_true in H4. exact H4.
    - intros (I & (H1 & H2) & x & -> & H3). split; [exact I|]. rewrite (Rltb_t (0.5 * c_voc c) v) by exact H1. rewrite (Rltb_t v) by exact H2. rewrite fneg_fin, fmul_fin, fsub_fin, fgtb_fin, Rltb_t by exact H3. repeat split. }
  split.
  - intros N. destruct sel as [|[v d] l] eqn:ES; [reflexivity|]. exfalso. destruct (proj1 (U v d) ltac:(left; reflexivity)) as (I & H1 & H2). apply (proj1 (Forall_forall _ _) N _ I). split; assumption.
  - intros X P1 P2. assert (NE : sel <> []). { apply Exists_exists in X. destruct X as ([v d] & I & H1 & H2). intros Z. assert (K : In (v, d) sel) by (apply U; split; [exact I|]; split; assumption). rewrite Z in K. destruct K. }
    set (f := fun r : R * fl => let '(v, d) := r in (#a / #(c_isc c) * (fln ((- #rsh * d - #1) * #a / (#rsh * #io)) - #v / #a))%fl).
    replace (match sel with [] => #0 | _ :: _ => fmean (filter (fun x => fgtb x #0) (map f sel)) end) with (fmean (filter (fun x => fgtb x #0) (map f sel))) by (destruct sel; [contradiction|reflexivity]).
    set (est := fun v d => a / c_isc c * (ln ((- rsh * d - 1) * a / (rsh * io)) - v / a)).
    assert (V : forall v d, In (v, #d) sel -> f (v, #d) = #(est v d)).
    { intros v d I. apply U in I. destruct I as (_ & _ & x & E & Q). assert (x = d) by congruence. subst x. unfold f. assert (0 < rsh * io) by (apply Rmult_lt_0_compat; assumption).
      assert (0 < (- rsh * d - 1) * a / (rsh * io)) by (apply Rdiv_lt_0_compat; [apply Rmult_lt_0_compat|]; assumption).
      rewrite fneg_fin, !fmul_fin, fsub_fin, fmul_fin. rewrite !fdiv_fin by lra. rewrite fln_fin by assumption. rewrite fsub_fin, fmul_fin. reflexivity. }
    assert (VS : forall l, incl l sel -> exists m, filter (fun x => fgtb x #0) (map f l) = map Fin m /\ forall x, In x m <-> 0 < x /\ exists v d, In (v, #d) l /\ x = est v d).
    { induction l as [|[v d] l IH]; intros IC; [exists []; split; [reflexivity|]; intros x; split; [intros []|intros (_ & ? & ? & [] & _)]|].
      assert (I : In (v, d) sel) by (apply IC; left; reflexivity). destruct (proj1 (U v d) I) as (_ & _ & y & -> & _). destruct (IH ltac:(intros z Hz; apply IC; right; exact Hz)) as (m & E & M). cbn [map filter]. rewrite (V v y I), fgtb_fin, E.
      destruct (Rltb 0 (est v y)) eqn:L.
      - apply Rltb_true in L. exists (est v y :: m). split; [reflexivity|]. intros x. split.
        + intros [<-|Hx]; [split; [exact L|]; exists v, y; split; [left; reflexivity|reflexivity]|]. apply M in Hx. destruct Hx as (Q & v' & d' & Q1 & Q2). split; [exact Q|]. exists v', d'. split; [right; exact Q1|exact Q2].
        + intros (Q & v' & d' & [Z|Q1] & ->); [left; congruence|]. right. apply M. split; [exact Q|]. exists v', d'. split; [exact Q1|reflexivity].
      - apply Rltb_false in L. exists m. split; [reflexivity|]. intros x. split.
        + intros Hx. apply M in Hx. destruct Hx as (Q & v' & d' & Q1 & Q2). split; [exact Q|]. exists v', d'. split; [right; exact Q1|exact Q2].
        + intros (Q & v' & d' & [Z|Q1] & ->); [assert (v' = v /\ d' = y) as [-> ->] by (split; congruence); lra|]. apply M. split; [exact Q|]. exists v', d'. split; [exact Q1|reflexivity]. }
    destruct (VS sel ltac:(intros z Hz; exact Hz)) as (m & E & M). exists m. split; [|rewrite E; reflexivity]. intros x. rewrite M. split; intros (Q & v & d & Q1 & Q2); split; try exact Q; exists v, d.
    + apply U in Q1. split; [apply Q1|]. split; [cbn [fst snd]; apply Q1|exact Q2].
    + destruct Q2 as ((Q2 & Q3) & Q4). cbn [fst snd] in *. split; [apply U; split; [exact Q1|]; split; assumption|exact Q4].
Qed.
Print Assumptions C132_start.

(** the nine statistics: for current, voltage and power at the maximum power point, in per cent of the measured value, the largest
    absolute error, the mean error and the standard deviation *)
Definition stats_of (errors : list R) (g : list fl) : Prop := exists M sd,
  g = [#M; #(mean errors); sd] /\ (exists e, In e errors /\ M = Rabs e) /\ (forall e, In e errors -> Rabs e <= M) /\
  ((2 <= List.length errors)%nat -> sd = #(sqrt (total (map (fun e => (e - mean errors) ^ 2) errors) / (INR (List.length errors) - 1)))) /\ (List.length errors = 1%nat -> sd = NaN).
Theorem C132_statistics : forall (rows : list (curve * (R * R * R))), rows <> [] -> Forall (fun r => c_imp (fst r) <> 0 /\ c_vmp (fst r) <> 0) rows ->
  let err f m := map (fun r : curve * (R * R * R) => (f (snd r) - m (fst r)) / m (fst r) * 100) rows in
  exists gi gv gp, converge_stats (map (fun r => (fst r, (#(fst (fst (snd r))), #(snd (fst (snd r))), #(snd (snd r))))) rows) = Ok (gi ++ gv ++ gp) /\
  stats_of (err (fun s => fst (fst s)) c_imp) gi /\ stats_of (err (fun s => snd (fst s)) c_vmp) gv /\ stats_of (err snd (fun c => c_imp c * c_vmp c)) gp.
Proof.
  intros rows NE NZ err.
  assert (ES : forall l, l <> [] -> exists g, error_stats (map Fin l) = Ok g /\ stats_of l g).
  { intros l N. unfold error_stats. rewrite map_map. change (map (fun x => fabs #x) l) with (map (fun x => #(Rabs x)) l).
    assert (PM : exists M, py_max (map (fun x => #(Rabs x)) l) = Ok #M /\ (exists e, In e l /\ M = Rabs e) /\ (forall e, In e l -> Rabs e <= M)).
    { destruct l as [|x l]; [contradiction|]. clear N NE NZ err rows. unfold py_max. cbn [map].
      assert (K : forall l m, exists M, fold_left (fun m y => if fgtb y m then y else m) (map (fun x => #(Rabs x)) l) #m = #M /\ (M = m \/ exists e, In e l /\ M = Rabs e) /\ m <= M /\ (forall e, In e l -> Rabs e <= M)).
      { clear. induction l as [|y l IH]; intros m; [exists m; repeat split; [left; reflexivity|lra|intros e []]|]. cbn [map fold_left]. rewrite fgtb_fin. destruct (Rltb m (Rabs y)) eqn:Q.
        - apply Rltb_true in Q. destruct (IH (Rabs y)) as (M & E & H1 & H2 & H3). exists M. split; [exact E|]. split; [right; destruct H1 as [->|(e & I & ->)]; [exists y; split; [left|]; reflexivity|exists e; split; [right; exact I|reflexivity]]|]. split; [lra|]. intros e [<-|I]; [exact H2|apply H3, I].
        - apply Rltb_false in Q. destruct (IH m) as (M & E & H1 & H2 & H3). exists M. split; [exact E|]. split; [destruct H1 as [->|(e & I & ->)]; [left; reflexivity|right; exists e; split; [right; exact I|reflexivity]]|]. split; [lra|]. intros e [<-|I]; [lra|apply H3, I]. }
      destruct (K l (Rabs x)) as (M & E & H1 & H2 & H3). exists M. split; [rewrite E; reflexivity|]. split; [destruct H1 as [->|(e & I & ->)]; [exists x; split; [left|]; reflexivity|exists e; split; [right; exact I|reflexivity]]|]. intros e [<-|I]; [exact H2|apply H3, I]. }
    destruct PM as (M & E & H1 & H2). rewrite E. cbn [bind]. exists [#M; #(mean l); fstd1 (map Fin l)]. rewrite (fmean_mean l N). split; [reflexivity|]. exists M, (fstd1 (map Fin l)). split; [reflexivity|]. split; [exact H1|]. split; [exact H2|].
    unfold fstd1. cbv zeta. rewrite (fmean_mean l N), map_map, map_length. replace (map (fun x => fpown (#x - #(mean l))%fl 2) l) with (map Fin (map (fun x => (x - mean l) ^ 2) l)) by (rewrite map_map; apply map_ext; intros; rewrite fsub_fin, fpown_fin; reflexivity).
    rewrite fsum_total. split.
    - intros L2. assert (1 < INR (List.length l)) by (apply (lt_INR 1); lia). rewrite fdiv_fin by lra. apply fsqrt_fin. apply Rmult_le_pos; [|apply Rlt_le, Rinv_0_lt_compat; lra].
      generalize (mean l). clear. intros m. induction l as [|x l IH]; cbn [map total fold_right]; [lra|]. pose proof (pow2_ge_0 (x - m)). unfold total in IH. lra.
    - intros L1. destruct l as [|x [|y l]]; try discriminate. replace (mean [x]) with x by (unfold mean, total; cbn; field). cbn [map total fold_right List.length]. replace ((x - x) ^ 2 + 0) with 0 by ring. change (INR 1 - 1) with (1 - 1). replace (1 - 1) with 0 by ring. rewrite fdiv_zero. unfold sinf, Rpos, Rneg. rewrite ?Rltb_f by lra. reflexivity. }
  assert (EL : forall f m, err f m <> []). { intros f m Z. destruct rows; [contradiction|discriminate]. }
  destruct (ES _ (EL (fun s => fst (fst s)) c_imp)) as (gi & Ei & Si). destruct (ES _ (EL (fun s => snd (fst s)) c_vmp)) as (gv & Ev & Sv). destruct (ES _ (EL snd (fun c => c_imp c * c_vmp c))) as (gp & Ep & Sp).
  exists gi, gv, gp. split; [|repeat split; assumption]. unfold converge_stats. rewrite !map_map. cbn [fst snd].
  assert (MF : forall (h : curve * (R * R * R) -> fl) f m, (forall r, In r rows -> h r = #((f (snd r) - m (fst r)) / m (fst r) * 100)) -> map h rows = map Fin (err f m)).
  { intros h f m H. unfold err. rewrite map_map. apply map_ext_in. intros r I. rewrite (H r I). reflexivity. }
  rewrite (MF _ (fun s => fst (fst s)) c_imp), Ei; [cbn [bind]|]. rewrite (MF _ (fun s => snd (fst s)) c_vmp), Ev; [cbn [bind]|]. rewrite (MF _ snd (fun c => c_imp c * c_vmp c)), Ep; [reflexivity|].
  all: intros [c [[x y] z]] I; pose proof (proj1 (Forall_forall _ _) NZ _ I) as [Z1 Z2]; cbn [fst snd] in *; rewrite ?fmul_fin, fsub_fin; rewrite fdiv_fin by (try apply Rmult_integral_contrapositive; auto); rewrite fmul_fin; reflexivity.
Qed.
Print Assumptions C132_statistics.
(** the refinement runs k times through Rsh, Rs, Io, Iph: at most maxiter times, at least twice if that is allowed, and it stops early exactly
    when none of the nine statistics has changed by eps1 or more *)
Theorem C132_update : forall big sd cs nn st u maxiter eps st' u', List.length nn = List.length cs -> List.length st = List.length cs -> List.length u = List.length cs -> isnan eps = false ->
  update_iv_params big sd cs nn st u maxiter eps = Ok (st', u') ->
  exists n (s : nat -> list pars * list bool) (g : nat -> list fl), (n <= maxiter)%nat /\ s 0%nat = (st, u) /\ s n = (st', u') /\
    (forall k, (k < n)%nat -> refine_all big cs nn (fst (s k)) (snd (s k)) = Ok (s (S k)) /\
       converge_stats (select (snd (s (S k))) (zip_with (fun ca p => (fst ca, sd (q_iph p) (q_io p) (q_rs p) (q_rsh p) (snd ca))) (combine cs nn) (fst (s (S k))))) = Ok (g (S k))) /\
    (forall k, (2 <= k < n)%nat -> Exists (fun x => fgeb x eps = true) (zip_with (fun c p => fabs (c / p - #1)%fl) (g k) (g (k - 1)%nat))) /\
    ((n < maxiter)%nat -> (2 <= n)%nat /\ Forall (fun x => fgeb x eps = false) (zip_with (fun c p => fabs (c / p - #1)%fl) (g n) (g (n - 1)%nat))).
Proof.
  intros big sd cs nn st u maxiter eps st' u' L1 L2 L3 NE E. unfold update_iv_params in E.
  assert (CL : forall rows g, converge_stats rows = Ok g -> List.length g = 9%nat).
  { intros rows g Eg. unfold converge_stats, error_stats in Eg. repeat match type of Eg with context [py_max ?x] => destruct (py_max x); cbn [bind] in Eg; [|discriminate] end. apply Ok_inj in Eg. rewrite <- Eg. reflexivity. }
  assert (EB : forall l, existsb (fun x => fgeb x eps) l = true -> Exists (fun x => fgeb x eps = true) l). { intros l H. apply existsb_exists in H. destruct H as (x & I & H). apply Exists_exists. eauto. }
  assert (EF : forall l, existsb (fun x => fgeb x eps) l = false -> Forall (fun x => fgeb x eps = false) l). { induction l as [|x l IH]; intros H; constructor; cbn in H; apply Bool.orb_false_iff in H; [apply H|apply IH, H]. }
  assert (K : forall fuel st u prev, update_loop big sd cs nn eps fuel st u prev = Ok (st', u') ->
    exists n (s : nat -> list pars * list bool) (g : nat -> list fl), (n <= fuel)%nat /\ s 0%nat = (st, u) /\ (match prev with Some p => g 0%nat = p | None => True end) /\ s n = (st', u') /\
    (forall k, (k < n)%nat -> refine_all big cs nn (fst (s k)) (snd (s k)) = Ok (s (S k)) /\
       converge_stats (select (snd (s (S k))) (zip_with (fun ca p => (fst ca, sd (q_iph p) (q_io p) (q_rs p) (q_rsh p) (snd ca))) (combine cs nn) (fst (s (S k))))) = Ok (g (S k))) /\
    (forall k, (1 <= k < n)%nat -> (prev = None -> (2 <= k)%nat) -> Exists (fun x => fgeb x eps = true) (zip_with (fun c p => fabs (c / p - #1)%fl) (g k) (g (k - 1)%nat))) /\
    ((n < fuel)%nat -> (1 <= n)%nat /\ (prev = None -> (2 <= n)%nat) /\ Forall (fun x => fgeb x eps = false) (zip_with (fun c p => fabs (c / p - #1)%fl) (g n) (g (n - 1)%nat)))).
  { clear E L2 L3 st u. induction fuel as [|fuel IH]; intros st u prev E; cbn [update_loop] in E.
    - exists 0%nat, (fun _ => (st, u)), (fun _ => match prev with Some p => p | None => [] end). apply Ok_inj in E. repeat split; try lia; try exact E. destruct prev; [reflexivity|exact I].
    - destruct (refine_all big cs nn st u) as [[s1 u1]|] eqn:R; cbn [bind] in E; [|discriminate]. destruct (converge_stats _) as [cur|] eqn:C in E; cbn [bind] in E; [|discriminate].
      destruct (existsb (fun x => fgeb x eps) (stat_changes prev cur)) eqn:X.
      + destruct (IH s1 u1 (Some cur) E) as (n & s & g & N & S0 & G0 & SN & H1 & H2 & H3).
        exists (S n), (fun k => match k with O => (st, u) | S k => s k end), (fun k => match k with O => match prev with Some p => p | None => [] end | S k => g k end).
        split; [lia|]. split; [reflexivity|]. split; [destruct prev; [reflexivity|exact I]|]. split; [exact SN|]. split; [|split].
        * intros [|k] Hk; [rewrite S0, G0; split; [exact R|exact C]|]. apply H1. lia.
        * intros [|[|k]] Hk P; [lia| |].
          -- cbn [Nat.sub]. destruct prev as [p|]; [|exfalso; specialize (P eq_refl); lia]. rewrite G0. apply EB in X. exact X.
          -- replace (S (S k) - 1)%nat with (S k) by lia. cbn beta iota. specialize (H2 (S k) ltac:(lia) ltac:(intros Z; discriminate)). replace (S k - 1)%nat with k in H2 by lia. exact H2.
        * intros Hn. destruct (H3 ltac:(lia)) as (Q1 & _ & Q2). split; [lia|]. split; [intros _; lia|]. replace (S n - 1)%nat with n by lia. destruct n as [|n]; [lia|]. replace (S n - 1)%nat with n in Q2 by lia. exact Q2.
      + apply EF in X. exists 1%nat, (fun k => match k with O => (st, u) | _ => (s1, u1) end), (fun k => match k with O => match prev with Some p => p | None => [] end | _ => cur end).
        apply Ok_inj in E. split; [lia|]. split; [reflexivity|]. split; [destruct prev; [reflexivity|exact I]|]. split; [exact E|]. split; [|split].
        * intros k Hk. assert (k = 0)%nat by lia. subst k. split; [exact R|exact C].
        * intros k Hk. lia.
        * intros Hn. split; [lia|]. destruct prev as [p|].
          -- split; [discriminate|]. exact X.
          -- exfalso. cbn [stat_changes] in X. specialize (CL _ _ C). destruct cur as [|x cur]; [discriminate|]. cbn [map] in X. apply Forall_inv in X. destruct eps; discriminate. }
  destruct (K maxiter st u None E) as (n & s & g & H1 & H2 & _ & H3 & H4 & H5 & H6). exists n, s, g. repeat (split; [first [exact H1|exact H2|exact H3|exact H4]|]). split.
  - intros k Hk. apply H5; [lia|]. intros _. lia.
  - intros Hn. destruct (H6 Hn) as (_ & Q1 & Q2). split; [apply Q1; reflexivity|exact Q2].
Qed.
Print Assumptions C132_update.
(** maxiter = 0 returns the input *)
Theorem C132_no_iteration : forall big sd cs nn st u eps, update_iv_params big sd cs nn st u 0 eps = Ok (st, u).
Proof. reflexivity. Qed.
Print Assumptions C132_no_iteration.
(** one round: every curve meets its short circuit, the flags are those of the returned parameters, a curve that is in use gets the
    resistances of C129, and a curve that is not in use keeps Rs and Rsh, and Io as long as the filter rejects it *)
Theorem C132_round : forall big cs nn st u st' u', List.length nn = List.length cs -> List.length st = List.length cs -> List.length u = List.length cs -> refine_all big cs nn st u = Ok (st', u') ->
  List.length st' = List.length cs /\ u' = filter_params cs st' /\
  forall i c a p b, nth_error cs i = Some c -> nth_error nn i = Some a -> nth_error st i = Some p -> nth_error u i = Some b ->
  exists p', nth_error st' i = Some p' /\
    (b = true -> q_rsh p' = update_rsh_fixed_pt big #(c_vmp c) #(c_imp c) (q_iph p) (q_io p) (q_rsh p) a /\ q_rs p' = update_rs big #(c_vmp c) #(c_imp c) (q_iph p) (q_io p) (q_rsh p') a) /\
    (b = false -> q_rsh p' = q_rsh p /\ q_rs p' = q_rs p /\ (good (efficiency cs) c p = false -> q_io p' = q_io p /\ nth_error u' i = Some false)) /\
    (forall iph io rs rsh a', p' = Pars #iph #io #rs #rsh -> a = #a' -> a' <> 0 -> rsh <> 0 -> on_sde_curve iph io rs rsh a' 0 (c_isc c)).
Proof.
  intros big cs nn st u st' u' L1 L2 L3 E. destruct (refine_all_ok big cs nn st u st' u' L1 L2 L3 E) as (H1 & H2 & H3 & H4). split; [exact H1|]. split; [exact H2|].
  intros i c a p b C A P B. destruct (H4 i c a p b C A P B) as (p' & P' & Q1 & Q2 & Q3). exists p'. split; [exact P'|]. split; [|split].
  - intros ->. cbv beta iota in Q1, Q2. split; [rewrite Q2; apply updated_rsh|]. rewrite Q1, Q2. apply updated_rs.
  - intros ->. split; [exact Q2|]. split; [exact Q1|]. intros G. split; [apply Q3, G|]. rewrite H2, (filter_nth cs st' i c p' C P'). f_equal. rewrite (good_same _ c p p'); [exact G|apply Q3, G|exact Q1|exact Q2].
  - intros iph io rs rsh a' EP EA NA NR. apply (meets_isc_curve c a p' iph io rs rsh a' EP EA NA NR). apply (H3 i c a p' C A P').
Qed.
Print Assumptions C132_round.
(** the whole refinement: flags and short circuit as in the last round; a curve that is neither in use nor acceptable at the start never comes back
    and keeps its Io, Rs and Rsh *)
Theorem C132_result : forall big sd cs nn st u maxiter eps st' u', List.length nn = List.length cs -> List.length st = List.length cs -> List.length u = List.length cs -> isnan eps = false -> (1 <= maxiter)%nat ->
  update_iv_params big sd cs nn st u maxiter eps = Ok (st', u') ->
  List.length st' = List.length cs /\ u' = filter_params cs st' /\
  forall i c a p, nth_error cs i = Some c -> nth_error nn i = Some a -> nth_error st i = Some p ->
  exists p', nth_error st' i = Some p' /\
    (nth_error u i = Some false -> good (efficiency cs) c p = false -> q_io p' = q_io p /\ q_rs p' = q_rs p /\ q_rsh p' = q_rsh p /\ nth_error u' i = Some false) /\
    (forall iph io rs rsh a', p' = Pars #iph #io #rs #rsh -> a = #a' -> a' <> 0 -> rsh <> 0 -> on_sde_curve iph io rs rsh a' 0 (c_isc c)).
Proof.
  intros big sd cs nn st u maxiter eps st' u' L1 L2 L3 NE M E. destruct (C132_update big sd cs nn st u maxiter eps st' u' L1 L2 L3 NE E) as (n & s & g & N & S0 & SN & H & _ & HE).
  assert (N1 : (1 <= n)%nat). { destruct (Nat.eq_dec n maxiter); [lia|]. destruct HE; lia. }
  assert (LS : forall k, (k <= n)%nat -> List.length (fst (s k)) = List.length cs /\ List.length (snd (s k)) = List.length cs).
  { induction k as [|k IH]; intros Hk; [rewrite S0; split; assumption|]. destruct (IH ltac:(lia)) as [A B]. destruct (H k ltac:(lia)) as [R _]. destruct (s (S k)) as [s1 u1] eqn:ES. destruct (C132_round _ _ _ _ _ _ _ L1 A B R) as (C1 & C2 & _). cbn [fst snd]. split; [exact C1|]. rewrite C2. apply filter_length. lia. }
  destruct n as [|n]; [lia|]. destruct (LS n ltac:(lia)) as [LA LB]. destruct (H n ltac:(lia)) as [R _]. rewrite SN in R. destruct (C132_round _ _ _ _ _ _ _ L1 LA LB R) as (C1 & C2 & C3). split; [exact C1|]. split; [exact C2|].
  intros i c a p C A P. destruct (nth_ex (fst (s n)) i) as [pn Pn]; [apply nth_lt in C; lia|]. destruct (nth_ex (snd (s n)) i) as [bn Bn]; [apply nth_lt in C; lia|].
  destruct (C3 i c a pn bn C A Pn Bn) as (p' & P' & D1 & D2 & D3). exists p'. split; [exact P'|]. split; [|exact D3]. intros U G.
  assert (K : forall k, (k <= n)%nat -> exists q, nth_error (fst (s k)) i = Some q /\ q_io q = q_io p /\ q_rs q = q_rs p /\ q_rsh q = q_rsh p /\ nth_error (snd (s k)) i = Some false).
  { induction k as [|k IH]; intros Hk; [rewrite S0; exists p; repeat split; assumption|]. destruct (IH ltac:(lia)) as (q & Q & Q1 & Q2 & Q3 & Q4). destruct (LS k ltac:(lia)) as [KA KB]. destruct (H k ltac:(lia)) as [RK _]. destruct (s (S k)) as [s1 u1] eqn:ES.
    destruct (C132_round _ _ _ _ _ _ _ L1 KA KB RK) as (_ & _ & F). destruct (F i c a q false C A Q Q4) as (q' & Q' & _ & F2 & _). destruct (F2 eq_refl) as (F3 & F4 & F5). rewrite (good_same (efficiency cs) c p q Q1 Q2 Q3) in F5. destruct (F5 G) as (F6 & F7). cbn [fst snd]. exists q'. repeat split; try congruence. }
  destruct (K n ltac:(lia)) as (q & Q & Q1 & Q2 & Q3 & Q4). assert (q = pn) by congruence. subst q. assert (bn = false) by congruence. destruct (D2 H0) as (F3 & F4 & F5). rewrite (good_same (efficiency cs) c p pn Q1 Q2 Q3) in F5. destruct (F5 G) as (F6 & F7). repeat split; congruence.
Qed.
Print Assumptions C132_result.
(** if no curve is acceptable after a round's update of the resistances the fit fails with ValueError *)
Theorem C132_none_left : forall big sd cs nn st u maxiter eps, List.length nn = List.length cs -> List.length st = List.length cs -> List.length u = List.length cs -> (1 <= maxiter)%nat ->
  (forall i c p, nth_error cs i = Some c -> nth_error st i = Some p -> nth_error u i = Some false /\ good (efficiency cs) c p = false) -> update_iv_params big sd cs nn st u maxiter eps = Err ValueError.
Proof.
  intros big sd cs nn st u maxiter eps L1 L2 L3 M H. unfold update_iv_params. destruct maxiter as [|m]; [lia|]. cbn [update_loop]. destruct (refine_all big cs nn st u) as [[s1 u1]|e] eqn:R.
  - exfalso. destruct (C132_round _ _ _ _ _ _ _ L1 L2 L3 R) as (_ & _ & F). unfold refine_all in R. cbv zeta in R. match type of R with (let* _ := refine_io _ _ _ _ ?x in _) = _ => set (s2 := x) in R end.
    assert (E2 : s2 = st).
    { assert (UF : u = map (fun _ => false) cs). { clear - H L2 L3. revert st u L2 L3 H. generalize (efficiency cs). intros e. induction cs as [|c cs IH]; intros [|p st] [|b u] L2 L3 H; try discriminate; [reflexivity|]. cbn [map]. f_equal.
        - destruct (H O c p eq_refl eq_refl) as [B _]. cbn in B. congruence.
        - apply (IH st); [cbn in L2; lia|cbn in L3; lia|]. intros i c' p' A B. apply (H (S i) c' p' A B). }
      unfold s2. rewrite UF. assert (ID : forall (f : curve -> fl -> pars -> pars) (l : list curve) (n : list fl) (s : list pars), List.length n = List.length l -> List.length s = List.length l ->
        zip_with (fun (r : bool * (curve * fl)) (p : pars) => let '(b, (c, a)) := r in if b then f c a p else p) (combine (map (fun _ => false) l) (combine l n)) s = s).
      { clear. intros f. induction l as [|c l IH]; intros [|a n] [|p s] A B; try discriminate; [reflexivity|]. cbn [map combine zip_with]. f_equal. apply IH; cbn in *; lia. }
      rewrite !ID; try assumption; try reflexivity. rewrite ID; assumption. }
    rewrite E2 in R. assert (FF : filter_params cs st = map (fun _ => false) cs).
    { clear - H L2. unfold filter_params. generalize dependent (efficiency cs). intros e H. revert st u L2 H. induction cs as [|c cs IH]; intros [|p st] u L2 H; try discriminate; [reflexivity|]. cbn [map zip_with]. rewrite (proj2 (H O c p eq_refl eq_refl)). f_equal. apply (IH st (tl u)); [cbn in L2; lia|].
      intros i c' p' A B. destruct (H (S i) c' p' A B) as [C D]. split; [|exact D]. destruct u; [discriminate|exact C]. }
    rewrite FF in R. destruct (refine_io big cs nn (map (fun _ => false) cs) st) as [x|] eqn:RI; [|discriminate]. unfold refine_io in RI. cbv zeta in RI.
    assert (SE : forall (l : list curve) (rows : list (fl * fl * pars)), select (map (fun _ => false) l) rows = []). { clear. induction l as [|c l IH]; intros [|x rows]; try reflexivity. unfold select in *. cbn [map combine filter fst]. apply IH. }
    rewrite SE in RI. discriminate.
  - cbn [bind]. unfold refine_all in R. cbv zeta in R. destruct (refine_io _ _ _ _ _) as [x|e'] eqn:RI in R; cbn [bind] in R; [discriminate|]. apply refine_io_err in RI. destruct RI as [-> _]. congruence.
Qed.
Print Assumptions C132_none_left.
Example C132_nonvacuous : exists p, initial_pars (Curve 1000 25 9 40 8 32 []) #2 #300 = p /\ q_rs p = #0 /\ q_rsh p = #300 /\ (0 < List.length [p])%nat.
Proof. eexists. split; [reflexivity|]. unfold initial_pars. rewrite fgtb_fin, Rltb_t by lra. cbv zeta. cbn [c_points]. change (rectify_iv_curve [] None) with (@nil (R * R)). cbn [map combine filter q_rs q_rsh]. repeat split. cbn. lia. Qed.
