(** Accuracy of the Lambert W routines. *)
From Verif Require Import Base.Fl Base.FlFacts Base.Py Model.SingleDiode Spec.DiodeSpec.
From Coq Require Import Psatz.
From Coquelicot Require Import Rcomplements.
Open Scope R_scope.

(** ** bounds on exp and ln *)
Lemma exp_ge_2 x : 0 <= x -> 1 + x + x ^ 2 / 2 <= exp x.
Proof.
  intros H. destruct (Req_dec x 0) as [->|Hx]; [rewrite exp_0; lra|].
  apply Rlt_le. set (h := fun t => exp t - (1 + t + t ^ 2 / 2)).
  assert (E : exists c, h x - h 0 = (exp c - (1 + c)) * (x - 0) /\ 0 < c < x).
  { apply (MVT_cor2 h (fun c => exp c - (1 + c))); [lra|]. intros c _. unfold h.
    apply derivable_pt_lim_minus; [apply derivable_pt_lim_exp|].
    replace (1 + c) with (0 + 1 + (2 * c ^ 1) / 2) by field.
    apply derivable_pt_lim_plus.
    - apply derivable_pt_lim_plus; [apply derivable_pt_lim_const|apply derivable_pt_lim_id].
    - unfold Rdiv. rewrite (Rmult_comm _ (/ 2)).
      apply (derivable_pt_lim_ext (fun t => / 2 * (t ^ 2))); [intros; lra|].
      apply derivable_pt_lim_scal. apply (derivable_pt_lim_pow c 2). }
  destruct E as (c & E & Hc). unfold h in E at 2. rewrite exp_0 in E.
  assert (0 < exp c - (1 + c)) by (pose proof (exp_ineq1 c ltac:(lra)); lra).
  assert (0 < (exp c - (1 + c)) * (x - 0)) by (apply Rmult_lt_0_compat; lra). unfold h in E. lra.
Qed.
Lemma exp_ge_3 x : 0 <= x -> 1 + x + x ^ 2 / 2 + x ^ 3 / 6 <= exp x.
Proof.
  intros H. destruct (Req_dec x 0) as [->|Hx]; [rewrite exp_0; lra|].
  set (h := fun t => exp t - (1 + t + t ^ 2 / 2 + t ^ 3 / 6)).
  assert (E : exists c, h x - h 0 = (exp c - (1 + c + c ^ 2 / 2)) * (x - 0) /\ 0 < c < x).
  { apply (MVT_cor2 h (fun c => exp c - (1 + c + c ^ 2 / 2))); [lra|]. intros c _. unfold h.
    apply derivable_pt_lim_minus; [apply derivable_pt_lim_exp|].
    replace (1 + c + c ^ 2 / 2) with (0 + 1 + / 2 * (2 * c ^ 1) + / 6 * (3 * c ^ 2)) by field.
    apply derivable_pt_lim_plus; [apply derivable_pt_lim_plus|].
    - apply derivable_pt_lim_plus; [apply derivable_pt_lim_const|apply derivable_pt_lim_id].
    - apply (derivable_pt_lim_ext (fun t => / 2 * (t ^ 2))); [intros; lra|].
      apply derivable_pt_lim_scal. apply (derivable_pt_lim_pow c 2).
    - apply (derivable_pt_lim_ext (fun t => / 6 * (t ^ 3))); [intros; lra|].
      apply derivable_pt_lim_scal. replace (3 * c ^ 2) with (INR 3 * c ^ 2) by (simpl; lra). apply (derivable_pt_lim_pow c 3). }
  destruct E as (c & E & Hc). unfold h in E at 2. rewrite exp_0 in E.
  pose proof (exp_ge_2 c ltac:(lra)).
  assert (0 <= (exp c - (1 + c + c ^ 2 / 2)) * (x - 0)) by (apply Rmult_le_pos; lra). unfold h in E. lra.
Qed.
Lemma exp_pade t : 0 <= t -> exp t * (2 - t) <= 2 + t.
Proof.
  intros H. destruct (Req_dec t 0) as [->|Ht]; [rewrite exp_0; lra|].
  set (h := fun t => exp t * (2 - t) - (2 + t)).
  assert (E : exists c, h t - h 0 = (exp c * (2 - c) + exp c * (0 - 1) - (0 + 1)) * (t - 0) /\ 0 < c < t).
  { apply (MVT_cor2 h (fun c => exp c * (2 - c) + exp c * (0 - 1) - (0 + 1))); [lra|]. intros c Hc. unfold h.
    apply derivable_pt_lim_minus; [apply (derivable_pt_lim_mult exp (fun t => 2 - t))|].
    - apply derivable_pt_lim_exp.
    - apply derivable_pt_lim_minus; [apply derivable_pt_lim_const|apply derivable_pt_lim_id].
    - apply derivable_pt_lim_plus; [apply derivable_pt_lim_const|apply derivable_pt_lim_id]. }
  destruct E as (c & E & Hc). unfold h in E at 2. rewrite exp_0 in E.
  assert (exp c * (1 - c) <= 1).
  { pose proof (exp_ineq1_le (- c)). pose proof (exp_pos c).
    assert (exp c * (1 - c) <= exp c * exp (- c)) by (apply Rmult_le_compat_l; lra).
    rewrite <- exp_plus, Rplus_opp_r, exp_0 in *. lra. }
  assert (0 <= - (exp c * (2 - c) + exp c * (0 - 1) - (0 + 1)) * (t - 0)) by (apply Rmult_le_pos; lra). unfold h in E. lra.
Qed.
Lemma ln_le_tangent z : 0 < z -> ln z <= z - 1.
Proof.
  intros H. pose proof (exp_ineq1_le (ln z)) as K. rewrite exp_ln in K by exact H. lra.
Qed.
Lemma ln_le_tangent2 z c : 0 < z -> 0 < c -> ln z <= ln c + z / c - 1.
Proof.
  intros Hz Hc. replace z with (c * (z / c)) at 1 by (field; lra).
  assert (0 < z / c) by (apply Rdiv_lt_0_compat; assumption).
  rewrite ln_mult by assumption. pose proof (ln_le_tangent (z / c) ltac:(assumption)). lra.
Qed.
Lemma ln_ge_2 z : 0 <= z -> z - z ^ 2 / 2 <= ln (1 + z).
Proof.
  intros H. destruct (Req_dec z 0) as [->|Hz]; [rewrite Rplus_0_r, ln_1; lra|].
  set (h := fun t => ln (1 + t) - (t - t ^ 2 / 2)).
  assert (E : exists c, h z - h 0 = (/ (1 + c) - (1 - c)) * (z - 0) /\ 0 < c < z).
  { apply (MVT_cor2 h (fun c => / (1 + c) - (1 - c))); [lra|]. intros c Hc. unfold h.
    apply derivable_pt_lim_minus.
    - replace (/ (1 + c)) with (/ (1 + c) * (0 + 1)) by ring.
      apply (derivable_pt_lim_comp (fun t => 1 + t) ln).
      + apply derivable_pt_lim_plus; [apply derivable_pt_lim_const|apply derivable_pt_lim_id].
      + apply derivable_pt_lim_ln. lra.
    - replace (1 - c) with (1 - / 2 * (2 * c ^ 1)) by field.
      apply derivable_pt_lim_minus; [apply derivable_pt_lim_id|].
      apply (derivable_pt_lim_ext (fun t => / 2 * (t ^ 2))); [intros; lra|].
      apply derivable_pt_lim_scal. apply (derivable_pt_lim_pow c 2). }
  destruct E as (c & E & Hc). unfold h in E at 2. rewrite Rplus_0_r, ln_1 in E.
  assert (0 <= / (1 + c) - (1 - c)).
  { replace (/ (1 + c) - (1 - c)) with (c * c * / (1 + c)) by (field; lra).
    apply Rmult_le_pos; [apply Rle_0_sqr|apply Rlt_le, Rinv_0_lt_compat; lra]. }
  assert (0 <= (/ (1 + c) - (1 - c)) * (z - 0)) by (apply Rmult_le_pos; lra). unfold h in E. lra.
Qed.
Lemma ln_mono a b : 0 < a -> a <= b -> ln a <= ln b.
Proof. intros Ha [H| ->]; [apply Rlt_le, ln_increasing; assumption|lra]. Qed.
Lemma exp_le_inv' a b : exp a <= exp b -> a <= b.
Proof.
  intros H. apply Rnot_lt_le. intros L. pose proof (exp_increasing _ _ L). lra.
Qed.
Lemma e_ge : 2.5 <= exp 1.
Proof.
  pose proof (exp_ge_2 (1 / 2) ltac:(lra)) as H. replace 1 with (1 / 2 + 1 / 2) by lra. rewrite exp_plus.
  assert (1.625 * 1.625 <= exp (1 / 2) * exp (1 / 2)) by (apply Rmult_le_compat; lra). lra.
Qed.
Lemma ln2_le : ln 2 <= 0.7.
Proof.
  pose proof (exp_ge_3 0.7 ltac:(lra)). rewrite <- (ln_exp 0.7). apply ln_mono; lra.
Qed.

(** ** existence and uniqueness of W *)
Lemma W_mono a b : 0 <= a -> a < b -> a * exp a < b * exp b.
Proof.
  intros Ha H. pose proof (exp_increasing _ _ H). pose proof (exp_pos a).
  apply Rle_lt_trans with (a * exp b); [apply Rmult_le_compat_l; lra|]. apply Rmult_lt_compat_r; [apply exp_pos|exact H].
Qed.
Lemma W_unique x a b : is_W x a -> is_W x b -> a = b.
Proof.
  intros [Ha Ea] [Hb Eb]. destruct (Rtotal_order a b) as [L|[L|L]]; [|exact L|].
  - pose proof (W_mono a b Ha L). lra.
  - pose proof (W_mono b a Hb L). lra.
Qed.
Lemma W_exists x : 0 <= x -> exists w, is_W x w.
Proof.
  intros [H| <-]; [|exists 0; split; lra].
  destruct (IVT (fun w => w * exp w - x) 0 (x + 1)) as (w & Hw & E).
  - reg.
  - lra.
  - rewrite Rmult_0_l. lra.
  - pose proof (exp_ineq1_le (x + 1)).
    assert ((x + 1) * 1 <= (x + 1) * exp (x + 1)) by (apply Rmult_le_compat_l; lra). lra.
  - exists w. split; [lra|]. lra.
Qed.

(** ** Newton's iteration on w + ln w = L *)
Definition newtR (L y : R) : R := y * (1 - ln y + L) / (1 + y).
Lemma newt_step L w y : 0 < y -> y <= w -> w + ln w = L ->
  0 <= w - newtR L y <= (w - y) ^ 2 / (2 * y * (1 + y)).
Proof.
  intros Hy Hyw Hw. unfold newtR. set (d := w - y).
  assert (E : ln w = ln y + ln (1 + d / y)).
  { assert (0 <= d / y) by (apply Rdiv_le_0_compat; unfold d; lra).
    rewrite <- ln_mult by lra. f_equal. unfold d. field. lra. }
  assert (Hd : 0 <= d / y) by (apply Rdiv_le_0_compat; unfold d; lra).
  pose proof (ln_ge_2 (d / y) Hd) as H1. pose proof (ln_le_tangent (1 + d / y) ltac:(lra)) as H2.
  set (q := ln (1 + d / y)) in *.
  replace (w - y * (1 - ln y + L) / (1 + y)) with ((d - y * q) / (1 + y)).
  2:{ rewrite <- Hw, E. unfold d. field. lra. }
  assert (K1 : 0 <= d - y * q).
  { apply (Rmult_le_compat_l y) in H2; [|lra]. replace (y * (1 + d / y - 1)) with d in H2 by (field; lra). lra. }
  assert (K2 : d - y * q <= d ^ 2 / (2 * y)).
  { apply (Rmult_le_compat_l y) in H1; [|lra].
    replace (y * (d / y - (d / y) ^ 2 / 2)) with (d - d ^ 2 / (2 * y)) in H1 by (field; lra). lra. }
  split; [apply Rdiv_le_0_compat; lra|].
  replace (d ^ 2 / (2 * y * (1 + y))) with (d ^ 2 / (2 * y) / (1 + y)) by (field; lra).
  apply Rmult_le_compat_r; [apply Rlt_le, Rinv_0_lt_compat; lra|exact K2].
Qed.
Lemma newt_fin L y : 0 < y -> newton_w_step #L #y = #(newtR L y).
Proof.
  intros H. unfold newton_w_step. rewrite fln_fin, fsub_fin, fadd_fin, fmul_fin, fadd_fin, fdiv_fin by lra. reflexivity.
Qed.
Lemma L_minus_ln L : 4 <= L -> 2.5 <= L - ln L.
Proof.
  intros H. pose proof (ln_le_tangent2 L 4 ltac:(lra) ltac:(lra)).
  assert (ln 4 <= 1.5). { replace 4 with (2 * 2) by lra. rewrite ln_mult by lra. pose proof ln2_le. lra. }
  lra.
Qed.
Lemma newt_quad L w y : 2.5 <= y -> y <= w -> w + ln w = L ->
  0 <= w - newtR L y <= (w - y) ^ 2 / 17.5.
Proof.
  intros Hy Hyw Hw. pose proof (newt_step L w y ltac:(lra) Hyw Hw) as [K1 K2]. split; [exact K1|].
  eapply Rle_trans; [exact K2|]. unfold Rdiv. apply Rmult_le_compat_l; [rewrite <- Rsqr_pow2; apply Rle_0_sqr|].
  apply Rinv_le_contravar; [lra|]. assert (2.5 * 3.5 <= y * (1 + y)) by (apply Rmult_le_compat; lra). lra.
Qed.
Lemma sq_le d b : 0 <= d <= b -> d ^ 2 <= b ^ 2.
Proof. intros [H1 H2]. simpl. apply Rmult_le_compat; try lra. Qed.
Lemma log_lambertw_acc L w : 4 <= L -> 0 < w -> w + ln w = L ->
  exists w', log_lambertw #L = #w' /\ 0 <= w - w' <= 2e-12.
Proof.
  intros HL Hw0 Hw. pose proof (L_minus_ln L HL) as HY.
  assert (Hw2 : ln w <= w * 0.4).
  { pose proof (ln_le_tangent2 w (exp 1) Hw0 (exp_pos 1)) as K. rewrite ln_exp in K.
    pose proof e_ge. assert (w / exp 1 <= w * 0.4); [|lra]. unfold Rdiv. apply Rmult_le_compat_l; [lra|].
    replace 0.4 with (/ 2.5) by lra. apply Rinv_le_contravar; lra. }
  assert (Hw1 : 1 < w). { apply Rnot_le_lt. intros K. pose proof (ln_le_tangent w Hw0). lra. }
  assert (Hlw : 0 <= ln w) by (rewrite <- ln_1; apply ln_mono; lra).
  assert (E0 : 0 <= w - (L - ln L) <= 0.4).
  { replace (w - (L - ln L)) with (ln L - ln w) by lra. rewrite <- Hw. split.
    - pose proof (ln_mono w (w + ln w) Hw0 ltac:(lra)). lra.
    - pose proof (ln_le_tangent2 (w + ln w) w ltac:(lra) Hw0) as K.
      replace ((w + ln w) / w) with (1 + ln w / w) in K by (field; lra).
      assert (ln w / w <= 0.4); [|lra]. apply Rmult_le_reg_r with w; [exact Hw0|].
      replace (ln w / w * w) with (ln w) by (field; lra). lra. }
  set (y0 := L - ln L) in *. set (y1 := newtR L y0). set (y2 := newtR L y1). set (y3 := newtR L y2).
  assert (D1 : 0 <= w - y1 <= 0.0092).
  { pose proof (newt_quad L w y0 HY ltac:(lra) Hw) as [K1 K2]. fold y1 in K1, K2. split; [exact K1|].
    pose proof (sq_le _ _ E0). lra. }
  assert (D2 : 0 <= w - y2 <= 5e-6).
  { pose proof (newt_quad L w y1 ltac:(lra) ltac:(lra) Hw) as [K1 K2]. fold y2 in K1, K2. split; [exact K1|].
    pose proof (sq_le _ _ D1). lra. }
  assert (D3 : 0 <= w - y3 <= 2e-12).
  { pose proof (newt_quad L w y2 ltac:(lra) ltac:(lra) Hw) as [K1 K2]. fold y3 in K1, K2. split; [exact K1|].
    pose proof (sq_le _ _ D2). lra. }
  exists y3. split; [|exact D3]. 
  change (log_lambertw #L) with (newton_w_step #L (newton_w_step #L (newton_w_step #L (#L - fln #L)%fl))).
  rewrite fln_fin by lra. rewrite fsub_fin. fold y0.
  rewrite newt_fin by lra. fold y1. rewrite newt_fin by lra. fold y2. rewrite newt_fin by lra. reflexivity.
Qed.
Lemma W_log x w : 0 < x -> is_W x w -> 0 < w /\ w + ln w = ln x.
Proof.
  intros Hx [Hw E]. assert (0 < w). { destruct Hw as [K| <-]; [exact K|]. rewrite Rmult_0_l in E. lra. }
  split; [assumption|]. rewrite <- E, ln_mult, ln_exp by (try apply exp_pos; assumption). lra.
Qed.
Lemma ln_gt_100 x : 100 < x -> 4 <= ln x.
Proof.
  intros H. rewrite <- (ln_exp 4). apply ln_mono; [apply exp_pos|].
  replace 4 with (1 + 1 + 1 + 1) by lra. rewrite !exp_plus. pose proof exp_le_3. pose proof (exp_pos 1).
  assert (exp 1 * exp 1 <= 9) by (replace 9 with (3 * 3) by lra; apply Rmult_le_compat; lra).
  assert (exp 1 * exp 1 * exp 1 <= 27) by (replace 27 with (9 * 3) by lra; apply Rmult_le_compat; try lra; apply Rmult_le_pos; lra).
  assert (exp 1 * exp 1 * exp 1 * exp 1 <= 81).
  { replace 81 with (27 * 3) by lra; apply Rmult_le_compat; try lra. apply Rmult_le_pos; [apply Rmult_le_pos|]; lra. }
  lra.
Qed.

(** ** Halley's iteration on w e^w = x *)
Definition halR (x g : R) : R :=
  g - (g * exp g - x) * (g + 1) / (exp g * (g + 1) ^ 2 - 1 / 2 * (g + 2) * (g * exp g - x)).
(** one step from g = w - t below the root: the error goes to at most t^3/2 and the iterate stays below the root *)
Lemma hal_step w t : 0 <= t -> t <= 1 -> 0 <= w - t ->
  0 < exp (w - t) * (w - t + 1) ^ 2 - 1 / 2 * (w - t + 2) * ((w - t) * exp (w - t) - w * exp w) /\
  0 <= w - halR (w * exp w) (w - t) <= t ^ 3 / 2.
Proof.
  intros Ht Ht1 Hg. set (g := w - t) in *. assert (Ew : w = g + t) by (unfold g; lra). clearbody g. subst w.
  unfold halR. set (u := t + (g + t) * (exp t - 1)).
  assert (Ex : (g + t) * exp (g + t) = exp g * (g + u)) by (rewrite exp_plus; unfold u; ring).
  rewrite Ex. pose proof (exp_pos g) as Pg.
  replace (g * exp g - exp g * (g + u)) with (- (exp g * u)) by ring.
  set (Dn := (g + 1) ^ 2 + 1 / 2 * (g + 2) * u).
  replace (exp g * (g + 1) ^ 2 - 1 / 2 * (g + 2) * - (exp g * u)) with (exp g * Dn) by (unfold Dn; ring).
  pose proof (exp_ge_3 t Ht) as T3.
  assert (U1 : t * (1 + g) + t ^ 2 * (1 + g / 2) + t ^ 3 * (g / 6 + 1 / 2) + t ^ 4 / 6 <= u).
  { unfold u. assert ((g + t) * (t + t ^ 2 / 2 + t ^ 3 / 6) <= (g + t) * (exp t - 1)) by (apply Rmult_le_compat_l; lra).
    replace (t * (1 + g) + t ^ 2 * (1 + g / 2) + t ^ 3 * (g / 6 + 1 / 2) + t ^ 4 / 6)
      with (t + (g + t) * (t + t ^ 2 / 2 + t ^ 3 / 6)) by field. lra. }
  assert (P2 : 0 <= t ^ 2) by (apply pow_le; lra). assert (P3 : 0 <= t ^ 3) by (apply pow_le; lra).
  assert (P4 : 0 <= t ^ 4) by (apply pow_le; lra). assert (P5 : 0 <= t ^ 5) by (apply pow_le; lra).
  assert (Hu0 : t * (1 + g) + t ^ 2 * (1 + g / 2) <= u).
  { assert (0 <= t ^ 3 * (g / 6 + 1 / 2)) by (apply Rmult_le_pos; lra). lra. }
  assert (Q1 : 0 <= t * (1 + g)) by (apply Rmult_le_pos; lra).
  assert (Q2 : 0 <= t ^ 2 * (1 + g / 2)) by (apply Rmult_le_pos; lra).
  assert (Hgg : 0 <= g ^ 2) by (apply pow_le; lra).
  assert (HDn : 0 < Dn).
  { unfold Dn. assert (0 <= 1 / 2 * (g + 2) * u) by (apply Rmult_le_pos; [apply Rmult_le_pos|]; lra).
    assert (0 < (g + 1) ^ 2) by (apply pow_lt; lra). lra. }
  split; [apply Rmult_lt_0_compat; assumption|].
  replace (g + t - (g - - (exp g * u) * (g + 1) / (exp g * Dn))) with
    ((t * (g + 1) ^ 2 + u * (t * (g + 2) / 2 - (g + 1))) / Dn).
  2:{ unfold Dn in *. field. split; lra. }
  assert (Br : t * (g + 2) / 2 - (g + 1) <= 0).
  { assert (t * (g + 2) <= 1 * (g + 2)) by (apply Rmult_le_compat_r; lra). lra. }
  split.
  - (* above: needs an upper bound on u *)
    apply Rdiv_le_0_compat; [|exact HDn].
    assert (U2 : u * (2 - t) <= t * (2 + t + 2 * g)).
    { pose proof (exp_pade t Ht) as PA. unfold u.
      assert ((g + t) * (exp t * (2 - t)) <= (g + t) * (2 + t)) by (apply Rmult_le_compat_l; lra). lra. }
    assert (K : u * (2 - t) * ((2 - t) * (g + 1) - t) <= t * (2 + t + 2 * g) * ((2 - t) * (g + 1) - t)).
    { apply Rmult_le_compat_r; lra. }
    assert (0 <= t * (t ^ 2 * (g + 1) + t ^ 2)).
    { apply Rmult_le_pos; [lra|]. assert (0 <= t ^ 2 * (g + 1)) by (apply Rmult_le_pos; lra). lra. }
    apply Rmult_le_reg_l with (2 * (2 - t)); [lra|]. lra.
  - apply Rmult_le_reg_r with Dn; [exact HDn|].
    replace ((t * (g + 1) ^ 2 + u * (t * (g + 2) / 2 - (g + 1))) / Dn * Dn)
      with (t * (g + 1) ^ 2 + u * (t * (g + 2) / 2 - (g + 1))) by (field; lra).
    set (ul := t * (1 + g) + t ^ 2 * (1 + g / 2) + t ^ 3 * (g / 6 + 1 / 2) + t ^ 4 / 6) in *.
    assert (N1 : u * (t * (g + 2) / 2 - (g + 1)) <= ul * (t * (g + 2) / 2 - (g + 1))).
    { assert (0 <= (u - ul) * - (t * (g + 2) / 2 - (g + 1))) by (apply Rmult_le_pos; lra). lra. }
    assert (D1 : (g + 1) ^ 2 + 1 / 2 * (g + 2) * (t * (1 + g) + t ^ 2 * (1 + g / 2)) <= Dn).
    { unfold Dn. assert (1 / 2 * (g + 2) * (t * (1 + g) + t ^ 2 * (1 + g / 2)) <= 1 / 2 * (g + 2) * u); [|lra].
      apply Rmult_le_compat_l; lra. }
    apply (Rmult_le_compat_l (t ^ 3 / 2)) in D1; [|lra].
    assert (N2 : t * (g + 1) ^ 2 + ul * (t * (g + 2) / 2 - (g + 1)) =
      (t ^ 3 * (g ^ 2 + 4 * g + 6) + t ^ 4 * (g ^ 2 + 3 * g + 4) + t ^ 5 * (g + 2)) / 12) by (unfold ul; field).
    assert (N3 : t ^ 3 / 2 * ((g + 1) ^ 2 + 1 / 2 * (g + 2) * (t * (1 + g) + t ^ 2 * (1 + g / 2))) =
      (t ^ 3 * (6 * g ^ 2 + 12 * g + 6) + t ^ 4 * (3 * g ^ 2 + 9 * g + 6) + t ^ 5 * (3 / 2 * g ^ 2 + 6 * g + 6)) / 12) by field.
    assert (0 <= t ^ 3 * (5 * g ^ 2 + 8 * g)) by (apply Rmult_le_pos; lra).
    assert (0 <= t ^ 4 * (2 * g ^ 2 + 6 * g + 2)) by (apply Rmult_le_pos; lra).
    assert (0 <= t ^ 5 * (3 / 2 * g ^ 2 + 5 * g + 4)) by (apply Rmult_le_pos; lra).
    lra.
Qed.

Lemma hal_fin x g : exp g * (g + 1) ^ 2 - 1 / 2 * (g + 2) * (g * exp g - x) <> 0 ->
  halley_w_step #x #g = #(halR x g).
Proof.
  intros H. unfold halley_w_step. cbv zeta. replace 0.5 with (1 / 2) by lra.
  repeat first [rewrite fexp_fin|rewrite fadd_fin|rewrite fpown_fin|rewrite fmul_fin|rewrite fsub_fin].
  rewrite fdiv_fin by exact H. rewrite fsub_fin. reflexivity.
Qed.
(** the starting point: below the root by at most 0.6 (and by at most the root) *)
Lemma hal_start w : 0 <= w -> let x := w * exp w in
  0 <= ln (1 + x) - ln (1 + ln (1 + x)) <= w /\ w - (ln (1 + x) - ln (1 + ln (1 + x))) <= 0.6.
Proof.
  intros Hw x. assert (Hx : 0 <= x) by (unfold x; apply Rmult_le_pos; [exact Hw|apply Rlt_le, exp_pos]).
  set (L := ln (1 + x)). assert (HL : 0 <= L) by (unfold L; rewrite <- ln_1; apply ln_mono; lra).
  set (y := exp (- w)). pose proof (exp_pos (- w)) as Hy. fold y in Hy. set (s := w + y).
  assert (Hyw : 1 - w <= y) by (pose proof (exp_ineq1_le (- w)); unfold y; lra).
  assert (Hy1 : y <= 1). { unfold y. rewrite <- exp_0. destruct (Req_dec w 0) as [->|]; [rewrite Ropp_0; lra|].
    apply Rlt_le, exp_increasing; lra. }
  assert (EL : L = w + ln s).
  { unfold L. replace (1 + x) with (exp w * s).
    2:{ unfold s, x, y. rewrite Rmult_plus_distr_l, <- exp_plus, Rplus_opp_r, exp_0. ring. }
    rewrite ln_mult, ln_exp by (try apply exp_pos; unfold s; lra). reflexivity. }
  assert (Hs : 1 <= s) by (unfold s; lra). assert (Hls : 0 <= ln s) by (rewrite <- ln_1; apply ln_mono; lra).
  split; [split|].
  - pose proof (ln_le_tangent (1 + L) ltac:(lra)). lra.
  - (* s <= 1 + L *)
    assert (ln s <= ln (1 + L)) by (apply ln_mono; [lra|]; unfold s; lra). lra.
  - rewrite EL. assert (ln (1 + (w + ln s)) <= ln s + 0.6); [|lra].
    rewrite <- (ln_exp 0.6), <- ln_mult by (try apply exp_pos; lra). apply ln_mono; [lra|].
    pose proof (exp_ge_3 0.6 ltac:(lra)) as E6.
    apply Rle_trans with (s * 1.816); [|apply Rmult_le_compat_l; lra].
    pose proof (ln_le_tangent2 s 2 ltac:(lra) ltac:(lra)) as T. pose proof ln2_le as L2.
    assert (Y : 0.24 * (1 - w + 1.25) <= y).
    { assert (E : 0.24 * exp 1.25 <= 1).
      { replace 1.25 with (1 + 0.25) by lra. rewrite exp_plus. pose proof exp_le_3. pose proof (exp_pos 1).
        assert (exp 0.25 <= 4 / 3).
        { pose proof (exp_ineq1_le (- 0.25)). assert (K : exp 0.25 * exp (- 0.25) = 1) by (rewrite <- exp_plus; replace (0.25 + - 0.25) with 0 by lra; apply exp_0).
          pose proof (exp_pos 0.25). assert (exp 0.25 * 0.75 <= exp 0.25 * exp (- 0.25)) by (apply Rmult_le_compat_l; lra). lra. }
        pose proof (exp_pos 0.25). assert (exp 1 * exp 0.25 <= 3 * (4 / 3)) by (apply Rmult_le_compat; lra). lra. }
      pose proof (exp_ineq1_le (1.25 - w)) as K.
      replace y with (exp (1.25 - w) * exp (- 1.25)) by (unfold y; rewrite <- exp_plus; f_equal; lra).
      assert (E2 : 0.24 <= exp (- 1.25)).
      { assert (K2 : exp 1.25 * exp (- 1.25) = 1) by (rewrite <- exp_plus; replace (1.25 + - 1.25) with 0 by lra; apply exp_0).
        pose proof (exp_pos (- 1.25)).
        assert (0.24 * exp 1.25 * exp (- 1.25) <= 1 * exp (- 1.25)) by (apply Rmult_le_compat_r; lra). lra. }
      destruct (Rle_dec 0 (1 - w + 1.25)) as [P|P].
      - rewrite (Rmult_comm (exp (1.25 - w))). apply Rmult_le_compat; lra.
      - apply Rle_trans with 0; [lra|]. apply Rmult_le_pos; apply Rlt_le, exp_pos. }
    unfold s in *. lra.
Qed.
Lemma cube_le d b : 0 <= d <= b -> d ^ 3 <= b ^ 3.
Proof. intros H. apply pow_incr; lra. Qed.
Lemma lambertw_small_acc x w : 0 <= x <= 100 -> is_W x w ->
  exists w', lambertw_pvlib #x = #w' /\ 0 <= w - w' <= 1.3e-10 /\ w - w' <= 2.2e-10 * w /\ 0 <= w'.
Proof.
  intros Hx [Hw E]. pose proof (hal_start w Hw) as [[S1 S2] S3]. rewrite E in S1, S2, S3.
  set (L := ln (1 + x)) in *. set (g0 := L - ln (1 + L)) in *.
  assert (HL : 0 <= L) by (unfold L; rewrite <- ln_1; apply ln_mono; lra).
  assert (E0 : lambertw_pvlib #x = halley_w_step #x (halley_w_step #x (halley_w_step #x #g0))).
  { unfold lambertw_pvlib. rewrite fleb_fin. rdec. unfold flog1p. rewrite fadd_fin, fln_fin by lra. fold L.
    rewrite fadd_fin, fln_fin by lra. reflexivity. }
  rewrite E0. set (t0 := w - g0). assert (G0 : g0 = w - t0) by (unfold t0; lra).
  destruct (hal_step w t0 ltac:(lra) ltac:(lra) ltac:(lra)) as [D0 B0]. rewrite E in D0, B0. rewrite <- G0 in D0, B0.
  rewrite hal_fin by lra. set (g1 := halR x g0) in *. set (t1 := w - g1). assert (G1 : g1 = w - t1) by (unfold t1; lra).
  assert (P0 : t0 * t0 <= 0.36) by (replace 0.36 with (0.6 * 0.6) by lra; apply Rmult_le_compat; lra).
  assert (C1 : t1 <= 0.18 * t0).
  { replace (t0 ^ 3 / 2) with (t0 * t0 * (t0 / 2)) in B0 by field.
    assert (t0 * t0 * (t0 / 2) <= 0.36 * (t0 / 2)) by (apply Rmult_le_compat_r; lra). unfold t1. lra. }
  assert (N1 : 0 <= t1) by (unfold t1; lra).
  destruct (hal_step w t1 ltac:(lra) ltac:(lra) ltac:(lra)) as [D1 B1]. rewrite E in D1, B1. rewrite <- G1 in D1, B1.
  rewrite hal_fin by lra. set (g2 := halR x g1) in *. set (t2 := w - g2). assert (G2 : g2 = w - t2) by (unfold t2; lra).
  assert (P1 : t1 * t1 <= 0.011664) by (replace 0.011664 with (0.108 * 0.108) by lra; apply Rmult_le_compat; lra).
  assert (C2 : t2 <= 0.005832 * t1).
  { replace (t1 ^ 3 / 2) with (t1 * t1 * (t1 / 2)) in B1 by field.
    assert (t1 * t1 * (t1 / 2) <= 0.011664 * (t1 / 2)) by (apply Rmult_le_compat_r; lra). unfold t2. lra. }
  assert (N2 : 0 <= t2) by (unfold t2; lra).
  destruct (hal_step w t2 ltac:(lra) ltac:(lra) ltac:(lra)) as [D2 B2]. rewrite E in D2, B2. rewrite <- G2 in D2, B2.
  rewrite hal_fin by lra. set (g3 := halR x g2) in *. exists g3. split; [reflexivity|].
  assert (P2 : t2 * t2 <= 3.98e-7).
  { assert (t2 * t2 <= 0.00063 * 0.00063) by (apply Rmult_le_compat; lra). lra. }
  assert (C3 : w - g3 <= 1.99e-7 * t2).
  { replace (t2 ^ 3 / 2) with (t2 * t2 * (t2 / 2)) in B2 by field.
    assert (t2 * t2 * (t2 / 2) <= 3.98e-7 * (t2 / 2)) by (apply Rmult_le_compat_r; lra). lra. }
  repeat split; lra.
Qed.
(** both branches *)
Lemma lambertw_acc x : 0 <= x ->
  exists w w', is_W x w /\ lambertw_pvlib #x = #w' /\ 0 <= w - w' <= 1.3e-10 /\ w - w' <= 2.2e-10 * w.
Proof.
  intros Hx. destruct (W_exists x Hx) as (w & Hw). destruct (Rle_dec x 100) as [S|S].
  - destruct (lambertw_small_acc x w ltac:(lra) Hw) as (w' & E & A & B & _). exists w, w'. auto.
  - apply Rnot_le_lt in S. destruct (W_log x w ltac:(lra) Hw) as [Pw Ew].
    destruct (log_lambertw_acc (ln x) w (ln_gt_100 x S) Pw Ew) as (w' & E & A).
    exists w, w'. split; [exact Hw|]. split.
    + unfold lambertw_pvlib. rewrite fleb_fin. rdec. rewrite fln_fin by lra. exact E.
    + split; [lra|]. assert (1 <= w); [|lra].
      apply Rnot_lt_le. intros K. pose proof (ln_le_tangent w Pw). pose proof (ln_gt_100 x S). lra.
Qed.
