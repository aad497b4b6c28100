(** Lemmas for pvlib.pvarray. *)
From Verif Require Import Base.Fl Base.FlFacts Base.Py Model.SingleDiode Model.Pvarray Spec.PvarraySpec Spec.DiodeSpec Proofs.LambertP.
From Coq Require Import Psatz Lia List.
Import ListNotations.
Open Scope R_scope.

Lemma Rpower_gt0 a b : 0 < Rpower a b.
Proof. unfold Rpower. apply exp_pos. Qed.
Lemma dark_pos kd tc t : 0 < dark_suns kd tc t.
Proof. apply Rpower_gt0. Qed.
Lemma ln_pos1 x : 0 < x -> 0 < ln (1 + x).
Proof. intros H. replace 0 with (ln 1) by apply ln_1. apply ln_increasing; lra. Qed.
Lemma adr_fin g t ka kd tc krs krsh : - (1000 * dark_suns kd tc t) < g ->
  pvefficiency_adr #g #t #ka #kd #tc #krs #krsh = #(adr_eta ka kd tc krs krsh g t).
Proof.
  intros Hg. unfold pvefficiency_adr, fexp10. cbv zeta.
  assert (D := dark_pos kd tc t). assert (D0 := dark_pos kd tc 25).
  assert (E25 : dark_suns kd tc 25 = Rpower 10 kd) by (unfold dark_suns; f_equal; ring).
  assert (Et : Rpower 10 (kd + (t - 25) * tc) = dark_suns kd tc t) by (unfold dark_suns; f_equal; ring).
  rewrite !fadd_fin, !fsub_fin, !fmul_fin, !fadd_fin. rewrite !fpow_fin by lra. rewrite Et, <- E25.
  assert (P1 : 0 < g / 1000 / dark_suns kd tc t + 1).
  { assert (- 1 < g / 1000 / dark_suns kd tc t); [|lra].
    replace (-1) with (- (1000 * dark_suns kd tc t) / 1000 / dark_suns kd tc t) by (field; lra).
    unfold Rdiv. apply Rmult_lt_compat_r; [apply Rinv_0_lt_compat; lra|]. apply Rmult_lt_compat_r; lra. }
  assert (P2 : 0 < 1 / dark_suns kd tc 25) by (apply Rdiv_lt_0_compat; lra).
  assert (P3 := ln_pos1 _ P2).
  rewrite (fdiv_fin g 1000), (fdiv_fin _ (dark_suns kd tc t)), (fdiv_fin _ (dark_suns kd tc 25)) by lra. rewrite !fadd_fin.
  rewrite !fln_fin by lra. rewrite fdiv_fin; [|rewrite Rplus_comm; lra].
  rewrite fpown_fin. rewrite !fmul_fin, !fsub_fin, !fmul_fin. f_equal. unfold adr_eta, adr_v. cbv zeta.
  rewrite (Rplus_comm (g / 1000 / dark_suns kd tc t) 1), (Rplus_comm (1 / dark_suns kd tc 25) 1). ring.
Qed.
Lemma adr_v_ref kd tc : adr_v kd tc 1000 25 = 1.
Proof.
  unfold adr_v. replace (1000 / 1000) with 1 by field. pose proof (dark_pos kd tc 25).
  assert (P2 : 0 < 1 / dark_suns kd tc 25) by (apply Rdiv_lt_0_compat; lra). pose proof (ln_pos1 _ P2). field. lra.
Qed.
Lemma adr_v_0 kd tc t : adr_v kd tc 0 t = 0.
Proof. unfold adr_v. replace (0 / 1000 / dark_suns kd tc t) with 0 by (field; apply Rgt_not_eq, dark_pos). rewrite Rplus_0_r, ln_1. unfold Rdiv. ring. Qed.
(** exp is convex *)
Lemma exp_tangent c x : exp c * (1 + (x - c)) <= exp x.
Proof.
  replace (exp x) with (exp c * exp (x - c)) by (rewrite <- exp_plus; f_equal; ring).
  apply Rmult_le_compat_l; [apply Rlt_le, exp_pos|]. destruct (Req_dec (x - c) 0) as [->|N]; [rewrite exp_0; lra|].
  apply Rlt_le, exp_ineq1. exact N.
Qed.
Lemma ln_concave s x : 0 <= s <= 1 -> 0 <= x -> s * ln (1 + x) <= ln (1 + s * x).
Proof.
  intros Hs Hx. set (a := ln (1 + x)). assert (E : exp a = 1 + x) by (apply exp_ln; lra).
  assert (S0 := exp_tangent (s * a) 0). assert (S1 := exp_tangent (s * a) a). rewrite exp_0 in S0.
  assert (0 <= s * x) by (apply Rmult_le_pos; lra).
  assert (K : exp (s * a) <= 1 + s * x).
  { assert (A : (1 - s) * (exp (s * a) * (1 + (0 - s * a))) <= (1 - s) * 1) by (apply Rmult_le_compat_l; lra).
    assert (B : s * (exp (s * a) * (1 + (a - s * a))) <= s * exp a) by (apply Rmult_le_compat_l; lra).
    rewrite E in B. lra. }
  rewrite <- (ln_exp (s * a)). destruct (Req_dec (exp (s * a)) (1 + s * x)) as [->|N]; [lra|]. apply Rlt_le, ln_increasing; [apply exp_pos|lra].
Qed.
Lemma div_le_1 a b : 0 < b -> a <= b -> a / b <= 1.
Proof. intros Hb H. replace 1 with (b / b) by (field; lra). unfold Rdiv. apply Rmult_le_compat_r; [apply Rlt_le, Rinv_0_lt_compat, Hb|exact H]. Qed.
Lemma adr_v_range kd tc g : 0 <= g <= 1000 -> g / 1000 <= adr_v kd tc g 25 <= 1.
Proof.
  intros Hg. pose proof (dark_pos kd tc 25) as D. set (d := dark_suns kd tc 25) in *.
  assert (P2 : 0 < 1 / d) by (apply Rdiv_lt_0_compat; lra). pose proof (ln_pos1 _ P2) as L.
  unfold adr_v. fold d. replace (g / 1000 / d) with (g / 1000 * (1 / d)) by (field; lra). split.
  - pose proof (ln_concave (g / 1000) (1 / d) ltac:(lra) ltac:(lra)) as C.
    replace (g / 1000) with (g / 1000 * ln (1 + 1 / d) / ln (1 + 1 / d)) at 1 by (field; lra).
    unfold Rdiv at 1 4. apply Rmult_le_compat_r; [apply Rlt_le, Rinv_0_lt_compat, L|exact C].
  - apply div_le_1; [exact L|].
    destruct (Req_dec (g / 1000) 1) as [->|N]; [rewrite Rmult_1_l; lra|]. apply Rlt_le, ln_increasing.
    + assert (0 <= g / 1000 * (1 / d)) by (apply Rmult_le_pos; lra). lra.
    + assert (g / 1000 * (1 / d) < 1 * (1 / d)) by (apply Rmult_lt_compat_r; lra). lra.
Qed.
Lemma dark_mono kd tc t1 t2 : 0 <= tc -> t1 <= t2 -> dark_suns kd tc t1 <= dark_suns kd tc t2.
Proof.
  intros Htc H. unfold dark_suns. apply Rle_Rpower; [lra|]. assert (tc * (t1 - 25) <= tc * (t2 - 25)) by (apply Rmult_le_compat_l; lra). lra.
Qed.
Lemma adr_v_mono kd tc g t1 t2 : 0 <= tc -> 0 <= g -> t1 <= t2 -> 0 <= adr_v kd tc g t2 <= adr_v kd tc g t1.
Proof.
  intros Htc Hg Ht. pose proof (dark_pos kd tc 25) as D. pose proof (dark_pos kd tc t1) as D1. pose proof (dark_pos kd tc t2) as D2.
  assert (P2 : 0 < 1 / dark_suns kd tc 25) by (apply Rdiv_lt_0_compat; lra). pose proof (ln_pos1 _ P2) as L.
  pose proof (dark_mono kd tc t1 t2 Htc Ht) as M. assert (I := Rinv_le_contravar _ _ D1 M). unfold adr_v.
  assert (Q : g / 1000 / dark_suns kd tc t2 <= g / 1000 / dark_suns kd tc t1) by (unfold Rdiv at 1 3; apply Rmult_le_compat_l; lra).
  assert (Q0 : 0 <= g / 1000 / dark_suns kd tc t2) by (apply Rmult_le_pos; [lra|apply Rlt_le, Rinv_0_lt_compat, D2]).
  set (q1 := g / 1000 / dark_suns kd tc t1) in *. set (q2 := g / 1000 / dark_suns kd tc t2) in *.
  assert (LL : ln (1 + q2) <= ln (1 + q1)) by (destruct (Req_dec q1 q2) as [->|N]; [lra|apply Rlt_le, ln_increasing; lra]).
  assert (L0 : 0 <= ln (1 + q2)) by (destruct (Req_dec q2 0) as [->|N]; [rewrite Rplus_0_r, ln_1; lra|apply Rlt_le, ln_pos1; lra]).
  split; [apply Rmult_le_pos; [exact L0|apply Rlt_le, Rinv_0_lt_compat, L]|].
  unfold Rdiv. apply Rmult_le_compat_r; [apply Rlt_le, Rinv_0_lt_compat, L|exact LL].
Qed.

(** *** robust loss *)
Lemma soft_l1_nonneg z : 0 <= z -> 0 <= soft_l1 z.
Proof. intros H. unfold soft_l1. assert (sqrt 1 <= sqrt (1 + z)) by (apply sqrt_le_1_alt; lra). rewrite sqrt_1 in H0. lra. Qed.
Lemma soft_l1_zero z : 0 <= z -> soft_l1 z <= 0 -> z = 0.
Proof.
  intros H K. unfold soft_l1 in K. assert (S : sqrt (1 + z) <= 1) by lra. pose proof (sqrt_sqrt (1 + z) ltac:(lra)) as Q.
  pose proof (sqrt_pos (1 + z)). assert (sqrt (1 + z) * sqrt (1 + z) <= 1 * 1) by (apply Rmult_le_compat; lra). lra.
Qed.
Lemma loss_zero scale l p : (forall g t e, In (g, t, e) l -> adr_at p g t = e) -> adr_loss scale l p = 0.
Proof.
  induction l as [|[[g t] e] l IH]; intros H; [reflexivity|]. simpl. rewrite IH by (intros; apply H; right; assumption).
  rewrite (H g t e) by (left; reflexivity). replace (soft_l1 _) with (soft_l1 0) by (f_equal; unfold Rdiv; ring). unfold soft_l1. rewrite !Rplus_0_r, sqrt_1. ring.
Qed.
Lemma loss_nonneg scale l p : 0 <= adr_loss scale l p.
Proof.
  induction l as [|[[g t] e] l IH]; [simpl; lra|]. cbn [adr_loss fold_right]. fold (adr_loss scale l p).
  set (z := (_ / scale) ^ 2). assert (0 <= z) by (unfold z; apply pow2_ge_0). pose proof (soft_l1_nonneg z H). lra.
Qed.
Lemma loss_zero_inv scale l p : scale <> 0 -> (forall g t e, In (g, t, e) l -> 0 < g) -> adr_loss scale l p <= 0 ->
  forall g t e, In (g, t, e) l -> adr_at p g t = e.
Proof.
  intros Hs. induction l as [|[[g t] e] l IH]; intros Hg H g' t' e' Hin; [destruct Hin|].
  cbn [adr_loss fold_right] in H. fold (adr_loss scale l p) in H. pose proof (loss_nonneg scale l p) as N.
  set (r := (adr_at p g t - e) * sqrt (g / 1000) / scale) in *.
  assert (0 <= r ^ 2) by apply pow2_ge_0. pose proof (soft_l1_nonneg _ H0).
  destruct Hin as [E|Hin].
  - injection E as <- <- <-. assert (Z : r ^ 2 = 0) by (apply soft_l1_zero; lra).
    assert (Z' : r = 0) by (simpl in Z; rewrite Rmult_1_r in Z; destruct (Rmult_integral _ _ Z); assumption).
    assert (G : 0 < g) by (apply (Hg g t e); left; reflexivity). assert (S : 0 < sqrt (g / 1000)) by (apply sqrt_lt_R0; lra).
    unfold r in Z'. assert (K : (adr_at p g t - e) * sqrt (g / 1000) = 0).
    { replace ((adr_at p g t - e) * sqrt (g / 1000)) with ((adr_at p g t - e) * sqrt (g / 1000) / scale * scale) by (field; exact Hs). rewrite Z'. ring. }
    destruct (Rmult_integral _ _ K); lra.
  - apply (IH ltac:(intros; eapply Hg; right; eassumption) ltac:(lra) g' t' e' Hin).
Qed.

(** *** batzelis *)
Lemma bz_w d : 0 < d <= 1 -> exists w w', is_W (exp (1 / d + 1)) w /\ lambertw_pvlib #(exp (1 / d + 1)) = #w' /\
  0 <= w - w' <= 1.3e-10 /\ 1.49 < w' /\ d * (w - 1) <= 1.
Proof.
  intros Hd. destruct (lambertw_acc (exp (1 / d + 1)) (Rlt_le _ _ (exp_pos _))) as (w & w' & Hw & E & A & _).
  destruct (W_log _ w (exp_pos _) Hw) as [Pw Ew]. rewrite ln_exp in Ew.
  assert (D1 : 1 <= 1 / d). { replace 1 with (d / d) at 1 by (field; lra). unfold Rdiv. apply Rmult_le_compat_r; [apply Rlt_le, Rinv_0_lt_compat; lra|lra]. }
  pose proof (ln_le_tangent w Pw) as T. assert (W : 1.5 <= w) by lra.
  assert (L : 0 <= ln w) by (rewrite <- ln_1; apply Rlt_le, ln_increasing; lra).
  exists w, w'. repeat split; try apply Hw; try exact E; try lra.
  assert (d * (w - 1) <= d * (1 / d)) by (apply Rmult_le_compat_l; lra). replace (d * (1 / d)) with 1 in H by (field; lra). exact H.
Qed.
Lemma batzelis_fin g t vmp imp voc isc al be (a := al / isc) (b := be / voc) :
  voc <> 0 -> isc <> 0 -> vmp <> 0 -> 0 < bz_d a b <= 1 -> 50.1 - a * 298.15 <> 0 ->
  forall lg, (0 < g -> lg = ln (g / 1000)) -> (g <= 0 -> lg = -9e9) ->
  exists w w', is_W (exp (1 / bz_d a b + 1)) w /\ 0 <= w - w' <= 1.3e-10 /\ 1.49 < w' /\ bz_d a b * (w - 1) <= 1 /\
  pv_batzelis #g #t #vmp #imp #voc #isc #al #be =
    let v := Rmax (bz_vmp vmp voc a b w' (g / 1000) lg t) 0 in
    let i := bz_imp imp a b w' (g / 1000) t in
    {| f_p_mp := #(v * i); f_i_mp := #i; f_v_mp := #v; f_i_sc := #(bz_isc isc a (g / 1000) t); f_v_oc := #(Rmax (bz_voc voc a b lg t) 0) |}.
Proof.
  intros Hvoc Hisc Hvmp Hd Hden lg Hl1 Hl2. destruct (bz_w _ Hd) as (w & w' & Hw & E & A & W & K).
  exists w, w'. split; [exact Hw|]. split; [exact A|]. split; [exact W|]. split; [exact K|].
  unfold pv_batzelis. cbv zeta. rewrite (fdiv_fin al isc), (fdiv_fin be voc) by assumption. fold a b.
  rewrite (fdiv_fin g 1000) by lra. rewrite !fsub_fin, !fmul_fin, !fsub_fin. rewrite (fdiv_fin (1 - b * 298.15)) by exact Hden. fold (bz_d a b).
  rewrite (fdiv_fin 1 (bz_d a b)) by lra. rewrite !fadd_fin, fexp_fin, E.
  rewrite (fdiv_fin (t + 273.15)) by lra. fold (bz_lam t).
  assert (EL : (if isfinite #(g / 1000) then if fgtb #(g / 1000) #0 then fln #(g / 1000) else #(-9e9) else NaN) = #lg).
  { cbn [isfinite]. rewrite fgtb_fin. destruct (Rle_dec g 0) as [G|G].
    - rewrite (Hl2 G). destruct (Rltb_spec 0 (g / 1000)); [lra|reflexivity].
    - apply Rnot_le_lt in G. rewrite (Hl1 G). destruct (Rltb_spec 0 (g / 1000)); [apply fln_fin; lra|lra]. }
  rewrite EL. rewrite (fdiv_fin 1 298.15) by lra. rewrite (fdiv_fin voc vmp) by assumption. rewrite (fdiv_fin _ (1 + bz_d a b)), (fdiv_fin b (1 + bz_d a b)), (fdiv_fin 1 (1 + bz_d a b)) by lra.
  rewrite !fsub_fin, !fmul_fin, !fsub_fin. rewrite (fdiv_fin _ (w' - 1)) by lra. rewrite (fdiv_fin _ 298.15) by lra. rewrite !fadd_fin, !fmul_fin, !fadd_fin, !fmax_fin, !fmul_fin.
  replace (298.15 - 273.15) with 25 by lra. reflexivity.
Qed.
