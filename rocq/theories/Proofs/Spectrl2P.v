From Verif Require Import Base.Fl Base.FlFacts Base.Py Model.Atmosphere Model.Irradiance Model.Spectrl2Tables Model.Spectrl2 Spec.Spectrl2Spec Proofs.Dirint Proofs.LambertP.
From Coq Require Import Psatz.
Open Scope R_scope.

Definition valid_row (c : sp2) : Prop := 300 <= lam c <= 4000 /\ 0 < et c /\ 0 <= aw c /\ 0 <= ao c /\ 0 <= au c.
Lemma table_valid : Forall valid_row SPECTRL2_COEFFS.
Proof. unfold SPECTRL2_COEFFS. repeat (constructor; [unfold valid_row; cbn [lam et aw ao au]; repeat split; lra|]). constructor. Qed.
Lemma exp_neg_01 y : 0 <= y -> 0 < exp (- y) <= 1.
Proof. intros H. split; [apply exp_pos|]. replace 1 with (exp 0) by apply exp_0. destruct H as [H|<-]; [apply Rlt_le, exp_increasing; lra|rewrite Ropp_0; lra]. Qed.
Lemma exp_neg_mono y y' : y <= y' -> exp (- y') <= exp (- y).
Proof. intros [H| ->]; [apply Rlt_le, exp_increasing; lra|lra]. Qed.
Lemma rpower_ge1 a p : 1 <= a -> 0 <= p -> 1 <= Rpower a p.
Proof. intros H P. unfold Rpower. replace 1 with (exp 0) by apply exp_0. assert (0 <= p * ln a). { apply Rmult_le_pos; [exact P|]. rewrite <- ln_1. destruct H as [H| <-]; [apply Rlt_le, ln_increasing; lra|lra]. } destruct H0 as [H0|H0]; [apply Rlt_le, exp_increasing; lra|rewrite <- H0; lra]. Qed.
(** x / (1 + k x)^p grows with x for 0 <= p <= 1 *)
Lemma absorb_nonneg k p x : 0 <= k -> 0 <= x -> 0 <= x / Rpower (1 + k * x) p.
Proof. intros HK HX. apply Rmult_le_pos; [exact HX|]. apply Rlt_le, Rinv_0_lt_compat. unfold Rpower. apply exp_pos. Qed.
Lemma absorb_mono k p x y : 0 <= k -> 0 <= p <= 1 -> 0 <= x <= y -> x / Rpower (1 + k * x) p <= y / Rpower (1 + k * y) p.
Proof.
  intros HK HP [HX HY]. destruct HX as [HX| <-]; [|unfold Rdiv at 1; rewrite Rmult_0_l; apply absorb_nonneg; lra].
  assert (K1 : 0 <= k * x) by (apply Rmult_le_pos; lra). assert (K2 : k * x <= k * y) by (apply Rmult_le_compat_l; lra). set (u := 1 + k * x) in *. set (v := 1 + k * y). assert (U : 1 <= u) by (unfold u; lra). assert (V : u <= v) by (unfold u, v; lra).
  assert (PU : 0 < Rpower u p) by (unfold Rpower; apply exp_pos). assert (PV : 0 < Rpower v p) by (unfold Rpower; apply exp_pos).
  assert (Q : Rpower v p <= Rpower u p * (v / u)).
  { unfold Rpower. replace (v / u) with (exp (ln v - ln u)). 2:{ unfold Rminus. rewrite exp_plus, exp_Ropp, !exp_ln by lra. reflexivity. } rewrite <- exp_plus.
    assert (L : ln u <= ln v) by (destruct V as [V|V]; [apply Rlt_le, ln_increasing; lra|rewrite V; lra]). assert (D : p * (ln v - ln u) <= 1 * (ln v - ln u)) by (apply Rmult_le_compat_r; lra).
    assert (E : p * ln v <= p * ln u + (ln v - ln u)) by lra. destruct E as [E|E]; [apply Rlt_le, exp_increasing; exact E|rewrite E; lra]. }
  assert (W : v / u <= y / x). { apply (Rmult_le_reg_r u); [lra|]. unfold Rdiv. rewrite Rmult_assoc, Rinv_l by lra. apply (Rmult_le_reg_r x); [exact HX|]. replace (y * / x * u * x) with (y * u) by (field; lra). unfold u, v. lra. }
  apply (Rmult_le_reg_r (Rpower u p * Rpower v p)); [apply Rmult_lt_0_compat; assumption|]. replace (x / Rpower u p * (Rpower u p * Rpower v p)) with (x * Rpower v p) by (field; lra). replace (y / Rpower v p * (Rpower u p * Rpower v p)) with (y * Rpower u p) by (field; lra).
  apply Rle_trans with (x * (Rpower u p * (v / u))); [apply Rmult_le_compat_l; lra|]. replace (y * Rpower u p) with (x * (Rpower u p * (y / x))) by (field; lra). apply Rmult_le_compat_l; [lra|]. apply Rmult_le_compat_l; lra.
Qed.
Section T.
Variable A : atm.
Hypothesis PA : physical_atm A.
Lemma depth_nonneg l : 0 <= depth A l.
Proof. unfold depth. destruct PA as (_ & _ & _ & _ & _ & H & _). apply Rmult_le_pos; [exact H|]. unfold Rpower. apply Rlt_le, exp_pos. Qed.
Lemma ssalb_01 l : 0 <= ssalb A l <= 1.
Proof.
  destruct PA as (_ & _ & _ & _ & _ & _ & [S0 S1] & W & _). unfold ssalb. assert (P : 0 <= wv_ A * ln (l / 400) ^ 2) by (apply Rmult_le_pos; [exact W|apply pow2_ge_0]). pose proof (exp_neg_01 _ P) as [E0 E1].
  split; [apply Rmult_le_pos; lra|]. apply Rle_trans with (1 * 1); [apply Rmult_le_compat; lra|lra].
Qed.
Lemma ray_den l : 300 <= l -> 0 < (l / 1000) ^ 4 * (115.6406 - 1.3366 / (l / 1000) ^ 2).
Proof.
  intros H. set (u := l / 1000). assert (U : 0.3 <= u) by (unfold u; lra). assert (U2 : 0.09 <= u ^ 2). { replace (u ^ 2) with (u * u) by ring. apply Rle_trans with (0.3 * 0.3); [lra|apply Rmult_le_compat; lra]. }
  apply Rmult_lt_0_compat; [apply pow_lt; lra|]. assert (1.3366 / u ^ 2 <= 1.3366 / 0.09). { unfold Rdiv. apply Rmult_le_compat_l; [lra|]. apply Rinv_le_contravar; lra. } lra.
Qed.
Lemma T_rayleigh_01 l m : 300 <= l -> 0 <= m -> 0 < T_rayleigh A l m <= 1.
Proof.
  intros H M. unfold T_rayleigh. cbv zeta. apply exp_neg_01. destruct PA as (_ & _ & P & _). apply Rmult_le_pos; [|apply Rlt_le, Rinv_0_lt_compat, ray_den; exact H]. assert (0 <= m * pr_ A) by (apply Rmult_le_pos; assumption). lra.
Qed.
Lemma T_aerosol_01 l m : 0 <= m -> 0 < T_aerosol A l m <= 1.
Proof. intros M. apply exp_neg_01. apply Rmult_le_pos; [apply depth_nonneg|exact M]. Qed.
Lemma T_water_01 k m : 0 <= k -> 0 <= m -> 0 < T_water A k m <= 1.
Proof.
  intros K M. unfold T_water. cbv zeta. apply exp_neg_01. destruct PA as (_ & _ & _ & P & _). assert (0 <= k * pw_ A * m) by (apply Rmult_le_pos; [apply Rmult_le_pos|]; assumption). pose proof (absorb_nonneg 20.07 0.45 (k * pw_ A * m) ltac:(lra) H). lra.
Qed.
Lemma ozone_mass_pos : 0 < (1 + 22 / 6370) / sqrt (cosD (z_ A) ^ 2 + 2 * (22 / 6370)).
Proof. apply Rdiv_lt_0_compat; [lra|]. apply sqrt_lt_R0. pose proof (pow2_ge_0 (cosD (z_ A))). lra. Qed.
Lemma T_ozone_01 k : 0 <= k -> 0 < T_ozone A k <= 1.
Proof. intros K. unfold T_ozone. apply exp_neg_01. destruct PA as (_ & _ & _ & _ & P & _). apply Rmult_le_pos; [apply Rmult_le_pos; assumption|apply Rlt_le, ozone_mass_pos]. Qed.
Lemma T_mixed_01 k m : 0 <= k -> 0 <= m -> 0 < T_mixed A k m <= 1.
Proof.
  intros K M. unfold T_mixed. cbv zeta. apply exp_neg_01. destruct PA as (_ & _ & P & _). assert (0 <= m * pr_ A) by (apply Rmult_le_pos; assumption). assert (0 <= k * (m * pr_ A / 101300)) by (apply Rmult_le_pos; lra). pose proof (absorb_nonneg 118.3 0.45 (k * (m * pr_ A / 101300)) ltac:(lra) H0). lra.
Qed.
Lemma T_scattering_01 l m : 0 <= m -> 0 < T_scattering A l m <= 1.
Proof. intros M. apply exp_neg_01. apply Rmult_le_pos; [apply Rmult_le_pos; [apply ssalb_01|apply depth_nonneg]|exact M]. Qed.
Lemma T_absorption_01 l m : 0 <= m -> 0 < T_absorption A l m <= 1.
Proof. intros M. apply exp_neg_01. apply Rmult_le_pos; [apply Rmult_le_pos; [pose proof (ssalb_01 l); lra|apply depth_nonneg]|exact M]. Qed.
(** scattering and absorption together are the extinction by aerosol *)
Lemma aerosol_split l m : T_scattering A l m * T_absorption A l m = T_aerosol A l m.
Proof. unfold T_scattering, T_absorption, T_aerosol. rewrite <- exp_plus. f_equal. ring. Qed.
(** at least half of the aerosol scatter goes forward *)
Lemma ln_asym : -3 <= ln (1 - gg_ A) <= 0.
Proof.
  destruct PA as (_ & _ & _ & _ & _ & _ & _ & _ & [G0 G1]). split.
  - rewrite <- (ln_exp (-3)). assert (E : exp (-3) <= 1 - gg_ A). { apply Rle_trans with 0.1; [|lra]. replace (-3) with (- (3)) by lra. rewrite exp_Ropp. assert (P : 10 <= exp 3). { replace 3 with (1 + 1 + 1) by ring. rewrite !exp_plus. pose proof e_ge as He. apply Rle_trans with (2.5 * 2.5 * 2.5); [lra|]. repeat apply Rmult_le_compat; lra. } apply Rle_trans with (/ 10); [apply Rinv_le_contravar; lra|lra]. }
    destruct E as [E|E]; [apply Rlt_le, ln_increasing; [apply exp_pos|exact E]|rewrite E; lra].
  - rewrite <- ln_1. destruct G0 as [G0| <-]; [apply Rlt_le, ln_increasing; lra|rewrite Rminus_0_r; lra].
Qed.
Lemma forward_half c : 0 <= c <= 1 -> 1 / 2 <= forward A c < 1.
Proof.
  intros [C0 C1]. unfold forward. cbv zeta. pose proof ln_asym as [L0 L1]. set (a := ln (1 - gg_ A)) in *. set (e := (_ + _ * c) * c). assert (E : e <= 0).
  { unfold e. set (t := - a). assert (T0 : 0 <= t <= 3) by (unfold t; lra). replace a with (- t) by (unfold t; ring).
    assert (Q : 0 <= 1.459 - 0.1595 * t + 0.4129 * (t * t) + (0.0783 + 0.3824 * t - 0.5874 * (t * t)) * c).
    { assert (T2 : 0 <= t * t) by (apply Rmult_le_pos; lra). assert (T3 : t * t <= 3 * t) by (apply Rmult_le_compat_r; lra).
      replace (1.459 - 0.1595 * t + 0.4129 * (t * t) + (0.0783 + 0.3824 * t - 0.5874 * (t * t)) * c) with ((1 - c) * (1.459 - 0.1595 * t + 0.4129 * (t * t)) + c * (1.5373 + 0.2229 * t - 0.1745 * (t * t))) by lra.
      apply Rplus_le_le_0_compat; apply Rmult_le_pos; try lra. }
    assert (0 <= t * (1.459 - 0.1595 * t + 0.4129 * (t * t) + (0.0783 + 0.3824 * t - 0.5874 * (t * t)) * c) * c) by (apply Rmult_le_pos; [apply Rmult_le_pos; lra|exact C0]). lra. }
  assert (0 < exp e <= 1). { split; [apply exp_pos|]. replace 1 with (exp 0) by apply exp_0. destruct E as [E| ->]; [apply Rlt_le, exp_increasing; exact E|lra]. } lra.
Qed.
Lemma reflectivity_half l kw ku : 300 <= l -> 0 <= kw -> 0 <= ku -> 0 <= sky_reflectivity A l kw ku < 1 / 2.
Proof.
  intros HL HW HU. unfold sky_reflectivity. pose proof (T_mixed_01 ku 1.8 HU ltac:(lra)) as M. pose proof (T_water_01 kw 1.8 HW ltac:(lra)) as W. pose proof (T_absorption_01 l 1.8 ltac:(lra)) as B. pose proof (T_rayleigh_01 l 1.8 HL ltac:(lra)) as R. pose proof (T_scattering_01 l 1.8 ltac:(lra)) as S1.
  pose proof (forward_half (1 / 1.8) ltac:(lra)) as F. set (tm := T_mixed A ku 1.8) in *. set (tw := T_water A kw 1.8) in *. set (ta := T_absorption A l 1.8) in *. set (tr := T_rayleigh A l 1.8) in *. set (ts := T_scattering A l 1.8) in *. set (f := forward A (1 / 1.8)) in *.
  assert (P1 : 0 < tm * tw <= 1). { split; [apply Rmult_lt_0_compat; lra|]. apply Rle_trans with (1 * 1); [apply Rmult_le_compat; lra|lra]. } assert (P : 0 < tm * tw * ta <= 1). { split; [apply Rmult_lt_0_compat; lra|]. apply Rle_trans with (1 * 1); [apply Rmult_le_compat; lra|lra]. }
  assert (Q0 : 0 <= (1 - f) * tr * (1 - ts)) by (apply Rmult_le_pos; [apply Rmult_le_pos|]; lra). assert (Q1 : (1 - f) * tr * (1 - ts) < 1 / 2 * tr). { apply Rle_lt_trans with (1 / 2 * tr * (1 - ts)); [apply Rmult_le_compat_r; [lra|apply Rmult_le_compat_r; lra]|]. assert (0 < tr * ts) by (apply Rmult_lt_0_compat; lra). lra. }
  set (y := 1 / 2 * (1 - tr) + (1 - f) * tr * (1 - ts)). assert (Y : 0 <= y < 1 / 2) by (unfold y; lra). split; [apply Rmult_le_pos; lra|]. apply Rle_lt_trans with (1 * y); [apply Rmult_le_compat_r; lra|lra].
Qed.
End T.

(** the model computes these functions *)
Section V.
Variable A : atm.
Hypothesis PA : physical_atm A.
Lemma neg_div a b : - a / b = - (a / b). Proof. unfold Rdiv. ring. Qed.
Lemma trans_fin c m doy : valid_row c -> 0 <= m -> spectrl2_transmittances c #(z_ A) #m #(pr_ A) #(pw_ A) #(oz_ A) #(depth A (lam c)) #(ssalb A (lam c)) #doy =
  Trans #(distance_factor doy) #(T_rayleigh A (lam c) m) #(T_aerosol A (lam c) m) #(T_water A (aw c) m) #(T_ozone A (ao c)) #(T_mixed A (au c) m) #(T_scattering A (lam c) m) #(T_absorption A (lam c) m).
Proof.
  intros (HL & HE & HW & HO & HU) M. pose proof PA as (PC & PM & PP & PW & PO & _). unfold spectrl2_transmittances. cbv zeta.
  assert (N2 : (lam c / 1000) ^ 2 <> 0) by (apply pow_nonzero; lra). pose proof (ray_den (lam c) ltac:(lra)) as RD. pose proof (absorb_nonneg 20.07 1 0) as _.
  assert (X1 : 0 <= aw c * pw_ A * m) by (apply Rmult_le_pos; [apply Rmult_le_pos|]; assumption). assert (MP : 0 <= m * pr_ A) by (apply Rmult_le_pos; assumption). assert (X2 : 0 <= au c * (m * pr_ A / 101300)) by (apply Rmult_le_pos; lra).
  pose proof (pow2_ge_0 (cosD (z_ A))) as CP. assert (SQ : 0 < sqrt (cosD (z_ A) ^ 2 + 2 * (22 / 6370))) by (apply sqrt_lt_R0; lra).
  assert (P1 : Rpower (1 + 20.07 * (aw c * pw_ A * m)) 0.45 <> 0) by (apply Rgt_not_eq; unfold Rpower; apply exp_pos). assert (P2 : Rpower (1 + 118.3 * (au c * (m * pr_ A / 101300))) 0.45 <> 0) by (apply Rgt_not_eq; unfold Rpower; apply exp_pos).
  f_equal.
  - rewrite spencer_factor_fin, fmul_fin. f_equal. unfold distance_factor. cbv zeta. ring.
  - rewrite fmul_fin. rewrite !fdiv_fin by lra. rewrite !fpown_fin. rewrite fdiv_fin by exact N2. rewrite fsub_fin, fmul_fin, fneg_fin. rewrite fdiv_fin by lra. rewrite fexp_fin. rewrite neg_div. reflexivity.
  - rewrite fneg_fin, fmul_fin, fexp_fin. unfold T_aerosol. do 2 f_equal. ring.
  - rewrite !fmul_fin, fadd_fin. rewrite fpow_fin by lra. rewrite fneg_fin, fmul_fin. rewrite fdiv_fin by exact P1. rewrite fexp_fin. unfold T_water. do 2 f_equal. cbv zeta. unfold Rdiv. ring.
  - rewrite cosd_fin. rewrite !fdiv_fin by lra. rewrite fpown_fin, fmul_fin, !fadd_fin. rewrite fsqrt_fin by lra. rewrite fdiv_fin by lra. rewrite fneg_fin, !fmul_fin, fexp_fin. unfold T_ozone. do 2 f_equal. ring.
  - rewrite fmul_fin. rewrite (fdiv_fin _ 101300) by lra. rewrite !fmul_fin, fadd_fin. rewrite fpow_fin by lra. rewrite fneg_fin, fmul_fin. rewrite fdiv_fin by exact P2. rewrite fexp_fin. unfold T_mixed. do 2 f_equal. cbv zeta. unfold Rdiv. ring.
  - rewrite fneg_fin, !fmul_fin, fexp_fin. unfold T_scattering. do 2 f_equal. ring.
  - rewrite fsub_fin, fneg_fin, !fmul_fin, fexp_fin. unfold T_absorption. do 2 f_equal. ring.
Qed.
Definition args_of (i t rg : R) : sp2_args := Sp2Args #(z_ A) #i #t #rg #(pr_ A) #(am_ A) #(pw_ A) #(oz_ A) #(aod_ A) #(ssa_ A) #(al_ A) #(wv_ A) #(gg_ A).
Lemma row_fin i t rg doy c : valid_row c -> 0 <= rg <= 1 -> let x := et c * distance_factor doy in 0 < x ->
  let d := direct A (lam c) x (aw c) (ao c) (au c) in let s := diffuse A (lam c) x (aw c) (ao c) (au c) rg in let cz := cosD (z_ A) in let p := Rmax (cosD i) 0 in
  let sky := Rmax (s * (1 - d / x) * (1 / 2 * (1 + cosD t))) 0 + Rmax (s * (d / x * (p / Rmax cz 0.01745))) 0 in
  let ground := (d * cz + s) * rg * (1 - cosD t) * (1 / 2) in
  spectrl2_row (args_of i t rg) #doy c = Spectral #(lam c) #x #s #d #sky #ground #(d * p) #(d * p + sky + ground).
Proof.
  intros V HG x XP d s cz p sky ground. pose proof V as (HL & HE & HW & HO & HU). pose proof PA as (PC & PM & PP & PW & PO & PT & PS & PV & PG). set (l := lam c) in *.
  unfold spectrl2_row. cbv zeta. unfold args_of. cbn [apparent_zenith aoi surface_tilt ground_albedo surface_pressure relative_airmass precipitable_water ozone aerosol_turbidity_500nm scattering_albedo_400nm alpha wavelength_variation_factor aerosol_asymmetry_factor]. fold l.
  assert (D : angstrom_aod_at_lambda #(aod_ A) #500 #(al_ A) #l = #(depth A l)). { unfold angstrom_aod_at_lambda. rewrite fdiv_fin by lra. rewrite fneg_fin. rewrite fpow_fin by lra. rewrite fmul_fin. reflexivity. }
  assert (W : (#(ssa_ A) * fexp (- #(wv_ A) * fpown (fln (#l / #400)) 2))%fl = #(ssalb A l)). { rewrite fdiv_fin by lra. rewrite fln_fin by lra. rewrite fpown_fin, fneg_fin, fmul_fin, fexp_fin, fmul_fin. unfold ssalb. do 3 f_equal. ring. }
  rewrite D, W. unfold l. rewrite !trans_fin by (try assumption; lra). fold l. cbn [tD tR tA tW tO tU tAS tAA]. rewrite !cosd_fin. fold cz.
  set (R1 := T_rayleigh A l (am_ A)) in *. set (A1 := T_aerosol A l (am_ A)). set (W1 := T_water A (aw c) (am_ A)). set (O1 := T_ozone A (ao c)). set (U1 := T_mixed A (au c) (am_ A)). set (S1 := T_scattering A l (am_ A)). set (B1 := T_absorption A l (am_ A)).
  set (R2 := T_rayleigh A l 1.8). set (W2 := T_water A (aw c) 1.8). set (U2 := T_mixed A (au c) 1.8). set (S2 := T_scattering A l 1.8). set (B2 := T_absorption A l 1.8).
  assert (RP : 0 < R1) by (apply T_rayleigh_01; [exact PA|lra|exact PM]). set (g := ln (1 - gg_ A)).
  assert (LG : fln (#1 - #(gg_ A))%fl = #g) by (rewrite fsub_fin; rewrite fln_fin by lra; reflexivity). rewrite LG.
  assert (FS : (#1 - #0.5 * fexp ((#g * (#1.459 + #g * (#0.1595 + #g * #0.4129)) + #g * (#0.0783 + #g * (- #0.3824 - #g * #0.5874)) * #cz) * #cz))%fl = #(forward A cz)). { rewrite fneg_fin, !fmul_fin, fsub_fin, !fadd_fin, !fmul_fin, !fadd_fin, !fmul_fin, fadd_fin, fmul_fin, fexp_fin, fmul_fin, fsub_fin. unfold forward. fold g. cbv zeta. f_equal. lra. }
  assert (FP : (#1 - #0.5 * fexp ((#g * (#1.459 + #g * (#0.1595 + #g * #0.4129)) + #g * (#0.0783 + #g * (- #0.3824 - #g * #0.5874)) / #1.8) / #1.8))%fl = #(forward A (1 / 1.8))).
  { rewrite fneg_fin, !fmul_fin, fsub_fin, !fadd_fin, !fmul_fin, !fadd_fin, !fmul_fin. rewrite fdiv_fin by lra. rewrite fadd_fin. rewrite fdiv_fin by lra. rewrite fexp_fin, fmul_fin, fsub_fin. unfold forward. fold g. cbv zeta. f_equal. unfold Rdiv. rewrite !Rmult_1_l. lra. }
  rewrite FS, FP. set (F := forward A cz). set (F2 := forward A (1 / 1.8)).
  assert (RS : (#U2 * #W2 * #B2 * (#0.5 * (#1 - #R2) + (#1 - #F2) * #R2 * (#1 - #S2)))%fl = #(sky_reflectivity A l (aw c) (au c))). { rewrite !fsub_fin, !fmul_fin, fadd_fin, fmul_fin. unfold sky_reflectivity. fold R2 W2 U2 S2 B2 F2. f_equal. lra. }
  rewrite RS. pose proof (reflectivity_half A PA l (aw c) (au c) ltac:(lra) HW HU) as RB. set (rs := sky_reflectivity A l (aw c) (au c)) in *. assert (RG : rs * rg <= 1 / 2 * 1) by (apply Rmult_le_compat; lra).
  assert (EX : (#(et c) * #(distance_factor doy))%fl = #x) by (rewrite fmul_fin; reflexivity). rewrite EX.
  assert (ED : (#x * #R1 * #A1 * #W1 * #O1 * #U1)%fl = #d) by (rewrite !fmul_fin; reflexivity). rewrite ED.
  set (cf := absorbed A l x (aw c) (ao c) (au c)). assert (EC : (#x * #cz * #O1 * #U1 * #W1 * #B1)%fl = #cf) by (rewrite !fmul_fin; reflexivity). rewrite EC. rewrite !fpow_fin by exact RP.
  assert (EI : (#cf * (#1 - #(Rpower R1 0.95)) * #0.5)%fl = #(rayleigh_diffuse A l x (aw c) (ao c) (au c))). { rewrite fsub_fin, !fmul_fin. unfold rayleigh_diffuse. fold cf R1. f_equal. lra. } rewrite EI.
  assert (EA : (#cf * #(Rpower R1 1.5) * (#1 - #S1) * #F)%fl = #(aerosol_diffuse A l x (aw c) (ao c) (au c))) by (rewrite fsub_fin, !fmul_fin; reflexivity). rewrite EA.
  assert (EU : (if fleb #l #450 then fpow ((#l + #550) / #1000)%fl #1.8 else #1) = #(uv l)). { rewrite fleb_fin. unfold uv, Rleb. destruct (Rle_dec l 450); [|reflexivity]. rewrite fadd_fin. rewrite fdiv_fin by lra. rewrite fpow_fin by lra. reflexivity. } rewrite EU.
  set (ir := rayleigh_diffuse A l x (aw c) (ao c) (au c)) in *. set (ia := aerosol_diffuse A l x (aw c) (ao c) (au c)) in *.
  assert (ES : ((#ir + #ia + (#d * #cz + #ir + #ia) * #rs * #rg / (#1 - #rs * #rg)) * #(uv l))%fl = #s). { rewrite !fmul_fin, !fadd_fin, !fmul_fin, fsub_fin. rewrite fdiv_fin by lra. rewrite fadd_fin, fmul_fin. unfold s, diffuse, first_pass. fold rs ir ia d cz. reflexivity. } rewrite ES.
  assert (EP : fmax #(cosD i) #0 = #p) by (rewrite fmax_fin; reflexivity). rewrite EP. rewrite fmax_fin.
  assert (PP0 : 0 < Rmax cz 0.01745) by (apply Rlt_le_trans with 0.01745; [lra|apply Rmax_r]). rewrite fdiv_fin by lra.
  assert (EK : sky_total (haydavies #t NaN #s #d #x NaN NaN (Some #(p / Rmax cz 0.01745))) = #sky).
  { unfold haydavies, haydavies_rb. cbn [sky_total]. rewrite fdiv_fin by lra. rewrite cosd_fin, fsub_fin, fadd_fin, !fmul_fin, !fmax_fin, fadd_fin. unfold sky. replace 0.5 with (1 / 2) by lra. reflexivity. } rewrite EK.
  assert (EG : ground_diffuse #t (#d * #cz + #s)%fl #rg = #ground). { unfold ground_diffuse. rewrite fradians_fin, fcos_fin, fmul_fin, fadd_fin, fsub_fin, !fmul_fin. unfold ground, cosD. f_equal. lra. } rewrite EG.
  rewrite fmul_fin, !fadd_fin. reflexivity.
Qed.
End V.
