(** C137-C139: the SPECTRL2 clear sky spectrum. *)
From Verif Require Import Base.Fl Base.FlFacts Base.Py Model.Atmosphere Model.Irradiance Model.Spectrl2Tables Model.Spectrl2 Spec.Spectrl2Spec Proofs.Dirint Proofs.LambertP Proofs.Spectrl2P.
From Coq Require Import Psatz Sorted.
Open Scope R_scope.
Open Scope list_scope.
Import ListNotations.

Lemma distance_bounds doy : 0.963 <= distance_factor doy <= 1.037.
Proof.
  unfold distance_factor. cbv zeta. set (B := 2 * PI * (doy - 1) / 365). pose proof (COS_bound B). pose proof (SIN_bound B). pose proof (COS_bound (2 * B)). pose proof (SIN_bound (2 * B)). lra.
Qed.
Definition extra (doy : R) (c : sp2) : R := et c * distance_factor doy.
Lemma extra_pos doy c : valid_row c -> 0 < extra doy c.
Proof. intros (_ & H & _). pose proof (distance_bounds doy). apply Rmult_lt_0_compat; lra. Qed.
(** direct and diffuse irradiance of a table row *)
Definition dni_of (A : atm) (doy : R) (c : sp2) : R := direct A (lam c) (extra doy c) (aw c) (ao c) (au c).
Definition dhi_of (A : atm) (doy rg : R) (c : sp2) : R := diffuse A (lam c) (extra doy c) (aw c) (ao c) (au c) rg.
Lemma run A i t rg doy : physical_atm A -> 0 <= rg <= 1 -> forall c, valid_row c -> let o := spectrl2_row (args_of A i t rg) #doy c in
  o_wavelength o = #(lam c) /\ o_dni_extra o = #(extra doy c) /\ o_dni o = #(dni_of A doy c) /\ o_dhi o = #(dhi_of A doy rg c) /\ o_direct o = #(dni_of A doy c * Rmax (cosD i) 0).
Proof. intros PA HG c V o. unfold o. rewrite (row_fin A PA i t rg doy c V HG (extra_pos doy c V)). repeat split. Qed.
Lemma in_valid c : In c SPECTRL2_COEFFS -> valid_row c.
Proof. intros H. exact (proj1 (Forall_forall _ _) table_valid c H). Qed.
Lemma forall2_map {A B} (f : A -> B) (P : A -> B -> Prop) l : (forall a, In a l -> P a (f a)) -> Forall2 P l (map f l).
Proof. induction l as [|a l IH]; intros H; [constructor|]. constructor; [apply H; left; reflexivity|apply IH; intros b I; apply H; right; exact I]. Qed.

(** ** C137: direct spectrum *)
(** 122 wavelengths from 300 to 4000 nm, increasing; extraterrestrial irradiance positive, absorption coefficients not negative *)
Theorem C137_table : List.length SPECTRL2_COEFFS = 122%nat /\ StronglySorted Rlt (map lam SPECTRL2_COEFFS) /\
  Forall (fun c => 300 <= lam c <= 4000 /\ 0 < et c /\ 0 <= aw c /\ 0 <= ao c /\ 0 <= au c) SPECTRL2_COEFFS.
Proof.
  split; [reflexivity|]. split; [|exact table_valid]. apply Sorted_StronglySorted; [intros a b c; apply Rlt_trans|]. unfold SPECTRL2_COEFFS. cbn [map lam]. repeat (apply Sorted_cons; [|first [apply HdRel_cons; lra | apply HdRel_nil]]). apply Sorted_nil.
Qed.
Print Assumptions C137_table.
(** a pandas index determines the day (an explicit dayofyear is not used); otherwise dayofyear is needed *)
Theorem C137_day : forall x,
  (forall d doy, spectrl2 x (Some d) doy = spectrl2 x None (Some d)) /\ spectrl2 x None None = Err ValueError /\ (forall d, exists l, spectrl2 x None (Some d) = Ok l /\ map o_wavelength l = map (fun c => #(lam c)) SPECTRL2_COEFFS).
Proof. intros x. split; [reflexivity|]. split; [reflexivity|]. intros d. eexists. split; [reflexivity|]. rewrite map_map. reflexivity. Qed.
Print Assumptions C137_day.
(** the direct spectrum is the extraterrestrial one times five transmittances (equation 2-1); it is positive and never above it, and a thicker
    atmosphere of any kind never transmits more *)
Theorem C137_direct : forall A i t rg doy, physical_atm A -> 0 <= rg <= 1 -> exists l, spectrl2 (args_of A i t rg) None (Some #doy) = Ok l /\
  Forall2 (fun c o => exists x d, o_dni_extra o = #x /\ x = et c * distance_factor doy /\ 0.963 * et c <= x <= 1.037 * et c /\ o_dni o = #d /\ 0 < d <= x /\
    d = x * T_rayleigh A (lam c) (am_ A) * T_aerosol A (lam c) (am_ A) * T_water A (aw c) (am_ A) * T_ozone A (ao c) * T_mixed A (au c) (am_ A)) SPECTRL2_COEFFS l.
Proof.
  intros A i t rg doy PA HG. eexists. split; [reflexivity|]. apply forall2_map. intros c I. pose proof (in_valid c I) as V. destruct (run A i t rg doy PA HG c V) as (_ & E1 & E2 & _). exists (extra doy c), (dni_of A doy c).
  pose proof V as (HL & HE & HW & HO & HU). pose proof PA as (_ & PM & _). pose proof (distance_bounds doy) as [D1 D2]. pose proof (extra_pos doy c V) as XP.
  split; [exact E1|]. split; [reflexivity|]. split; [unfold extra; split; rewrite (Rmult_comm _ (et c)); apply Rmult_le_compat_l; lra|]. split; [exact E2|]. split; [|reflexivity].
  unfold dni_of, direct. pose proof (T_rayleigh_01 A PA (lam c) (am_ A) ltac:(lra) PM) as R1. pose proof (T_aerosol_01 A PA (lam c) (am_ A) PM) as R2. pose proof (T_water_01 A PA (aw c) (am_ A) HW PM) as R3. pose proof (T_ozone_01 A PA (ao c) HO) as R4. pose proof (T_mixed_01 A PA (au c) (am_ A) HU PM) as R5.
  assert (K : forall y u, 0 < y <= extra doy c -> 0 < u <= 1 -> 0 < y * u <= extra doy c). { intros y u [Y0 Y1] [U0 U1]. split; [apply Rmult_lt_0_compat; assumption|]. apply Rle_trans with (y * 1); [apply Rmult_le_compat_l; lra|lra]. }
  apply K; [|exact R5]. apply K; [|exact R4]. apply K; [|exact R3]. apply K; [|exact R2]. apply K; [lra|exact R1].
Qed.
Print Assumptions C137_direct.
Theorem C137_thicker : forall A A' i t rg doy, physical_atm A -> physical_atm A' -> 0 <= rg <= 1 -> z_ A' = z_ A -> al_ A' = al_ A ->
  am_ A <= am_ A' -> pr_ A <= pr_ A' -> pw_ A <= pw_ A' -> oz_ A <= oz_ A' -> aod_ A <= aod_ A' ->
  exists l l', spectrl2 (args_of A i t rg) None (Some #doy) = Ok l /\ spectrl2 (args_of A' i t rg) None (Some #doy) = Ok l' /\
  Forall2 (fun o o' => exists d d', o_dni o = #d /\ o_dni o' = #d' /\ d' <= d) l l'.
Proof.
  intros A A' i t rg doy PA PA' HG HZ HAL H1 H2 H3 H4 H5. do 2 eexists. split; [reflexivity|]. split; [reflexivity|].
  assert (Q : forall c, valid_row c -> dni_of A' doy c <= dni_of A doy c).
  { intros c V. pose proof V as (HL & HE & HW & HO & HU). pose proof PA as (PC & PM & PP & PW & PO & PT & _). pose proof PA' as (PC' & PM' & PP' & PW' & PO' & PT' & _). pose proof (extra_pos doy c V) as XP.
    assert (MP : am_ A * pr_ A <= am_ A' * pr_ A') by (apply Rmult_le_compat; assumption). assert (MP0 : 0 <= am_ A * pr_ A) by (apply Rmult_le_pos; assumption).
    assert (G1 : T_rayleigh A' (lam c) (am_ A') <= T_rayleigh A (lam c) (am_ A)). { unfold T_rayleigh. cbv zeta. apply exp_neg_mono. apply Rmult_le_compat_r; [apply Rlt_le, Rinv_0_lt_compat, ray_den; lra|lra]. }
    assert (G2 : T_aerosol A' (lam c) (am_ A') <= T_aerosol A (lam c) (am_ A)). { apply exp_neg_mono. apply Rmult_le_compat; [apply depth_nonneg; exact PA|exact PM| |exact H1]. unfold depth. rewrite HAL. apply Rmult_le_compat_r; [unfold Rpower; apply Rlt_le, exp_pos|exact H5]. }
    assert (G3 : T_water A' (aw c) (am_ A') <= T_water A (aw c) (am_ A)). { unfold T_water. cbv zeta. apply exp_neg_mono. apply Rmult_le_compat_l; [lra|]. apply absorb_mono; [lra|lra|]. split; [apply Rmult_le_pos; [apply Rmult_le_pos|]; assumption|]. apply Rmult_le_compat; try assumption; [apply Rmult_le_pos; assumption|apply Rmult_le_compat_l; assumption]. }
    assert (G4 : T_ozone A' (ao c) <= T_ozone A (ao c)). { unfold T_ozone. apply exp_neg_mono. rewrite HZ. apply Rmult_le_compat_r; [apply Rlt_le, ozone_mass_pos|apply Rmult_le_compat_l; assumption]. }
    assert (G5 : T_mixed A' (au c) (am_ A') <= T_mixed A (au c) (am_ A)). { unfold T_mixed. cbv zeta. apply exp_neg_mono. apply Rmult_le_compat_l; [lra|]. apply absorb_mono; [lra|lra|]. split; [apply Rmult_le_pos; lra|apply Rmult_le_compat_l; lra]. }
    unfold dni_of, direct. pose proof (T_rayleigh_01 A' PA' (lam c) (am_ A') ltac:(lra) PM') as R1. pose proof (T_aerosol_01 A' PA' (lam c) (am_ A') PM') as R2. pose proof (T_water_01 A' PA' (aw c) (am_ A') HW PM') as R3. pose proof (T_ozone_01 A' PA' (ao c) HO) as R4. pose proof (T_mixed_01 A' PA' (au c) (am_ A') HU PM') as R5.
    assert (K : forall y y' u u', 0 <= y' <= y -> 0 < u' -> u' <= u -> 0 <= y' * u' <= y * u). { intros y y' u u' [Y0 Y1] U0 U1. split; [apply Rmult_le_pos; lra|apply Rmult_le_compat; lra]. }
    apply K; [|lra|exact G5]. apply K; [|lra|exact G4]. apply K; [|lra|exact G3]. apply K; [|lra|exact G2]. apply K; [lra|lra|exact G1]. }
  assert (Z : forall L, Forall valid_row L -> Forall2 (fun o o' => exists d d', o_dni o = #d /\ o_dni o' = #d' /\ d' <= d) (map (spectrl2_row (args_of A i t rg) #doy) L) (map (spectrl2_row (args_of A' i t rg) #doy) L)).
  { induction 1 as [|c L V F IH]; [constructor|]. cbn [map]. constructor; [|exact IH]. exists (dni_of A doy c), (dni_of A' doy c). split; [apply (run A i t rg doy PA HG c V)|]. split; [apply (run A' i t rg doy PA' HG c V)|]. apply Q. exact V. }
  apply Z. exact table_valid.
Qed.
Print Assumptions C137_thicker.

(** ** C138: diffuse spectrum *)
Lemma parts A doy c : physical_atm A -> valid_row c -> let x := extra doy c in let l := lam c in let cz := cosD (z_ A) in
  let ir := rayleigh_diffuse A l x (aw c) (ao c) (au c) in let ia := aerosol_diffuse A l x (aw c) (ao c) (au c) in
  0 <= ir /\ 0 <= ia /\ 0 <= dni_of A doy c /\ dni_of A doy c * cz + ir + ia <= x * cz.
Proof.
  intros PA V x l cz ir ia. pose proof V as (HL & HE & HW & HO & HU). pose proof PA as (PC & PM & _). pose proof (extra_pos doy c V) as XP. fold x in XP. fold cz in PC.
  pose proof (T_rayleigh_01 A PA l (am_ A) ltac:(unfold l; lra) PM) as R1. pose proof (T_aerosol_01 A PA l (am_ A) PM) as R2. pose proof (T_water_01 A PA (aw c) (am_ A) HW PM) as R3. pose proof (T_ozone_01 A PA (ao c) HO) as R4. pose proof (T_mixed_01 A PA (au c) (am_ A) HU PM) as R5. pose proof (T_scattering_01 A PA l (am_ A) PM) as R6. pose proof (T_absorption_01 A PA l (am_ A) PM) as R7.
  assert (C1 : cz <= 1) by (unfold cz, cosD; apply COS_bound). pose proof (forward_half A PA cz ltac:(lra)) as F. pose proof (aerosol_split A l (am_ A)) as AS.
  unfold ir, ia, rayleigh_diffuse, aerosol_diffuse, absorbed, dni_of, direct. fold cz x l. set (tr := T_rayleigh A l (am_ A)) in *. set (ta := T_aerosol A l (am_ A)) in *. set (tw := T_water A (aw c) (am_ A)) in *. set (tO := T_ozone A (ao c)) in *. set (tm := T_mixed A (au c) (am_ A)) in *. set (ts := T_scattering A l (am_ A)) in *. set (tb := T_absorption A l (am_ A)) in *. set (f := forward A cz) in *.
  assert (LN : ln tr <= 0) by (rewrite <- ln_1; destruct (proj2 R1) as [Z|Z]; [apply Rlt_le, ln_increasing; lra|rewrite Z; lra]).
  assert (PW1 : tr <= Rpower tr 0.95 <= 1). { unfold Rpower. split; [rewrite <- (exp_ln tr) at 1 by lra; assert (ln tr <= 0.95 * ln tr) as [Z|Z] by lra; [apply Rlt_le, exp_increasing; exact Z|rewrite <- Z; lra]|]. replace 1 with (exp 0) by apply exp_0. assert (0.95 * ln tr <= 0) as [Z|Z] by lra; [apply Rlt_le, exp_increasing; exact Z|rewrite Z; lra]. }
  assert (PW2 : 0 < Rpower tr 1.5 <= tr). { unfold Rpower. split; [apply exp_pos|]. rewrite <- (exp_ln tr) at 2 by lra. assert (1.5 * ln tr <= ln tr) as [Z|Z] by lra; [apply Rlt_le, exp_increasing; exact Z|rewrite Z; lra]. }
  set (p1 := Rpower tr 0.95) in *. set (p2 := Rpower tr 1.5) in *. set (b := x * cz * tO * tm * tw). assert (B0 : 0 <= b) by (unfold b; repeat first [lra | apply Rmult_le_pos]). assert (B1 : b <= x * cz).
  { assert (K : forall y u, 0 <= y <= x * cz -> 0 < u <= 1 -> 0 <= y * u <= x * cz). { intros y u [Y0 Y1] [U0 U1]. split; [apply Rmult_le_pos; lra|]. apply Rle_trans with (y * 1); [apply Rmult_le_compat_l; lra|lra]. } unfold b. apply K; [|exact R3]. apply K; [|exact R5]. apply K; [|exact R4]. split; [apply Rmult_le_pos; lra|lra]. }
  assert (I1 : 0 <= b * tb * (1 - p1) * (1 / 2)) by (repeat first [lra | apply Rmult_le_pos]). assert (I2 : 0 <= b * tb * p2 * (1 - ts) * f) by (repeat first [lra | apply Rmult_le_pos]).
  split; [exact I1|]. split; [exact I2|]. split; [repeat first [lra | apply Rmult_le_pos]|].
  replace (x * tr * ta * tw * tO * tm * cz) with (b * tb * (tr * ts)) by (unfold b; rewrite <- AS; ring).
  assert (S1 : p2 * (1 - ts) * f <= tr * (1 - ts) * 1). { apply Rmult_le_compat; [apply Rmult_le_pos; lra|lra|apply Rmult_le_compat_r; lra|lra]. }
  assert (S2 : tr * ts + (1 - p1) * (1 / 2) + p2 * (1 - ts) * f <= 1) by lra.
  assert (0 <= b * tb <= x * cz). { split; [apply Rmult_le_pos; lra|]. apply Rle_trans with (b * 1); [apply Rmult_le_compat_l; lra|lra]. }
  apply Rle_trans with (b * tb * (tr * ts + (1 - p1) * (1 / 2) + p2 * (1 - ts) * f)); [apply Req_le; ring|]. apply Rle_trans with (b * tb * 1); [apply Rmult_le_compat_l; lra|lra].
Qed.
Lemma uv_01 l : 300 <= l -> 0 < uv l <= 1.
Proof.
  intros H. unfold uv. destruct (Rle_dec l 450) as [L|L]; [|lra]. unfold Rpower. split; [apply exp_pos|]. replace 1 with (exp 0) by apply exp_0. assert (LN : ln ((l + 550) / 1000) <= 0) by (rewrite <- ln_1; assert ((l + 550) / 1000 <= 1) as [Z|Z] by lra; [apply Rlt_le, ln_increasing; lra|rewrite Z; lra]). assert (1.8 * ln ((l + 550) / 1000) <= 0) as [Z|Z] by lra; [apply Rlt_le, exp_increasing; exact Z|rewrite Z; lra].
Qed.
(** the diffuse spectrum is the sum (3-1) of what air and aerosol scatter and of all reflections between sky and ground, with the ultraviolet correction *)
Theorem C138_value : forall A i t rg doy, physical_atm A -> 0 <= rg <= 1 -> exists l, spectrl2 (args_of A i t rg) None (Some #doy) = Ok l /\
  Forall2 (fun c o => exists x s, o_dni_extra o = #x /\ o_dhi o = #s /\ let rs := sky_reflectivity A (lam c) (aw c) (au c) in
    s = (rayleigh_diffuse A (lam c) x (aw c) (ao c) (au c) + aerosol_diffuse A (lam c) x (aw c) (ao c) (au c) + first_pass A (lam c) x (aw c) (ao c) (au c) * (1 / (1 - rs * rg) - 1)) * uv (lam c) /\
    0 <= rs < 1 / 2 /\ infinite_sum (fun k => (rs * rg) ^ k) (1 / (1 - rs * rg))) SPECTRL2_COEFFS l.
Proof.
  intros A i t rg doy PA HG. eexists. split; [reflexivity|]. apply forall2_map. intros c I. pose proof (in_valid c I) as V. destruct (run A i t rg doy PA HG c V) as (_ & E1 & _ & E2 & _). exists (extra doy c), (dhi_of A doy rg c). split; [exact E1|]. split; [exact E2|]. cbv zeta.
  pose proof V as (HL & HE & HW & HO & HU). pose proof (reflectivity_half A PA (lam c) (aw c) (au c) ltac:(lra) HW HU) as RB. assert (RG : sky_reflectivity A (lam c) (aw c) (au c) * rg <= 1 / 2 * 1) by (apply Rmult_le_compat; lra). assert (RG0 : 0 <= sky_reflectivity A (lam c) (aw c) (au c) * rg) by (apply Rmult_le_pos; lra).
  split; [|split; [exact RB|]].
  - unfold dhi_of, diffuse. f_equal. f_equal. field. lra.
  - pose proof (GP_infinite (sky_reflectivity A (lam c) (aw c) (au c) * rg)) as G. unfold Pser in G. replace (1 / (1 - sky_reflectivity A (lam c) (aw c) (au c) * rg)) with (/ (1 - sky_reflectivity A (lam c) (aw c) (au c) * rg)) by (unfold Rdiv; ring).
    assert (AB : Rabs (sky_reflectivity A (lam c) (aw c) (au c) * rg) < 1) by (rewrite Rabs_pos_eq; lra). specialize (G AB). intros eps HE'. destruct (G eps HE') as (N & HN). exists N. intros n Hn. specialize (HN n Hn). erewrite sum_eq; [exact HN|]. intros k _. cbv beta. ring.
Qed.
Print Assumptions C138_value.
(** nothing is negative; over a black ground no more arrives than came in, and reflections can at most double it *)
Theorem C138_energy : forall A i t rg doy, physical_atm A -> 0 <= rg <= 1 -> exists l, spectrl2 (args_of A i t rg) None (Some #doy) = Ok l /\
  Forall2 (fun c o => exists x d s, o_dni_extra o = #x /\ o_dni o = #d /\ o_dhi o = #s /\ 0 <= s /\ d * cosD (z_ A) + s <= 2 * (x * cosD (z_ A)) /\ (rg = 0 -> d * cosD (z_ A) + s <= x * cosD (z_ A))) SPECTRL2_COEFFS l.
Proof.
  intros A i t rg doy PA HG. eexists. split; [reflexivity|]. apply forall2_map. intros c I. pose proof (in_valid c I) as V. destruct (run A i t rg doy PA HG c V) as (_ & E1 & E3 & E2 & _). exists (extra doy c), (dni_of A doy c), (dhi_of A doy rg c). split; [exact E1|]. split; [exact E3|]. split; [exact E2|].
  pose proof V as (HL & HE & HW & HO & HU). pose proof (parts A doy c PA V) as (P1 & P2 & P3 & P4). cbv zeta in P1, P2, P4. pose proof (uv_01 (lam c) ltac:(lra)) as U. pose proof PA as (PC & _).
  pose proof (reflectivity_half A PA (lam c) (aw c) (au c) ltac:(lra) HW HU) as RB. set (rs := sky_reflectivity A (lam c) (aw c) (au c)) in *. assert (RG : rs * rg <= 1 / 2 * 1) by (apply Rmult_le_compat; lra). assert (RG0 : 0 <= rs * rg) by (apply Rmult_le_pos; lra).
  unfold dhi_of, diffuse, first_pass. fold (dni_of A doy c). fold rs. set (ir := rayleigh_diffuse A (lam c) (extra doy c) (aw c) (ao c) (au c)) in *. set (ia := aerosol_diffuse A (lam c) (extra doy c) (aw c) (ao c) (au c)) in *. set (cz := cosD (z_ A)) in *. set (d := dni_of A doy c) in *.
  assert (DC : 0 <= d * cz) by (apply Rmult_le_pos; assumption). set (k := rs * rg / (1 - rs * rg)). assert (K0 : 0 <= k <= 1). { unfold k. split; [apply Rmult_le_pos; [lra|apply Rlt_le, Rinv_0_lt_compat; lra]|]. apply (Rmult_le_reg_r (1 - rs * rg)); [lra|]. unfold Rdiv. rewrite Rmult_assoc, Rinv_l by lra. lra. }
  replace ((d * cz + ir + ia) * rs * rg / (1 - rs * rg)) with ((d * cz + ir + ia) * k) by (unfold k; field; lra). assert (G0 : 0 <= (d * cz + ir + ia) * k) by (apply Rmult_le_pos; lra). assert (G1 : (d * cz + ir + ia) * k <= (d * cz + ir + ia) * 1) by (apply Rmult_le_compat_l; lra).
  assert (S0 : 0 <= ir + ia + (d * cz + ir + ia) * k) by lra. set (s0 := ir + ia + (d * cz + ir + ia) * k) in *. assert (S1 : s0 * uv (lam c) <= s0 * 1) by (apply Rmult_le_compat_l; lra).
  split; [apply Rmult_le_pos; lra|]. split; [unfold s0 in *; lra|]. intros Z. assert (K1 : k = 0) by (unfold k; rewrite Z; unfold Rdiv; ring). unfold s0 in *. rewrite K1 in *. lra.
Qed.
Print Assumptions C138_energy.
(** an asymmetry factor very near 1 makes the forward fraction, and the diffuse irradiance, negative *)
Theorem C138_asymmetry_refuted : exists A, 0 < gg_ A < 1 /\ cosD (z_ A) = 1 /\ (forall g, 0 <= g <= 0.9 -> physical_atm (Atm (z_ A) (am_ A) (pr_ A) (pw_ A) (oz_ A) (aod_ A) (ssa_ A) (al_ A) (wv_ A) g)) /\ Exists (fun c => diffuse A (lam c) (et c) (aw c) (ao c) (au c) 0 < 0) SPECTRL2_COEFFS.
Proof.
  set (g := 1 - exp (-8)). assert (E8 : 0 < exp (-8) < 1). { split; [apply exp_pos|]. replace 1 with (exp 0) by apply exp_0. apply exp_increasing. lra. } set (A := Atm 0 1 0 0 0 1 1 0 0 g). exists A. cbn [gg_ z_ am_ pr_ pw_ oz_ aod_ ssa_ al_ wv_ A]. assert (C0 : cosD 0 = 1) by (unfold cosD; rewrite Rrad_0; apply cos_0).
  split; [unfold g; lra|]. split; [exact C0|]. split. { intros g' Hg. unfold physical_atm. cbn [gg_ z_ am_ pr_ pw_ oz_ aod_ ssa_ al_ wv_]. rewrite C0. repeat split; lra. }
  apply Exists_exists. exists (Sp2 500 1.909 0 0.03 0). split. { unfold SPECTRL2_COEFFS. repeat (first [left; reflexivity | right]). } cbn [lam et aw ao au].
  assert (TR : forall m, T_rayleigh A 500 m = 1). { intros m. unfold T_rayleigh. cbn [pr_ A]. cbv zeta. rewrite Rmult_0_r. unfold Rdiv. rewrite !Rmult_0_l, Ropp_0. apply exp_0. }
  assert (TW : forall m, T_water A 0 m = 1). { intros m. unfold T_water. cbv zeta. rewrite !Rmult_0_l. unfold Rdiv. rewrite !Rmult_0_l, Rmult_0_r, Ropp_0. apply exp_0. }
  assert (TM : forall m, T_mixed A 0 m = 1). { intros m. unfold T_mixed. cbv zeta. rewrite !Rmult_0_l. unfold Rdiv. rewrite !Rmult_0_l, Rmult_0_r, Ropp_0. apply exp_0. }
  assert (TO : T_ozone A 0.03 = 1). { unfold T_ozone. cbn [oz_ A]. rewrite Rmult_0_r, Rmult_0_l, Ropp_0. apply exp_0. }
  assert (RP : forall p, Rpower 1 p = 1) by (intros p; unfold Rpower; rewrite ln_1, Rmult_0_r; apply exp_0).
  assert (DE : depth A 500 = 1). { unfold depth. cbn [aod_ al_ A]. replace (500 / 500) with 1 by field. rewrite RP. ring. } assert (SS : ssalb A 500 = 1). { unfold ssalb. cbn [ssa_ wv_ A]. rewrite Rmult_0_l, Ropp_0, exp_0. ring. }
  assert (TS : T_scattering A 500 1 = exp (- (1))) by (unfold T_scattering; rewrite DE, SS; f_equal; ring). assert (TB : T_absorption A 500 1 = 1) by (unfold T_absorption; rewrite SS; rewrite Rminus_diag_eq by reflexivity; rewrite !Rmult_0_l, Ropp_0; apply exp_0).
  assert (U : uv 500 = 1) by (unfold uv; destruct (Rle_dec 500 450); [lra|reflexivity]).
  unfold diffuse, rayleigh_diffuse, aerosol_diffuse, absorbed, first_pass. cbn [am_ z_ A]. fold A. rewrite C0, TR, TW, TM, TO, TS, TB, U, !RP. rewrite Rmult_0_r. unfold Rdiv at 2. rewrite Rmult_0_l.
  assert (FN : forward A 1 < 0). { unfold forward. cbn [gg_ A]. fold A. unfold g. replace (1 - (1 - exp (-8))) with (exp (-8)) by ring. rewrite ln_exp. cbv zeta. match goal with |- context [exp ?e] => set (v := e) end. assert (V1 : 1 <= v) by (unfold v; lra). assert (exp 1 <= exp v) by (destruct V1 as [Z|Z]; [apply Rlt_le, exp_increasing; exact Z|rewrite <- Z; lra]). pose proof e_ge. lra. }
  assert (E1 : exp (- (1)) < 1). { replace 1 with (exp 0) at 2 by apply exp_0. apply exp_increasing. lra. } assert (0 < (1 - exp (- (1))) * - forward A 1) by (apply Rmult_lt_0_compat; lra). lra.
Qed.
Print Assumptions C138_asymmetry_refuted.
(** ** C139: on a tilted surface *)
(** beam, sky (Hay and Davies with the spectral ratio dni/dni_extra) and ground contributions; none is negative; a sun behind the surface gives no beam *)
Theorem C139_tilted : forall A i t rg doy, physical_atm A -> 0 <= rg <= 1 -> exists l, spectrl2 (args_of A i t rg) None (Some #doy) = Ok l /\
  Forall2 (fun c o => exists x d s, o_dni_extra o = #x /\ o_dni o = #d /\ o_dhi o = #s /\ let cz := cosD (z_ A) in let k := d / x in let p := Rmax (cosD i) 0 in
    let sky := s * ((1 - k) * ((1 + cosD t) / 2) + k * (p / Rmax cz 0.01745)) in let ground := (d * cz + s) * rg * ((1 - cosD t) / 2) in
    0 < k <= 1 /\ o_direct o = #(d * p) /\ o_sky o = #sky /\ o_ground o = #ground /\ o_global o = #(d * p + sky + ground) /\ 0 <= d * p /\ 0 <= sky /\ 0 <= ground /\ (cosD i <= 0 -> d * p = 0)) SPECTRL2_COEFFS l.
Proof.
  intros A i t rg doy PA HG. eexists. split; [reflexivity|]. apply forall2_map. intros c I. pose proof (in_valid c I) as V. pose proof (row_fin A PA i t rg doy c V HG (extra_pos doy c V)) as E. cbv zeta in E. fold (extra doy c) in E. fold (dni_of A doy c) (dhi_of A doy rg c) in E.
  exists (extra doy c), (dni_of A doy c), (dhi_of A doy rg c). rewrite E. cbn [o_dni_extra o_dni o_dhi o_direct o_sky o_ground o_global]. split; [reflexivity|]. split; [reflexivity|]. split; [reflexivity|]. cbv zeta.
  destruct (C137_direct A i t rg doy PA HG) as (l1 & EL1 & F1). destruct (C138_energy A i t rg doy PA HG) as (l2 & EL2 & F2). cbn [spectrl2] in EL1, EL2. injection EL1 as <-. injection EL2 as <-.
  assert (Q : forall (P : sp2 -> spectral -> Prop) f L, Forall2 P L (map f L) -> In c L -> P c (f c)). { intros P f L. induction L as [|a L IH]; intros H J; [contradiction|]. cbn [map] in H. inversion H as [|? ? ? ? H1 H2]. subst. destruct J as [->|J]; [exact H1|apply IH; assumption]. }
  pose proof (Q _ _ _ F1 I) as (x & d & X1 & X2 & _ & D1 & DB & _). pose proof (Q _ _ _ F2 I) as (x' & d' & s & Y1 & Y2 & S1 & S0 & _). rewrite E in X1, D1, Y1, Y2, S1. cbn [o_dni_extra o_dni o_dhi] in X1, D1, Y1, Y2, S1. injection X1 as <-. injection D1 as <-. injection S1 as <-.
  set (xx := extra doy c) in *. set (d := dni_of A doy c) in *. set (s := dhi_of A doy rg c) in *. set (cz := cosD (z_ A)). set (p := Rmax (cosD i) 0).
  assert (XP : 0 < xx) by lra. set (k := d / xx). assert (K : 0 < k <= 1). { unfold k. split; [apply Rdiv_lt_0_compat; lra|]. apply (Rmult_le_reg_r xx); [exact XP|]. unfold Rdiv. rewrite Rmult_assoc, Rinv_l by lra. lra. }
  assert (P0 : 0 <= p) by apply Rmax_r. assert (M0 : 0 < Rmax cz 0.01745) by (apply Rlt_le_trans with 0.01745; [lra|apply Rmax_r]). set (q := p / Rmax cz 0.01745). assert (Q0 : 0 <= q) by (apply Rmult_le_pos; [exact P0|apply Rlt_le, Rinv_0_lt_compat; exact M0]).
  pose proof (COS_bound (Rrad t)) as CT. fold (cosD t) in CT. assert (PC : 0 <= cz) by (apply PA).
  assert (T1 : 0 <= s * (1 - k) * (1 / 2 * (1 + cosD t))) by (apply Rmult_le_pos; [apply Rmult_le_pos|]; lra). assert (T2 : 0 <= s * (k * q)) by (apply Rmult_le_pos; [lra|apply Rmult_le_pos; lra]). rewrite !Rmax_left by assumption.
  assert (SK : s * (1 - k) * (1 / 2 * (1 + cosD t)) + s * (k * q) = s * ((1 - k) * ((1 + cosD t) / 2) + k * q)) by field. assert (GR : (d * cz + s) * rg * (1 - cosD t) * (1 / 2) = (d * cz + s) * rg * ((1 - cosD t) / 2)) by field.
  split; [exact K|]. split; [reflexivity|]. split; [rewrite SK; reflexivity|]. split; [rewrite GR; reflexivity|]. split; [rewrite SK, GR; reflexivity|].
  split; [apply Rmult_le_pos; lra|]. split; [lra|]. split; [apply Rmult_le_pos; [apply Rmult_le_pos; [|lra]|lra]; assert (0 <= d * cz) by (apply Rmult_le_pos; lra); lra|].
  intros Z. unfold p. rewrite Rmax_right by exact Z. ring.
Qed.
Print Assumptions C139_tilted.
(** a horizontal surface (sun at least one degree up) receives exactly the global horizontal irradiance *)
Theorem C139_horizontal : forall A rg doy, physical_atm A -> 0 <= rg <= 1 -> 0.01745 <= cosD (z_ A) -> exists l, spectrl2 (args_of A (z_ A) 0 rg) None (Some #doy) = Ok l /\
  Forall (fun o => exists d s, o_dni o = #d /\ o_dhi o = #s /\ o_sky o = #s /\ o_ground o = #0 /\ o_global o = #(d * cosD (z_ A) + s)) l.
Proof.
  intros A rg doy PA HG HZ. destruct (C139_tilted A (z_ A) 0 rg doy PA HG) as (l & E & F). exists l. split; [exact E|]. clear E. assert (C0 : cosD 0 = 1) by (unfold cosD; rewrite Rrad_0; apply cos_0).
  induction F as [|c o L l (x & d & s & E1 & E2 & E3 & K & D & SK & G & GL & _) F IH]; [constructor|]. constructor; [|exact IH]. exists d, s. rewrite C0 in *. rewrite (Rmax_left (cosD (z_ A)) 0) in * by lra. rewrite (Rmax_left (cosD (z_ A)) 0.01745) in * by lra.
  assert (Z : s * ((1 - d / x) * ((1 + 1) / 2) + d / x * (cosD (z_ A) / cosD (z_ A))) = s). { replace (cosD (z_ A) / cosD (z_ A)) with 1 by (field; lra). field. intros ->. unfold Rdiv in K. rewrite Rinv_0, Rmult_0_r in K. lra. } rewrite Z in *. assert (G0 : (d * cosD (z_ A) + s) * rg * ((1 - 1) / 2) = 0) by field. rewrite G0 in *.
  split; [exact E2|]. split; [exact E3|]. split; [exact SK|]. split; [exact G|]. rewrite GL. f_equal. ring.
Qed.
Print Assumptions C139_horizontal.
(** where the airmass is missing (sun below the horizon) so is every irradiance but dni_extra *)
Theorem C139_missing : forall x d, relative_airmass x = NaN -> exists l, spectrl2 x None (Some d) = Ok l /\
  Forall (fun o => o_dni o = NaN /\ o_dhi o = NaN /\ o_direct o = NaN /\ o_sky o = NaN /\ o_ground o = NaN /\ o_global o = NaN) l.
Proof.
  intros x d H. eexists. split; [reflexivity|]. apply Forall_forall. intros o I. apply in_map_iff in I. destruct I as (c & <- & _). unfold spectrl2_row. cbv zeta. rewrite H.
  assert (TR : forall a b e f g h i j, let t := spectrl2_transmittances c a NaN b e f g h i in tR t = NaN /\ tA t = NaN /\ (j = j :> nat)). { intros. unfold t, spectrl2_transmittances. cbv zeta. cbn [tR tA]. split; [rewrite fmul_nan_l; reflexivity|]. split; [rewrite fmul_nan_r; reflexivity|reflexivity]. }
  match goal with |- context [spectrl2_transmittances c ?a NaN ?b ?e ?f ?g ?h ?i] => destruct (TR a b e f g h i 0%nat) as (T1 & T2 & _); cbv zeta in T1, T2; set (t := spectrl2_transmittances c a NaN b e f g h i) in * end.
  assert (PN : forall b, b <> 0 -> fpow NaN #b = NaN) by (intros b Hb; cbn [fpow]; rewrite Reqb_f by exact Hb; reflexivity). rewrite T1, T2. rewrite !PN by lra. clearbody t.
  cbn [o_dni o_dhi o_direct o_sky o_ground o_global]. unfold haydavies, haydavies_rb. cbn [sky_total]. unfold ground_diffuse.
  repeat first [rewrite fmul_nan_r | rewrite fmul_nan_l | rewrite fadd_nan_l | rewrite fadd_nan_r | rewrite (eq_refl : fsub #1 NaN = NaN)]. repeat split; reflexivity.
Qed.
Print Assumptions C139_missing.
(** an ordinary clear day *)
Example C137_nonvacuous : physical_atm (Atm 30 1.15 101300 1.5 0.31 0.1 0.945 1.14 0.095 0.65) /\ 0.01745 <= cosD 30.
Proof.
  assert (C : 1 / 2 <= cosD 30). { unfold cosD, Rrad. replace (30 * PI / 180) with (PI / 6) by field. rewrite cos_PI6. assert (1 <= sqrt 3) by (rewrite <- sqrt_1 at 1; apply sqrt_le_1; lra). lra. }
  split; [|lra]. unfold physical_atm. cbn [z_ am_ pr_ pw_ oz_ aod_ ssa_ al_ wv_ gg_]. repeat split; lra.
Qed.
