(** haurwitz, simplified_solis and bird. *)
From Verif Require Import Base.Fl Base.FlFacts Base.Py Base.Trig Model.Atmosphere Model.Clearsky Spec.ClearskySpec Proofs.ClearskyP.
From Coq Require Import Psatz Lia.
Open Scope R_scope.

Lemma haurwitz_day z : 0 < cosD z -> haurwitz #z = #(1098 * cosD z * exp (-0.059 / cosD z)).
Proof. intros H. unfold haurwitz. rewrite cosd_fin, fgtb_fin, Rltb_t by exact H. rewrite fdiv_fin by lra. fl1. reflexivity. Qed.
Lemma haurwitz_night z : cosD z <= 0 -> haurwitz #z = #0.
Proof. intros H. unfold haurwitz. rewrite cosd_fin, fgtb_fin, Rltb_f by exact H. reflexivity. Qed.
Lemma haurwitz_mono c c' : 0 < c -> c <= c' -> 1098 * c * exp (-0.059 / c) <= 1098 * c' * exp (-0.059 / c').
Proof.
  intros P L. assert (/ c' <= / c) by (apply Rinv_le_contravar; lra). apply Rmult_le_compat; try lra; [left; apply exp_pos|apply exp_le]. unfold Rdiv. lra.
Qed.

(** ** powers *)
Lemma Rpower_pos a b : 0 < Rpower a b. Proof. apply exp_pos. Qed.
Lemma Rpower_ge1 a b : 1 <= a -> 0 <= b -> 1 <= Rpower a b.
Proof. intros Ha Hb. rewrite <- (Rpower_O a) by lra. apply Rle_Rpower; lra. Qed.
Lemma Rpower_le1 a b : 0 < a <= 1 -> 0 <= b -> Rpower a b <= 1.
Proof. intros Ha Hb. apply Rle_trans with (Rpower 1 b); [apply Rle_Rpower_l; lra|]. unfold Rpower. rewrite ln_1, Rmult_0_r, exp_0. lra. Qed.
Lemma Rpower_split a b : 0 < a -> Rpower a (1 + b) = a * Rpower a b.
Proof. intros H. rewrite Rpower_plus, Rpower_1 by exact H. reflexivity. Qed.
Lemma exp_le1 x : x <= 0 -> exp x <= 1.
Proof. intros H. apply Rle_trans with (exp 0); [apply exp_le, H|rewrite exp_0; lra]. Qed.
Lemma ln_nonneg x : 1 <= x -> 0 <= ln x.
Proof. intros H. destruct (Req_dec x 1) as [->|N]; [rewrite ln_1; lra|]. left. apply Rle_lt_trans with (ln 1); [rewrite ln_1; lra|]. apply ln_increasing; lra. Qed.
Lemma inv_le1 x : 1 <= x -> / x <= 1.
Proof. intros H. apply Rle_trans with (/ 1); [apply Rinv_le_contravar; lra|rewrite Rinv_1; lra]. Qed.

(** ** bird *)
Lemma rayleigh_factor m : 0 < m <= 29 -> 0 <= 1 + m - Rpower m 1.01.
Proof.
  intros H. replace 1.01 with (1 + 1 / 100) by lra. rewrite Rpower_split by lra.
  assert (K : Rpower m (1 / 100) <= 1 + 1 / 29).
  { unfold Rpower. rewrite <- (exp_ln (1 + 1 / 29)) by lra. apply exp_le. assert (ln m <= 100 * ln (1 + 1 / 29)); [|lra].
    assert (ln m <= ln 29) by (destruct (Req_dec m 29) as [->|N]; [lra|left; apply ln_increasing; lra]).
    assert (ln 29 <= ln ((1 + 1 / 29) ^ 100)). { left. apply ln_increasing; [lra|]. replace (1 + 1 / 29) with (30 / 29) by lra. assert (K : IZR (29 * 29 ^ 100) < IZR (30 ^ 100)) by (apply IZR_lt; reflexivity). rewrite mult_IZR, !pow_IZR in K || idtac.
      replace ((30 / 29) ^ 100) with (30 ^ 100 / 29 ^ 100) by (unfold Rdiv; rewrite Rpow_mult_distr, <- Rinv_pow by lra; reflexivity).
      assert (P : 0 < 29 ^ 100) by (apply pow_lt; lra). apply Rmult_lt_reg_r with (29 ^ 100); [exact P|]. unfold Rdiv. rewrite Rmult_assoc, Rinv_l, Rmult_1_r by lra.
      rewrite !pow_IZR, <- mult_IZR. apply IZR_lt. reflexivity. }
    rewrite ln_pow in H1 by lra. replace (INR 100) with 100 in H1 by (rewrite INR_IZR_INZ; reflexivity). lra. }
  assert (0 <= m * (1 + 1 / 29 - Rpower m (1 / 100))) by (apply Rmult_le_pos; lra). lra.
Qed.
Lemma rayleigh_range m : 0 < m <= 29 -> 0 < bird_rayleigh m <= 1.
Proof.
  intros H. pose proof (rayleigh_factor m H) as F. unfold bird_rayleigh. split; [apply exp_pos|]. apply exp_le1.
  assert (0 <= 0.0903 * Rpower m 0.84 * (1 + m - Rpower m 1.01)) by (apply Rmult_le_pos; [apply Rmult_le_pos; [lra|left; apply Rpower_pos]|exact F]). lra.
Qed.
Lemma gases_range m : 0 < bird_gases m <= 1.
Proof. unfold bird_gases. split; [apply exp_pos|]. apply exp_le1. pose proof (Rpower_pos m 0.26). lra. Qed.
Lemma ozone_range x : 0 <= x <= 6 -> 0 < bird_ozone x <= 1.
Proof.
  intros H. unfold bird_ozone. assert (P : 0 < Rpower (1 + 139.48 * x) (-0.3034) <= 1).
  { split; [apply Rpower_pos|]. unfold Rpower. apply exp_le1. assert (0 <= ln (1 + 139.48 * x)) by (apply ln_nonneg; lra). lra. }
  set (p := Rpower _ _) in *. assert (Q : 0 <= 0.1611 * x * p <= 0.1611 * 6). { split; [apply Rmult_le_pos; lra|]. replace (0.1611 * 6) with (0.1611 * 6 * 1) by ring. apply Rmult_le_compat; lra. }
  assert (X2 : 0 <= x ^ 2) by (apply pow2_ge_0).
  assert (S : 0 <= 0.002715 * x / (1 + 0.044 * x + 0.0003 * x ^ 2) <= 0.002715 * 6). { split; [apply Rmult_le_pos; [lra|left; apply Rinv_0_lt_compat; lra]|]. replace (0.002715 * 6) with (0.002715 * 6 * 1) by ring.
    apply Rmult_le_compat; try lra; [left; apply Rinv_0_lt_compat; lra|]. apply inv_le1; lra. }
  lra.
Qed.
Lemma water_range x : 0 <= x -> 0 < bird_water x <= 1.
Proof.
  intros H. unfold bird_water. assert (P : 1 <= Rpower (1 + 79.034 * x) 0.6828) by (apply Rpower_ge1; lra). set (p := Rpower _ _) in *.
  assert (Q : 0 <= 2.4959 * x / (p + 6.385 * x) < 1). { split; [apply Rmult_le_pos; [lra|left; apply Rinv_0_lt_compat; lra]|]. apply Rmult_lt_reg_r with (p + 6.385 * x); [lra|]. unfold Rdiv. rewrite Rmult_assoc, Rinv_l by lra. lra. }
  lra.
Qed.
Lemma aerosol_range a m : 0 < a -> 0 < bird_aerosol a m <= 1.
Proof.
  intros H. unfold bird_aerosol. split; [apply exp_pos|]. apply exp_le1.
  assert (K : Rpower a 0.7088 <= 1 + a). { destruct (Rle_dec a 1) as [L|L]; [pose proof (Rpower_le1 a 0.7088 ltac:(lra) ltac:(lra)); lra|]. apply Rle_trans with (Rpower a 1); [apply Rle_Rpower; lra|]. rewrite Rpower_1 by lra. lra. }
  assert (0 <= Rpower a 0.873 * (1 + a - Rpower a 0.7088) * Rpower m 0.9108) by (apply Rmult_le_pos; [apply Rmult_le_pos; [left; apply Rpower_pos|lra]|left; apply Rpower_pos]). lra.
Qed.
Lemma air_factor m : 0 < m <= 36 -> 0 < 1 - m + Rpower m 1.06 <= 10.
Proof.
  intros H. destruct (Rle_dec m 1) as [L|L].
  - pose proof (Rpower_le1 m 1.06 ltac:(lra) ltac:(lra)). pose proof (Rpower_pos m 1.06). lra.
  - replace 1.06 with (1 + 3 / 50) by lra. rewrite Rpower_split by lra.
    assert (K1 : 1 <= Rpower m (3 / 50)) by (apply Rpower_ge1; lra).
    assert (K : Rpower m (3 / 50) <= 5 / 4).
    { unfold Rpower. rewrite <- (exp_ln (5 / 4)) by lra. apply exp_le. assert (3 * ln m <= 50 * ln (5 / 4)); [|lra].
      assert (ln m <= ln 36) by (destruct (Req_dec m 36) as [->|N]; [lra|left; apply ln_increasing; lra]).
      assert (ln (36 ^ 3) <= ln ((5 / 4) ^ 50)). { left. apply ln_increasing; [lra|].
        replace ((5 / 4) ^ 50) with (5 ^ 50 / 4 ^ 50) by (unfold Rdiv; rewrite Rpow_mult_distr, <- Rinv_pow by lra; reflexivity).
        assert (P : 0 < 4 ^ 50) by (apply pow_lt; lra). apply Rmult_lt_reg_r with (4 ^ 50); [exact P|]. unfold Rdiv. rewrite Rmult_assoc, Rinv_l, Rmult_1_r by lra.
        rewrite !pow_IZR, <- mult_IZR. apply IZR_lt. reflexivity. }
      rewrite !ln_pow in H1 by lra. replace (INR 50) with 50 in H1 by (rewrite INR_IZR_INZ; reflexivity). replace (INR 3) with 3 in H1 by (rewrite INR_IZR_INZ; reflexivity). lra. }
    assert (0 <= (36 - m) * (Rpower m (3 / 50) - 1)) by (apply Rmult_le_pos; lra). assert (0 <= m * (Rpower m (3 / 50) - 1)) by (apply Rmult_le_pos; lra). lra.
Qed.
Lemma multiple_factor m : 0 < m -> 0 < 1 - m + Rpower m 1.02.
Proof.
  intros H. destruct (Rle_dec m 1) as [L|L]; [pose proof (Rpower_pos m 1.02); lra|]. assert (m <= Rpower m 1.02); [|lra].
  apply Rle_trans with (Rpower m 1); [rewrite Rpower_1; lra|apply Rle_Rpower; lra].
Qed.
Lemma absorption_range m ta : 0 < m <= 36 -> 0 < ta <= 1 -> ta <= bird_absorption m ta <= 1.
Proof.
  intros H T. pose proof (air_factor m H) as A. unfold bird_absorption. set (k := 1 - m + _) in *.
  assert (0 <= (1 - 0.1 * k) * (1 - ta)) by (apply Rmult_le_pos; lra). assert (0 <= 0.1 * k * (1 - ta)) by (apply Rmult_le_pos; [|lra]; lra). lra.
Qed.
Section Bird.
Variables z m a380 a500 pw oz pr i0 asym alb : R.
Let aod := 0.27583 * a380 + 0.35 * a500.
Let m' := m * pr / 101325.
Let ta := bird_aerosol aod m.
Let taa := bird_absorption m ta.
Let rs := 0.0685 + (1 - asym) * (1 - ta / taa).
Let beam := 0.9662 * i0 * ta * bird_water (m * pw) * bird_gases m' * bird_ozone (oz * m) * bird_rayleigh m'.
Let cz := if Rlt_dec z 90 then cosD z else 0.
Let scattered := i0 * cz * 0.79 * bird_ozone (oz * m) * bird_gases m' * bird_water (m * pw) * taa *
   (0.5 * (1 - bird_rayleigh m') + asym * (1 - ta / taa)) / (1 - m + Rpower m 1.02).
Let gh := (beam * cz + scattered) / (1 - alb * rs).
Hypothesis Pm : 0 < m.
Hypothesis Pp : 0 < pr.
Hypothesis Pa : 0 < aod.
Hypothesis Pw : 0 <= pw.
Hypothesis Po : 0 <= oz.
Hypothesis Ptaa : taa <> 0.
Hypothesis Pden : 1 - alb * rs <> 0.
Lemma Pm' : 0 < m'.
Proof. unfold m'. apply Rdiv_lt_0_compat; [apply Rmult_lt_0_compat; assumption|lra]. Qed.
Lemma bird_fin : bird #z #m #a380 #a500 #pw #oz #pr #i0 #asym #alb =
  {| bd_direct_horizontal := #(beam * cz); bd_ghi := #gh; bd_dni := #beam; bd_dhi := #(gh - beam * cz) |}.
Proof.
  pose proof Pm' as Pm'. assert (MO : 0 <= oz * m) by (apply Rmult_le_pos; lra). assert (MW : 0 <= m * pw) by (apply Rmult_le_pos; lra).
  assert (EM : get_absolute_airmass #m #pr = #m') by (unfold get_absolute_airmass; fl1; rewrite fdiv_fin by lra; reflexivity).
  assert (EA : bird_hulstrom80_aod_bb #a380 #a500 = #aod) by (unfold bird_hulstrom80_aod_bb; fl1; reflexivity).
  assert (EC : where_ (fltb #z #90) (fcos (fradians #z)) #0 = #cz).
  { rewrite fltb_fin. unfold cz, Rltb. destruct Rlt_dec; cbn [where_]; [|reflexivity]. apply (cosd_fin z). }
  unfold bird. rewrite EM, EA, EC. rewrite (fpow_fin m' 0.84), (fpow_fin m' 1.01), (fpow_fin m' 0.26), (fpow_fin aod 0.873), (fpow_fin aod 0.7088), (fpow_fin m 0.9108), (fpow_fin m 1.06), (fpow_fin m 1.02) by assumption.
  rewrite fpown_fin || idtac. fl1. rewrite !fpow_fin by lra. rewrite !fpown_fin. fl1. assert (X2 : 0 <= (oz * m) ^ 2) by apply pow2_ge_0.
  rewrite (fdiv_fin (0.002715 * (oz * m))) by lra. assert (W1 : 1 <= Rpower (1 + 79.034 * (m * pw)) 0.6828) by (apply Rpower_ge1; lra). rewrite (fdiv_fin (2.4959 * (m * pw))) by lra. fl1.
  fold (bird_aerosol aod m). fold ta. fold (bird_absorption m ta). fold taa. rewrite (fdiv_fin ta taa) by exact Ptaa. fl1. fold rs.
  rewrite (fdiv_fin _ (1 - m + Rpower m 1.02)) by (apply Rgt_not_eq, multiple_factor, Pm). fl1. rewrite (fdiv_fin _ (1 - alb * rs)) by exact Pden. fl1. reflexivity.
Qed.
Hypothesis Bm : m <= 36.
Hypothesis Bm' : m' <= 29.
Hypothesis Bo : oz * m <= 6.
Hypothesis Pi : 0 <= i0.
Hypothesis Pg : 0 <= asym <= 1.
Hypothesis Pb : 0 <= alb <= 0.9.
Hypothesis Pz : 0 <= z.
Lemma cz_range : 0 <= cz <= 1.
Proof. unfold cz. destruct Rlt_dec as [L|L]; [|lra]. pose proof (cosD_pos z ltac:(lra)). pose proof (cosD_bound z). lra. Qed.
Lemma ta_range : 0 < ta <= 1. Proof. apply aerosol_range, Pa. Qed.
Lemma taa_range : ta <= taa <= 1. Proof. apply absorption_range; [lra|apply ta_range]. Qed.
Lemma ratio_range : 0 < ta / taa <= 1.
Proof. clear Ptaa Pden.
  pose proof ta_range. pose proof taa_range. split; [apply Rdiv_lt_0_compat; lra|]. apply Rmult_le_reg_r with taa; [lra|]. unfold Rdiv. rewrite Rmult_assoc, Rinv_l, Rmult_1_r, Rmult_1_l by lra. lra.
Qed.
Lemma rs_range : 0 <= rs <= 1.0685.
Proof. clear Ptaa Pden. pose proof ratio_range. unfold rs. assert (0 <= (1 - asym) * (1 - ta / taa)) by (apply Rmult_le_pos; lra). assert (0 <= asym * (1 - ta / taa)) by (apply Rmult_le_pos; lra). lra. Qed.
Lemma den_range : 0 < 1 - alb * rs <= 1.
Proof. clear Ptaa Pden. pose proof rs_range. assert (0 <= alb * rs) by (apply Rmult_le_pos; lra). assert (0 <= (0.9 - alb) * rs) by (apply Rmult_le_pos; lra). lra. Qed.
Lemma shrink a t : 0 <= a -> 0 < t <= 1 -> 0 <= a * t <= a.
Proof. intros A T. split; [apply Rmult_le_pos; lra|]. assert (0 <= a * (1 - t)) by (apply Rmult_le_pos; lra). lra. Qed.
Lemma beam_range : 0 <= beam <= 0.9662 * i0.
Proof.
  unfold beam. assert (MO : 0 <= oz * m) by (apply Rmult_le_pos; lra). assert (MW : 0 <= m * pw) by (apply Rmult_le_pos; lra). pose proof Pm' as Pm'.
  pose proof (shrink (0.9662 * i0) ta ltac:(lra) ta_range) as S1.
  pose proof (shrink _ _ (proj1 S1) (water_range (m * pw) MW)) as S2. pose proof (shrink _ _ (proj1 S2) (gases_range m')) as S3.
  pose proof (shrink _ _ (proj1 S3) (ozone_range (oz * m) (conj MO Bo))) as S4. pose proof (shrink _ _ (proj1 S4) (rayleigh_range m' (conj Pm' Bm'))) as S5. lra.
Qed.
Lemma scattered_nonneg : 0 <= scattered.
Proof. clear Ptaa Pden.
  unfold scattered. assert (MO : 0 <= oz * m) by (apply Rmult_le_pos; lra). assert (MW : 0 <= m * pw) by (apply Rmult_le_pos; lra). pose proof Pm' as Pm'.
  pose proof cz_range. pose proof ratio_range. pose proof taa_range. pose proof ta_range.
  pose proof (water_range (m * pw) MW). pose proof (gases_range m'). pose proof (ozone_range (oz * m) (conj MO Bo)). pose proof (rayleigh_range m' (conj Pm' Bm')).
  apply Rmult_le_pos; [|left; apply Rinv_0_lt_compat, multiple_factor, Pm].
  assert (0 <= asym * (1 - ta / taa)) by (apply Rmult_le_pos; lra). repeat (lra || apply Rmult_le_pos).
Qed.
Lemma bird_gh : 0 <= beam * cz <= gh.
Proof. clear Ptaa Pden.
  pose proof beam_range. pose proof cz_range. pose proof scattered_nonneg. pose proof den_range. assert (B : 0 <= beam * cz) by (apply Rmult_le_pos; lra). split; [exact B|].
  unfold gh. assert (I : 1 <= / (1 - alb * rs)). { apply Rmult_le_reg_r with (1 - alb * rs); [lra|]. rewrite Rinv_l; lra. }
  assert (0 <= (beam * cz + scattered) * (/ (1 - alb * rs) - 1)) by (apply Rmult_le_pos; lra). unfold Rdiv. lra.
Qed.
End Bird.

(** ** Rayleigh transmittance above one *)
Lemma ln2_lower : 69 / 101 <= ln 2.
Proof.
  assert (A : 69 * ln 1.01 <= ln 2).
  { assert (L : ln (1.01 ^ 69) <= ln 2).
    { left. apply ln_increasing; [apply pow_lt; lra|]. replace 1.01 with (101 / 100) by lra. replace ((101 / 100) ^ 69) with (101 ^ 69 / 100 ^ 69) by (unfold Rdiv; rewrite Rpow_mult_distr, pow_inv; reflexivity).
      assert (P : 0 < 100 ^ 69) by (apply pow_lt; lra). apply Rmult_lt_reg_r with (100 ^ 69); [exact P|]. unfold Rdiv. rewrite Rmult_assoc, Rinv_l, Rmult_1_r by lra.
      rewrite !pow_IZR, <- mult_IZR. apply IZR_lt. reflexivity. }
    rewrite ln_pow in L by lra. replace (INR 69) with 69 in L by (rewrite INR_IZR_INZ; reflexivity). exact L. }
  assert (B : 1 / 101 <= ln 1.01).
  { assert (E : ln 1.01 = - ln (1 - 1 / 101)) by (replace 1.01 with (/ (1 - 1 / 101)) by (apply Rinv_eq_compat || (apply Rmult_eq_reg_r with (1 - 1 / 101); [rewrite Rinv_l; lra|lra])); apply ln_Rinv; lra).
    pose proof (exp_ineq1_le (- (1 / 101))) as K. assert (ln (1 - 1 / 101) <= - (1 / 101)); [|lra]. rewrite <- (ln_exp (- (1 / 101))). destruct (Req_dec (1 - 1 / 101) (exp (- (1 / 101)))) as [Q|Q]; [rewrite Q; lra|left; apply ln_increasing; lra]. }
  lra.
Qed.
Lemma ln32 : ln 32 = 5 * ln 2.
Proof. replace 32 with (2 ^ 5) by ring. rewrite ln_pow by lra. replace (INR 5) with 5 by (cbn; lra). reflexivity. Qed.
Lemma ln2_upper : ln 2 <= 1.
Proof. pose proof (exp_ineq1_le 1). rewrite <- (ln_exp 1). destruct (Req_dec 2 (exp 1)) as [Q|Q]; [rewrite Q; lra|left; apply ln_increasing; lra]. Qed.
Lemma Rpower_2 k : Rpower 32 (INR k / 5) = 2 ^ k.
Proof. unfold Rpower. rewrite ln32. replace (INR k / 5 * (5 * ln 2)) with (INR k * ln 2) by field. rewrite <- (Rpower_pow k 2) by lra. reflexivity. Qed.
Lemma rayleigh_32 : 1.13 < bird_rayleigh 32.
Proof.
  unfold bird_rayleigh. assert (A : 16 <= Rpower 32 0.84). { replace 16 with (2 ^ 4) by ring. rewrite <- Rpower_2. apply Rle_Rpower; cbn; lra. }
  assert (B : 0.093 <= Rpower 32 1.01 - 33).
  { replace 1.01 with (1 + 1 / 100) by lra. rewrite Rpower_split by lra. assert (1 + 1 / 100 * ln 32 <= Rpower 32 (1 / 100)) by (unfold Rpower; apply exp_ineq1_le). rewrite ln32 in H. pose proof ln2_lower. lra. }
  pose proof (exp_ineq1_le (-0.0903 * Rpower 32 0.84 * (1 + 32 - Rpower 32 1.01))) as E. set (p := Rpower 32 0.84) in *. set (q := Rpower 32 1.01) in *.
  assert (0 <= (p - 16) * (q - 33)) by (apply Rmult_le_pos; lra). lra.
Qed.
Lemma gases_32 : 0.949 < bird_gases 32.
Proof.
  unfold bird_gases. assert (A : Rpower 32 0.26 <= 4). { replace 4 with (2 ^ 2) by ring. rewrite <- Rpower_2. apply Rle_Rpower; cbn; lra. }
  pose proof (exp_ineq1_le (-0.0127 * Rpower 32 0.26)). lra.
Qed.
Lemma aerosol_32 a : 0 < a <= 1 / 100000000 -> 0.996 < bird_aerosol a 32.
Proof.
  intros H. unfold bird_aerosol.
  assert (A : Rpower a 0.873 <= 1 / 10000).
  { apply Rle_trans with (Rpower (1 / 100000000) 0.873); [apply Rle_Rpower_l; lra|]. apply Rle_trans with (Rpower (1 / 100000000) (1 / 2)).
    - unfold Rpower. apply exp_le. assert (ln (1 / 100000000) < 0) by (rewrite <- ln_1; apply ln_increasing; lra). assert (0 <= (0.873 - 1 / 2) * (- ln (1 / 100000000))) by (apply Rmult_le_pos; lra). lra.
    - replace (1 / 2) with (/ 2) by lra. rewrite Rpower_sqrt by lra. apply Rle_trans with (sqrt ((1 / 10000) * (1 / 10000))); [apply sqrt_le_1; lra|rewrite sqrt_square; lra]. }
  assert (B : 0 <= 1 + a - Rpower a 0.7088 <= 1 + a) by (pose proof (Rpower_le1 a 0.7088 ltac:(lra) ltac:(lra)); pose proof (Rpower_pos a 0.7088); lra).
  assert (C : 0 < Rpower 32 0.9108 <= 32) by (split; [apply Rpower_pos|]; apply Rle_trans with (Rpower 32 1); [apply Rle_Rpower; lra|rewrite Rpower_1; lra]).
  pose proof (Rpower_pos a 0.873). set (x := Rpower a 0.873) in *. set (y := 1 + a - _) in *. set (w := Rpower 32 _) in *.
  assert (D : 0 <= x * y <= 1 / 10000 * (1 + a)) by (split; [apply Rmult_le_pos; lra|apply Rmult_le_compat; lra]).
  assert (E : x * y * w <= 1 / 10000 * (1 + a) * 32) by (apply Rmult_le_compat; lra).
  pose proof (exp_ineq1_le (- x * y * w)). lra.
Qed.

(** ** simplified_solis *)
Section Solis.
Variables el aod pw pr i0 : R.
Let w := Rmax pw 0.2.
Let lp := ln (pr / 101325).
Let s := Rmax 1e-30 (sinD el).
Let i0p := i0 * fst (fst (fst (solis_optical_depths w aod lp))).
Let tb := snd (fst (fst (solis_optical_depths w aod lp))).
Let tg := snd (fst (solis_optical_depths w aod lp)).
Let td := snd (solis_optical_depths w aod lp).
Let b := fst (fst (solis_exponents w aod lp)).
Let g := snd (fst (solis_exponents w aod lp)).
Let d := snd (solis_exponents w aod lp).
Hypothesis Pa : 0 <= aod.
Hypothesis Pp : 0 < pr.
Lemma solis_fin : simplified_solis #el #aod #pw #pr #i0 =
  {| cs_ghi := #(i0p * exp (- tg / Rpower s g) * s); cs_dni := #(i0p * exp (- tb / Rpower s b)); cs_dhi := #(i0p * exp (- td / Rpower s d)) |}.
Proof.
  assert (Pw : 0 < w) by (unfold w; pose proof (Rmax_r pw 0.2); lra). assert (Ps : 0 < s) by (unfold s; pose proof (Rmax_l 1e-30 (sinD el)); lra).
  assert (Pq : 0 < pr / 101325) by (apply Rdiv_lt_0_compat; lra).
  assert (EP : forall x y : R, y <> 0 -> fdiv #x #y = #(x / y)) by (intros; apply fdiv_fin; assumption).
  unfold simplified_solis, calc_i0p, calc_taub, calc_b, calc_taug, calc_g, calc_taud, calc_d, p0.
  rewrite (fmax_fin pw), fradians_fin, fsin_fin, (fmax_fin 1e-30). fold w. change (sin (Rrad el)) with (sinD el). fold s. rewrite (fdiv_fin pr) by lra. rewrite !(fln_fin (pr / 101325)), !(fln_fin w) by lra. fold lp.
  rewrite !(fpow_fin w) by lra. rewrite !fpown_fin. fl1. rewrite !(fpow_fin (1 + aod)) by lra. rewrite (fdiv_fin 1 (18 + 152 * aod)) by lra. fl1. rewrite !(fpow_fin s) by exact Ps.
  rewrite !fltb_fin. unfold Rltb.
  destruct (Rlt_dec aod 0.05) as [L|L]; cbn [where_]; fl1; rewrite !fdiv_fin by (apply Rgt_not_eq, Rpower_pos); fl1; f_equal; f_equal; unfold i0p, tb, tg, td, b, g, d, solis_optical_depths, solis_exponents; destruct (Rlt_dec aod 0.05) as [L'|L']; try (exfalso; lra); cbn [fst snd]; reflexivity.
Qed.
Lemma solis_i0p_nonneg : 0 <= i0 -> 101325 / 15 <= pr -> 0 <= i0p.
Proof.
  intros Pi Pl. unfold i0p, solis_optical_depths. cbn [fst snd]. apply Rmult_le_pos; [exact Pi|]. assert (Pw : 0.2 <= w) by (unfold w; apply Rmax_r).
  assert (0 <= 0.12 * Rpower w 0.56 * aod ^ 2) by (apply Rmult_le_pos; [apply Rmult_le_pos; [lra|left; apply Rpower_pos]|apply pow2_ge_0]).
  assert (0 <= 0.97 * Rpower w 0.032 * aod) by (apply Rmult_le_pos; [apply Rmult_le_pos; [lra|left; apply Rpower_pos]|exact Pa]).
  assert (LN : forall x, 0 < x -> 1 - / x <= ln x). { intros x Px. assert (ln (/ x) <= / x - 1); [|rewrite ln_Rinv in H1 by exact Px; lra]. pose proof (exp_ineq1_le (ln (/ x))) as E. rewrite exp_ln in E by (apply Rinv_0_lt_compat, Px). lra. }
  assert (W : -4 <= ln w). { pose proof (LN w ltac:(lra)). assert (/ w <= / 0.2) by (apply Rinv_le_contravar; lra). assert (/ 0.2 = 5) by (apply Rmult_eq_reg_r with 0.2; [rewrite Rinv_l; lra|lra]). lra. }
  assert (Q : -14 <= lp). { unfold lp. assert (Pq : / 15 <= pr / 101325) by (unfold Rdiv; lra). pose proof (LN (pr / 101325) ltac:(lra)). assert (/ (pr / 101325) <= / / 15) by (apply Rinv_le_contravar; lra). rewrite Rinv_inv in H2. lra. }
  assert (1 + 0.0051 * ln w <= Rpower w 0.0051) by (unfold Rpower; apply exp_ineq1_le). lra.
Qed.
End Solis.

(** ** missing values *)
From Verif Require Import Model.Tools.
Lemma nan_sub_r x : fsub x NaN = NaN. Proof. destruct x; reflexivity. Qed.
Lemma nan_add_r x : fadd x NaN = NaN. Proof. destruct x; reflexivity. Qed.
Lemma nan_mul_r x : fmul x NaN = NaN. Proof. destruct x; reflexivity. Qed.
Lemma nan_div_r x : fdiv x NaN = NaN. Proof. destruct x; reflexivity. Qed.
Lemma nan_add_l x : fadd NaN x = NaN. Proof. reflexivity. Qed.
Lemma nan_sub_l x : fsub NaN x = NaN. Proof. reflexivity. Qed.
Lemma nan_mul_l x : fmul NaN x = NaN. Proof. reflexivity. Qed.
Lemma nan_div_l x : fdiv NaN x = NaN. Proof. reflexivity. Qed.
Lemma nan_exp : fexp NaN = NaN. Proof. reflexivity. Qed.
Lemma nan_ln : fln NaN = NaN. Proof. reflexivity. Qed.
Lemma nan_neg : fneg NaN = NaN. Proof. reflexivity. Qed.
Lemma nan_max_l x : fmax NaN x = NaN. Proof. reflexivity. Qed.
Lemma nan_max_r x : fmax x NaN = NaN. Proof. destruct x; reflexivity. Qed.
Lemma nan_pow_l b : b <> 0 -> fpow NaN #b = NaN.
Proof. intros H. unfold fpow. destruct (Reqb_spec b 0) as [E|E]; [contradiction|reflexivity]. Qed.
Ltac nans := repeat first [rewrite nan_sub_r | rewrite nan_add_r | rewrite nan_mul_r | rewrite nan_div_r | rewrite nan_add_l | rewrite nan_sub_l | rewrite nan_mul_l | rewrite nan_div_l
  | rewrite nan_exp | rewrite nan_ln | rewrite nan_neg | rewrite nan_max_l | rewrite nan_max_r | rewrite nan_pow_l by lra].
Lemma bird_nan_airmass z a380 a500 pw oz pr i0 asym alb : bird z NaN a380 a500 pw oz pr i0 asym alb = {| bd_direct_horizontal := NaN; bd_ghi := NaN; bd_dni := NaN; bd_dhi := NaN |}.
Proof. unfold bird, get_absolute_airmass. nans. reflexivity. Qed.
Lemma solis_nan el aod pw pr i0 : (aod = NaN \/ pw = NaN \/ pr = NaN \/ i0 = NaN) -> simplified_solis el aod pw pr i0 = {| cs_ghi := NaN; cs_dni := NaN; cs_dhi := NaN |}.
Proof.
  unfold simplified_solis. intros H.
  assert (K : forall i t s e (T : t = NaN \/ i = NaN), fmul i (fexp (fdiv (fneg t) (fpow s e))) = NaN) by (intros i t s e [E | E]; subst; nans; reflexivity).
  destruct H as [E | [E | [E | E]]]; subst.
  - f_equal; rewrite K; try reflexivity; left; unfold calc_taub, calc_taug, calc_taud; nans; reflexivity.
  - f_equal; rewrite K; try reflexivity; left; unfold calc_taub, calc_taug, calc_taud; nans; try reflexivity. destruct (fltb aod #0.05); cbn [where_]; nans; reflexivity.
  - f_equal; rewrite K; try reflexivity; left; unfold calc_taub, calc_taug, calc_taud; nans; reflexivity.
  - f_equal; rewrite K; try reflexivity; right; unfold calc_i0p; nans; reflexivity.
Qed.
Lemma solis_nan_elevation aod pw pr i0 : cs_ghi (simplified_solis NaN aod pw pr i0) = NaN.
Proof. unfold simplified_solis. change (fsin (fradians NaN)) with NaN. nans. reflexivity. Qed.
Lemma degrees_index_error d c e : degrees_to_index d c = Err e -> e = ValueError.
Proof.
  unfold degrees_to_index. destruct c; [| |congruence].
  all: match goal with |- context [if fgtb ?i _ then _ else _] => set (ix := i) end; destruct (fgtb _ _); [destruct (fleb _ _); congruence|]; destruct (fltb _ _); [destruct (fleb _ _); congruence|]; destruct ix; congruence.
Qed.
