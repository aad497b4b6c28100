(** C94: DISC and DIRINDEX. *)
From Verif Require Import Base.Fl Base.FlFacts Base.Py Spec.Decomposition Model.Atmosphere Model.Irradiance Model.IrradDecomp Proofs.Decomp Proofs.Disc.
From Coq Require Import Psatz.
Open Scope R_scope.
(** the value by day: extraterrestrial irradiance times the published transmittance, floored at 0 *)
Theorem C94_disc_value : forall ghi zenith doy pressure mc max_zenith max_airmass k m i0,
  clearness_index #ghi #zenith (fmul #1370 (spencer_factor doy)) mc #1 = #k ->
  spencer_factor doy = #i0 ->
  (match pressure with Some p => get_absolute_airmass (am_kasten1966 (airmass_z #zenith)) p | None => am_kasten1966 (airmass_z #zenith) end) = #m ->
  0 <= ghi -> zenith <= max_zenith ->
  let d := disc #ghi #zenith doy pressure mc #max_zenith #max_airmass in
  disc_dni d = #(Rmax (disc_transmittance k (Rmin m max_airmass) * (1370 * i0)) 0) /\ disc_kt d = #k /\ disc_airmass d = #(Rmin m max_airmass).
Proof.
  intros g z doy pr mc mz mam k m i0 Ek Ei Em Hg Hz. cbv zeta. unfold disc. rewrite Ek, Ei. 
  replace (match pr with Some p => get_absolute_airmass (am_kasten1966 (airmass_z #z)) p | None => am_kasten1966 (airmass_z #z) end) with #m by (symmetry; exact Em).
  rewrite disc_kn_fin. cbn [disc_dni disc_kt disc_airmass]. split; [|split; reflexivity].
  rewrite !fmul_fin. rewrite fgtb_fin, !fltb_fin. rewrite (Rltb_f mz z), (Rltb_f g 0) by lra. cbn [orb]. unfold Rltb. destruct Rlt_dec; cbn [where_]; [rewrite Rmax_right|rewrite Rmax_left]; try reflexivity; lra.
Qed.
Print Assumptions C94_disc_value.
(** no beam once the sun is beyond max_zenith or for negative ghi, whatever the other inputs *)
Theorem C94_disc_zero : forall ghi zenith doy pressure mc max_zenith max_airmass,
  flt max_zenith zenith \/ flt ghi #0 -> disc_dni (disc ghi zenith doy pressure mc max_zenith max_airmass) = #0.
Proof.
  intros g z doy pr mc mz mam H. unfold disc. destruct (disc_kn _ _ _) as [kn am]. cbn [disc_dni].
  destruct H as [H|H]; unfold flt in H; [unfold fgtb; rewrite H|rewrite H]; rewrite ?Bool.orb_true_r; reflexivity.
Qed.
Print Assumptions C94_disc_zero.
(** never negative, whatever the inputs; kt is between 0 and 1 (or nan) and the airmass never above the maximum *)
Theorem C94_disc_range : forall ghi zenith doy pressure mc max_zenith max_airmass,
  let d := disc ghi zenith doy pressure mc max_zenith max_airmass in
  atleast #0 (disc_dni d) /\ within #0 #1 (disc_kt d) /\ atmost max_airmass (disc_airmass d).
Proof.
  intros g z doy pr mc mz mam. cbv zeta. unfold disc. set (k := clearness_index _ _ _ _ _).
  set (am := match pr with Some p => _ | None => _ end). destruct (disc_kn k am mam) as [kn am'] eqn:E.
  assert (A : am' = fmin am mam) by (unfold disc_kn in E; congruence). cbn [disc_dni disc_kt disc_airmass].
  split; [|split].
  - set (dn := fmul kn _). destruct (_ || _)%bool eqn:B; cbn [where_]; [right; rewrite fle_fin; lra|].
    apply Bool.orb_false_iff in B. destruct B as [_ B]. destruct dn as [r| | |]; try discriminate B.
    + rewrite fltb_fin in B. right. rewrite fle_fin. unfold Rltb in B. destruct (Rlt_dec r 0); [discriminate|lra].
    + right. reflexivity.
    + left. reflexivity.
  - apply clearness_index_within. lra.
  - rewrite A. destruct am as [a| | |], mam as [b| | |]; try (left; reflexivity); try (right; reflexivity).
    + right. rewrite fmin_fin, fle_fin. apply Rmin_r.
    + right. cbn. unfold fle. cbn. rewrite ?Rleb_t by lra. reflexivity.
Qed.
Print Assumptions C94_disc_range.
(** no global irradiance, no beam *)
Theorem C94_disc_dark : forall zenith doy pressure mc max_zenith max_airmass m i0 ,
  spencer_factor doy = #i0 -> 0 < i0 -> 0 < mc ->
  (match pressure with Some p => get_absolute_airmass (am_kasten1966 (airmass_z #zenith)) p | None => am_kasten1966 (airmass_z #zenith) end) = #m ->
  0 <= m -> 0 <= max_airmass <= 12 ->
  disc_dni (disc #0 #zenith doy pressure #mc #max_zenith #max_airmass) = #0.
Proof.
  intros z doy pr mc mz mam m i0 Ei Pi Pm Em Hm Hx.
  assert (PM : 0 < Rmax (cosD z) mc) by (unfold Rmax; destruct Rle_dec; lra).
  assert (PP : 0 < 1370 * i0 * Rmax (cosD z) mc) by (apply Rmult_lt_0_compat; lra).
  assert (Ek : clearness_index #0 #z (fmul #1370 (spencer_factor doy)) #mc #1 = #0).
  { rewrite Ei, fmul_fin, clearness_index_fin by lra. f_equal. replace (0 / _) with 0 by (field; lra). rewrite Rmax_left by lra. rewrite Rmin_left; lra. }
  destruct (Rle_dec z mz) as [L|L].
  - destruct (C94_disc_value 0 z doy pr #mc mz mam 0 m i0 Ek Ei Em ltac:(lra) L) as (E & _). rewrite E. f_equal. apply Rmax_right.
    assert (R : 0 <= Rmin m mam <= 12) by (unfold Rmin; destruct Rle_dec; lra). pose proof (disc_dark _ R).
    assert (0 <= - disc_transmittance 0 (Rmin m mam) * (1370 * i0)) by (apply Rmult_le_pos; lra). lra.
  - apply C94_disc_zero. left. apply flt_fin. lra.
Qed.
Print Assumptions C94_disc_dark.
(** dirindex: the clear-sky beam scaled by the ratio of the dirint values, floored at 0 *)
Theorem C94_dirindex : forall clear dirint dirint_clear, dirint_clear <> 0 ->
  dirindex_combine #clear #dirint #dirint_clear = #(Rmax (clear * dirint / dirint_clear) 0).
Proof.
  intros c d k H. unfold dirindex_combine. rewrite fmul_fin, fdiv_fin by exact H. rewrite fltb_fin. unfold Rltb. destruct Rlt_dec; cbn [where_]; [rewrite Rmax_right|rewrite Rmax_left]; try reflexivity; lra.
Qed.
Print Assumptions C94_dirindex.
Theorem C94_dirindex_cloudless : forall clear d, 0 <= clear -> d <> 0 -> dirindex_combine #clear #d #d = #clear.
Proof. intros c d Hc Hd. rewrite C94_dirindex by exact Hd. f_equal. replace (c * d / d) with c by (field; exact Hd). apply Rmax_left. lra. Qed.
Print Assumptions C94_dirindex_cloudless.
Theorem C94_dirindex_not_negative : forall clear dirint dirint_clear, atleast #0 (dirindex_combine clear dirint dirint_clear).
Proof.
  intros c d k. unfold dirindex_combine. set (x := fdiv _ _). destruct x as [x| | |].
  - rewrite fltb_fin. unfold Rltb. right. destruct Rlt_dec; cbn [where_]; rewrite fle_fin; lra.
  - right. reflexivity. 
  - right. cbn. rewrite fle_fin. lra.
  - left. reflexivity.
Qed.
Print Assumptions C94_dirindex_not_negative.
