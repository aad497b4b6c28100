(** Proofs about transit_sunrise_sunset and the wrappers. *)
From Verif Require Import Base.Fl Base.FlFacts Base.Py Base.Trig Model.SolarPosition Model.SpaTables Model.Spa Spec.SolarSpec Spec.SpaSpec Proofs.SolarP Proofs.EphemP Proofs.SpaGeom.
From Coq Require Import ZArith Psatz.
Open Scope R_scope.

Definition rwrap (x : R) : R := if Rltb 2 (Rabs x) then Rmodp x 1 else x.
Lemma wrap2_fin x : wrap2 #x = #(rwrap x).
Proof. unfold wrap2, rwrap. autorewrite with flfin. cbn [fabs]. autorewrite with flfin. destruct (Rltb 2 (Rabs x)); [rewrite fmod_fin by lra|]; reflexivity. Qed.
Lemma rwrap_limited x : limited x (rwrap x).
Proof.
  unfold limited, rwrap. destruct (Rltb_spec 2 (Rabs x)) as [H|H]; [right|left].
  - split; [exact H|]. destruct (Rmodp_spec x 1) as (B & k & K); [lra|]. split; [exact B|]. exists k. lra.
  - split; [lra | reflexivity].
Qed.
Section Day.
  Variables (sst : R -> R -> fl * fl * fl) (lat lon day dt v a0 d0 am dm ap dp : R) (junk1 junk2 junk3 junk4 junk5 : fl).
  Hypothesis Day : exists k : Z, day = 86400 * IZR k.
  Hypothesis S0 : sst day dt = (#v, junk4, junk5).
  Hypothesis S1 : sst (day - dt) dt = (junk1, #a0, #d0).
  Hypothesis S2 : sst (day - dt - 86400) dt = (junk2, #am, #dm).
  Hypothesis S3 : sst (day - dt + 86400) dt = (junk3, #ap, #dp).
  Hypothesis Clat : 0 < cos (Rrad lat).
  Hypothesis Cd : 0 < cos (Rrad d0).
  Let arg := (sin (Rrad (-0.8333)) - sin (Rrad lat) * sin (Rrad d0)) / (cos (Rrad lat) * cos (Rrad d0)).
  Let mt := Rmodp ((a0 - lon - v) / 360) 1.
  Let ra m := through3 (a0 - rwrap (a0 - am)) a0 (a0 + rwrap (ap - a0)) (m + dt / 86400).
  Let dec m := through3 (d0 - rwrap (d0 - dm)) d0 (d0 + rwrap (dp - d0)) (m + dt / 86400).
  Let ha m := let x := Rmodp (v + 360.985647 * m + lon - ra m) 360 in if Rleb 180 x then x - 360 else x.
  Let alt m := Rdeg (asin (sun_up (Rrad lat) (Rrad (dec m)) (Rrad (ha m)))).
  Let step m := (alt m + 0.8333) / (360 * cos (Rrad (dec m)) * cos (Rrad lat) * sin (Rrad (ha m))).
  Lemma day_floor : Rfloor (day / 86400) * 86400 = day.
  Proof.
    destruct Day as [k ->]. replace (86400 * IZR k / 86400) with (IZR k) by field. unfold Rfloor.
    assert (Q : Int_part (IZR k) = k).
    { pose proof (base_Int_part (IZR k)) as [B1 B2].
      assert (X : (Int_part (IZR k) <= k)%Z) by (apply le_IZR; lra). assert (Y : (k < Int_part (IZR k) + 1)%Z) by (apply lt_IZR; rewrite plus_IZR; lra). lia. }
    rewrite Q. ring.
  Qed.
  Lemma prime_ra m : srs_prime #a0 #(rwrap (a0 - am)) #(rwrap (ap - a0)) #dt #m = #(ra m).
  Proof. unfold srs_prime. rewrite fdiv_fin by lra. cbv zeta. autorewrite with flfin. rewrite fdiv_fin by lra. autorewrite with flfin. f_equal. unfold ra, through3. field. Qed.
  Lemma prime_dec m : srs_prime #d0 #(rwrap (d0 - dm)) #(rwrap (dp - d0)) #dt #m = #(dec m).
  Proof. unfold srs_prime. rewrite fdiv_fin by lra. cbv zeta. autorewrite with flfin. rewrite fdiv_fin by lra. autorewrite with flfin. f_equal. unfold dec, through3. field. Qed.
  Lemma hp_fin m : srs_hp #v #lon #m #(ra m) = #(ha m).
  Proof.
    unfold srs_hp. autorewrite with flfin. rewrite fmod_fin by lra. cbv zeta. autorewrite with flfin. unfold ha. cbv zeta.
    destruct (Rleb 180 (Rmodp (v + 360.985647 * m + lon - ra m) 360)); reflexivity.
  Qed.
  Lemma h_fin m : srs_h #lat #(dec m) #(ha m) = #(alt m).
  Proof.
    unfold srs_h. autorewrite with flfin.
    change (sin (Rrad lat) * sin (Rrad (dec m)) + cos (Rrad lat) * cos (Rrad (dec m)) * cos (Rrad (ha m))) with (sun_up (Rrad lat) (Rrad (dec m)) (Rrad (ha m))).
    rewrite fasin_fin by apply sun_up_bound. apply fdegrees_fin.
  Qed.
  Lemma corr_fin m : cos (Rrad (dec m)) * sin (Rrad (ha m)) <> 0 -> srs_corr #lat #m #(dec m) #(ha m) #(alt m) = #((m + step m) * 86400).
  Proof.
    intros H. unfold srs_corr. autorewrite with flfin. rewrite fdiv_fin.
    - autorewrite with flfin. reflexivity.
    - intros Z. apply H. apply Rmult_eq_reg_l with (360 * cos (Rrad lat)); [|lra]. rewrite Rmult_0_r, <- Z. ring.
  Qed.
  Lemma srs_transit : exists r s, srs_day sst #lat #lon day dt = (#(day + 86400 * (mt - ha mt / 360)), r, s) /\
    (1 < Rabs arg -> r = NaN /\ s = NaN) /\
    (Rabs arg <= 1 -> let h0 := Rmodp (Rdeg (acos arg)) 180 in let wr := Rmodp (mt - h0 / 360) 1 in let ws := Rmodp (mt + h0 / 360) 1 in
      (cos (Rrad (dec wr)) * sin (Rrad (ha wr)) <> 0 -> r = #(day + 86400 * (mt - h0 / 360 + step wr))) /\
      (cos (Rrad (dec ws)) * sin (Rrad (ha ws)) <> 0 -> s = #(day + 86400 * (mt + h0 / 360 + step ws)))).
  Proof.
    unfold srs_day. rewrite day_floor, S0, S1, S2, S3. cbn [fst snd]. cbv beta iota.
    change (#a0 - #am)%fl with #(a0 - am). change (#d0 - #dm)%fl with #(d0 - dm). change (#ap - #a0)%fl with #(ap - a0). change (#dp - #d0)%fl with #(dp - d0).
    rewrite !wrap2_fin.
    set (carg := ((fsin (fradians #(-0.8333)) - fsin (fradians #lat) * fsin (fradians #d0)) / (fcos (fradians #lat) * fcos (fradians #d0)))%fl).
    assert (CA : carg = #arg).
    { unfold carg. autorewrite with flfin. rewrite fdiv_fin by (apply Rmult_integral_contrapositive; split; lra). reflexivity. }
    rewrite CA. clear carg CA.
    assert (MT : fmod ((#a0 - #lon - #v) / #360)%fl #1 = #mt).
    { autorewrite with flfin. rewrite fdiv_fin, fmod_fin by lra. reflexivity. }
    rewrite MT. set (AL := srs_prime #a0 #(rwrap (a0 - am)) #(rwrap (ap - a0)) #dt). set (DE := srs_prime #d0 #(rwrap (d0 - dm)) #(rwrap (dp - d0)) #dt).
    assert (AE : forall m, AL #m = #(ra m)) by (intros; apply prime_ra). assert (DEE : forall m, DE #m = #(dec m)) by (intros; apply prime_dec).
    assert (AN : AL NaN = NaN) by (unfold AL, srs_prime; rewrite fdiv_fin by lra; reflexivity).
    assert (DN : DE NaN = NaN) by (unfold DE, srs_prime; rewrite fdiv_fin by lra; reflexivity).
    clearbody AL DE. cbv zeta. rewrite AE, hp_fin.
    assert (T1 : ((#mt - #(ha mt) / #360) * #86400 + #day)%fl = #(day + 86400 * (mt - ha mt / 360))).
    { rewrite fdiv_fin by lra. autorewrite with flfin. f_equal. ring. }
    rewrite T1. cbn [fabs]. rewrite fgtb_fin. destruct (Rltb_spec 1 (Rabs arg)) as [G|G].
    - eexists. eexists. split; [reflexivity|]. split; [|intros; exfalso; lra]. intros _. cbn [facos fdegrees fmul fdiv fmod fsub fadd fneg fgeb fleb fltb]. unfold fdegrees. cbn [fmul fdiv fmod fsub fadd fneg fgeb fleb fltb].
      unfold fsub. cbn [fadd fneg fmod fgeb fleb fltb]. unfold fgeb. cbn [fleb fltb fmod]. rewrite AN, DN. split; reflexivity.
    - assert (AR : -1 <= arg <= 1). { apply Rabs_le_inv. lra. } rewrite facos_fin by exact AR. rewrite fdegrees_fin, fmod_fin by lra. set (h0 := Rmodp (Rdeg (acos arg)) 180).
      rewrite (fdiv_fin h0) by lra. change (#mt - #(h0 / 360))%fl with #(mt - h0 / 360). change (#mt + #(h0 / 360))%fl with #(mt + h0 / 360).
      rewrite !(fmod_fin _ 1) by lra. rewrite fgeb_fin, fltb_fin. set (wr := Rmodp (mt - h0 / 360) 1). set (ws := Rmodp (mt + h0 / 360) 1).
      rewrite !AE, !DEE, !hp_fin, !h_fin. eexists. eexists. split; [reflexivity|]. split; [intros; exfalso; lra|]. intros _.
      assert (BT : 0 <= mt < 1) by (apply Rmodp_spec; lra). assert (BH : 0 <= h0 < 180) by (apply Rmodp_spec; lra).
      destruct (Rmodp_spec (mt - h0 / 360) 1) as (BR & kr & KR); [lra|]. fold wr in BR, KR. destruct (Rmodp_spec (mt + h0 / 360) 1) as (BS & ks & KS); [lra|]. fold ws in BS, KS.
      split; intros NZ; rewrite corr_fin by exact NZ; autorewrite with flfin.
      + destruct (Rltb_spec (mt - h0 / 360) 0) as [L|L]; autorewrite with flfin; f_equal.
        * assert (K : kr = (-1)%Z). { assert (IZR (-2) < IZR kr < IZR 0) as [K1 K2] by (cbn; lra). apply lt_IZR in K1, K2. lia. }
          subst kr. replace (mt - h0 / 360) with (wr + 1 * -1) by lra. ring.
        * assert (K : kr = 0%Z). { assert (IZR (-1) < IZR kr < IZR 1) as [K1 K2] by (cbn; lra). apply lt_IZR in K1, K2. lia. }
          subst kr. replace (mt - h0 / 360) with (wr + 1 * 0) by lra. ring.
      + destruct (Rleb_spec 1 (mt + h0 / 360)) as [L|L]; autorewrite with flfin; f_equal.
        * assert (K : ks = 1%Z). { assert (IZR 0 < IZR ks < IZR 2) as [K1 K2] by (cbn; lra). apply lt_IZR in K1, K2. lia. }
          subst ks. replace (mt + h0 / 360) with (ws + 1 * 1) by lra. ring.
        * assert (K : ks = 0%Z). { assert (IZR (-1) < IZR ks < IZR 1) as [K1 K2] by (cbn; lra). apply lt_IZR in K1, K2. lia. }
          subst ks. replace (mt + h0 / 360) with (ws + 1 * 0) by lra. ring.
  Qed.
End Day.
Lemma mod_unique x w b : 0 < b -> 0 <= w < b -> (exists k : Z, w = x + b * IZR k) -> w = Rmodp x b.
Proof.
  intros B W [k K]. destruct (Rmodp_spec x b B) as (M & j & J). set (m := Rmodp x b) in *.
  assert (E : w - m = b * IZR (k + j)) by (rewrite plus_IZR; lra).
  assert (Z : (k + j = 0)%Z).
  { assert (L : b * IZR (k + j) < b * 1) by lra. assert (U : b * -1 < b * IZR (k + j)) by lra. apply Rmult_lt_reg_l in L, U; try lra. apply lt_IZR in L. apply (lt_IZR (-1)) in U. lia. }
  rewrite Z in E. lra.
Qed.
Lemma ha_unique x h : -180 <= h < 180 -> same_angle h x -> h = (let y := Rmodp x 360 in if Rleb 180 y then y - 360 else y).
Proof.
  intros H [k K]. cbv zeta. destruct (Rle_lt_dec 0 h) as [P|P].
  - assert (E : h = Rmodp x 360) by (apply mod_unique; [lra|lra|exists k; exact K]). rewrite <- E. rewrite Rleb_f by lra. reflexivity.
  - assert (E : h + 360 = Rmodp x 360) by (apply mod_unique; [lra|lra|exists (k + 1)%Z; rewrite plus_IZR; lra]). rewrite <- E. rewrite Rleb_t by lra. ring.
Qed.
Lemma sst_fin u dt : Rabs (millennia (tt_days u dt)) <= 4 ->
  exists v a d, spa_sst u dt = (#v, #a, #d) /\ same_angle v (sidereal_time (ut_days u) (millennia (tt_days u dt)) (centuries (tt_days u dt))) /\ equatorial u dt a d.
Proof.
  intros H. destruct (of_time u dt H) as (v & SV & E). set (t := millennia (tt_days u dt)) in *. set (T := centuries (tt_days u dt)) in *. cbv zeta in E.
  pose proof (z_small u dt H) as ZS. fold t T in ZS. cbv zeta in ZS. apply Rabs_le_inv in ZS.
  unfold spa_sst. rewrite E. cbv zeta. cbn [spa_v spa_alpha spa_delta]. eexists. eexists. eexists. split; [reflexivity|]. split; [exact SV|].
  unfold equatorial. cbv zeta. fold t T. change (SpaSpec.obliquity t T * PI / 180) with (Rrad (SpaSpec.obliquity t T)). set (eps := Rrad (SpaSpec.obliquity t T)) in *. set (b := sun_latitude t) in *.
  destruct (same_angle_trig _ _ (lam_same t T)) as [LC LS]. set (l := Rrad (spa_lam t T)) in *. change (sun_longitude t T * PI / 180) with (Rrad (sun_longitude t T)).
  assert (Xe : eq_x (Rrad (sun_longitude t T)) b eps = eq_x l b eps) by (unfold eq_x; rewrite LC; reflexivity).
  assert (Ye : eq_y (Rrad (sun_longitude t T)) b eps = eq_y l b eps) by (unfold eq_y; rewrite LS; reflexivity).
  assert (Ze : eq_z (Rrad (sun_longitude t T)) b eps = eq_z l b eps) by (unfold eq_z; rewrite LS; reflexivity).
  rewrite Xe, Ye, Ze. pose proof (eq_norm l b eps) as U. set (x := eq_x l b eps) in *. set (y := eq_y l b eps) in *. set (z := eq_z l b eps) in *.
  change (ra_deg x y * PI / 180) with (Rrad (ra_deg x y)). change (Rdeg (asin z) * PI / 180) with (Rrad (Rdeg (asin z))). rewrite Rrad_deg.
  assert (RC : cos (Rrad (ra_deg x y)) = cos (Ratan2 y x)) by (unfold ra_deg; change (cosD (Rmodp (Rdeg (Ratan2 y x)) 360) = cos (Ratan2 y x)); rewrite cosD_mod; apply cosD_deg).
  assert (RS : sin (Rrad (ra_deg x y)) = sin (Ratan2 y x)) by (unfold ra_deg; change (sinD (Rmodp (Rdeg (Ratan2 y x)) 360) = sin (Ratan2 y x)); rewrite sinD_mod; apply sinD_deg).
  rewrite RC, RS. split; [apply (dec_x x y z U)|]. split; [apply (dec_y x y z U)|]. split; [apply sin_asin; lra|]. split; [apply Rmodp_spec; lra|].
  assert (B : - (PI / 2) < asin z < PI / 2). { pose proof (asin_bound_lt z). lra. }
  split; [replace (-90) with (Rdeg (- (PI / 2))) by (rewrite Rdeg_opp, Rdeg_PI2; lra) | rewrite <- Rdeg_PI2]; apply Rdeg_lt; lra.
Qed.
Lemma tt_shift u dt : tt_days (u - dt) dt = ut_days u. Proof. unfold tt_days. f_equal. ring. Qed.
Lemma mill_bound day x : Rabs (millennia (ut_days day)) <= 3.9 -> Rabs x <= 10000000 -> Rabs (millennia (ut_days (day + x))) <= 4.
Proof. intros H X. apply Rabs_le_inv in H, X. apply Rabs_le. unfold millennia, ut_days in *. lra. Qed.
