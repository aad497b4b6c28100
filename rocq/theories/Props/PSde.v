(** C124-C125: fitting the single diode equation to one IV curve. *)
From Verif Require Import Base.Fl Base.FlFacts Base.Py Model.IvUtils Model.Sde Spec.IvSpec Proofs.ClearskyD Proofs.IvP Proofs.SdeP.
From Coq Require Import ZArith Psatz Arith.
From Coquelicot Require Import Coquelicot.
Open Scope R_scope.
Open Scope list_scope.
Import ListNotations.

Lemma Ok_inj {A} (a b : A) : Ok a = Ok b -> a = b. Proof. congruence. Qed.
(** ** C124: fit_sandia_simple *)
Lemma exp_minus_1 x : exp x - 1 = 0 <-> x = 0.
Proof. split; intros H; [apply exp_inv; rewrite exp_0; lra|subst; rewrite exp_0; lra]. Qed.
Lemma calc_I0_fin v i iph gsh rs a : a <> 0 -> v + rs * i <> 0 -> calc_I0 v i iph gsh rs a = #((iph - i - gsh * (v + rs * i)) / (exp ((v + rs * i) / a) - 1)).
Proof.
  intros A N. unfold calc_I0. apply fdiv_fin. intros E. apply (proj1 (exp_minus_1 _)) in E. apply N. replace (v + rs * i) with ((v + rs * i) / a * a) by (field; exact A). rewrite E. ring.
Qed.
Lemma calc_I0_sde v i iph rs rsh a : a <> 0 -> rsh <> 0 -> v + rs * i <> 0 -> on_sde_curve iph ((iph - i - 1 / rsh * (v + rs * i)) / (exp ((v + rs * i) / a) - 1)) rs rsh a v i.
Proof.
  intros A B N. unfold on_sde_curve. assert (exp ((v + rs * i) / a) - 1 <> 0). { intros E. apply (proj1 (exp_minus_1 _)) in E. apply N. replace (v + rs * i) with ((v + rs * i) / a * a) by (field; exact A). rewrite E. ring. }
  set (e := exp ((v + rs * i) / a) - 1) in *. field. split; assumption.
Qed.
Lemma sde_io iph io rs rsh a v i : a <> 0 -> rsh <> 0 -> v + rs * i <> 0 -> on_sde_curve iph io rs rsh a v i -> (iph - i - 1 / rsh * (v + rs * i)) / (exp ((v + rs * i) / a) - 1) = io.
Proof.
  intros A B N E. unfold on_sde_curve in E. assert (exp ((v + rs * i) / a) - 1 <> 0). { intros K. apply (proj1 (exp_minus_1 _)) in K. apply N. replace (v + rs * i) with ((v + rs * i) / a * a) by (field; exact A). rewrite K. ring. }
  set (e := exp ((v + rs * i) / a) - 1) in *. apply (Rmult_eq_reg_r e); [|assumption]. unfold Rdiv at 1. rewrite Rmult_assoc, Rinv_l, Rmult_1_r by assumption. unfold Rdiv in *. lra.
Qed.
(** from the coefficients of a curve, exactly its five parameters *)
Theorem C124_inverse : forall IL I0 Rs Rsh a v_mp i_mp v_oc, 0 < I0 -> 0 <= Rs -> 0 < Rsh -> 0 < a -> v_oc <> 0 -> v_mp + Rs * i_mp <> 0 ->
  on_sde_curve IL I0 Rs Rsh a v_mp i_mp -> on_sde_curve IL I0 Rs Rsh a v_oc 0 ->
  sandia_simple_params (IL / (1 + Rs / Rsh)) (1 / (Rsh + Rs)) (1 / a) (Rs / a) v_mp i_mp v_oc = Ok (SdeParams IL #I0 Rs Rsh a).
Proof.
  intros IL I0 Rs Rsh a v_mp i_mp v_oc I RS SH A VO VM EM EO. unfold sandia_simple_params. rewrite Reqb_f by (apply Rgt_not_eq, Rdiv_lt_0_compat; lra). cbv zeta.
  assert (E1 : 1 / (1 / a) = a) by (field; lra). assert (E2 : Rs / a / (1 / a) = Rs) by (field; lra). rewrite !E1, !E2.
  assert (E3 : 1 - Rs * (1 / (Rsh + Rs)) = Rsh / (Rsh + Rs)) by (field; lra). rewrite !E3. rewrite Reqb_f by (apply Rgt_not_eq, Rdiv_lt_0_compat; lra).
  assert (E4 : 1 / (Rsh + Rs) / (Rsh / (Rsh + Rs)) = 1 / Rsh) by (field; lra). rewrite !E4. rewrite Reqb_f by (apply Rgt_not_eq, Rdiv_lt_0_compat; lra).
  assert (E5 : 1 / (1 / Rsh) = Rsh) by (field; lra). rewrite !E5. assert (E6 : (1 + 1 / Rsh * Rs) * (IL / (1 + Rs / Rsh)) = IL). { field. split; [lra|]. lra. } rewrite !E6.
  rewrite !calc_I0_fin by lra. rewrite (sde_io IL I0 Rs Rsh a v_mp i_mp), (sde_io IL I0 Rs Rsh a v_oc 0) by (try assumption; lra).
  cbn [isnan orb]. rewrite !fleb_fin, !fltb_fin, !Rleb_f, !Rltb_t by lra. cbn [andb]. rewrite fadd_fin, fmul_fin. do 2 f_equal. f_equal. lra.
Qed.
Print Assumptions C124_inverse.
(** the saturation current is positive and makes the single diode equation hold at the maximum power point or at open circuit, or is the mean of the two values that do *)
Theorem C124_io : forall b0 b1 b3 b4 v_mp i_mp v_oc r, sandia_simple_params b0 b1 b3 b4 v_mp i_mp v_oc = Ok r -> v_oc <> 0 -> v_mp + sp_rs r * i_mp <> 0 ->
  exists io io_mp io_oc, sp_io r = #io /\ 0 < io /\
    on_sde_curve (sp_iph r) io_mp (sp_rs r) (sp_rsh r) (sp_nNsVth r) v_mp i_mp /\ on_sde_curve (sp_iph r) io_oc (sp_rs r) (sp_rsh r) (sp_nNsVth r) v_oc 0 /\
    io = (if Rle_dec io_oc 0 then io_mp else if Rle_dec io_mp 0 then io_oc else (io_mp + io_oc) / 2).
Proof.
  intros b0 b1 b3 b4 v_mp i_mp v_oc r. unfold sandia_simple_params. destruct (Reqb_spec b3 0) as [Z|N3]; [discriminate|]. cbv zeta. destruct (Reqb_spec (1 - b4 / b3 * b1) 0) as [Z|N4]; [discriminate|].
  set (gsh := b1 / (1 - b4 / b3 * b1)). destruct (Reqb_spec gsh 0) as [Z|NG]; [discriminate|]. set (iph := (1 + gsh * (b4 / b3)) * b0). set (rs := b4 / b3). intros H VO.
  destruct (isnan (calc_I0 v_mp i_mp iph gsh rs (1 / b3)) || isnan (calc_I0 v_oc 0 iph gsh rs (1 / b3)) || _)%bool eqn:B; [discriminate|]. apply Ok_inj in H. subst r. cbn [sp_io sp_iph sp_rs sp_rsh sp_nNsVth]. intros VM.
  assert (A : 1 / b3 <> 0) by (unfold Rdiv; apply Rmult_integral_contrapositive_currified; [lra|apply Rinv_neq_0_compat, N3]). assert (SH : 1 / gsh <> 0) by (unfold Rdiv; apply Rmult_integral_contrapositive_currified; [lra|apply Rinv_neq_0_compat, NG]).
  assert (VO' : v_oc + rs * 0 <> 0) by lra. rewrite !calc_I0_fin in * by assumption.
  pose proof (calc_I0_sde v_mp i_mp iph rs (1 / gsh) (1 / b3) A SH VM) as S1. pose proof (calc_I0_sde v_oc 0 iph rs (1 / gsh) (1 / b3) A SH VO') as S2. replace (1 / (1 / gsh)) with gsh in S1, S2 by (field; exact NG).
  set (x := _ / (exp ((v_mp + rs * i_mp) / (1 / b3)) - 1)) in *. set (y := _ / (exp ((v_oc + rs * 0) / (1 / b3)) - 1)) in *. cbn [isnan orb] in B. rewrite !fleb_fin in B. rewrite !fltb_fin, fadd_fin, fmul_fin.
  apply andb_false_iff in B. rewrite !Rleb_false in B. unfold Rltb. destruct (Rlt_dec 0 x), (Rlt_dec 0 y); cbn [andb].
  - exists (0.5 * (x + y)), x, y. repeat split; try assumption; [lra|]. destruct (Rle_dec y 0); [lra|]. destruct (Rle_dec x 0); lra.
  - exists x, x, y. repeat split; try assumption. destruct (Rle_dec y 0); [reflexivity|lra].
  - exists y, x, y. repeat split; try assumption. destruct (Rle_dec y 0); [lra|]. destruct (Rle_dec x 0); [reflexivity|lra].
  - exfalso. lra.
Qed.
Print Assumptions C124_io.
(** when the coefficients give no result *)
Theorem C124_params_errors : forall b0 b1 b3 b4 v_mp i_mp v_oc,
  (sandia_simple_params b0 b1 b3 b4 v_mp i_mp v_oc = Err ZeroDivisionError <-> b3 = 0 \/ b1 = 0 \/ b3 = b4 * b1) /\
  (b3 <> 0 -> b1 <> 0 -> b3 <> b4 * b1 -> v_oc <> 0 -> v_mp + b4 / b3 * i_mp <> 0 ->
   let rsh := (b3 - b4 * b1) / (b1 * b3) in
   sandia_simple_params b0 b1 b3 b4 v_mp i_mp v_oc = Err RuntimeError <->
   forall io, (on_sde_curve ((1 + b4 / b3 / rsh) * b0) io (b4 / b3) rsh (1 / b3) v_mp i_mp \/ on_sde_curve ((1 + b4 / b3 / rsh) * b0) io (b4 / b3) rsh (1 / b3) v_oc 0) -> io <= 0).
Proof.
  intros b0 b1 b3 b4 v_mp i_mp v_oc.
  assert (D : b3 <> 0 -> (1 - b4 / b3 * b1 = 0 <-> b3 = b4 * b1)). { intros N. replace (1 - b4 / b3 * b1) with ((b3 - b4 * b1) / b3) by (field; exact N). split; intros E; [|replace (b3 - b4 * b1) with 0 by lra; unfold Rdiv; ring]. apply Rmult_integral in E. destruct E as [E|E]; [lra|]. apply Rinv_neq_0_compat in N. contradiction. }
  assert (G : forall d, d <> 0 -> (b1 / d = 0 <-> b1 = 0)). { intros d N. split; intros E; [|rewrite E; unfold Rdiv; ring]. apply Rmult_integral in E. destruct E as [E|E]; [exact E|]. apply Rinv_neq_0_compat in N. contradiction. }
  split.
  - unfold sandia_simple_params. destruct (Reqb_spec b3 0) as [Z|N3]; [tauto|]. cbv zeta. destruct (Reqb_spec (1 - b4 / b3 * b1) 0) as [Z|N4]; [rewrite (D N3) in Z; tauto|].
    destruct (Reqb_spec (b1 / (1 - b4 / b3 * b1)) 0) as [Z|N1]; [rewrite (G _ N4) in Z; tauto|]. rewrite (D N3) in N4. rewrite G in N1 by (rewrite (D N3); exact N4). split; [|tauto].
    destruct (_ || _)%bool; discriminate.
  - intros N3 N1 N4 VO VM rsh. unfold sandia_simple_params. rewrite Reqb_f by exact N3. cbv zeta. rewrite Reqb_f by (rewrite (D N3); exact N4). rewrite Reqb_f by (rewrite G; [exact N1|rewrite (D N3); exact N4]).
    assert (R : b1 / (1 - b4 / b3 * b1) = 1 / rsh). { unfold rsh. field. repeat split; lra. } rewrite !R. replace (1 + 1 / rsh * (b4 / b3)) with (1 + b4 / b3 / rsh) by (unfold Rdiv; ring).
    assert (SH : rsh <> 0). { unfold rsh, Rdiv. apply Rmult_integral_contrapositive_currified; [lra|]. apply Rinv_neq_0_compat, Rmult_integral_contrapositive_currified; assumption. }
    assert (A : 1 / b3 <> 0) by (unfold Rdiv; apply Rmult_integral_contrapositive_currified; [lra|apply Rinv_neq_0_compat, N3]).
    assert (VO' : v_oc + b4 / b3 * 0 <> 0) by lra. rewrite !calc_I0_fin by assumption. set (iph := (1 + b4 / b3 / rsh) * b0). set (rs := b4 / b3) in *.
    pose proof (calc_I0_sde v_mp i_mp iph rs rsh (1 / b3) A SH VM) as S1. pose proof (calc_I0_sde v_oc 0 iph rs rsh (1 / b3) A SH VO') as S2.
    pose proof (fun io => sde_io iph io rs rsh (1 / b3) v_mp i_mp A SH VM) as U1. pose proof (fun io => sde_io iph io rs rsh (1 / b3) v_oc 0 A SH VO') as U2.
    set (x := _ / (exp ((v_mp + rs * i_mp) / (1 / b3)) - 1)) in *. set (y := _ / (exp ((v_oc + rs * 0) / (1 / b3)) - 1)) in *. cbn [isnan orb]. rewrite !fleb_fin, !fltb_fin. unfold Rleb. split.
    + intros E io [K|K]; [apply U1 in K|apply U2 in K]; subst io; destruct (Rle_dec x 0), (Rle_dec y 0); cbn [andb] in E; try discriminate; assumption.
    + intros K. pose proof (K x (or_introl S1)). pose proof (K y (or_intror S2)). destruct (Rle_dec x 0), (Rle_dec y 0); try lra. reflexivity.
Qed.
Print Assumptions C124_params_errors.

Section Fits.
Variable polyfit : list (R * R) -> R * R.
Variable lstsq3 : list (R * R * R) -> R * R * R.
(** the straight line is fitted to the shortest prefix that has all points below vlim x v_oc and gives a negative slope; the last point of the curve is never used *)
Theorem C124_window : forall curve vlim v_oc, increasing (map fst curve) ->
  exists first_idx, (first_idx <= length curve)%nat /\ (forall j, (j < length curve)%nat -> (fst (nth j curve (0, 0)) < vlim * v_oc <-> (j < first_idx)%nat)) /\
  let slope n := fst (polyfit (firstn n curve)) in
  (first_idx = 0%nat -> curve <> [] -> sandia_beta0_beta1 polyfit curve vlim v_oc = Err TypeError) /\
  ((0 < first_idx)%nat \/ curve = [] ->
   (forall b0 b1, sandia_beta0_beta1 polyfit curve vlim v_oc = Ok (b0, b1) <->
      exists n, (first_idx <= n < length curve)%nat /\ slope n < 0 /\ (forall m, (first_idx <= m < n)%nat -> 0 <= slope m) /\ b0 = snd (polyfit (firstn n curve)) /\ b1 = - slope n) /\
   (sandia_beta0_beta1 polyfit curve vlim v_oc = Err RuntimeError <-> forall n, (first_idx <= n < length curve)%nat -> 0 <= slope n)).
Proof.
  intros curve vlim v_oc IN. pose proof (searchsorted_spec (map fst curve) (vlim * v_oc) IN) as S0. cbv zeta in S0. rewrite map_length in S0. set (k := searchsorted (map fst curve) (vlim * v_oc)) in *. destruct S0 as (K & B & A). exists k. split; [exact K|].
  assert (NT : forall j, nth j (map fst curve) 0 = fst (nth j curve (0, 0))) by (intros j; rewrite <- (map_nth fst); reflexivity).
  split. { intros j J. split; intros H; [|rewrite <- NT; apply B, H]. destruct (Nat.lt_ge_cases j k); [assumption|]. specialize (A j ltac:(lia)). rewrite NT in A. lra. }
  cbv zeta. unfold sandia_beta0_beta1. cbv zeta. fold k. split.
  - intros -> N. destruct curve as [|p c]; [congruence|]. reflexivity.
  - intros P. destruct (Nat.eq_dec k 0) as [Z|NZ].
    { destruct P as [P|P]; [lia|]. subst curve. rewrite Z. cbn. split; [intros; split; [discriminate|intros (n & H & _); lia]|]. split; [intros; lia|reflexivity]. }
    assert (P' : (0 < k)%nat) by lia. split.
    + intros b0 b1. rewrite beta_loop_ok by lia. split; intros (n & H1 & H2 & H3 & H4); exists n; (split; [exact H1|split; [exact H2|split; [exact H3|]]]); [injection H4 as -> ->; split; reflexivity|destruct H4 as [-> ->]; reflexivity].
    + split.
      * intros E n H. destruct (Rle_lt_dec 0 (fst (polyfit (firstn n curve)))) as [L|L]; [exact L|]. exfalso.
        assert (M : forall m, (k <= m < length curve)%nat -> fst (polyfit (firstn m curve)) < 0 -> exists b, beta_loop polyfit curve k (length curve - k) = Ok b).
        { induction m as [m IHm] using (well_founded_induction lt_wf). intros HM SM. 
          assert (Dec : forall q, (forall j, (k <= j < q)%nat -> 0 <= fst (polyfit (firstn j curve))) \/ exists j, (k <= j < q)%nat /\ fst (polyfit (firstn j curve)) < 0).
          { induction q as [|q IHq]; [left; intros; lia|]. destruct IHq as [IHq|(j & J1 & J2)]; [|right; exists j; split; [lia|exact J2]]. destruct (Rle_lt_dec 0 (fst (polyfit (firstn q curve)))) as [Q|Q].
            - left. intros j J. destruct (Nat.eq_dec j q) as [->|D]; [exact Q|apply IHq; lia].
            - destruct (Nat.le_gt_cases k q); [right; exists q; split; [lia|exact Q]|left; intros; lia]. }
          destruct (Dec m) as [D|(j & J1 & J2)]; [|apply (IHm j); [lia|lia|exact J2]]. eexists. apply beta_loop_ok; [lia|lia|]. exists m. split; [lia|]. split; [exact SM|]. split; [exact D|reflexivity]. }
        destruct (M n H L) as [b E']. congruence.
      * intros H. destruct (beta_loop_total polyfit (length curve - k) curve k P' ltac:(lia)) as [[b E]|E]; [|exact E]. exfalso. apply beta_loop_ok in E; [|lia|lia]. destruct E as (n & H1 & H2 & _). specialize (H n H1). lra.
Qed.
(** if no point is far enough below the line, ZeroDivisionError is raised instead of the documented RuntimeError *)
Theorem C124_no_exponential_portion : forall curve v_oc i_sc mp vlim ilim b0 b1, sandia_beta0_beta1 polyfit curve vlim v_oc = Ok (b0, b1) ->
  (forall p, In p curve -> b0 - b1 * fst p - snd p <= ilim * i_sc) ->
  fit_sandia_simple polyfit lstsq3 curve (Some v_oc) (Some i_sc) (Some mp) vlim ilim = Err ZeroDivisionError.
Proof.
  intros curve v_oc i_sc mp vlim ilim b0 b1 E H. unfold fit_sandia_simple. cbn [bind]. rewrite E. cbn [bind fst snd]. unfold sandia_beta3_beta4. cbv zeta.
  replace (filter _ curve) with (@nil (R * R)); [cbn [fst snd]; apply C124_params_errors; left; reflexivity|].
  clear E. induction curve as [|p c IH]; [reflexivity|]. cbn [filter]. rewrite Rltb_f by (apply H; left; reflexivity). apply IH. intros q Q. apply H. right. exact Q.
Qed.
(** values left out are read off the curve *)
Theorem C124_defaults : forall curve v_oc i_sc mp vlim ilim, curve <> [] -> exists v_mp i_mp, In (v_mp, i_mp) curve /\ (forall p, In p curve -> fst p * snd p <= v_mp * i_mp) /\
  fit_sandia_simple polyfit lstsq3 curve v_oc i_sc mp vlim ilim =
  fit_sandia_simple polyfit lstsq3 curve (Some (match v_oc with Some x => x | None => fst (last curve (0, 0)) end)) (Some (match i_sc with Some x => x | None => snd (nth 0 curve (0, 0)) end))
    (Some (match mp with Some p => p | None => (v_mp, i_mp) end)) vlim ilim.
Proof.
  intros curve v_oc i_sc mp vlim ilim N. destruct curve as [|p0 c]; [congruence|]. set (curve := p0 :: c) in *.
  destruct (argmax (map (fun p => fst p * snd p) curve)) as [k|] eqn:E; [|discriminate]. pose proof (proj1 (argmax_spec (fun p => fst p * snd p) (0, 0) curve k) E) as [K F].
  destruct (nth k curve (0, 0)) as [v i] eqn:EK. exists v, i. split; [rewrite <- EK; apply nth_In, K|]. split.
  - intros p I. destruct (In_nth _ _ (0, 0) I) as (j & J & <-). cbn [fst snd] in F. apply (F j J).
  - unfold fit_sandia_simple. destruct v_oc, i_sc, mp; cbn [bind]; try reflexivity; unfold find_mp; rewrite E; cbn [bind]; rewrite EK; reflexivity.
Qed.
(** if the linear portion lies on the line and the exponential portion on the logarithmic plane of a curve with these parameters, fitting by least squares returns them *)
Theorem C124_exact : forall curve v_oc i_sc mp vlim ilim IL Rs Rsh a c, 0 < IL -> 0 <= Rs -> 0 < Rsh -> 0 < a -> increasing (map fst curve) ->
  let b0 := IL / (1 + Rs / Rsh) in let b1 := 1 / (Rsh + Rs) in
  let linear := filter (fun p => if Rlt_dec (fst p) (vlim * v_oc) then true else false) curve in
  let exponential := filter (fun p => if Rlt_dec (ilim * i_sc) (b0 - b1 * fst p - snd p) then true else false) curve in
  let rows := map (fun p => (fst p, snd p, ln (b0 - b1 * fst p - snd p))) exponential in
  (forall p, In p linear -> snd p = b0 - b1 * fst p) -> (forall p, In p exponential -> ln (b0 - b1 * fst p - snd p) = c + (fst p + Rs * snd p) / a) ->
  (2 <= length linear < length curve)%nat -> (exists p q r, In p exponential /\ In q exponential /\ In r exponential /\ (fst q - fst p) * (snd r - snd p) <> (fst r - fst p) * (snd q - snd p)) ->
  (forall s t, line_error linear (fst (polyfit linear)) (snd (polyfit linear)) <= line_error linear s t) -> (forall k, plane_error rows (lstsq3 rows) <= plane_error rows k) ->
  fit_sandia_simple polyfit lstsq3 curve (Some v_oc) (Some i_sc) (Some mp) vlim ilim = sandia_simple_params b0 b1 (1 / a) (Rs / a) (fst mp) (snd mp) v_oc.
Proof.
  intros curve v_oc i_sc mp vlim ilim IL Rs Rsh a c IL0 RS SH A IN b0 b1 linear exponential rows HL HE LL (p & q & r & P & Q & R0 & ND) MP ML.
  assert (B1 : 0 < b1) by (apply Rdiv_lt_0_compat; lra).
  pose proof (searchsorted_spec (map fst curve) (vlim * v_oc) IN) as S0. cbv zeta in S0. rewrite map_length in S0. set (k := searchsorted (map fst curve) (vlim * v_oc)) in *. destruct S0 as (K & B & A0).
  assert (LE : linear = firstn k curve).
  { clear - K B A0. assert (NT : forall l j, nth j (map fst l) 0 = fst (nth j l (0, 0))) by (intros l j; rewrite <- (map_nth fst); reflexivity). unfold linear. clear linear. clearbody k. revert k K B A0. induction curve as [|x l IH]; intros k K B A0; [rewrite firstn_nil; reflexivity|]. cbn [filter]. destruct k as [|k].
    - specialize (IH 0%nat ltac:(lia)). rewrite firstn_O in *. pose proof (A0 0%nat ltac:(cbn; lia)) as Z. cbn [map nth] in Z. destruct (Rlt_dec _ _); [lra|]. apply IH; [intros; lia|]. intros j J. apply (A0 (S j)). cbn [length]. lia.
    - pose proof (B 0%nat ltac:(lia)) as Z. cbn [map nth] in Z. destruct (Rlt_dec _ _); [|lra]. cbn [firstn]. f_equal. apply IH; [cbn [length] in K; lia|intros j J; apply (B (S j)); lia|intros j J; apply (A0 (S j)); cbn [length]; lia]. }
  assert (PF : polyfit linear = (- b1, b0)).
  { specialize (MP (- b1) b0). unfold line_error in MP. assert (Z : fold_right Rplus 0 (map (fun x => (snd x - (- b1 * fst x + b0)) ^ 2) linear) = 0) by (apply (squares_zero (fun x => snd x - (- b1 * fst x + b0))); intros x X; rewrite (HL x X); ring).
    rewrite Z in MP. destruct (polyfit linear) as [s t] eqn:E. cbn [fst snd] in MP. pose proof (squares_nonneg (fun x => snd x - (s * fst x + t)) linear) as NN. assert (Z2 : fold_right Rplus 0 (map (fun x => (snd x - (s * fst x + t)) ^ 2) linear) = 0) by lra.
    rewrite (squares_zero (fun x => snd x - (s * fst x + t))) in Z2.
    assert (X0 : exists x y, In x linear /\ In y linear /\ fst x < fst y).
    { rewrite LE in LL |- *. destruct curve as [|x [|y l]]; [rewrite firstn_nil in LL; cbn in LL; lia|rewrite firstn_length in LL; cbn in LL; lia|]. destruct k as [|[|k']]; [cbn in LL; lia|cbn in LL; lia|]. exists x, y. cbn [firstn]. split; [left; reflexivity|]. split; [right; left; reflexivity|]. apply (IN 0%nat 1%nat). cbn. lia. }
    destruct X0 as (x & y & X & Y & XY). pose proof (Z2 x X) as Zx. pose proof (Z2 y Y) as Zy. cbv beta in Zx, Zy. rewrite (HL x X) in Zx. rewrite (HL y Y) in Zy.
    assert (SZ : (s + b1) * (fst y - fst x) = 0) by lra. apply Rmult_integral in SZ. destruct SZ as [SZ|SZ]; [|lra]. assert (s = - b1) by lra. subst s. f_equal. lra. }
  assert (KL : k = length linear) by (rewrite LE, firstn_length; lia).
  unfold fit_sandia_simple. cbn [bind].
  assert (E : sandia_beta0_beta1 polyfit curve vlim v_oc = Ok (b0, b1)).
  { unfold sandia_beta0_beta1. cbv zeta. fold k. apply beta_loop_ok; [lia|lia|]. exists k. split; [lia|]. rewrite <- LE, PF. cbn [fst snd]. split; [lra|]. split; [intros; lia|]. f_equal. ring. }
  rewrite E. cbn [bind fst snd].
  assert (E3 : sandia_beta3_beta4 lstsq3 curve b0 b1 ilim i_sc = (1 / a, Rs / a)).
  { unfold sandia_beta3_beta4. cbv zeta. unfold Rltb. fold exponential. fold rows. destruct exponential as [|e0 el] eqn:EE; [destruct P|]. rewrite <- EE in *. 
    specialize (ML (c, 1 / a, Rs / a)). destruct (lstsq3 rows) as [[c0 c1] c2] eqn:EL. unfold plane_error in ML. unfold rows in ML. rewrite !map_map in ML. cbv beta iota in ML. rewrite <- EE in ML.
    assert (Z : fold_right Rplus 0 (map (fun x => (ln (b0 - b1 * fst x - snd x) - (c + 1 / a * fst x + Rs / a * snd x)) ^ 2) exponential) = 0) by (apply (squares_zero (fun x => ln (b0 - b1 * fst x - snd x) - (c + 1 / a * fst x + Rs / a * snd x))); intros x X; rewrite (HE x X); field; lra).
    rewrite Z in ML. pose proof (squares_nonneg (fun x => ln (b0 - b1 * fst x - snd x) - (c0 + c1 * fst x + c2 * snd x)) exponential) as NN.
    assert (Z2 : fold_right Rplus 0 (map (fun x => (ln (b0 - b1 * fst x - snd x) - (c0 + c1 * fst x + c2 * snd x)) ^ 2) exponential) = 0) by lra. rewrite (squares_zero (fun x => ln (b0 - b1 * fst x - snd x) - (c0 + c1 * fst x + c2 * snd x))) in Z2.
    assert (W : forall x, In x exponential -> (c - c0) + (1 / a - c1) * fst x + (Rs / a - c2) * snd x = 0). { intros x X. pose proof (Z2 x X) as W. cbv beta in W. rewrite (HE x X) in W. rewrite <- W. field. lra. }
    pose proof (W p P) as Wp. pose proof (W q Q) as Wq. pose proof (W r R0) as Wr. set (d1 := 1 / a - c1) in *. set (d2 := Rs / a - c2) in *.
    assert (D1 : d1 * ((fst q - fst p) * (snd r - snd p) - (fst r - fst p) * (snd q - snd p)) = 0).
    { transitivity ((snd r - snd p) * ((c - c0 + d1 * fst q + d2 * snd q) - (c - c0 + d1 * fst p + d2 * snd p)) - (snd q - snd p) * ((c - c0 + d1 * fst r + d2 * snd r) - (c - c0 + d1 * fst p + d2 * snd p))); [ring|]. rewrite Wp, Wq, Wr. ring. }
    assert (D2 : d2 * ((fst q - fst p) * (snd r - snd p) - (fst r - fst p) * (snd q - snd p)) = 0).
    { transitivity ((fst q - fst p) * ((c - c0 + d1 * fst r + d2 * snd r) - (c - c0 + d1 * fst p + d2 * snd p)) - (fst r - fst p) * ((c - c0 + d1 * fst q + d2 * snd q) - (c - c0 + d1 * fst p + d2 * snd p))); [ring|]. rewrite Wp, Wq, Wr. ring. }
    apply Rmult_integral in D1. apply Rmult_integral in D2. destruct D1 as [D1|D1]; [|exfalso; apply ND; lra]. destruct D2 as [D2|D2]; [|exfalso; apply ND; lra]. cbn [fst snd]. unfold d1, d2 in D1, D2. f_equal; lra. }
  rewrite E3. reflexivity.
Qed.
End Fits.
Print Assumptions C124_window.
Print Assumptions C124_no_exponential_portion.
Print Assumptions C124_defaults.
Print Assumptions C124_exact.
(** a curve to which C124_exact applies: Rs = 0, Rsh = 10, a = 1, IL = 1, five points *)
Definition line_at v : R := 1 - v / 10.
Example C124_exact_instance : exists curve v_oc i_sc vlim ilim,
  let polyfit := fun _ : list (R * R) => (- (1 / (10 + 0)), 1 / (1 + 0 / 10)) in let lstsq3 := fun _ : list (R * R * R) => (0, 1 / 1, 0 / 1) in
  let b0 := 1 / (1 + 0 / 10) in let b1 := 1 / (10 + 0) in
  let linear := filter (fun p => if Rlt_dec (fst p) (vlim * v_oc) then true else false) curve in
  let exponential := filter (fun p => if Rlt_dec (ilim * i_sc) (b0 - b1 * fst p - snd p) then true else false) curve in
  increasing (map fst curve) /\ (forall p, In p linear -> snd p = b0 - b1 * fst p) /\ (forall p, In p exponential -> ln (b0 - b1 * fst p - snd p) = 0 + (fst p + 0 * snd p) / 1) /\ (2 <= length linear < length curve)%nat /\
  (exists p q r, In p exponential /\ In q exponential /\ In r exponential /\ (fst q - fst p) * (snd r - snd p) <> (fst r - fst p) * (snd q - snd p)) /\
  (forall s t, line_error linear (fst (polyfit linear)) (snd (polyfit linear)) <= line_error linear s t) /\
  (forall k, let rows := map (fun p => (fst p, snd p, ln (b0 - b1 * fst p - snd p))) exponential in plane_error rows (lstsq3 rows) <= plane_error rows k).
Proof.
  exists [(0, line_at 0); (1, line_at 1); (2, line_at 2 - exp 2); (3, line_at 3 - exp 3); (4, line_at 4 - exp 4)], 15, 1, 0.1, 1. cbv zeta.
  assert (E2 : 1 < exp 2) by (rewrite <- exp_0 at 1; apply exp_increasing; lra). assert (E3 : exp 2 < exp 3) by (apply exp_increasing; lra). assert (E4 : exp 3 < exp 4) by (apply exp_increasing; lra).
  assert (LB : forall v, 1 / (1 + 0 / 10) - 1 / (10 + 0) * v = line_at v) by (intros v; unfold line_at; field; lra).
  assert (LI : filter (fun p : R * R => if Rlt_dec (fst p) (0.1 * 15) then true else false) [(0, line_at 0); (1, line_at 1); (2, line_at 2 - exp 2); (3, line_at 3 - exp 3); (4, line_at 4 - exp 4)] = [(0, line_at 0); (1, line_at 1)]).
  { cbn [filter fst]. destruct (Rlt_dec 0 (0.1 * 15)); [|lra]. destruct (Rlt_dec 1 (0.1 * 15)); [|lra]. destruct (Rlt_dec 2 (0.1 * 15)); [lra|]. destruct (Rlt_dec 3 (0.1 * 15)); [lra|]. destruct (Rlt_dec 4 (0.1 * 15)); [lra|]. reflexivity. }
  assert (EX : filter (fun p : R * R => if Rlt_dec (1 * 1) (1 / (1 + 0 / 10) - 1 / (10 + 0) * fst p - snd p) then true else false) [(0, line_at 0); (1, line_at 1); (2, line_at 2 - exp 2); (3, line_at 3 - exp 3); (4, line_at 4 - exp 4)] = [(2, line_at 2 - exp 2); (3, line_at 3 - exp 3); (4, line_at 4 - exp 4)]).
  { cbn [filter fst snd]. rewrite !LB. repeat match goal with |- context [Rlt_dec ?u ?v] => destruct (Rlt_dec u v); try lra end. reflexivity. }
  rewrite LI, EX. split; [intros i j [H1 H2]; cbn [map length fst] in H2; do 5 (destruct j as [|j]; [do 5 (destruct i as [|i]; [cbn; try lra; lia|]); lia|]); lia|].
  split; [intros p [<- | [<- | []]]; cbn [fst snd]; rewrite LB; reflexivity|].
  split; [intros p [<- | [<- | [<- | []]]]; cbn [fst snd]; rewrite LB; match goal with |- ln (?l - (?l - ?e)) = _ => replace (l - (l - e)) with e by ring end; rewrite ln_exp; lra|].
  split; [cbn; lia|]. split.
  - exists (2, line_at 2 - exp 2), (3, line_at 3 - exp 3), (4, line_at 4 - exp 4). split; [left; reflexivity|]. split; [right; left; reflexivity|]. split; [right; right; left; reflexivity|]. cbn [fst snd]. unfold line_at.
    assert (X3 : exp 3 = exp 2 * exp 1) by (rewrite <- exp_plus; f_equal; lra). assert (X4 : exp 4 = exp 2 * exp 1 * exp 1) by (rewrite <- !exp_plus; f_equal; lra). rewrite X3, X4. clear X3 X4 E3 E4 LI EX. set (E := exp 1). set (T := exp 2) in *. assert (1 < E) by (unfold E; rewrite <- exp_0 at 1; apply exp_increasing; lra).
    assert (0 < T * ((E - 1) * (E - 1))) by (repeat apply Rmult_lt_0_compat; lra). intros Z. lra.
  - split.
    + intros s t. cbn [fst snd]. unfold line_error. apply Rle_trans with 0; [right|apply (squares_nonneg (fun p : R * R => snd p - (s * fst p + t)))]. apply (squares_zero (fun p : R * R => snd p - (- (1 / (10 + 0)) * fst p + 1 / (1 + 0 / 10)))). intros p [<- | [<- | []]]; cbn [fst snd]; unfold line_at; field; lra.
    + intros [[k0 k1] k2]. unfold plane_error. rewrite !map_map. cbv beta iota. apply Rle_trans with 0; [right|apply (squares_nonneg (fun p : R * R => ln (1 / (1 + 0 / 10) - 1 / (10 + 0) * fst p - snd p) - (k0 + k1 * fst p + k2 * snd p)))].
      apply (squares_zero (fun p : R * R => ln (1 / (1 + 0 / 10) - 1 / (10 + 0) * fst p - snd p) - (0 + 1 / 1 * fst p + 0 / 1 * snd p))). intros p [<- | [<- | [<- | []]]]; cbn [fst snd]; rewrite LB; match goal with |- context [ln (?l - (?l - ?e))] => replace (l - (l - e)) with e by ring end; rewrite ln_exp; lra.
Qed.

(** ** C125: the co-content method *)
(** its result, for a curve of increasing voltages, is one value per data point: the integral of isc - (spline through the data) *)
Lemma qspline_knots v i : increasing v -> (2 <= length v)%nat -> exists ks, schumaker_qspline v i = Ok ks /\ increasing (map k_x ks) /\ map k_x (filter (fun k => negb (k_new k)) ks) = v.
Proof.
  intros IN L. exists (flat_map seg_rows (segments v i) ++ (last_row v i :: nil)). split; [apply qspline_eq; assumption|]. pose proof (segments_chain v i IN L) as C. pose proof (chain_sorted _ _ _ (last_row v i) C eq_refl) as [_ SS].
  split; [apply increasing_sorted, SS|]. rewrite filter_app, data_rows, map_app, map_map. cbn [filter map]. change (negb (k_new (last_row v i))) with true. cbn [map]. unfold segments. rewrite map_map. cbv zeta. 
  change (fun x => k_x (row_data (Seg (nth x v 0) (nth (S x) v 0) (nth x i 0) (nth x (slopes v i) 0) (nth (S x) (slopes v i) 0) (nth x (deltas v i) 0)))) with (fun x => nth x v 0). change (k_x (last_row v i)) with (last v 0). rewrite last_nth by lia.
  apply (nth_ext _ _ 0 0); [rewrite app_length, map_length, seq_length; cbn [length]; lia|]. intros n N. rewrite app_length, map_length, seq_length in N. cbn [length] in N. destruct (Nat.eq_dec n (length v - 1)) as [->|D].
  - rewrite app_nth2 by (rewrite map_length, seq_length; lia). rewrite map_length, seq_length, Nat.sub_diag. reflexivity.
  - rewrite app_nth1 by (rewrite map_length, seq_length; lia). rewrite nth_map_seq by lia. reflexivity.
Qed.
Lemma filter_le {A} (P : A -> bool) l : (length (filter P l) <= length l)%nat.
Proof. induction l as [|x l IH]; cbn; [lia|]. destruct (P x); cbn; lia. Qed.
Theorem C125_cocontent : forall v i ks isc, increasing v -> (6 <= length v)%nat -> schumaker_qspline v i = Ok ks ->
  let spline := piecewise (map (fun k => (k_x k, (k_a k, k_b k, k_c k))) ks) in
  length (cocontent ks isc) = length v /\
  forall n, (n < length v)%nat -> is_RInt (V := R_NormedModule) (fun x => isc - spline x) (nth 0 v 0) (nth n v 0) (nth n (cocontent ks isc) 0 - isc * nth 0 v 0).
Proof.
  intros v i ks isc IN L E. cbv zeta. destruct (qspline_knots v i IN ltac:(lia)) as (ks' & E' & INK & KV). assert (ks' = ks) by congruence. subst ks'. clear E'. fold (pieces ks).
  assert (LK : (length v <= length ks)%nat). { rewrite <- KV, map_length. apply filter_le. }
  assert (I0 : forall j, (j < length ks)%nat -> is_RInt (V := R_NormedModule) (piecewise (pieces ks)) (nth 0 (map k_x ks) 0) (nth j (map k_x ks) 0) (total (firstn (S j) (tmpint ks)))) by (intros; apply spline_is_RInt; assumption).
  set (F := fun x => isc * x - RInt (V := R_CompleteNormedModule) (piecewise (pieces ks)) (nth 0 (map k_x ks) 0) x).
  assert (SF : forall j, (j < length ks)%nat -> scc_at ks isc j = F (k_x (nth j ks (Knot 0 0 0 0 0 false)))).
  { intros j J. rewrite scc_eq by lia. assert (NK : nth j (map k_x ks) 0 = k_x (nth j ks (Knot 0 0 0 0 0 false))) by (rewrite <- (map_nth k_x); reflexivity). unfold F. rewrite <- NK. f_equal. f_equal. symmetry. apply (is_RInt_unique (V := R_CompleteNormedModule)), I0, J. }
  assert (CO : cocontent ks isc = map F v).
  { unfold cocontent. rewrite <- KV, map_map. rewrite <- (filter_index (Knot 0 0 0 0 0 false) (fun k => negb (k_new k)) (fun k => F (k_x k)) ks). apply map_ext_in. intros j J. apply filter_In in J. destruct J as [J _]. apply in_seq in J. apply SF. lia. }
  rewrite CO, map_length. split; [reflexivity|]. intros n N.
  assert (V0 : nth 0 v 0 = nth 0 (map k_x ks) 0).
  { rewrite <- KV. destruct ks as [|k0 kr]; [cbn in LK; lia|]. destruct v as [|v0 vr]; [cbn in L; lia|]. pose proof (segments_chain (v0 :: vr) i IN ltac:(lia)) as C. rewrite qspline_eq in E by (try assumption; lia). apply Ok_inj in E.
    destruct (segments (v0 :: vr) i) as [|g gs] eqn:EG; [apply (f_equal (@length seg)) in EG; unfold segments in EG; rewrite map_length, seq_length in EG; cbn [length] in *; lia|]. cbn [flat_map app] in E. unfold seg_rows at 1 in E. destruct (seg_plain g); cbn [app] in E; injection E as <- <-; reflexivity. }
  assert (VN : exists j, (j < length ks)%nat /\ nth j (map k_x ks) 0 = nth n v 0).
  { assert (I1 : In (nth n v 0) v) by (apply nth_In, N). rewrite <- KV in I1 at 2. apply in_map_iff in I1. destruct I1 as (k & EK & I1). apply filter_In in I1. destruct I1 as [I1 _]. destruct (In_nth _ _ (Knot 0 0 0 0 0 false) I1) as (j & J & EJ). exists j. split; [exact J|]. rewrite <- EK, <- EJ, <- (map_nth k_x). reflexivity. }
  destruct VN as (j & J & EJ). rewrite (nth_indep (map F v) 0 (F 0)) by (rewrite map_length; exact N). rewrite map_nth. pose proof (I0 j J) as IJ. rewrite EJ, <- V0 in IJ. unfold F. rewrite <- V0, (is_RInt_unique (V := R_CompleteNormedModule) _ _ _ _ IJ).
  replace (isc * nth n v 0 - total (firstn (S j) (tmpint ks)) - isc * nth 0 v 0) with (minus (G := R_AbelianGroup) (scal (V := R_ModuleSpace) (nth n v 0 - nth 0 v 0) isc) (total (firstn (S j) (tmpint ks)))) by (unfold minus, plus, opp, scal; cbn; unfold mult; cbn; ring).
  apply (is_RInt_minus (V := R_NormedModule)); [apply (is_RInt_const (V := R_NormedModule))|exact IJ].
Qed.
Print Assumptions C125_cocontent.
(** on a curve of the single diode equation the co-content is this quadratic in V and Isc - I *)
Definition cocontent_coefficients (IL I0 Rs Gp a isc : R) : vec5 :=
  let c := isc - IL - I0 - a * Gp + Gp * Rs * isc in (c, a - Rs * c, - (Gp * Rs), Gp / 2, Rs * (1 + Rs * Gp) / 2).
Theorem C125_model : forall IL I0 Rs Rsh a (i i' : R -> R) isc V, Rsh <> 0 -> a <> 0 -> isc = i 0 -> (forall v, on_sde_curve IL I0 Rs Rsh a v (i v)) -> (forall v, is_derive i v (i' v)) ->
  is_RInt (V := R_NormedModule) (fun v => isc - i v) 0 V (quadratic (cocontent_coefficients IL I0 Rs (1 / Rsh) a isc) V (isc - i V)).
Proof.
  intros IL I0 Rs Rsh a i i' isc V SH A E0 C D. set (Gp := 1 / Rsh). set (c := isc - IL - I0 - a * Gp + Gp * Rs * isc).
  set (F := fun v => quadratic (cocontent_coefficients IL I0 Rs Gp a isc) v (isc - i v)).
  assert (C' : forall v, i v = IL - I0 * (exp ((v + Rs * i v) / a) - 1) - Gp * (v + Rs * i v)) by (intros v; pose proof (C v) as K; unfold on_sde_curve in K; unfold Gp; rewrite K at 1; unfold Rdiv; ring).
  (* the derivative of the curve *)
  assert (Di : forall v, i' v = - (I0 * exp ((v + Rs * i v) / a) / a + Gp) * (1 + Rs * i' v)).
  { intros v. assert (K : is_derive (fun v => IL - I0 * (exp ((v + Rs * i v) / a) - 1) - Gp * (v + Rs * i v)) v (- (I0 * exp ((v + Rs * i v) / a) / a + Gp) * (1 + Rs * i' v))).
    { auto_derive; [repeat split; exists (i' v); apply D|]. replace (Derive (fun x => i x) v) with (i' v) by (symmetry; apply is_derive_unique, D). unfold Rdiv. field. exact A. }
    assert (K2 : is_derive i v (- (I0 * exp ((v + Rs * i v) / a) / a + Gp) * (1 + Rs * i' v))). { eapply is_derive_ext; [|exact K]. intros t. symmetry. apply C'. }
    rewrite <- (is_derive_unique _ _ _ K2). symmetry. apply is_derive_unique, D. }
  assert (DF : forall v, is_derive F v (isc - i v)).
  { intros v. unfold F, quadratic, cocontent_coefficients. cbv zeta. fold c. auto_derive; [repeat split; exists (i' v); apply D|]. replace (Derive (fun x => i x) v) with (i' v) by (symmetry; apply is_derive_unique, D).
    set (X := I0 * exp ((v + Rs * i v) / a)). assert (EX : X = IL + I0 - Gp * (v + Rs * i v) - i v) by (unfold X; pose proof (C' v); lra). pose proof (Di v) as DV. fold X in DV.
    assert (EC : c + a * Gp + Gp * (v - Rs * (isc - i v)) + X = isc - i v) by (rewrite EX; unfold c; ring).
    assert (AD : a * i' v = - (X + a * Gp) * (1 + Rs * i' v)). { rewrite DV at 1. field. exact A. }
    match goal with |- ?l = _ => replace l with ((c + Gp * (v - Rs * (isc - i v))) * (1 + Rs * i' v) - a * i' v - Rs * i' v * (isc - i v)) by field end.
    rewrite AD. transitivity ((c + a * Gp + Gp * (v - Rs * (isc - i v)) + X) * (1 + Rs * i' v) - Rs * i' v * (isc - i v)); [ring|]. rewrite EC. ring. }
  assert (F0 : F 0 = 0). { unfold F, quadratic, cocontent_coefficients. cbv zeta. rewrite <- E0. ring. }
  replace (quadratic (cocontent_coefficients IL I0 Rs Gp a isc) V (isc - i V)) with (minus (G := R_AbelianGroup) (F V) (F 0)) by (rewrite F0; unfold F, minus, plus, opp; cbn; ring).
  apply (is_RInt_derive (V := R_CompleteNormedModule) F); [intros v _; apply DF|]. intros v _. apply (continuous_minus (V := R_NormedModule)); [apply continuous_const|]. apply (ex_derive_continuous (V := R_NormedModule)). exists (i' v). apply D.
Qed.
Print Assumptions C125_model.
(** from these coefficients the resistances and the ideality factor are recovered *)
Theorem C125_params : forall IL I0 Rs Rsh a isc voc nsvth, 0 <= Rs -> 0 < Rsh -> 0 < a -> 0 < nsvth ->
  exists iph io, cocontent_params (cocontent_coefficients IL I0 Rs (1 / Rsh) a isc) isc voc nsvth = (iph, io, Rs, Rsh, a / nsvth) /\
    (* the single diode equation at open circuit with iph + io replaced by isc *) 0 = isc - io * exp (voc / a) - voc / Rsh /\
    (* what is returned as photocurrent *) iph = isc + io * (exp (isc / a) - 1) + isc * Rs / Rsh.
Proof.
  intros IL I0 Rs Rsh a isc voc nsvth RS SH A NV. unfold cocontent_params, cocontent_coefficients. cbv zeta. set (Gp := 1 / Rsh). assert (G : 0 < Gp) by (apply Rdiv_lt_0_compat; lra). set (c := isc - IL - I0 - a * Gp + Gp * Rs * isc).
  assert (SQ : sqrt (1 + 16 * (Gp / 2) * (Rs * (1 + Rs * Gp) / 2)) = 1 + 2 * Gp * Rs). { replace (1 + 16 * (Gp / 2) * (Rs * (1 + Rs * Gp) / 2)) with ((1 + 2 * Gp * Rs) * (1 + 2 * Gp * Rs)) by field. apply sqrt_square. assert (0 <= Gp * Rs) by (apply Rmult_le_pos; lra). lra. }
  rewrite !SQ. replace ((1 + 2 * Gp * Rs - 1) / (4 * (Gp / 2))) with Rs by (field; lra). replace ((c * (1 + 2 * Gp * Rs - 1) + 4 * (a - Rs * c) * (Gp / 2)) / (4 * (Gp / 2) * nsvth)) with (a / nsvth) by (field; lra).
  replace (a / nsvth * nsvth) with a by (field; lra). replace (Gp / 2 * 2) with Gp by field. replace (1 / Gp) with Rsh by (unfold Gp; field; lra). eexists _, _. split; [reflexivity|]. pose proof (exp_pos (voc / a)). split; unfold Gp; field; lra.
Qed.
Print Assumptions C125_params.
(** the photocurrent satisfies the single diode equation at short circuit only if the series resistance is 1 ohm (or the curve is degenerate) *)
Theorem C125_isc_refuted : forall IL I0 Rs Rsh a isc voc nsvth iph io, 0 <= Rs -> 0 < Rsh -> 0 < a -> 0 < nsvth -> isc <> 0 -> isc <> voc / Rsh ->
  cocontent_params (cocontent_coefficients IL I0 Rs (1 / Rsh) a isc) isc voc nsvth = (iph, io, Rs, Rsh, a / nsvth) ->
  (on_sde_curve iph io Rs Rsh a 0 isc <-> Rs = 1).
Proof.
  intros IL I0 Rs Rsh a isc voc nsvth iph io RS SH A NV NI NG E. destruct (C125_params IL I0 Rs Rsh a isc voc nsvth RS SH A NV) as (iph' & io' & E' & OC & PH). rewrite E in E'. injection E' as <- <-.
  assert (IO : io <> 0). { intros ->. apply NG. lra. } unfold on_sde_curve. rewrite Rplus_0_l. split; intros K.
  - assert (Z : io * (exp (isc / a) - exp (Rs * isc / a)) = 0) by (rewrite PH in K; unfold Rdiv in *; lra). apply Rmult_integral in Z. destruct Z as [Z|Z]; [contradiction|]. assert (exp (isc / a) = exp (Rs * isc / a)) as X by lra. apply exp_inv in X.
    assert (Y : isc * (Rs - 1) = 0). { transitivity ((Rs * isc / a - isc / a) * a); [field; lra|]. rewrite X. ring. } apply Rmult_integral in Y. destruct Y; [contradiction|lra].
  - subst Rs. rewrite Rmult_1_l in *. rewrite PH. unfold Rdiv. ring.
Qed.
Print Assumptions C125_isc_refuted.
Example C125_model_instance : exists i i' : R -> R, (forall v, on_sde_curve 5 (1 / 10) 0 100 2 v (i v)) /\ (forall v, is_derive i v (i' v)).
Proof.
  exists (fun v => 5 - (1 / 10) * (exp (v / 2) - 1) - v / 100), (fun v => - (1 / 10) * (exp (v / 2) / 2) - / 100). split.
  - intros v. unfold on_sde_curve. rewrite Rmult_0_l, Rplus_0_r. reflexivity.
  - intros v. auto_derive; [trivial|]. unfold Rdiv. field.
Qed.

(** undoing shift, scale and rotation: coefficients in rotated coordinates that come from beta describe the same function up to a constant, and every vector comes from exactly one beta *)
Definition transform (m1 m2 sd1 sd2 e0 e1 : R) (b : vec5) : vec5 := mulv (mb e0 e1) (mulv (ma m1 m2 sd1 sd2) b).
Theorem C125_rotation : forall m1 m2 sd1 sd2 e0 e1, e0 ^ 2 + e1 ^ 2 = 1 -> sd1 <> 0 -> sd2 <> 0 -> forall b, exists k, forall v d,
  let s := rotated m1 m2 sd1 sd2 e0 e1 v d in quadratic b v d = quadratic (transform m1 m2 sd1 sd2 e0 e1 b) (fst s) (snd s) + k.
Proof.
  intros m1 m2 sd1 sd2 e0 e1 U S1 S2 [[[[b1 b2] b3] b4] b5]. exists (quadratic (b1, b2, b3, b4, b5) m1 m2). intros v d. cbv zeta. unfold transform, rotated. cbv zeta. cbn [fst snd]. set (z0 := (v - m1) / sd1). set (z1 := (d - m2) / sd2).
  assert (V : v = z0 * sd1 + m1) by (unfold z0; field; exact S1). assert (D : d = z1 * sd2 + m2) by (unfold z1; field; exact S2). rewrite V, D. clearbody z0 z1.
  unfold quadratic, mulv, mb, ma, dot5. cbv zeta.
  set (c1 := sd1 * b1 + 0 * b2 + sd1 * m2 * b3 + 2 * sd1 * m1 * b4 + 0 * b5). set (c2 := 0 * b1 + sd2 * b2 + sd2 * m1 * b3 + 0 * b4 + 2 * sd2 * m2 * b5). set (c3 := 0 * b1 + 0 * b2 + sd1 * sd2 * b3 + 0 * b4 + 0 * b5). set (c4 := 0 * b1 + 0 * b2 + 0 * b3 + sd1 ^ 2 * b4 + 0 * b5). set (c5 := 0 * b1 + 0 * b2 + 0 * b3 + 0 * b4 + sd2 ^ 2 * b5).
  transitivity (c1 * z0 + c2 * z1 + c3 * (z0 * z1) + c4 * z0 ^ 2 + c5 * z1 ^ 2 + (b1 * m1 + b2 * m2 + b3 * (m1 * m2) + b4 * m1 ^ 2 + b5 * m2 ^ 2)); [unfold c1, c2, c3, c4, c5; ring|]. f_equal. clearbody c1 c2 c3 c4 c5.
  transitivity ((c1 * z0 + c2 * z1) * (e0 ^ 2 + e1 ^ 2) + (c3 * (z0 * z1) + c4 * z0 ^ 2 + c5 * z1 ^ 2) * (e0 ^ 2 + e1 ^ 2) ^ 2); [rewrite U; ring|]. ring.
Qed.
Print Assumptions C125_rotation.
Definition untransform (m1 m2 sd1 sd2 e0 e1 : R) (g : vec5) : vec5 :=
  let '(g1, g2, g3, g4, g5) := g in
  let c1 := e0 * g1 + e1 * g2 in let c2 := - e1 * g1 + e0 * g2 in
  let c3 := (e0 ^ 2 - e1 ^ 2) * g3 + (- 2 * e0 * e1) * g4 + 2 * e0 * e1 * g5 in
  let c4 := e0 * e1 * g3 + e0 ^ 2 * g4 + e1 ^ 2 * g5 in let c5 := - (e0 * e1) * g3 + e1 ^ 2 * g4 + e0 ^ 2 * g5 in
  let b5 := c5 / sd2 ^ 2 in let b4 := c4 / sd1 ^ 2 in let b3 := c3 / (sd1 * sd2) in
  ((c1 - sd1 * m2 * b3 - 2 * sd1 * m1 * b4) / sd1, (c2 - sd2 * m1 * b3 - 2 * sd2 * m2 * b5) / sd2, b3, b4, b5).
Lemma transform_un m1 m2 sd1 sd2 e0 e1 g : e0 ^ 2 + e1 ^ 2 = 1 -> sd1 <> 0 -> sd2 <> 0 -> transform m1 m2 sd1 sd2 e0 e1 (untransform m1 m2 sd1 sd2 e0 e1 g) = g.
Proof.
  intros U S1 S2. destruct g as [[[[g1 g2] g3] g4] g5]. unfold transform, untransform, mulv, ma, dot5. cbv zeta.
  set (c1 := e0 * g1 + e1 * g2). set (c2 := - e1 * g1 + e0 * g2). set (c3 := (e0 ^ 2 - e1 ^ 2) * g3 + (- 2 * e0 * e1) * g4 + 2 * e0 * e1 * g5). set (c4 := e0 * e1 * g3 + e0 ^ 2 * g4 + e1 ^ 2 * g5). set (c5 := - (e0 * e1) * g3 + e1 ^ 2 * g4 + e0 ^ 2 * g5).
  set (b5 := c5 / sd2 ^ 2). set (b4 := c4 / sd1 ^ 2). set (b3 := c3 / (sd1 * sd2)).
  replace (sd1 * ((c1 - sd1 * m2 * b3 - 2 * sd1 * m1 * b4) / sd1) + 0 * ((c2 - sd2 * m1 * b3 - 2 * sd2 * m2 * b5) / sd2) + sd1 * m2 * b3 + 2 * sd1 * m1 * b4 + 0 * b5) with c1 by (field; split; assumption).
  replace (0 * ((c1 - sd1 * m2 * b3 - 2 * sd1 * m1 * b4) / sd1) + sd2 * ((c2 - sd2 * m1 * b3 - 2 * sd2 * m2 * b5) / sd2) + sd2 * m1 * b3 + 0 * b4 + 2 * sd2 * m2 * b5) with c2 by (field; split; assumption).
  replace (0 * ((c1 - sd1 * m2 * b3 - 2 * sd1 * m1 * b4) / sd1) + 0 * ((c2 - sd2 * m1 * b3 - 2 * sd2 * m2 * b5) / sd2) + sd1 * sd2 * b3 + 0 * b4 + 0 * b5) with c3 by (unfold b3; field; split; assumption).
  replace (0 * ((c1 - sd1 * m2 * b3 - 2 * sd1 * m1 * b4) / sd1) + 0 * ((c2 - sd2 * m1 * b3 - 2 * sd2 * m2 * b5) / sd2) + 0 * b3 + sd1 ^ 2 * b4 + 0 * b5) with c4 by (unfold b4; field; split; assumption).
  replace (0 * ((c1 - sd1 * m2 * b3 - 2 * sd1 * m1 * b4) / sd1) + 0 * ((c2 - sd2 * m1 * b3 - 2 * sd2 * m2 * b5) / sd2) + 0 * b3 + 0 * b4 + sd2 ^ 2 * b5) with c5 by (unfold b5; field; split; assumption).
  unfold mb. cbv zeta. unfold c1, c2, c3, c4, c5. repeat apply f_equal2.
  - transitivity (g1 * (e0 ^ 2 + e1 ^ 2)); [ring|rewrite U; ring].
  - transitivity (g2 * (e0 ^ 2 + e1 ^ 2)); [ring|rewrite U; ring].
  - transitivity (g3 * (e0 ^ 2 + e1 ^ 2) ^ 2); [ring|rewrite U; ring].
  - transitivity (g4 * (e0 ^ 2 + e1 ^ 2) ^ 2); [ring|rewrite U; ring].
  - transitivity (g5 * (e0 ^ 2 + e1 ^ 2) ^ 2); [ring|rewrite U; ring].
Qed.
Lemma un_transform m1 m2 sd1 sd2 e0 e1 b : e0 ^ 2 + e1 ^ 2 = 1 -> sd1 <> 0 -> sd2 <> 0 -> untransform m1 m2 sd1 sd2 e0 e1 (transform m1 m2 sd1 sd2 e0 e1 b) = b.
Proof.
  intros U S1 S2. destruct b as [[[[b1 b2] b3] b4] b5]. unfold transform, untransform, mulv, ma, dot5. cbv zeta. unfold mb. cbv zeta.
  set (c1 := sd1 * b1 + 0 * b2 + sd1 * m2 * b3 + 2 * sd1 * m1 * b4 + 0 * b5). set (c2 := 0 * b1 + sd2 * b2 + sd2 * m1 * b3 + 0 * b4 + 2 * sd2 * m2 * b5). set (c3 := 0 * b1 + 0 * b2 + sd1 * sd2 * b3 + 0 * b4 + 0 * b5). set (c4 := 0 * b1 + 0 * b2 + 0 * b3 + sd1 ^ 2 * b4 + 0 * b5). set (c5 := 0 * b1 + 0 * b2 + 0 * b3 + 0 * b4 + sd2 ^ 2 * b5).
  match goal with |- context [(?x - ?y - ?z) / sd1] => replace x with c1 by (transitivity (c1 * (e0 ^ 2 + e1 ^ 2)); [rewrite U; ring|ring]) end.
  match goal with |- context [(?x - ?y - ?z) / sd2] => replace x with c2 by (transitivity (c2 * (e0 ^ 2 + e1 ^ 2)); [rewrite U; ring|ring]) end.
  match goal with |- (_, ?x / (sd1 * sd2), _, _) = _ => replace x with c3 by (transitivity (c3 * (e0 ^ 2 + e1 ^ 2) ^ 2); [rewrite U; ring|ring]) end.
  match goal with |- (_, _, ?x / sd1 ^ 2, _) = _ => replace x with c4 by (transitivity (c4 * (e0 ^ 2 + e1 ^ 2) ^ 2); [rewrite U; ring|ring]) end.
  match goal with |- (_, _, _, ?x / sd2 ^ 2) = _ => replace x with c5 by (transitivity (c5 * (e0 ^ 2 + e1 ^ 2) ^ 2); [rewrite U; ring|ring]) end.
  unfold c1, c2, c3, c4, c5. repeat apply f_equal2; field; try split; assumption.
Qed.
Theorem C125_rotation_unique : forall m1 m2 sd1 sd2 e0 e1, e0 ^ 2 + e1 ^ 2 = 1 -> sd1 <> 0 -> sd2 <> 0 -> forall g, exists! b, transform m1 m2 sd1 sd2 e0 e1 b = g.
Proof.
  intros m1 m2 sd1 sd2 e0 e1 U S1 S2 g. exists (untransform m1 m2 sd1 sd2 e0 e1 g). split; [apply transform_un; assumption|]. intros b <-. apply un_transform; assumption.
Qed.
Print Assumptions C125_rotation_unique.
Lemma spread l : (exists x y, In x l /\ In y l /\ x <> y) -> rstd1 l <> 0.
Proof.
  intros (x & y & X & Y & N). unfold rstd1. cbv zeta. set (m := rmean l). assert (L : (2 <= length l)%nat) by (destruct l as [|a [|b l]]; [destruct X|destruct X as [<- | []], Y as [<- | []]; congruence|cbn; lia]).
  assert (0 < INR (length l) - 1) by (apply (le_INR 2) in L; cbn [INR] in L; lra). pose proof (squares_nonneg (fun u => u - m) l) as P. assert (Z : fold_right Rplus 0 (map (fun u => (u - m) ^ 2) l) <> 0).
  { intros Z. rewrite (squares_zero (fun u => u - m)) in Z. pose proof (Z x X). pose proof (Z y Y). lra. }
  apply Rgt_not_eq, sqrt_lt_R0, Rdiv_lt_0_compat; [lra|assumption].
Qed.
Lemma combine_map {A B C} (f : A -> B) (g : A -> C) l : combine (map f l) (map g l) = map (fun x => (f x, g x)) l.
Proof. induction l as [|x l IH]; [reflexivity|]. cbn. rewrite IH. reflexivity. Qed.
Lemma quad_dot c x y : dot5 c (predictors_pc x y) = quadratic c x y.
Proof. destruct c as [[[[c1 c2] c3] c4] c5]. unfold dot5, predictors_pc, quadratic. ring. Qed.
Lemma quad_sub c c' x y : quadratic c x y - quadratic c' x y = quadratic (let '(a1, a2, a3, a4, a5) := c in let '(b1, b2, b3, b4, b5) := c' in (a1 - b1, a2 - b2, a3 - b3, a4 - b4, a5 - b5)) x y.
Proof. destruct c as [[[[c1 c2] c3] c4] c5], c' as [[[[b1 b2] b3] b4] b5]. unfold quadratic. ring. Qed.
(** least squares in the transformed coordinates finds the coefficients of co-content values that follow the quadratic, whenever they are determined by the data *)
Theorem C125_regress : forall eigvec lstsq6 lstsq5 (data : list (R * R)) isc beta k0,
  let v := map (@fst R R) data in let i := map (@snd R R) data in
  (forall z, fst (eigvec z) ^ 2 + snd (eigvec z) ^ 2 = 1) ->
  (forall rows : list (vec5 * R), exists k, forall c k', fold_right Rplus 0 (map (fun r => (snd r - (dot5 (lstsq6 rows) (fst r) + k)) ^ 2) rows) <= fold_right Rplus 0 (map (fun r => (snd r - (dot5 c (fst r) + k')) ^ 2) rows)) ->
  (forall (M : vec5 -> vec5) g x, M x = g -> (forall x', M x' = g -> x' = x) -> lstsq5 M g = x) ->
  (exists x y, In x v /\ In y v /\ x <> y) -> (exists x y, In x i /\ In y i /\ x <> y) ->
  (forall c k, (forall p, In p data -> quadratic c (fst p) (isc - snd p) + k = 0) -> c = (0, 0, 0, 0, 0)) ->
  cocontent_regress eigvec lstsq6 lstsq5 v i isc (map (fun p => quadratic beta (fst p) (isc - snd p) + k0) data) = beta.
Proof.
  intros eigvec lstsq6 lstsq5 data isc beta k0 v i UN L6 L5 SV SI ID. unfold cocontent_regress. cbv zeta. set (d := map (fun c => isc - c) i). set (m1 := rmean v). set (m2 := rmean d). set (sd1 := rstd1 v). set (sd2 := rstd1 d).
  assert (S1 : sd1 <> 0) by (apply spread, SV).
  assert (S2 : sd2 <> 0). { apply spread. destruct SI as (x & y & X & Y & N). exists (isc - x), (isc - y). split; [apply (in_map (fun c => isc - c)), X|]. split; [apply (in_map (fun c => isc - c)), Y|]. lra. }
  set (e := eigvec _). pose proof (UN (map (fun p => ((fst p - m1) / sd1, (snd p - m2) / sd2)) (combine v d))) as U. fold e in U.
  set (T := transform m1 m2 sd1 sd2 (fst e) (snd e)). change (fun b => mulv (mb (fst e) (snd e)) (mulv (ma m1 m2 sd1 sd2) b)) with T.
  assert (VD : combine v d = map (fun p => (fst p, isc - snd p)) data) by (unfold v, d, i; rewrite map_map, combine_map; reflexivity). rewrite VD, !map_map, combine_map. cbn [fst snd].
  set (mc := rmean _). set (rot := fun p : R * R => rotated m1 m2 sd1 sd2 (fst e) (snd e) (fst p) (isc - snd p)).
  set (rows := map _ data).
  assert (ER : forall c k, fold_right Rplus 0 (map (fun r => (snd r - (dot5 c (fst r) + k)) ^ 2) rows) = fold_right Rplus 0 (map (fun p => (quadratic beta (fst p) (isc - snd p) + k0 - mc - (quadratic c (fst (rot p)) (snd (rot p)) + k)) ^ 2) data)).
  { intros c k. unfold rows. rewrite map_map. f_equal. apply map_ext. intros p. cbn [fst snd]. rewrite quad_dot. reflexivity. }
  destruct (L6 rows) as [k MIN]. destruct (C125_rotation m1 m2 sd1 sd2 (fst e) (snd e) U S1 S2 beta) as [kb RB]. specialize (MIN (T beta) (kb + k0 - mc)). rewrite !ER in MIN.
  assert (Z : fold_right Rplus 0 (map (fun p => (quadratic beta (fst p) (isc - snd p) + k0 - mc - (quadratic (T beta) (fst (rot p)) (snd (rot p)) + (kb + k0 - mc))) ^ 2) data) = 0).
  { apply (squares_zero (fun p => quadratic beta (fst p) (isc - snd p) + k0 - mc - (quadratic (T beta) (fst (rot p)) (snd (rot p)) + (kb + k0 - mc)))). intros p _. pose proof (RB (fst p) (isc - snd p)) as Q. cbv zeta in Q. rewrite Q. unfold T, rot. ring. }
  rewrite Z in MIN. set (g := lstsq6 rows) in *. pose proof (squares_nonneg (fun p => quadratic beta (fst p) (isc - snd p) + k0 - mc - (quadratic g (fst (rot p)) (snd (rot p)) + k)) data) as NN.
  assert (Z2 : fold_right Rplus 0 (map (fun p => (quadratic beta (fst p) (isc - snd p) + k0 - mc - (quadratic g (fst (rot p)) (snd (rot p)) + k)) ^ 2) data) = 0) by lra. rewrite (squares_zero (fun p => quadratic beta (fst p) (isc - snd p) + k0 - mc - (quadratic g (fst (rot p)) (snd (rot p)) + k))) in Z2.
  destruct (C125_rotation_unique m1 m2 sd1 sd2 (fst e) (snd e) U S1 S2 g) as (b' & EB & UB). fold T in EB, UB.
  enough (BB : b' = beta) by (subst b'; apply L5; [exact EB|intros x' X'; symmetry; apply UB, X']).
  destruct (C125_rotation m1 m2 sd1 sd2 (fst e) (snd e) U S1 S2 b') as [kb' RB']. fold T in RB'. rewrite EB in RB'.
  specialize (ID (let '(a1, a2, a3, a4, a5) := b' in let '(b1, b2, b3, b4, b5) := beta in (a1 - b1, a2 - b2, a3 - b3, a4 - b4, a5 - b5)) (k - kb' - k0 + mc)).
  assert (W : forall p, In p data -> quadratic (let '(a1, a2, a3, a4, a5) := b' in let '(b1, b2, b3, b4, b5) := beta in (a1 - b1, a2 - b2, a3 - b3, a4 - b4, a5 - b5)) (fst p) (isc - snd p) + (k - kb' - k0 + mc) = 0).
  { intros p P. rewrite <- quad_sub. pose proof (RB' (fst p) (isc - snd p)) as Q. cbv zeta in Q. rewrite Q. pose proof (Z2 p P) as Z3. cbv beta in Z3. unfold rot in Z3. lra. }
  specialize (ID W). clear - ID. destruct b' as [[[[a1 a2] a3] a4] a5], beta as [[[[c1 c2] c3] c4] c5]. injection ID as I1 I2 I3 I4 I5. repeat apply f_equal2; lra.
Qed.
Print Assumptions C125_regress.
(** the public function: errors and otherwise the composition of the steps *)
Theorem C125_errors : forall eigvec lstsq6 lstsq5 v i nsvth, (increasing v \/ length v <> length i \/ (length v < 6)%nat) ->
  ((length v <> length i \/ (length v < 6)%nat) -> fit_sandia_cocontent eigvec lstsq6 lstsq5 v i nsvth = Err ValueError) /\
  (length v = length i -> (6 <= length v)%nat -> exists ks, schumaker_qspline v i = Ok ks /\
     fit_sandia_cocontent eigvec lstsq6 lstsq5 v i nsvth = Ok (cocontent_params (cocontent_regress eigvec lstsq6 lstsq5 v i (nth 0 i 0) (cocontent ks (nth 0 i 0))) (nth 0 i 0) (last v 0) nsvth)).
Proof.
  intros eigvec lstsq6 lstsq5 v i nsvth H. unfold fit_sandia_cocontent. cbv zeta. split.
  - intros K. destruct (Nat.eqb_spec (length i) (length v)); cbn [negb]; [|reflexivity]. destruct (Nat.ltb_spec (length v) 6); [reflexivity|lia].
  - intros E L. rewrite E, Nat.eqb_refl. cbn [negb]. destruct (Nat.ltb_spec (length i) 6); [lia|]. destruct H as [H|[H|H]]; [|lia|lia]. exists (flat_map seg_rows (segments v i) ++ (last_row v i :: nil)). rewrite qspline_eq by (try assumption; lia). split; reflexivity.
Qed.
Print Assumptions C125_errors.
(** data that determine the quadratic *)
Example C125_regress_instance : let data := [(0, 0); (1, 0); (2, 0); (0, 1); (0, 2); (1, 1)] in
  (forall c k, (forall p, In p data -> quadratic c (fst p) (2 - snd p) + k = 0) -> c = (0, 0, 0, 0, 0)) /\ (exists x y, In x (map (@fst R R) data) /\ In y (map (@fst R R) data) /\ x <> y) /\ (exists x y, In x (map (@snd R R) data) /\ In y (map (@snd R R) data) /\ x <> y).
Proof.
  cbv zeta. split; [|split; exists 0, 1; cbn; repeat split; try lra; tauto].
  intros [[[[c1 c2] c3] c4] c5] k H. assert (A := H (0, 0)). assert (B := H (1, 0)). assert (C := H (2, 0)). assert (D := H (0, 1)). assert (E := H (0, 2)). assert (F := H (1, 1)). clear H.
  unfold quadratic in *. cbn [In fst snd] in *. specialize (A ltac:(tauto)). specialize (B ltac:(tauto)). specialize (C ltac:(tauto)). specialize (D ltac:(tauto)). specialize (E ltac:(tauto)). specialize (F ltac:(tauto)).
  repeat apply f_equal2; lra.
Qed.
