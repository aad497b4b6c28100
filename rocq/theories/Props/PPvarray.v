(** C100-C102: pvlib.pvarray. *)
From Verif Require Import Base.Fl Base.FlFacts Base.Py Model.SingleDiode Model.Pvarray Spec.PvarraySpec Spec.DiodeSpec Proofs.LambertP Proofs.ClearskyB Proofs.PvarrayP.
From Coq Require Import Psatz Lia List.
Import ListNotations.
Open Scope R_scope.

(** ** C100: the ADR efficiency model *)
Theorem C100_efficiency : forall g t k_a k_d tc_d k_rs k_rsh, 0 <= g ->
  pvefficiency_adr #g #t #k_a #k_d #tc_d #k_rs #k_rsh = #(adr_eta k_a k_d tc_d k_rs k_rsh g t).
Proof. intros. apply adr_fin. pose proof (dark_pos k_d tc_d t). lra. Qed.
Print Assumptions C100_efficiency.
(** the reference efficiency and the dark *)
Theorem C100_reference : forall k_a k_d tc_d k_rs k_rsh t,
  pvefficiency_adr #1000 #25 #k_a #k_d #tc_d #k_rs #k_rsh = #k_a /\ pvefficiency_adr #0 #t #k_a #k_d #tc_d #k_rs #k_rsh = #0.
Proof.
  intros. rewrite !C100_efficiency by lra. unfold adr_eta. rewrite adr_v_ref, adr_v_0. split; f_equal; field.
Qed.
Print Assumptions C100_reference.
(** up to one sun at 25 degrees the efficiency is not negative and at most k_a (1 + k_rs + k_rsh) *)
Theorem C100_range : forall g k_a k_d tc_d k_rs k_rsh, 0 <= g <= 1000 -> 0 <= k_a -> 0 <= k_rs -> 0 <= k_rsh -> exists e,
  pvefficiency_adr #g #25 #k_a #k_d #tc_d #k_rs #k_rsh = #e /\ k_a * (g / 1000) <= e <= k_a * (1 + k_rs + k_rsh).
Proof.
  intros g ka kd tc krs krsh Hg Ha Hs Hh. eexists. split; [apply C100_efficiency; lra|]. unfold adr_eta. cbv zeta.
  pose proof (adr_v_range kd tc g Hg) as [V1 V2]. set (v := adr_v kd tc g 25) in *. set (s := g / 1000) in *. assert (S : 0 <= s) by (unfold s; lra).
  assert (A : 0 <= krs * (v - s)) by (apply Rmult_le_pos; lra). assert (B : 0 <= krsh * (v * (1 - v))) by (apply Rmult_le_pos; [lra|apply Rmult_le_pos; lra]).
  assert (C : 0 <= krs * (1 - v + s)) by (apply Rmult_le_pos; lra). assert (D : 0 <= krsh * (1 - v + v ^ 2)) by (apply Rmult_le_pos; [lra|]; pose proof (pow2_ge_0 v); lra).
  split; apply Rmult_le_compat_l; lra.
Qed.
Print Assumptions C100_range.
(** a hotter module (tc_d >= 0) is never more efficient, from the temperature where the voltage variable is at most 1 *)
Theorem C100_temperature : forall g t1 t2 k_a k_d tc_d k_rs k_rsh, 0 <= g <= 1000 -> 25 <= t1 -> t1 <= t2 -> 0 <= tc_d ->
  0 <= k_a -> 0 <= k_rs -> 0 <= k_rsh <= 1 -> exists e1 e2,
  pvefficiency_adr #g #t1 #k_a #k_d #tc_d #k_rs #k_rsh = #e1 /\ pvefficiency_adr #g #t2 #k_a #k_d #tc_d #k_rs #k_rsh = #e2 /\ e2 <= e1.
Proof.
  intros g t1 t2 ka kd tc krs krsh Hg H25 Ht Htc Ha Hs Hh. eexists _, _. split; [apply C100_efficiency; lra|]. split; [apply C100_efficiency; lra|].
  unfold adr_eta. cbv zeta. pose proof (adr_v_range kd tc g Hg) as [_ V1]. pose proof (adr_v_mono kd tc g 25 t1 Htc ltac:(lra) H25) as [P1 M1].
  pose proof (adr_v_mono kd tc g t1 t2 Htc ltac:(lra) Ht) as [P2 M2].
  set (v1 := adr_v kd tc g t1) in *. set (v2 := adr_v kd tc g t2) in *. apply Rmult_le_compat_l; [lra|].
  assert (0 <= (v1 - v2) * (1 + krs + krsh * (1 - (v1 + v2)))); [|lra]. apply Rmult_le_pos; [lra|].
  assert (krsh * (v1 + v2 - 1) <= krsh * 1) by (apply Rmult_le_compat_l; lra). lra.
Qed.
Print Assumptions C100_temperature.
Theorem C100_missing : forall g t k_a k_d tc_d k_rs k_rsh,
  pvefficiency_adr NaN t k_a k_d tc_d k_rs k_rsh = NaN /\ pvefficiency_adr g NaN k_a k_d tc_d k_rs k_rsh = NaN.
Proof.
  intros. split; unfold pvefficiency_adr, fexp10; cbv zeta.
  - nans. reflexivity.
  - rewrite nan_sub_l, nan_mul_l, nan_add_r. replace (fpow #10 NaN) with NaN by (cbn; rewrite Reqb_f by lra; reflexivity). nans. reflexivity.
Qed.
Print Assumptions C100_missing.
Example C100_nonvacuous : 0 <= 200 <= 1000 /\ 25 <= 30 /\ 30 <= 60 /\ 0 <= 0.02 /\ 0 <= 0.01 <= 1. Proof. lra. Qed.

(** *** fitting: what is asked of scipy's curve_fit, and what comes back *)
Theorem C100_fit_asks : forall cf kwargs g t eta m, np_max eta = Ok m ->
  fit_pvefficiency_adr cf kwargs g t eta =
    rmap (fun p => (combine ["k_a"; "k_d"; "tc_d"; "k_rs"; "k_rsh"]%string p, p))
      (cf adr_wrapper (combine g t) eta (kwargs
         {| fo_p0 := [m; #(-6); #0; #0.001; #0.001]; fo_lower := [#0; #(-12); #(-0.1); #0; #0]; fo_upper := [PInf; #0; #0.1; #1; #1];
            fo_method := "trf"; fo_x_scale := [m; #10; #0.1; #1; #1]; fo_loss := "soft_l1"; fo_f_scale := fmul m #0.05;
            fo_sigma := map (fun i => fdiv #1 (fsqrt (fdiv i #1000))) g |})).
Proof.
  intros cf kw g t eta m E. unfold fit_pvefficiency_adr, adr_options. rewrite E. cbn [bind].
  replace (#0.0) with (#0) by (f_equal; lra). replace (#1.0) with (#1) by (f_equal; lra). replace (#1e-3) with (#0.001) by (f_equal; lra). reflexivity.
Qed.
Print Assumptions C100_fit_asks.
Theorem C100_fit_empty : forall cf kwargs g t, fit_pvefficiency_adr cf kwargs g t [] = Err ValueError.
Proof. reflexivity. Qed.
Print Assumptions C100_fit_empty.
(** the maximum that is passed *)
Theorem C100_fit_max : forall x l, exists m, np_max (map Fin (x :: l)) = Ok #m /\ In m (x :: l) /\ forall y, In y (x :: l) -> y <= m.
Proof.
  intros x l. cbn [map np_max]. revert x. induction l as [|y l IH]; intros x.
  - exists x. repeat split; [left; reflexivity|intros y [<-|[]]; lra].
  - cbn [map fold_left]. rewrite fmax_fin. destruct (IH (Rmax x y)) as (m & E & I & U). exists m. split; [exact E|]. split.
    + destruct I as [<-|I]; [|right; right; exact I]. unfold Rmax. destruct Rle_dec; [right; left|left]; reflexivity.
    + intros z [<-|[<-|Hz]].
      * apply Rle_trans with (Rmax x y); [apply Rmax_l|apply U; left; reflexivity].
      * apply Rle_trans with (Rmax x y); [apply Rmax_r|apply U; left; reflexivity].
      * apply U; right; exact Hz.
Qed.
Print Assumptions C100_fit_max.
Definition params_list (p : adr_params) : list fl := [#(ap_a p); #(ap_d p); #(ap_tc p); #(ap_rs p); #(ap_rsh p)].
Definition s_g (s : R * R * R) : fl := #(fst (fst s)).
Definition s_t (s : R * R * R) : fl := #(snd (fst s)).
Definition s_e (s : R * R * R) : fl := #(snd s).
(** [curve_fit] does what scipy documents: it returns parameters inside the box with the least robust loss there *)
Definition fits (cf : (fl * fl -> list fl -> res fl) -> list (fl * fl) -> list fl -> fit_options -> res (list fl)) (samples : list (R * R * R)) (scale : R) : Prop :=
  forall opts, fo_f_scale opts = #scale -> fo_loss opts = "soft_l1"%string -> fo_sigma opts = map (fun s => fdiv #1 (fsqrt (fdiv (s_g s) #1000))) samples ->
    exists p, cf adr_wrapper (combine (map s_g samples) (map s_t samples)) (map s_e samples) opts = Ok (params_list p) /\
      adr_box p /\ forall q, adr_box q -> adr_loss scale samples p <= adr_loss scale samples q.
(** then measurements that follow the ADR model are reproduced exactly by the fitted parameters *)
Theorem C100_fit_recovers : forall cf samples q m, samples <> [] -> (forall g t e, In (g, t, e) samples -> 0 < g /\ e = adr_at q g t) -> adr_box q ->
  np_max (map s_e samples) = Ok #m -> m <> 0 -> fits cf samples (m * 0.05) ->
  exists p, fit_pvefficiency_adr cf (fun o => o) (map s_g samples) (map s_t samples) (map s_e samples)
      = Ok ([("k_a", #(ap_a p)); ("k_d", #(ap_d p)); ("tc_d", #(ap_tc p)); ("k_rs", #(ap_rs p)); ("k_rsh", #(ap_rsh p))]%string, params_list p) /\
    adr_box p /\ forall g t e, In (g, t, e) samples -> adr_at p g t = e.
Proof.
  intros cf samples q m Hne Hs Hq Em Hm Hf. destruct (Hf (adr_options (map s_g samples) #m)) as (p & E & B & M).
  - cbn [adr_options fo_f_scale]. apply fmul_fin.
  - reflexivity.
  - cbn [adr_options fo_sigma]. rewrite map_map. reflexivity.
  - exists p. split; [|split; [exact B|]].
    + unfold fit_pvefficiency_adr. rewrite Em. cbn [bind]. rewrite E. cbn [bind]. reflexivity.
    + apply (loss_zero_inv (m * 0.05)); [lra|intros g t e Hin; apply (Hs g t e Hin)|].
      rewrite <- (loss_zero (m * 0.05) samples q); [apply M, Hq|]. intros g t e Hin. symmetry. apply (Hs g t e Hin).
Qed.
Print Assumptions C100_fit_recovers.
Example C100_fit_nonvacuous : adr_box (AP 0.2 (-5) 0.02 0.01 0.01) /\ adr_at (AP 0.2 (-5) 0.02 0.01 0.01) 1000 25 = 0.2.
Proof. unfold adr_box, adr_at, adr_eta. cbn. rewrite adr_v_ref. lra. Qed.
(** the curve handed over is the model itself, the parameters in the order k_a, k_d, tc_d, k_rs, k_rsh *)
Theorem C100_fit_curve_arity : forall it params, length params <> 5%nat -> adr_wrapper it params = Err TypeError.
Proof. intros it params H. destruct params as [|? [|? [|? [|? [|? [|? ?]]]]]]; try reflexivity. destruct (H eq_refl). Qed.
Print Assumptions C100_fit_curve_arity.
Theorem C100_fit_curve : forall g t p, 0 <= g -> adr_wrapper (#g, #t) (params_list p) = Ok #(adr_at p g t).
Proof. intros g t p Hg. cbn [adr_wrapper params_list fst snd]. rewrite C100_efficiency by exact Hg. reflexivity. Qed.
Print Assumptions C100_fit_curve.

(** ** C101: the Huld model *)
Definition ks (k1 k2 k3 k4 k5 k6 : R) : list fl := [#k1; #k2; #k3; #k4; #k5; #k6].
Theorem C101_power : forall g t p0 k1 k2 k3 k4 k5 k6 rest ct v, 0 < g ->
  huld #g #t #p0 (Some (ks k1 k2 k3 k4 k5 k6 ++ rest)) ct v = Ok #(huld_power p0 k1 k2 k3 k4 k5 k6 (g / 1000) (t - 25)).
Proof.
  intros g t p0 k1 k2 k3 k4 k5 k6 rest ct v Hg. unfold huld. cbn [bind]. unfold kget. cbn [ks app nth_error bind].
  rewrite fdiv_fin by lra. rewrite fgtb_fin. destruct (Rltb_spec 0 (g / 1000)); [|lra]. rewrite fln_fin by lra.
  rewrite fsub_fin, !fpown_fin, !fmul_fin, !fadd_fin, !fmul_fin. reflexivity.
Qed.
Print Assumptions C101_power.
(** without irradiance (or a negative reading) the logarithm counts as zero; no irradiance, no power *)
Theorem C101_dark : forall g t p0 k1 k2 k3 k4 k5 k6 rest ct v, g <= 0 ->
  huld #g #t #p0 (Some (ks k1 k2 k3 k4 k5 k6 ++ rest)) ct v = Ok #(g / 1000 * (p0 + k3 * (t - 25) + k6 * (t - 25) ^ 2)) /\
  huld #0 #t #p0 (Some (ks k1 k2 k3 k4 k5 k6 ++ rest)) ct v = Ok #0.
Proof.
  assert (K : forall g t p0 k1 k2 k3 k4 k5 k6 rest ct v, g <= 0 ->
    huld #g #t #p0 (Some (ks k1 k2 k3 k4 k5 k6 ++ rest)) ct v = Ok #(g / 1000 * (p0 + k3 * (t - 25) + k6 * (t - 25) ^ 2))).
  { intros g t p0 k1 k2 k3 k4 k5 k6 rest ct v Hg. unfold huld. cbn [bind]. unfold kget. cbn [ks app nth_error bind].
    rewrite fdiv_fin by lra. rewrite fgtb_fin. destruct (Rltb_spec 0 (g / 1000)); [lra|].
    rewrite fsub_fin, !fpown_fin, !fmul_fin, !fadd_fin, !fmul_fin. do 2 f_equal. ring. }
  intros g t p0 k1 k2 k3 k4 k5 k6 rest ct v Hg. split; [apply K, Hg|]. rewrite K by lra. do 2 f_equal. field.
Qed.
Print Assumptions C101_dark.
(** rated conditions give rated power, whatever the coefficients *)
Theorem C101_rating : forall p0 k1 k2 k3 k4 k5 k6 ct v, huld #1000 #25 #p0 (Some (ks k1 k2 k3 k4 k5 k6)) ct v = Ok #p0.
Proof.
  intros. pose proof (C101_power 1000 25 p0 k1 k2 k3 k4 k5 k6 [] ct v ltac:(lra)) as E. rewrite app_nil_r in E. rewrite E. do 2 f_equal.
  unfold huld_power. replace (1000 / 1000) with 1 by field. rewrite ln_1. ring.
Qed.
Print Assumptions C101_rating.
(** built-in coefficients: the published PVGIS tables times the rated power, names in any letter case *)
Definition tech_name (t : tech) : string := match t with CSI => "csi" | CIS => "cis" | CDTE => "cdte" end.
Definition version_name (v : pvgis) : string := match v with V5 => "pvgis5" | V6 => "pvgis6" end.
Theorem C101_builtin : forall g t p0 tech_ version ct v, lower ct = tech_name tech_ -> lower v = version_name version ->
  let '(k1, k2, k3, k4, k5, k6) := huld_k version tech_ in
  huld #g #t #p0 None (Some ct) v = huld #g #t #p0 (Some (ks (k1 * p0) (k2 * p0) (k3 * p0) (k4 * p0) (k5 * p0) (k6 * p0))) None "".
Proof.
  intros g t p0 te ve ct v Ht Hv. unfold huld at 1. unfold infer_k_huld. rewrite Ht, Hv.
  destruct ve, te; cbn [huld_k version_name tech_name]; reflexivity.
Qed.
Print Assumptions C101_builtin.
(** hence the power is proportional to the rating *)
Theorem C101_proportional : forall g t p0 tech_ version ct v, lower ct = tech_name tech_ -> lower v = version_name version -> 0 < g ->
  exists x, huld #g #t #1 None (Some ct) v = Ok #x /\ huld #g #t #p0 None (Some ct) v = Ok #(x * p0).
Proof.
  intros g t p0 te ve ct v Ht Hv Hg. pose proof (C101_builtin g t p0 te ve ct v Ht Hv) as A. pose proof (C101_builtin g t 1 te ve ct v Ht Hv) as B.
  destruct (huld_k ve te) as [[[[[k1 k2] k3] k4] k5] k6]. eexists. rewrite A, B.
  pose proof (C101_power g t 1 (k1 * 1) (k2 * 1) (k3 * 1) (k4 * 1) (k5 * 1) (k6 * 1) [] None "" Hg) as P1.
  pose proof (C101_power g t p0 (k1 * p0) (k2 * p0) (k3 * p0) (k4 * p0) (k5 * p0) (k6 * p0) [] None "" Hg) as P2. rewrite app_nil_r in P1, P2.
  rewrite P1, P2. split; [reflexivity|]. do 2 f_equal. unfold huld_power. ring.
Qed.
Print Assumptions C101_proportional.
(** refusals, in the order they are checked *)
Theorem C101_refusals : forall g t p0 v ct,
  huld g t p0 None None v = Err ValueError /\
  (lower v <> "pvgis5"%string -> lower v <> "pvgis6"%string -> huld g t p0 None (Some ct) v = Err ValueError) /\
  (lower v = "pvgis5"%string \/ lower v = "pvgis6"%string -> (forall te, lower ct <> tech_name te) -> huld g t p0 None (Some ct) v = Err KeyError) /\
  (forall k, (length k < 6)%nat -> huld g t p0 (Some k) (Some ct) v = Err IndexError).
Proof.
  intros g t p0 v ct. split; [reflexivity|]. split; [|split].
  - intros H5 H6. unfold huld, infer_k_huld. apply String.eqb_neq in H5, H6. rewrite H5, H6. reflexivity.
  - intros Hv Ht. assert (N : forall te, String.eqb (lower ct) (tech_name te) = false) by (intros; apply String.eqb_neq, Ht).
    pose proof (N CSI) as N1. pose proof (N CIS) as N2. pose proof (N CDTE) as N3. cbn [tech_name] in *.
    unfold huld, infer_k_huld. destruct Hv as [-> | ->]; cbn [String.eqb Ascii.eqb Bool.eqb bind]; unfold getitem, huld_pvgis5, huld_pvgis6; cbn [lookup]; rewrite N1, N2, N3; reflexivity.
  - intros k Hk. unfold huld. cbn [bind]. unfold kget.
    do 6 (destruct k as [|? k]; [reflexivity|]). cbn in Hk. lia.
Qed.
Print Assumptions C101_refusals.
Example C101_nonvacuous : lower "cSi" = tech_name CSI /\ lower "PVGIS6" = version_name V6 /\ huld_k V6 CSI = (-0.0067560, -0.016444, -0.003015, -0.000045, -0.000043, 0.0).
Proof. repeat split. Qed.

(** ** C102: Batzelis' datasheet method *)
(** the published equations; Lambert's W is met within 1.3e-10 *)
Theorem C102_value : forall g t vmp imp voc isc al be, let a := al / isc in let b := be / voc in
  voc <> 0 -> isc <> 0 -> vmp <> 0 -> 0 < bz_d a b <= 1 -> 50.1 - a * 298.15 <> 0 -> 0 < g ->
  exists w w', is_W (exp (1 / bz_d a b + 1)) w /\ 0 <= w - w' <= 1.3e-10 /\
  pv_batzelis #g #t #vmp #imp #voc #isc #al #be =
    let v := Rmax (bz_vmp vmp voc a b w' (g / 1000) (ln (g / 1000)) t) 0 in
    let i := bz_imp imp a b w' (g / 1000) t in
    {| f_p_mp := #(v * i); f_i_mp := #i; f_v_mp := #v; f_i_sc := #(bz_isc isc a (g / 1000) t); f_v_oc := #(Rmax (bz_voc voc a b (ln (g / 1000)) t) 0) |}.
Proof.
  intros g t vmp imp voc isc al be a b H1 H2 H3 H4 H5 Hg.
  destruct (batzelis_fin g t vmp imp voc isc al be H1 H2 H3 H4 H5 (ln (g / 1000)) (fun _ => eq_refl) ltac:(lra)) as (w & w' & Hw & A & _ & _ & E).
  exists w, w'. repeat split; try apply Hw; try lra. exact E.
Qed.
Print Assumptions C102_value.
(** at standard test conditions the datasheet comes back *)
Theorem C102_reference : forall vmp imp voc isc al be, let a := al / isc in let b := be / voc in
  0 < voc -> isc <> 0 -> 0 < vmp -> 0 < bz_d a b <= 1 -> 50.1 - a * 298.15 <> 0 ->
  pv_batzelis #1000 #25 #vmp #imp #voc #isc #al #be = {| f_p_mp := #(vmp * imp); f_i_mp := #imp; f_v_mp := #vmp; f_i_sc := #isc; f_v_oc := #voc |}.
Proof.
  intros vmp imp voc isc al be a b H1 H2 H3 H4 H5.
  destruct (batzelis_fin 1000 25 vmp imp voc isc al be ltac:(lra) H2 ltac:(lra) H4 H5 0) as (w & w' & _ & _ & W & _ & E).
  { intros _. replace (1000 / 1000) with 1 by field. rewrite ln_1. reflexivity. } { lra. }
  rewrite E. cbv zeta. fold a b. set (d := bz_d a b) in *.
  assert (EV : bz_vmp vmp voc a b w' (1000 / 1000) 0 25 = vmp) by (unfold bz_vmp; fold d; field; lra).
  assert (EI : bz_imp imp a b w' (1000 / 1000) 25 = imp) by (unfold bz_imp; field; lra).
  assert (ES : bz_isc isc a (1000 / 1000) 25 = isc) by (unfold bz_isc; field).
  assert (EO : bz_voc voc a b 0 25 = voc) by (unfold bz_voc; ring).
  rewrite EV, EI, ES, EO. rewrite !Rmax_left by lra. reflexivity.
Qed.
Print Assumptions C102_reference.
(** at one sun i_sc and v_oc follow their temperature coefficients; i_sc is proportional to irradiance everywhere *)
Theorem C102_temperature_coefficients : forall g t vmp imp voc isc al be, let a := al / isc in let b := be / voc in
  voc <> 0 -> isc <> 0 -> vmp <> 0 -> 0 < bz_d a b <= 1 -> 50.1 - a * 298.15 <> 0 ->
  f_i_sc (pv_batzelis #g #t #vmp #imp #voc #isc #al #be) = #(g / 1000 * (isc + al * (t - 25))) /\
  f_v_oc (pv_batzelis #1000 #t #vmp #imp #voc #isc #al #be) = #(Rmax (voc + be * (t - 25)) 0).
Proof.
  intros g t vmp imp voc isc al be a b H1 H2 H3 H4 H5. split.
  - destruct (Rle_dec g 0) as [G|G].
    + destruct (batzelis_fin g t vmp imp voc isc al be H1 H2 H3 H4 H5 (-9e9) ltac:(lra) ltac:(reflexivity)) as (w & w' & _ & _ & _ & _ & E).
      rewrite E. cbv zeta. cbn [f_i_sc]. f_equal. unfold bz_isc. field. exact H2.
    + destruct (batzelis_fin g t vmp imp voc isc al be H1 H2 H3 H4 H5 (ln (g / 1000)) ltac:(reflexivity) ltac:(lra)) as (w & w' & _ & _ & _ & _ & E).
      rewrite E. cbv zeta. cbn [f_i_sc]. f_equal. unfold bz_isc. field. exact H2.
  - destruct (batzelis_fin 1000 t vmp imp voc isc al be H1 H2 H3 H4 H5 0) as (w & w' & _ & _ & _ & _ & E).
    { intros _. replace (1000 / 1000) with 1 by field. rewrite ln_1. reflexivity. } { lra. }
    rewrite E. cbv zeta. cbn [f_v_oc]. do 2 f_equal. unfold bz_voc. field. exact H1.
Qed.
Print Assumptions C102_temperature_coefficients.
(** no irradiance: everything is zero *)
Theorem C102_dark : forall t vmp imp voc isc al be, -100 <= t <= 200 -> 0 < vmp <= voc -> 0 < isc -> 0 <= al -> be <= 0 ->
  0 < bz_d (al / isc) (be / voc) <= 1 -> 0 < 50.1 - al / isc * 298.15 ->
  pv_batzelis #0 #t #vmp #imp #voc #isc #al #be = {| f_p_mp := #0; f_i_mp := #0; f_v_mp := #0; f_i_sc := #0; f_v_oc := #0 |}.
Proof.
  intros t vmp imp voc isc al be Ht Hv Hi Hal Hbe Hd Hden. set (a := al / isc) in *. set (b := be / voc) in *.
  destruct (batzelis_fin 0 t vmp imp voc isc al be ltac:(lra) ltac:(lra) ltac:(lra) Hd ltac:(fold a; lra) (-9e9) ltac:(lra) ltac:(reflexivity)) as (w & w' & _ & A & W & K & E).
  rewrite E. clear E. cbv zeta. fold a b in K |- *. 
  assert (Ha : 0 <= a) by (apply Rmult_le_pos; [lra|apply Rlt_le, Rinv_0_lt_compat, Hi]).
  assert (Hb : b <= 0). { unfold b, Rdiv. assert (0 <= - be * / voc) by (apply Rmult_le_pos; [lra|apply Rlt_le, Rinv_0_lt_compat; lra]). lra. }
  set (d := bz_d a b) in *. set (B := - b). assert (HB : 0 <= B) by (unfold B; lra).
  assert (D : (1 + B * 298.15) / 50.1 <= d).
  { unfold d, bz_d, B. replace (1 + - b * 298.15) with (1 - b * 298.15) by ring. unfold Rdiv. apply Rmult_le_compat_l; [unfold B in HB; lra|]. apply Rinv_le_contravar; [exact Hden|]. assert (0 <= a * 298.15) by (apply Rmult_le_pos; lra). lra. }
  set (l := bz_lam t). assert (L : 0.5 <= l) by (unfold l, bz_lam; lra).
  assert (I1 : bz_isc isc a (0 / 1000) t = 0) by (unfold bz_isc, Rdiv; ring). assert (I2 : bz_imp imp a b w' (0 / 1000) t = 0) by (unfold bz_imp, Rdiv; ring).
  assert (DL : (1 + B * 298.15) / 50.1 * 0.5 <= d * l) by (apply Rmult_le_compat; lra).
  assert (BT : b * (t - 25) <= B * 125). { unfold B. assert (0 <= - b * (t - 25 + 125)) by (apply Rmult_le_pos; [fold B; lra|lra]). lra. }
  assert (O : Rmax (bz_voc voc a b (-9e9) t) 0 = 0).
  { apply Rmax_right. unfold bz_voc. fold d l. assert (0 <= voc * (- (1 + d * l * -9e9 + b * (t - 25)))) by (apply Rmult_le_pos; lra). lra. }
  set (k := voc / vmp). assert (Hk : 1 <= k). { unfold k. replace 1 with (vmp / vmp) by (field; lra). unfold Rdiv. apply Rmult_le_compat_r; [apply Rlt_le, Rinv_0_lt_compat; lra|lra]. }
  set (i := / (1 + d)). assert (Hi1 : 0.5 <= i <= 1).
  { unfold i. split; [replace 0.5 with (/ 2) by lra|replace 1 with (/ 1) at 2 by field]; apply Rinv_le_contravar; lra. }
  set (m := d * (w' - 1)). assert (M : 0 <= m <= 1).
  { unfold m. split; [apply Rmult_le_pos; lra|]. assert (d * (w' - 1) <= d * (w - 1)) by (apply Rmult_le_compat_l; lra). lra. }
  assert (V : Rmax (bz_vmp vmp voc a b w' (0 / 1000) (-9e9) t) 0 = 0).
  { apply Rmax_right. unfold bz_vmp. cbv zeta. fold d l k m. unfold Rdiv. fold i.
    set (Q := m + (b * i + (m - 1 * i) * / 298.15) * (t - 25) - d * i * l * 9e9).
    assert (QN : Q <= 0).
    { assert (DLI : (1 + B * 298.15) / 50.1 * 0.5 * 0.5 <= d * l * i) by (apply Rmult_le_compat; lra).
      assert (BI : b * (t - 25) * i <= B * 125).
      { apply Rle_trans with (Rmax 0 (b * (t - 25))); [|apply Rmax_lub; [|exact BT]; apply Rmult_le_pos; lra].
        destruct (Rle_dec 0 (b * (t - 25))) as [P|P].
        - rewrite Rmax_right by exact P. assert (b * (t - 25) * i <= b * (t - 25) * 1) by (apply Rmult_le_compat_l; lra). lra.
        - rewrite Rmax_left by lra. assert (0 <= - (b * (t - 25)) * i) by (apply Rmult_le_pos; lra). lra. }
      assert (MI : (m - i) * (t - 25) <= 175).
      { assert (Rabs ((m - i) * (t - 25)) <= 1 * 175). { rewrite Rabs_mult. apply Rmult_le_compat; try apply Rabs_pos; apply Rabs_le; lra. } pose proof (Rle_abs ((m - i) * (t - 25))). lra. }
      unfold Q. replace ((b * i + (m - 1 * i) * / 298.15) * (t - 25)) with (b * (t - 25) * i + (m - i) * (t - 25) * / 298.15) by ring.
      replace (d * i * l) with (d * l * i) by ring. lra. }
    replace (vmp * _) with (vmp * (k * Q)) by (unfold Q; ring). assert (0 <= vmp * (k * - Q)) by (apply Rmult_le_pos; [lra|apply Rmult_le_pos; lra]). lra. }
  rewrite V, O, I1, I2, Rmult_0_l. reflexivity.
Qed.
Print Assumptions C102_dark.
(** missing or infinite irradiance never gives a voltage *)
Theorem C102_missing : forall g t vmp imp voc isc al be, isfinite g = false ->
  f_v_oc (pv_batzelis g t vmp imp voc isc al be) = NaN /\ f_v_mp (pv_batzelis g t vmp imp voc isc al be) = NaN /\ f_p_mp (pv_batzelis g t vmp imp voc isc al be) = NaN.
Proof.
  intros g t vmp imp voc isc al be Hg. unfold pv_batzelis. cbv zeta. cbn [f_v_oc f_v_mp f_p_mp].
  assert (E : isfinite (fdiv g #1000) = false).
  { destruct g; try discriminate; cbn [fdiv]; try (destruct (Rneg 1000)); reflexivity. } rewrite E.
  nans. auto.
Qed.
Print Assumptions C102_missing.
(** a 60-cell module *)
Example C102_nonvacuous : let a := 0.004 / 9 in let b := -0.12 / 38 in
  38 <> 0 /\ 9 <> 0 /\ 0 < 31 <= 38 /\ 0 < bz_d a b <= 1 /\ 0 < 50.1 - a * 298.15.
Proof.
  cbv zeta. unfold bz_d. assert (D : 0 < 50.1 - 0.004 / 9 * 298.15) by lra. repeat split; lra || (apply Rdiv_lt_0_compat; lra) || (apply div_le_1; lra).
Qed.
