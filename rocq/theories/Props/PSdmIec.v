(** C135-C136: fitting the PVsyst model to IEC 61853 matrix measurements; its temperature coefficient of power. *)
From Verif Require Import Base.Fl Base.FlFacts Base.Py Base.Series Model.SingleDiode Model.Pvsystem Spec.DiodeSpec Spec.IvSpec Spec.ScalingSpec
  Proofs.ScalingP Proofs.PvsystemP Proofs.ClearskyD Model.Clearsky Model.SdmIec.
From Coq Require Import String Psatz.
Open Scope R_scope.
Open Scope list_scope.
Import ListNotations.

Lemma Ok_inj {A} (a b : A) : Ok a = Ok b -> a = b. Proof. congruence. Qed.
(** *** least squares *)
Lemma sse_nonneg b X y : 0 <= sse b X y.
Proof. unfold sse. induction (combine X y) as [|p l IH]; cbn [map fold_right]; [lra|]. pose proof (pow2_ge_0 (dot b (fst p) - snd p)). lra. Qed.
Lemma sse_zero : forall b X y, List.length y = List.length X -> (sse b X y = 0 <-> fits b X y).
Proof.
  intros b. induction X as [|row X IH]; intros [|v y] L; try discriminate; [split; [constructor|reflexivity]|]. assert (E : sse b (row :: X) (v :: y) = (dot b row - v) ^ 2 + sse b X y) by reflexivity. rewrite E.
  pose proof (pow2_ge_0 (dot b row - v)) as P. pose proof (sse_nonneg b X y) as Q. specialize (IH y ltac:(cbn in L; lia)). split; intros H.
  - constructor; [|apply IH; lra]. assert (Z : (dot b row - v) ^ 2 = 0) by lra. assert (dot b row - v = 0); [|lra]. apply Rsqr_0_uniq. unfold Rsqr. rewrite <- Z. ring.
  - inversion H as [|? ? ? ? H1 H2]. subst. rewrite (proj2 IH H2). ring.
Qed.
Lemma lsq_unique solver X y b : lsq_solver solver -> X <> [] -> Forall (fun row => List.length row = List.length b) X -> fits b X y ->
  (forall b', List.length b' = List.length b -> fits b' X y -> b' = b) -> solver (map (map Fin) X) (map Fin y) = map Fin b.
Proof.
  intros LS N W F U. assert (L : List.length y = List.length X) by (clear - F; induction F; cbn; congruence). destruct (LS X y (List.length b) N L W) as (b' & LB & E & M). rewrite E. f_equal. apply U; [exact LB|]. apply sse_zero; [exact L|].
  pose proof (M b eq_refl) as Q. rewrite (proj2 (sse_zero b X y L) F) in Q. pose proof (sse_nonneg b' X y). lra.
Qed.
(** one column: between the smallest and the largest ratio *)
Lemma lsq_column solver {A} (x y : A -> R) ms lo hi : lsq_solver solver -> ms <> [] -> Forall (fun m => x m <> 0 /\ lo <= y m / x m <= hi) ms -> exists g, solver (map (fun m => [#(x m)]) ms) (map (fun m => #(y m)) ms) = [#g] /\ lo <= g <= hi.
Proof.
  intros LS N F. destruct (LS (map (fun m => [x m]) ms) (map y ms) 1%nat) as (b & LB & E & M).
  - destruct ms; [contradiction|discriminate].
  - rewrite !map_length. reflexivity.
  - apply Forall_forall. intros row H. apply in_map_iff in H. destruct H as (m & <- & _). reflexivity.
  - destruct b as [|g [|? b]]; try discriminate. rewrite !map_map in E. cbn [map] in E. exists g. split; [exact E|].
    set (A2 := fold_right Rplus 0 (map (fun m => x m ^ 2) ms)). set (B2 := fold_right Rplus 0 (map (fun m => x m * y m) ms)). set (C2 := fold_right Rplus 0 (map (fun m => y m ^ 2) ms)).
    assert (K : forall e, sse [e] (map (fun m => [x m]) ms) (map y ms) = e * e * A2 - 2 * e * B2 + C2).
    { intros e. unfold A2, B2, C2, sse. clear. induction ms as [|m ms IH]; cbn [map combine fold_right]; [ring|]. rewrite IH. cbn [fst snd]. unfold dot. cbn [combine map fold_right fst snd]. ring. }
    assert (AP : 0 < A2). { unfold A2. clear - N F. destruct ms as [|m ms]; [contradiction|]. cbn [map fold_right]. destruct (Forall_inv F) as [X _]. assert (0 < x m ^ 2) by (replace (x m ^ 2) with (Rsqr (x m)) by (unfold Rsqr; ring); apply Rsqr_pos_lt; exact X). assert (0 <= fold_right Rplus 0 (map (fun m => x m ^ 2) ms)). { clear. induction ms as [|k ms IH]; cbn [map fold_right]; [lra|]. pose proof (pow2_ge_0 (x k)). lra. } lra. }
    pose proof (M [B2 / A2] eq_refl) as Q. rewrite !K in Q. assert (G : g = B2 / A2).
    { assert (S : A2 * (g - B2 / A2) ^ 2 = g * g * A2 - 2 * g * B2 + C2 - (B2 / A2 * (B2 / A2) * A2 - 2 * (B2 / A2) * B2 + C2)) by (field; lra). pose proof (pow2_ge_0 (g - B2 / A2)) as P. assert (A2 * (g - B2 / A2) ^ 2 <= A2 * 0) as Z by lra. apply Rmult_le_reg_l in Z; [|exact AP]. assert (Z0 : (g - B2 / A2) ^ 2 = 0) by lra. assert (g - B2 / A2 = 0); [|lra]. apply Rsqr_0_uniq. unfold Rsqr. rewrite <- Z0. ring. }
    assert (BL : lo * A2 <= B2 <= hi * A2). { unfold A2, B2. clear - F. induction F as [|m l [X [H1 H2]] F IH]; cbn [map fold_right]; [lra|].
      assert (SQ : 0 < x m ^ 2) by (replace (x m ^ 2) with (Rsqr (x m)) by (unfold Rsqr; ring); apply Rsqr_pos_lt; exact X). assert (E : x m * y m = y m / x m * x m ^ 2) by (field; exact X). rewrite E. assert (lo * x m ^ 2 <= y m / x m * x m ^ 2) by (apply Rmult_le_compat_r; lra). assert (y m / x m * x m ^ 2 <= hi * x m ^ 2) by (apply Rmult_le_compat_r; lra). lra. }
    rewrite G. split; apply (Rmult_le_reg_r A2); try exact AP; unfold Rdiv; rewrite Rmult_assoc, Rinv_l by lra; lra.
Qed.

(** *** one exact test condition *)
Lemma exact_terms IL Io Rs rsh a isc voc imp vmp : rsh <> 0 -> a <> 0 -> on_sde_curve IL Io Rs rsh a voc 0 -> on_sde_curve IL Io Rs rsh a 0 isc -> on_sde_curve IL Io Rs rsh a vmp imp ->
  isc * (1 + Rs / rsh) - voc / rsh = Io * (exp (voc / a) - exp (isc * Rs / a)) /\ (isc - imp) * (1 + Rs / rsh) - vmp / rsh = Io * (exp ((vmp + imp * Rs) / a) - exp (isc * Rs / a)).
Proof.
  intros HR HA. unfold on_sde_curve. rewrite Rmult_0_r, Rplus_0_r, Rplus_0_l, (Rmult_comm Rs isc), (Rmult_comm Rs imp). intros A B C. set (e1 := exp (voc / a)) in *. set (e2 := exp (isc * Rs / a)) in *. set (e3 := exp ((vmp + imp * Rs) / a)) in *.
  assert (A' : voc / rsh = IL - Io * (e1 - 1)) by lra. assert (B' : isc * (1 + Rs / rsh) = IL - Io * (e2 - 1)). { replace (isc * (1 + Rs / rsh)) with (isc + isc * Rs / rsh) by (field; exact HR). lra. }
  split; [lra|]. replace ((isc - imp) * (1 + Rs / rsh) - vmp / rsh) with (isc * (1 + Rs / rsh) - imp - (vmp + imp * Rs) / rsh) by (field; exact HR). lra.
Qed.
Lemma ln_weak a b : 0 < a -> a <= b -> ln a <= ln b.
Proof. intros P [L|L]; [apply Rlt_le, ln_increasing; assumption|rewrite L; lra]. Qed.
Lemma ln_1m d : 0 < d <= 1 / 2 -> - (2 * d) <= ln (1 - d) <= 0.
Proof.
  intros H. split.
  - assert (P : 0 < 1 - d) by lra. replace (ln (1 - d)) with (- ln (/ (1 - d))) by (rewrite ln_Rinv by exact P; ring). apply Ropp_le_contravar.
    assert (I : / (1 - d) <= 1 + 2 * d). { apply (Rmult_le_reg_r (1 - d)); [exact P|]. rewrite Rinv_l by lra. assert (0 <= d * (1 - 2 * d)) by (apply Rmult_le_pos; lra). lra. }
    assert (L : ln (/ (1 - d)) <= ln (1 + 2 * d)). { destruct I as [I|I]; [apply Rlt_le, ln_increasing; [apply Rinv_0_lt_compat; exact P|exact I]|rewrite I; lra]. }
    pose proof (exp_ineq1_le (ln (1 + 2 * d))) as X. rewrite exp_ln in X by lra. lra.
  - replace 0 with (ln 1) by apply ln_1. apply Rlt_le, ln_increasing; lra.
Qed.
Lemma shunt_pos P G : 0 < p_Rsh0 P -> 0 <= G -> 0 < shunt_pvsyst P G.
Proof.
  intros H1 H2. unfold shunt_pvsyst. set (base := Rmax 0 _). set (e := exp (Ropp 5.5 * G / 1000)). cbv zeta. assert (BP : 0 <= base) by apply Rmax_l. assert (EP : 0 < e <= 1). { split; [apply exp_pos|]. replace 1 with (exp 0) by apply exp_0. unfold e. destruct (Req_dec G 0) as [->|Z]; [rewrite Rmult_0_r; unfold Rdiv; rewrite Rmult_0_l; lra|]. apply Rlt_le, exp_increasing. lra. }
  assert (0 < p_Rsh0 P * e) by (apply Rmult_lt_0_compat; lra). assert (0 <= base * (1 - e)) by (apply Rmult_le_pos; lra). lra.
Qed.
(** the resistances as the code holds them *)
Definition resist_of (P : pvsyst_module) : resist := Resist #(p_Rsh P) #(p_Rsh0 P) #5.5 #(p_Rs P) #(p_cells P).
Lemma rsh_at_of P m : rsh_at (resist_of P) m = #(shunt_pvsyst P (g_ m)).
Proof. unfold rsh_at, resist_of. cbn [s_ref s_0 s_exp]. rewrite pvsyst_Rsh_fin by lra. reflexivity. Qed.
Lemma nnsvth_of k q T g P : q <> 0 -> pvsyst_nNsVth k q #T #g #(p_cells P) = #(g * k / q * p_cells P * (T + 273.15)).
Proof. intros H. unfold pvsyst_nNsVth. rewrite fmul_fin. rewrite fdiv_fin by exact H. rewrite fmul_fin, fadd_fin, fmul_fin. reflexivity. Qed.
Lemma gamma_of T P : pvsyst_gamma #T #(p_gamma P) #(p_mu P) #25 = #(gamma_pvsyst P T).
Proof. unfold pvsyst_gamma. rewrite fsub_fin, fmul_fin, fadd_fin. reflexivity. Qed.
(** a condition measured on the module: short circuit, open circuit and another point *)
Definition measured (k q : R) (P : pvsyst_module) (m : meas) : Prop :=
  0 <= g_ m /\ 0 < t_ m + 273.15 /\ 0 < gamma_pvsyst P (t_ m) /\ 0 < voc_ m /\ 0 <= isc_ m /\
  on_pvsyst_curve k q P (g_ m) (t_ m) (voc_ m) 0 /\ on_pvsyst_curve k q P (g_ m) (t_ m) 0 (isc_ m) /\ on_pvsyst_curve k q P (g_ m) (t_ m) (vmp_ m) (imp_ m).
Lemma thermal_pos k q P T : sane_module k q P -> 0 < gamma_pvsyst P T -> 0 < T + 273.15 -> 0 < thermal_pvsyst k q P T.
Proof. intros (H1 & H2 & H3 & H4 & H5 & H6) G T0. unfold thermal_pvsyst. repeat apply Rmult_lt_0_compat; try assumption. apply Rinv_0_lt_compat; assumption. Qed.
Lemma saturation_pos k q P T : 0 < p_I0 P -> 0 < T + 273.15 -> 0 < saturation_pvsyst k q P T.
Proof. intros H T0. unfold saturation_pvsyst. apply Rmult_lt_0_compat; [apply Rmult_lt_0_compat; [exact H|apply pow_lt, Rdiv_lt_0_compat; lra]|apply exp_pos]. Qed.

(** ** C135: the steps of the fit on an exact PVsyst module *)
(** values V (1 + mu (T - 25)) give mu; no condition near 1000 W/m2 is a TypeError *)
Theorem C135_tempco : forall polyfit (pts : list (R * R)) V mu, exact_line polyfit -> V <> 0 -> (exists p p', In p pts /\ In p' pts /\ fst p <> fst p') ->
  Forall (fun p => snd p = V * (1 + mu * (fst p - 25))) pts -> fit_tempco polyfit (map (fun p => (#(fst p), #(snd p))) pts) #25 = Ok #mu /\ fit_tempco polyfit [] #25 = Err TypeError.
Proof.
  intros polyfit pts V mu EL NV X F. split; [|reflexivity]. unfold fit_tempco, polyfit1. pose proof (EL pts (V - V * mu * 25) (V * mu) X) as E. destruct pts as [|p pts]; [destruct X as (? & ? & [] & _)|]. cbn [map] in *. rewrite E.
  - cbn [bind]. cbv zeta. rewrite fmul_fin, fadd_fin. replace (V - V * mu * 25 + V * mu * 25) with V by ring. rewrite fdiv_fin by exact NV. f_equal. f_equal. field. exact NV.
  - eapply Forall_impl; [|exact F]. intros r H. cbv beta in *. rewrite H. ring.
Qed.
Print Assumptions C135_tempco.
(** shunt resistances: each estimate is the maximum power voltage at 25 C over r_sh_coeff (isc - imp); estimates (at or above the threshold) that
    follow the PVsyst equation give back its two resistances *)
Theorem C135_shunt : forall polyfit P ms beta rc min, exact_line polyfit -> p_Rsh0 P * exp (Ropp 5.5) <= p_Rsh P ->
  let lim := match min with None => 0 | Some x => x end in let used m := lim <= g_ m in
  (forall m, In m ms -> used m -> 1 + beta * (t_ m - 25) <> 0 /\ rc * (isc_ m - imp_ m) <> 0 /\ vmp_ m / (1 + beta * (t_ m - 25)) / (rc * (isc_ m - imp_ m)) = shunt_pvsyst P (g_ m)) ->
  (exists m m', In m ms /\ In m' ms /\ used m /\ used m' /\ g_ m <> g_ m') ->
  fit_shunt_resistances polyfit ms #beta #rc (option_map Fin min) = Ok (#(p_Rsh P), #(p_Rsh0 P), #5.5).
Proof.
  intros polyfit P ms beta rc min EL HB lim used H (m1 & m2 & I1 & I2 & U1 & U2 & N). unfold fit_shunt_resistances. cbv zeta.
  assert (FE : filter (fun m => fgeb #(g_ m) (match option_map Fin min with None => #0 | Some x => x end)) ms = filter (fun m => Rleb lim (g_ m)) ms). { apply filter_ext. intros m. unfold lim. destruct min; reflexivity. }
  rewrite FE. set (sel := filter _ ms). assert (SI : forall m, In m sel <-> In m ms /\ used m). { intros m. unfold sel. rewrite filter_In. split; intros [A B]; split; try exact A; [apply Rleb_true in B; exact B|apply Rleb_t; exact B]. }
  set (z := exp (Ropp 5.5)) in *. assert (Z : 0 < z < 1). { split; [apply exp_pos|]. replace 1 with (exp 0) by apply exp_0. apply exp_increasing. lra. }
  set (base := (p_Rsh P - p_Rsh0 P * z) / (1 - z)). assert (BP : Rmax 0 base = base) by (apply Rmax_right; apply Rmult_le_pos; [lra|apply Rlt_le, Rinv_0_lt_compat; lra]).
  set (e := fun m => exp (Ropp 5.5 * g_ m / 1000)).
  assert (SH : forall m, shunt_pvsyst P (g_ m) = base + (p_Rsh0 P - base) * e m). { intros m. unfold shunt_pvsyst. cbv zeta. fold z. fold base. rewrite BP. reflexivity. }
  assert (EQ : map (fun m => (fexp (- #5.5 * #(g_ m) / #1000)%fl, rsh_est #beta #rc m)) sel = map (fun p => (#(fst p), #(snd p))) (map (fun m => (e m, shunt_pvsyst P (g_ m))) sel)).
  { rewrite map_map. apply map_ext_in. intros m I. apply SI in I. destruct I as [I U]. destruct (H m I U) as (A & B & C). cbn [fst snd]. f_equal.
    - rewrite fneg_fin, fmul_fin. rewrite fdiv_fin by lra. rewrite fexp_fin. reflexivity.
    - unfold rsh_est. rewrite !fsub_fin, !fmul_fin, fadd_fin. rewrite !fdiv_fin by assumption. rewrite C. reflexivity. }
  rewrite EQ. assert (EM : e m1 <> e m2). { unfold e. intros Q. apply exp_inv in Q. lra. }
  pose proof (EL (map (fun m => (e m, shunt_pvsyst P (g_ m))) sel) base (p_Rsh0 P - base)) as F. unfold polyfit1. destruct sel as [|m sel'] eqn:ES. { exfalso. apply (proj2 (SI m1)). split; assumption. }
  rewrite <- ES in *. replace (match map (fun p => (#(fst p), #(snd p))) (map (fun m => (e m, shunt_pvsyst P (g_ m))) sel) with [] => Err TypeError | _ :: _ => Ok (polyfit (map (fun p => (#(fst p), #(snd p))) (map (fun m => (e m, shunt_pvsyst P (g_ m))) sel))) end) with (Ok (polyfit (map (fun p => (#(fst p), #(snd p))) (map (fun m => (e m, shunt_pvsyst P (g_ m))) sel)))) by (rewrite ES; reflexivity).
  rewrite F.
  - cbn [bind]. cbv zeta. rewrite fneg_fin, fexp_fin. change (exp (- (5.5))) with z. rewrite fadd_fin, fsub_fin, !fmul_fin, fadd_fin. replace (p_Rsh0 P - base + base) with (p_Rsh0 P) by ring. f_equal. f_equal. f_equal. f_equal. unfold base. field. lra.
  - exists (e m1, shunt_pvsyst P (g_ m1)), (e m2, shunt_pvsyst P (g_ m2)). split; [apply (in_map (fun m => (e m, shunt_pvsyst P (g_ m)))), SI; split; assumption|]. split; [apply (in_map (fun m => (e m, shunt_pvsyst P (g_ m)))), SI; split; assumption|]. exact EM.
  - apply Forall_forall. intros p I. apply in_map_iff in I. destruct I as (m0 & <- & _). cbn [fst snd]. apply SH.
Qed.
Print Assumptions C135_shunt.
(** series resistance: the coefficient of the current in Voc = c0 + Rs Imp + c2 ln Imp + c3 Vmp *)
Theorem C135_series : forall lstsq ms c0 Rs c2 c3, lsq_solver lstsq -> ms <> [] -> Forall (fun m => 0 < imp_ m) ms ->
  Forall (fun m => voc_ m = c0 + Rs * imp_ m + c2 * ln (imp_ m) + c3 * vmp_ m) ms ->
  (forall b0 b1 b2 b3, Forall (fun m => voc_ m = b0 + b1 * imp_ m + b2 * ln (imp_ m) + b3 * vmp_ m) ms -> b0 = c0 /\ b1 = Rs /\ b2 = c2 /\ b3 = c3) -> fit_series_resistance lstsq ms = Ok #Rs.
Proof.
  intros lstsq ms c0 Rs c2 c3 LS N HP HD HU. unfold fit_series_resistance. set (row := fun m => [1; imp_ m; ln (imp_ m); vmp_ m]).
  rewrite (map_ext_in _ (fun m => map Fin (row m))) by (intros m I; unfold row; cbn [map]; rewrite fln_fin by (apply (proj1 (Forall_forall _ _) HP m I)); reflexivity).
  assert (D : forall b0 b1 b2 b3 m, dot [b0; b1; b2; b3] (row m) = b0 + b1 * imp_ m + b2 * ln (imp_ m) + b3 * vmp_ m) by (intros; unfold dot, row; cbn [combine map fold_right fst snd]; ring).
  assert (FI : forall b0 b1 b2 b3, fits [b0; b1; b2; b3] (map row ms) (map voc_ ms) <-> Forall (fun m => voc_ m = b0 + b1 * imp_ m + b2 * ln (imp_ m) + b3 * vmp_ m) ms).
  { intros b0 b1 b2 b3. unfold fits. clear - D. induction ms as [|m ms IH]; cbn [map]; [split; constructor|]. split; intros H.
    - inversion H as [|? ? ? ? H1 H2]. subst. constructor; [rewrite <- D; congruence|apply IH; exact H2].
    - inversion H as [|? ? H1 H2]. subst. constructor; [rewrite D; congruence|apply IH; exact H2]. }
  pose proof (lsq_unique lstsq (map row ms) (map voc_ ms) [c0; Rs; c2; c3] LS) as U. rewrite !map_map in U. rewrite U; [reflexivity| | | |].
  - destruct ms; [contradiction|discriminate].
  - apply Forall_forall. intros r I. apply in_map_iff in I. destruct I as (m & <- & _). reflexivity.
  - apply FI. exact HD.
  - intros b' L F. destruct b' as [|b0 [|b1 [|b2 [|b3 [|? b']]]]]; try discriminate. apply FI in F. destruct (HU b0 b1 b2 b3 F) as (-> & -> & -> & ->). reflexivity.
Qed.
Print Assumptions C135_series.
(** diode factor: on a module with a constant one it is found from below, within the relative error eta that the neglected exponentials cause *)
Theorem C135_ideality : forall lstsq k q P ms eta, lsq_solver lstsq -> sane_module k q P -> p_mu P = 0 -> ms <> [] ->
  Forall (fun m => measured k q P m /\ vmp_ m + imp_ m * p_Rs P < voc_ m /\ let a := thermal_pvsyst k q P (t_ m) in let d := exp ((isc_ m * p_Rs P - (vmp_ m + imp_ m * p_Rs P)) / a) in
    d <= 1 / 2 /\ 2 * a * d <= eta * (voc_ m - (vmp_ m + imp_ m * p_Rs P))) ms ->
  exists g, fit_diode_ideality_factor k q lstsq ms (resist_of P) = Ok (#g, #0) /\ p_gamma P * (1 - eta) <= g <= p_gamma P.
Proof.
  intros lstsq k q P ms eta LS SM MU N F. pose proof SM as (HK & HQ & HI & HRs & HC & H0).
  set (x := fun m => k / q * p_cells P * (t_ m + 273.15) * ln (((isc_ m - imp_ m) * (1 + p_Rs P / shunt_pvsyst P (g_ m)) - vmp_ m / shunt_pvsyst P (g_ m)) / (isc_ m * (1 + p_Rs P / shunt_pvsyst P (g_ m)) - voc_ m / shunt_pvsyst P (g_ m)))).
  set (y := fun m => vmp_ m + imp_ m * p_Rs P - voc_ m).
  assert (K : forall m, In m ms -> ideality_x k q (resist_of P) m = #(x m) /\ x m < 0 /\ p_gamma P * (1 - eta) <= y m / x m <= p_gamma P).
  { intros m I. destruct (proj1 (Forall_forall _ _) F m I) as ((M1 & M2 & M3 & M4 & M5 & C1 & C2 & C3) & V & D1 & D2). cbv zeta in D1, D2.
    assert (GM : gamma_pvsyst P (t_ m) = p_gamma P) by (unfold gamma_pvsyst; rewrite MU; ring). rewrite GM in M3.
    set (a := thermal_pvsyst k q P (t_ m)) in *. assert (AP : 0 < a) by (apply (thermal_pos k q P (t_ m) SM); [rewrite GM; exact M3|exact M2]). set (io := saturation_pvsyst k q P (t_ m)) in *. assert (IP : 0 < io) by (apply saturation_pos; assumption).
    set (rsh := shunt_pvsyst P (g_ m)) in *. assert (RP : 0 < rsh) by (apply shunt_pos; assumption).
    unfold on_pvsyst_curve in C1, C2, C3. fold a io rsh in C1, C2, C3. destruct (exact_terms _ io (p_Rs P) rsh a (isc_ m) (voc_ m) (imp_ m) (vmp_ m) ltac:(lra) ltac:(lra) C1 C2 C3) as [T1 T2].
    set (w := vmp_ m + imp_ m * p_Rs P) in *. set (d := exp ((isc_ m * p_Rs P - w) / a)) in *. assert (DP : 0 < d) by apply exp_pos. set (d1 := exp ((isc_ m * p_Rs P - voc_ m) / a)).
    assert (DL : 0 < d1 < d). { split; [apply exp_pos|]. apply exp_increasing. unfold Rdiv. apply Rmult_lt_compat_r; [apply Rinv_0_lt_compat|]; lra. }
    assert (E2 : exp (isc_ m * p_Rs P / a) = d * exp (w / a)) by (unfold d; rewrite <- exp_plus; f_equal; field; lra). assert (E1 : exp (isc_ m * p_Rs P / a) = d1 * exp (voc_ m / a)) by (unfold d1; rewrite <- exp_plus; f_equal; field; lra).
    assert (T1' : isc_ m * (1 + p_Rs P / rsh) - voc_ m / rsh = io * exp (voc_ m / a) * (1 - d1)) by (rewrite T1, E1; ring). assert (T2' : (isc_ m - imp_ m) * (1 + p_Rs P / rsh) - vmp_ m / rsh = io * exp (w / a) * (1 - d)) by (rewrite T2, E2; ring).
    pose proof (exp_pos (voc_ m / a)) as P1. pose proof (exp_pos (w / a)) as P2. assert (Q1 : 0 < io * exp (voc_ m / a) * (1 - d1)) by (apply Rmult_lt_0_compat; [apply Rmult_lt_0_compat; assumption|lra]). assert (Q2 : 0 < io * exp (w / a) * (1 - d)) by (apply Rmult_lt_0_compat; [apply Rmult_lt_0_compat; assumption|lra]).
    assert (LN : ln (((isc_ m - imp_ m) * (1 + p_Rs P / rsh) - vmp_ m / rsh) / (isc_ m * (1 + p_Rs P / rsh) - voc_ m / rsh)) = (w - voc_ m) / a + (ln (1 - d) - ln (1 - d1))).
    { rewrite T1', T2'. unfold Rdiv at 1. rewrite ln_mult by (try assumption; apply Rinv_0_lt_compat; assumption). rewrite ln_Rinv by assumption. assert (0 < io * exp (w / a)) by (apply Rmult_lt_0_compat; assumption). assert (0 < io * exp (voc_ m / a)) by (apply Rmult_lt_0_compat; assumption). rewrite !ln_mult by (try assumption; lra). rewrite !ln_exp. field. lra. }
    set (rho := ln (1 - d) - ln (1 - d1)) in *. assert (RH : - (2 * d) <= rho <= 0). { pose proof (ln_1m d ltac:(lra)) as L1. pose proof (ln_1m d1 ltac:(lra)) as L2. assert (ln (1 - d) < ln (1 - d1)) by (apply ln_increasing; lra). unfold rho. lra. }
    assert (AG : a = p_gamma P * (k / q * p_cells P * (t_ m + 273.15))). { unfold a, thermal_pvsyst. rewrite GM. field. lra. } set (n := k / q * p_cells P * (t_ m + 273.15)) in *. assert (NP : 0 < n). { unfold n. repeat apply Rmult_lt_0_compat; try assumption. apply Rinv_0_lt_compat; assumption. }
    assert (XV : p_gamma P * x m = y m + a * rho). { unfold x, y. fold rsh n. rewrite LN. fold w. replace (p_gamma P * (n * ((w - voc_ m) / a + rho))) with (a * ((w - voc_ m) / a + rho)) by (rewrite AG; ring). field. lra. }
    assert (AR : 0 <= a * - rho <= 2 * a * d). { split; [apply Rmult_le_pos; lra|]. replace (2 * a * d) with (a * (2 * d)) by ring. apply Rmult_le_compat_l; lra. }
    assert (YN : y m = w - voc_ m) by (unfold y, w; ring). assert (XN : x m < 0). { assert (p_gamma P * x m < p_gamma P * 0) as Z by lra. apply Rmult_lt_reg_l in Z; [exact Z|exact M3]. }
    split; [|split; [exact XN|]].
    - unfold ideality_x. cbv zeta. rewrite rsh_at_of. fold rsh. unfold resist_of. cbn [s_rs s_cells]. rewrite nnsvth_of by lra. rewrite !fdiv_fin by lra. rewrite fadd_fin, !fsub_fin, !fmul_fin, !fsub_fin. rewrite fdiv_fin by (rewrite T1'; lra). rewrite fln_fin by (rewrite T1', T2'; apply Rdiv_lt_0_compat; assumption). rewrite fmul_fin. f_equal. unfold x. fold rsh. rewrite (Rmult_1_l k). reflexivity.
    - set (r := y m / x m). assert (RX : r * x m = y m) by (unfold r; field; lra). split.
      + apply (Rmult_le_reg_r (- x m)); [lra|]. assert (EP : eta * (voc_ m - w) <= eta * (p_gamma P * - x m)).
        { assert (0 <= eta). { destruct (Rle_or_lt 0 eta) as [Z|Z]; [exact Z|]. exfalso. assert (0 < 2 * a * d) by (apply Rmult_lt_0_compat; [lra|exact DP]). assert (0 < - eta * (voc_ m - w)) by (apply Rmult_lt_0_compat; lra). lra. } apply Rmult_le_compat_l; [assumption|]. lra. }
        replace (p_gamma P * (1 - eta) * - x m) with (p_gamma P * - x m - eta * (p_gamma P * - x m)) by ring. lra.
      + apply (Rmult_le_reg_r (- x m)); [lra|]. lra. }
  unfold fit_diode_ideality_factor. rewrite (map_ext_in (fun m => [ideality_x k q (resist_of P) m]) (fun m => [#(x m)]) ms) by (intros m I; rewrite (proj1 (K m I)); reflexivity).
  rewrite (map_ext (fun m => (#(vmp_ m) + #(imp_ m) * s_rs (resist_of P) - #(voc_ m))%fl) (fun m => #(y m))) by (intros m; unfold resist_of; cbn [s_rs]; rewrite fmul_fin, fadd_fin, fsub_fin; reflexivity).
  destruct (lsq_column lstsq x y ms (p_gamma P * (1 - eta)) (p_gamma P) LS N) as (g & E & B). { apply Forall_forall. intros m I. destruct (K m I) as (_ & A & B). split; [lra|exact B]. }
  exists g. rewrite E. split; [reflexivity|exact B].
Qed.
Print Assumptions C135_ideality.

(** the saturation current per unit of I_o_ref *)
Definition sat_unit (k q : R) (P : pvsyst_module) (T : R) : R := ((T + 273.15) / (25 + 273.15)) ^ 3 * exp (q * p_Eg P / (k * gamma_pvsyst P T) * (1 / (25 + 273.15) - 1 / (T + 273.15))).
Lemma sat_unit_pos k q P T : 0 < T + 273.15 -> 0 < sat_unit k q P T.
Proof. intros H. unfold sat_unit. apply Rmult_lt_0_compat; [apply pow_lt, Rdiv_lt_0_compat; lra|apply exp_pos]. Qed.
Lemma sat_unit_eq k q P T : saturation_pvsyst k q P T = p_I0 P * sat_unit k q P T.
Proof. unfold saturation_pvsyst, sat_unit. ring. Qed.
Lemma io_of k q P T io : 0 < k -> 0 < gamma_pvsyst P T -> 0 < T + 273.15 -> pvsyst_Io k q #T #(gamma_pvsyst P T) #io #(p_Eg P) #25 = #(io * sat_unit k q P T).
Proof. intros H1 H2 H3. rewrite pvsyst_Io_fin by lra. f_equal. unfold sat_unit. ring. Qed.
(** saturation current: with the true diode factor found from below, within the relative error eta of the neglected exponential at short circuit *)
Theorem C135_saturation : forall k q P ms eta, sane_module k q P -> ms <> [] -> eta < 1 ->
  Forall (fun m => measured k q P m /\ let a := thermal_pvsyst k q P (t_ m) in exp (isc_ m * p_Rs P / a) - 1 <= eta * (exp (voc_ m / a) - 1)) ms ->
  exists io, fit_saturation_current k q ms (resist_of P) #(p_gamma P) #(p_mu P) #(p_Eg P) = #io /\ p_I0 P * (1 - eta) <= io <= p_I0 P.
Proof.
  intros k q P ms eta SM N ET F. pose proof SM as (HK & HQ & HI & HRs & HC & H0).
  set (eps := fun m => let a := thermal_pvsyst k q P (t_ m) in (exp (isc_ m * p_Rs P / a) - 1) / (exp (voc_ m / a) - 1)).
  assert (K : forall m, In m ms -> (fln (io_est k q (resist_of P) #(p_gamma P) #(p_mu P) m) - fln (pvsyst_Io k q #(t_ m) (pvsyst_gamma #(t_ m) #(p_gamma P) #(p_mu P) #25) #1 #(p_Eg P) #25))%fl = #(ln (p_I0 P * (1 - eps m))) /\ 0 <= eps m <= eta).
  { intros m I. destruct (proj1 (Forall_forall _ _) F m I) as ((M1 & M2 & M3 & M4 & M5 & C1 & C2 & C3) & D). cbv zeta in D.
    unfold eps. cbv zeta. set (a := thermal_pvsyst k q P (t_ m)) in *. assert (AP : 0 < a) by (apply (thermal_pos k q P (t_ m) SM); assumption). set (rsh := shunt_pvsyst P (g_ m)) in *. assert (RP : 0 < rsh) by (apply shunt_pos; assumption).
    set (u := sat_unit k q P (t_ m)). assert (UP : 0 < u) by (apply sat_unit_pos; assumption). unfold on_pvsyst_curve in C1, C2, C3. rewrite sat_unit_eq in C1, C2, C3. fold a rsh u in C1, C2, C3.
    destruct (exact_terms _ (p_I0 P * u) (p_Rs P) rsh a (isc_ m) (voc_ m) (imp_ m) (vmp_ m) ltac:(lra) ltac:(lra) C1 C2 C3) as [T1 _].
    set (e1 := exp (voc_ m / a)) in *. set (e2 := exp (isc_ m * p_Rs P / a)) in *. assert (E1 : 1 < e1). { replace 1 with (exp 0) by apply exp_0. apply exp_increasing, Rdiv_lt_0_compat; assumption. }
    assert (E2 : 1 <= e2). { replace 1 with (exp 0) by apply exp_0. unfold e2. assert (Z : 0 <= isc_ m * p_Rs P / a) by (apply Rmult_le_pos; [apply Rmult_le_pos; assumption|apply Rlt_le, Rinv_0_lt_compat; exact AP]). destruct Z as [Z|Z]; [apply Rlt_le, exp_increasing; exact Z|rewrite <- Z; lra]. }
    set (ep := (e2 - 1) / (e1 - 1)). assert (EB : 0 <= ep <= eta). { unfold ep. split; [apply Rmult_le_pos; [lra|apply Rlt_le, Rinv_0_lt_compat; lra]|]. apply (Rmult_le_reg_r (e1 - 1)); [lra|]. unfold Rdiv. rewrite Rmult_assoc, Rinv_l by lra. lra. }
    split; [|exact EB]. assert (B1 : 0 < p_I0 P * (1 - ep)) by (apply Rmult_lt_0_compat; lra). assert (V : p_I0 P * u * (e1 - e2) / (e1 - 1) = p_I0 P * (1 - ep) * u) by (unfold ep; field; lra). assert (VP : 0 < p_I0 P * (1 - ep) * u) by (apply Rmult_lt_0_compat; assumption).
    unfold io_est. cbv zeta. rewrite gamma_of, rsh_at_of. fold rsh. unfold resist_of. cbn [s_rs s_cells]. rewrite nnsvth_of by lra. rewrite io_of by assumption. fold u. fold (thermal_pvsyst k q P (t_ m)). fold a.
    rewrite !fdiv_fin by lra. rewrite fadd_fin, fmul_fin, fsub_fin, T1. unfold fexpm1. rewrite fexp_fin, fsub_fin. fold e1. rewrite fdiv_fin by lra. rewrite V. rewrite !fln_fin by lra. rewrite fsub_fin. f_equal. rewrite Rmult_1_l. rewrite ln_mult by assumption. ring. }
  unfold fit_saturation_current. rewrite (map_ext_in _ (fun m => #(ln (p_I0 P * (1 - eps m)))) ms) by (intros m I; apply (proj1 (K m I))).
  rewrite <- (map_map (fun m => ln (p_I0 P * (1 - eps m))) Fin ms). rewrite fmean_mean by (destruct ms; [contradiction|discriminate]). rewrite fexp_fin. eexists. split; [reflexivity|].
  assert (EN : 0 <= eta). { destruct ms as [|m ms]; [contradiction|]. pose proof (proj2 (K m (or_introl eq_refl))). lra. } assert (LB : 0 < p_I0 P * (1 - eta)) by (apply Rmult_lt_0_compat; lra).
  assert (B : ln (p_I0 P * (1 - eta)) <= mean (map (fun m => ln (p_I0 P * (1 - eps m))) ms) <= ln (p_I0 P)).
  { apply mean_bounds; [destruct ms; [contradiction|discriminate]|]. intros v I. apply in_map_iff in I. destruct I as (m & <- & I). destruct (proj2 (K m I)) as [A1 A2].
    assert (Q1 : p_I0 P * (1 - eta) <= p_I0 P * (1 - eps m)) by (apply Rmult_le_compat_l; lra). assert (Q2 : p_I0 P * (1 - eps m) <= p_I0 P * 1) by (apply Rmult_le_compat_l; lra). split; apply ln_weak; lra. }
  assert (X : forall a b, a <= b -> exp a <= exp b). { intros a b [L|L]; [apply Rlt_le, exp_increasing; exact L|rewrite L; lra]. } destruct B as [B1 B2]. apply X in B1. apply X in B2. rewrite exp_ln in B1, B2 by lra. split; assumption.
Qed.
Print Assumptions C135_saturation.
(** photocurrent: with the true diode factor and a saturation current at most eta too small, found from below within delta; exactly with the true one *)
Theorem C135_photocurrent : forall lstsq k q P ms io eta delta, lsq_solver lstsq -> sane_module k q P -> ms <> [] -> p_I0 P * (1 - eta) <= io <= p_I0 P -> 0 <= delta ->
  Forall (fun m => measured k q P m /\ 0 < g_ m /\ eta * saturation_pvsyst k q P (t_ m) * (exp (isc_ m * p_Rs P / thermal_pvsyst k q P (t_ m)) - 1) <= delta * (g_ m / 1000)) ms ->
  exists il, fit_photocurrent k q lstsq ms (resist_of P) #(p_alpha P) #(p_gamma P) #(p_mu P) #io #(p_Eg P) = Ok #il /\ p_IL P - delta <= il <= p_IL P.
Proof.
  intros lstsq k q P ms io eta delta LS SM N HIO HD F. pose proof SM as (HK & HQ & HI & HRs & HC & H0).
  set (x := fun m => g_ m / 1000). set (y := fun m => g_ m / 1000 * p_IL P + (io - p_I0 P) * sat_unit k q P (t_ m) * (exp (isc_ m * p_Rs P / thermal_pvsyst k q P (t_ m)) - 1)).
  assert (K : forall m, In m ms -> (il_est k q (resist_of P) #(p_gamma P) #(p_mu P) #io #(p_Eg P) m - #(g_ m) / #1000 * #(p_alpha P) * (#(t_ m) - #25))%fl = #(y m) /\ x m <> 0 /\ p_IL P - delta <= y m / x m <= p_IL P).
  { intros m I. destruct (proj1 (Forall_forall _ _) F m I) as ((M1 & M2 & M3 & M4 & M5 & C1 & C2 & C3) & GP & D). unfold x, y. rewrite sat_unit_eq in D.
    set (a := thermal_pvsyst k q P (t_ m)) in *. assert (AP : 0 < a) by (apply (thermal_pos k q P (t_ m) SM); assumption). set (rsh := shunt_pvsyst P (g_ m)) in *. assert (RP : 0 < rsh) by (apply shunt_pos; assumption).
    set (u := sat_unit k q P (t_ m)) in *. assert (UP : 0 < u) by (apply sat_unit_pos; assumption). unfold on_pvsyst_curve in C2. rewrite sat_unit_eq in C2. fold a rsh u in C2.
    unfold on_sde_curve in C2. rewrite Rplus_0_l, (Rmult_comm (p_Rs P)) in C2. set (e2 := exp (isc_ m * p_Rs P / a)) in *.
    assert (E2 : 1 <= e2). { replace 1 with (exp 0) by apply exp_0. unfold e2. assert (Z : 0 <= isc_ m * p_Rs P / a) by (apply Rmult_le_pos; [apply Rmult_le_pos; assumption|apply Rlt_le, Rinv_0_lt_compat; exact AP]). destruct Z as [Z|Z]; [apply Rlt_le, exp_increasing; exact Z|rewrite <- Z; lra]. }
    split; [|split; [lra|]].
    - unfold il_est. cbv zeta. rewrite gamma_of, rsh_at_of. fold rsh. unfold resist_of. cbn [s_rs s_cells]. rewrite nnsvth_of by lra. rewrite io_of by assumption. fold u. fold (thermal_pvsyst k q P (t_ m)). fold a.
      rewrite !fmul_fin. rewrite !fdiv_fin by lra. unfold fexpm1. rewrite fexp_fin. fold e2. rewrite !fsub_fin, !fmul_fin, !fadd_fin, fsub_fin. f_equal.
      assert (PC : photocurrent_pvsyst P (g_ m) (t_ m) = isc_ m + p_I0 P * u * (e2 - 1) + isc_ m * p_Rs P / rsh) by lra. unfold photocurrent_pvsyst in PC. lra.
    - assert (W : 0 <= u * (e2 - 1)) by (apply Rmult_le_pos; lra). assert (Q1 : (p_I0 P - io) * (u * (e2 - 1)) <= eta * p_I0 P * (u * (e2 - 1))) by (apply Rmult_le_compat_r; lra). assert (Q2 : 0 <= (p_I0 P - io) * (u * (e2 - 1))) by (apply Rmult_le_pos; lra).
      split; apply (Rmult_le_reg_r (g_ m / 1000)); try lra; match goal with |- context [?n / (g_ m / 1000) * (g_ m / 1000)] => replace (n / (g_ m / 1000) * (g_ m / 1000)) with n by (field; lra) | _ => idtac end; lra. }
  unfold fit_photocurrent. rewrite (map_ext (fun m => [(#(g_ m) / #1000)%fl]) (fun m => [#(x m)])) by (intros m; rewrite fdiv_fin by lra; reflexivity).
  rewrite (map_ext_in _ (fun m => #(y m)) ms) by (intros m I; apply (proj1 (K m I))).
  destruct (lsq_column lstsq x y ms (p_IL P - delta) (p_IL P) LS N) as (g & E & B). { apply Forall_forall. intros m I. exact (proj2 (K m I)). }
  exists g. rewrite E. split; [reflexivity|exact B].
Qed.
Print Assumptions C135_photocurrent.

Lemma sse_terms b X y row v : List.length y = List.length X -> In (row, v) (combine X y) -> (dot b row - v) ^ 2 <= sse b X y.
Proof.
  intros _. unfold sse. induction (combine X y) as [|p l IH]; intros I; [contradiction|]. cbn [map fold_right]. pose proof (pow2_ge_0 (dot b (fst p) - snd p)) as A. assert (0 <= fold_right Rplus 0 (map (fun p => (dot b (fst p) - snd p) ^ 2) l)) as Q. { clear. induction l as [|p l IH]; cbn [map fold_right]; [lra|]. pose proof (pow2_ge_0 (dot b (fst p) - snd p)). lra. }
  destruct I as [->|I]; [cbn [fst snd]; lra|]. specialize (IH I). lra.
Qed.
Lemma abs_of_sq z c : 0 <= c -> z ^ 2 <= c ^ 2 -> Rabs z <= c.
Proof. intros C H. rewrite <- (Rabs_pos_eq c C). apply Rsqr_le_abs_0. unfold Rsqr. lra. Qed.
(** a straight line fitted by least squares to values within delta of a straight line stays near it at every abscissa used *)
Lemma line_near lstsq {A} (x y : A -> R) ms c0 c1 delta : lsq_solver lstsq -> ms <> [] -> Forall (fun m => Rabs (y m - (c0 + c1 * x m)) <= delta) ms ->
  exists g mu, lstsq (map (fun m => [#1; #(x m)]) ms) (map (fun m => #(y m)) ms) = [#g; #mu] /\ Forall (fun m => Rabs (g + mu * x m - (c0 + c1 * x m)) <= (1 + sqrt (INR (List.length ms))) * delta) ms.
Proof.
  intros LS N F. set (row := fun m => [1; x m]). destruct (LS (map row ms) (map y ms) 2%nat) as (b & LB & E & M).
  - destruct ms; [contradiction|discriminate].
  - rewrite !map_length. reflexivity.
  - apply Forall_forall. intros r I. apply in_map_iff in I. destruct I as (m & <- & _). reflexivity.
  - destruct b as [|g [|mu [|? b]]]; try discriminate. rewrite !map_map in E. cbn [map] in E. exists g, mu. split; [exact E|].
    assert (DN : 0 <= delta). { destruct ms as [|m ms]; [contradiction|]. pose proof (Forall_inv F) as Z. cbv beta in Z. pose proof (Rabs_pos (y m - (c0 + c1 * x m))). lra. }
    assert (D : forall a b m, dot [a; b] (row m) = a + b * x m) by (intros; unfold dot, row; cbn [combine map fold_right fst snd]; ring).
    assert (T : sse [c0; c1] (map row ms) (map y ms) <= INR (List.length ms) * delta ^ 2).
    { clear - F D. unfold sse. induction F as [|m l H F IH]; [cbn; lra|]. cbn [map combine fold_right fst snd]. rewrite D. change (List.length (m :: l)) with (S (List.length l)). rewrite S_INR. assert ((c0 + c1 * x m - y m) ^ 2 <= delta ^ 2). { replace ((c0 + c1 * x m - y m) ^ 2) with (Rabs (y m - (c0 + c1 * x m)) ^ 2) by (rewrite pow2_abs; ring). apply pow_incr. split; [apply Rabs_pos|exact H]. } lra. }
    pose proof (M [c0; c1] eq_refl) as Q. apply Forall_forall. intros m I. assert (SQ : Rabs (g + mu * x m - y m) <= sqrt (INR (List.length ms)) * delta).
    { apply abs_of_sq; [apply Rmult_le_pos; [apply sqrt_pos|exact DN]|]. rewrite Rpow_mult_distr, pow2_sqrt by apply pos_INR. rewrite <- D. eapply Rle_trans; [|eapply Rle_trans; [exact Q|exact T]]. apply sse_terms; [rewrite !map_length; reflexivity|]. clear - I. induction ms as [|k ms IH]; [contradiction|]. cbn [map combine]. destruct I as [->|I]; [left; reflexivity|right; apply IH; exact I]. }
    pose proof (proj1 (Forall_forall _ _) F m I) as Z. cbv beta in Z. replace (g + mu * x m - (c0 + c1 * x m)) with ((g + mu * x m - y m) + (y m - (c0 + c1 * x m))) by ring. eapply Rle_trans; [apply Rabs_triang|]. lra.
Qed.
(** temperature dependence of the diode factor: with the other parameters true, each condition overestimates the diode factor by at most the
    fraction 2 exp(-V/a) / L of the neglected "- 1", and the fitted line is near the true diode factor at every temperature measured *)
Theorem C135_post : forall lstsq k q P ms delta, lsq_solver lstsq -> sane_module k q P -> ms <> [] ->
  let V m := vmp_ m + imp_ m * p_Rs P in let d m := exp (- V m / thermal_pvsyst k q P (t_ m)) in
  let L m := ln ((photocurrent_pvsyst P (g_ m) (t_ m) - imp_ m - V m / shunt_pvsyst P (g_ m)) / p_I0 P) - 3 * ln ((t_ m + 273.15) / (25 + 273.15)) in
  Forall (fun m => measured k q P m /\ d m <= 1 / 2 /\ 0 < L m /\ gamma_pvsyst P (t_ m) * (2 * d m / L m) <= delta) ms ->
  Forall (fun m => exists g, gamma_est k q (resist_of P) #(p_alpha P) #(p_IL P) #(p_I0 P) #(p_Eg P) m = #g /\ gamma_pvsyst P (t_ m) <= g <= gamma_pvsyst P (t_ m) * (1 + 2 * d m / L m)) ms /\
  exists g mu, fit_diode_ideality_factor_post k q lstsq ms (resist_of P) #(p_alpha P) #(p_IL P) #(p_I0 P) #(p_Eg P) = Ok (#g, #mu) /\
    Forall (fun m => Rabs (g + mu * (t_ m - 25) - gamma_pvsyst P (t_ m)) <= (1 + sqrt (INR (List.length ms))) * delta) ms.
Proof.
  intros lstsq k q P ms delta LS SM N V d L F. pose proof SM as (HK & HQ & HI & HRs & HC & H0).
  set (num := fun m => q * p_Eg P / k * (1 / (25 + 273.15) - 1 / (t_ m + 273.15)) + V m / (k / q * p_cells P * (t_ m + 273.15))). set (gv := fun m => num m / L m).
  assert (K : forall m, In m ms -> gamma_est k q (resist_of P) #(p_alpha P) #(p_IL P) #(p_I0 P) #(p_Eg P) m = #(gv m) /\ gamma_pvsyst P (t_ m) <= gv m <= gamma_pvsyst P (t_ m) * (1 + 2 * d m / L m)).
  { intros m I. destruct (proj1 (Forall_forall _ _) F m I) as ((M1 & M2 & M3 & M4 & M5 & C1 & C2 & C3) & D1 & LP & D2).
    set (a := thermal_pvsyst k q P (t_ m)) in *. assert (AP : 0 < a) by (apply (thermal_pos k q P (t_ m) SM); assumption). set (rsh := shunt_pvsyst P (g_ m)) in *. assert (RP : 0 < rsh) by (apply shunt_pos; assumption).
    unfold on_pvsyst_curve in C3. fold a rsh in C3. unfold on_sde_curve in C3. rewrite (Rmult_comm (p_Rs P)) in C3. fold (V m) in C3.
    set (u := 25 + 273.15) in *. assert (U0 : 0 < u) by (unfold u; lra). set (T := t_ m + 273.15) in *. set (g := gamma_pvsyst P (t_ m)) in *.
    set (X := photocurrent_pvsyst P (g_ m) (t_ m) - imp_ m - V m / rsh). assert (XE : X = saturation_pvsyst k q P (t_ m) * (exp (V m / a) - 1)) by (unfold X; lra).
    assert (DP : 0 < d m) by apply exp_pos. assert (EX : exp (V m / a) - 1 = exp (V m / a) * (1 - d m)). { unfold d. fold a. rewrite Rmult_minus_distr_l, <- exp_plus. replace (V m / a + - V m / a) with 0 by (field; lra). rewrite exp_0. ring. }
    set (c := q * p_Eg P / (k * g) * (1 / u - 1 / T)). assert (SV : saturation_pvsyst k q P (t_ m) = p_I0 P * (T / u) ^ 3 * exp c) by reflexivity.
    assert (TU : 0 < T / u) by (apply Rdiv_lt_0_compat; assumption). assert (T3 : 0 < (T / u) ^ 3) by (apply pow_lt; exact TU). pose proof (exp_pos (V m / a)) as EP. pose proof (exp_pos c) as ECP.
    assert (XP : X / p_I0 P = (T / u) ^ 3 * exp c * (exp (V m / a) * (1 - d m))) by (rewrite XE, SV, EX; field; lra).
    assert (XQ : 0 < X / p_I0 P). { rewrite XP. apply Rmult_lt_0_compat; apply Rmult_lt_0_compat; try assumption; lra. }
    assert (LV : L m = c + V m / a + ln (1 - d m)).
    { unfold L. fold rsh. fold X. fold T. fold u. rewrite XP. rewrite ln_mult by (apply Rmult_lt_0_compat; try assumption; lra). rewrite (ln_mult (exp (V m / a))) by (try assumption; lra). rewrite ln_mult by assumption. rewrite !ln_exp.
      replace (ln ((T / u) ^ 3)) with (3 * ln (T / u)); [ring|]. replace ((T / u) ^ 3) with ((T / u) * ((T / u) * (T / u))) by ring. rewrite !ln_mult by (first [assumption | apply Rmult_lt_0_compat; assumption]). ring. }
    assert (AG : a = g * (k / q * p_cells P * T)). { unfold a, thermal_pvsyst. fold g T. field. lra. } assert (NP : 0 < k / q * p_cells P * T). { apply Rmult_lt_0_compat; [|exact M2]. apply Rmult_lt_0_compat; [|exact HC]. apply Rdiv_lt_0_compat; assumption. }
    assert (NV : num m = g * (c + V m / a)). { unfold num. fold T. rewrite AG. set (w := k / q * p_cells P * T) in *. unfold c. fold u. field. repeat split; lra. }
    pose proof (ln_1m (d m) ltac:(lra)) as LB. assert (GE : gv m = g * (1 + - ln (1 - d m) / L m)). { unfold gv. rewrite NV. replace (c + V m / a) with (L m - ln (1 - d m)) by lra. field. lra. }
    split.
    - unfold gamma_est. cbv zeta. rewrite rsh_at_of. fold rsh. unfold resist_of. cbn [s_rs s_cells]. rewrite nnsvth_of by lra. unfold pvsyst_IL. cbv zeta. rewrite !fmul_fin, !fadd_fin. fold T. change (25 + 273.15) with u.
      rewrite !fsub_fin. rewrite !fmul_fin. rewrite !fadd_fin. rewrite !fdiv_fin by lra. rewrite !fmul_fin. rewrite !fsub_fin. rewrite fdiv_fin by lra. fold (V m).
      replace (g_ m / 1000 * (p_IL P + p_alpha P * (T - u))) with (photocurrent_pvsyst P (g_ m) (t_ m)) by (unfold photocurrent_pvsyst, T, u; ring). fold X. rewrite !fln_fin by assumption. rewrite !fmul_fin, fsub_fin, fadd_fin. fold X in LP.
      assert (LX : ln (X / p_I0 P) - 3 * ln (T / u) = L m) by reflexivity. rewrite LX. rewrite fdiv_fin by lra. f_equal. unfold gv, num. fold T u. rewrite (Rmult_1_l k). reflexivity.
    - rewrite GE. set (r := - ln (1 - d m) / L m). assert (RB : 0 <= r <= 2 * d m / L m). { unfold r. split; [apply Rmult_le_pos; [lra|apply Rlt_le, Rinv_0_lt_compat; exact LP]|]. unfold Rdiv. apply Rmult_le_compat_r; [apply Rlt_le, Rinv_0_lt_compat; exact LP|lra]. }
      assert (0 <= g * r) by (apply Rmult_le_pos; lra). assert (g * r <= g * (2 * d m / L m)) by (apply Rmult_le_compat_l; lra). split; lra. }
  split.
  - apply Forall_forall. intros m I. exists (gv m). exact (K m I).
  - unfold fit_diode_ideality_factor_post. rewrite (map_ext (fun m => [#1; (#(t_ m) - #25)%fl]) (fun m => [#1; #(t_ m - 25)])) by (intros m; rewrite fsub_fin; reflexivity).
    rewrite (map_ext_in _ (fun m => #(gv m)) ms) by (intros m I; apply (proj1 (K m I))).
    destruct (line_near lstsq (fun m => t_ m - 25) gv ms (p_gamma P) (p_mu P) delta LS N) as (g & mu & E & B).
    { apply Forall_forall. intros m I. destruct (K m I) as [_ [A1 A2]]. destruct (proj1 (Forall_forall _ _) F m I) as (_ & _ & _ & D2). fold (gamma_pvsyst P (t_ m)). rewrite Rabs_pos_eq by lra. lra. }
    rewrite E. exists g, mu. split; [reflexivity|exact B].
Qed.
Print Assumptions C135_post.

(** a condition that satisfies the hypotheses of the steps: an ideal module (thermal voltage 1 V) without series resistance *)
Example C135_measured : exists P m, sane_module 1 1 P /\ p_mu P = 0 /\ measured 1 1 P m /\ 0 < g_ m /\ vmp_ m + imp_ m * p_Rs P < voc_ m /\
  (let a := thermal_pvsyst 1 1 P (t_ m) in let d := exp ((isc_ m * p_Rs P - (vmp_ m + imp_ m * p_Rs P)) / a) in d <= 1 / 2 /\ 2 * a * d <= 1 / 10 * (voc_ m - (vmp_ m + imp_ m * p_Rs P))).
Proof.
  set (IL := exp 10 - 1 + 10 / shunt_pvsyst (PvsystModule 0 0 1 1 1 0 0 100 100 (/ 298.15)) 1000). set (P := PvsystModule IL 0 1 1 1 0 0 100 100 (/ 298.15)).
  set (r := shunt_pvsyst P 1000). exists P, (Meas 1000 25 IL 10 (IL - (exp 5 - 1) - 5 / r) 5). cbn [g_ t_ isc_ voc_ imp_ vmp_].
  assert (RE : shunt_pvsyst (PvsystModule 0 0 1 1 1 0 0 100 100 (/ 298.15)) 1000 = r) by reflexivity. assert (RP : 0 < r) by (apply shunt_pos; cbn; lra).
  assert (TH : thermal_pvsyst 1 1 P 25 = 1). { unfold thermal_pvsyst, gamma_pvsyst. cbn [p_gamma p_mu p_cells P]. unfold Rdiv. replace (25 + 273.15) with 298.15 by lra. field. lra. }
  assert (SA : saturation_pvsyst 1 1 P 25 = 1). { unfold saturation_pvsyst. replace (1 / (25 + 273.15) - 1 / (25 + 273.15)) with 0 by ring. rewrite Rmult_0_r, exp_0. cbn [p_I0 P]. replace ((25 + 273.15) / (25 + 273.15)) with 1 by (field; lra). ring. }
  assert (PH : photocurrent_pvsyst P 1000 25 = IL). { unfold photocurrent_pvsyst. cbn [p_IL p_alpha P]. field. }
  pose proof (exp_ineq1_le 5) as E5. pose proof (exp_ineq1_le 10) as E10. assert (E5' : exp (Ropp 5) <= 1 / 6). { rewrite exp_Ropp. replace (1 / 6) with (/ 6) by field. apply Rinv_le_contravar; lra. }
  assert (QR : 0 < 10 / r) by (apply Rdiv_lt_0_compat; lra).
  split; [cbn; unfold sane_module; cbn [p_I0 p_Rs p_cells p_Rsh0 P]; repeat split; try lra; apply Rinv_0_lt_compat; lra|]. split; [reflexivity|]. split.
  - unfold measured. cbn [g_ t_ isc_ voc_ imp_ vmp_]. unfold on_pvsyst_curve. rewrite TH, SA, PH. fold r. unfold on_sde_curve. cbn [p_Rs P]. unfold gamma_pvsyst. cbn [p_gamma p_mu P]. repeat split; try lra.
    + unfold IL. rewrite RE. lra.
    + unfold IL. rewrite RE. replace (10 + 0 * 0) with 10 by ring. replace (10 / 1) with 10 by field. lra.
    + replace (0 + 0 * IL) with 0 by ring. replace (0 / 1) with 0 by field. rewrite exp_0. unfold Rdiv. lra.
    + replace (5 + 0 * _) with 5 by ring. replace (5 / 1) with 5 by field. lra.
  - rewrite TH. cbn [p_Rs P]. cbv zeta. rewrite !Rmult_0_r, Rplus_0_r. replace ((0 - 5) / 1) with (Ropp 5) by field. repeat split; lra.
Qed.

(** ** C136: the whole fit, and the temperature coefficient of power *)
(** the conditions within the tolerance of 1000 W/m2, and of 25 C *)
Definition near_g (tol : R) (m : meas) : bool := Rleb (Rabs (g_ m - 1000)) tol.
Definition near_t (tol : R) (m : meas) : bool := Rleb (Rabs (t_ m - 25)) tol.
Definition against_t (f : meas -> R) (ms : list meas) : list (fl * fl) := map (fun m => (#(t_ m), #(f m))) ms.
(** without alpha_sc, there must be a condition near 1000 W/m2 and exactly one that is also near 25 C *)
Theorem C136_reference : forall k q pf ls ms cells Eg beta Rs rc mn it tt,
  let rows := filter (near_g it) ms in let both := filter (fun m => (near_g it m && near_t tt m)%bool) ms in let r := fit_pvsyst_iec61853 k q pf ls ms cells Eg None beta Rs rc mn it tt in
  (rows = [] -> r = Err TypeError) /\
  (rows <> [] -> List.length both <> 1%nat -> r = Err ValueError) /\
  (forall m c, rows <> [] -> both = [m] -> pf (against_t isc_ rows) = c -> r = fit_pvsyst_iec61853 k q pf ls ms cells Eg (Some (snd c / (fst c + snd c * #25) * #(isc_ m))%fl) beta Rs rc mn it tt).
Proof.
  intros k q pf ls ms cells Eg beta Rs rc mn it tt rows both r. unfold r, fit_pvsyst_iec61853. fold (near_g it) (near_t tt). change (fun m => Rleb (Rabs (g_ m - 1000)) it) with (near_g it). fold rows. cbv zeta. cbn [default].
  change (filter (fun m => (Rleb (Rabs (g_ m - 1000)) it && Rleb (Rabs (t_ m - 25)) tt)%bool) ms) with both. fold (against_t isc_ rows).
  assert (TC : rows <> [] -> fit_tempco pf (against_t isc_ rows) #25 = Ok (snd (pf (against_t isc_ rows)) / (fst (pf (against_t isc_ rows)) + snd (pf (against_t isc_ rows)) * #25))%fl).
  { intros NE. unfold fit_tempco, polyfit1. destruct rows as [|m0 l]; [contradiction|]. cbn [against_t map]. fold (against_t isc_ l). destruct (pf _) as [c0 c1]. reflexivity. }
  split; [|split].
  - intros E. rewrite E. reflexivity.
  - intros NE NL. rewrite (TC NE). cbn [bind]. destruct both as [|a [|b l]]; try reflexivity. exfalso. apply NL. reflexivity.
  - intros m c NE EB EC. rewrite (TC NE), EC, EB. reflexivity.
Qed.
Print Assumptions C136_reference.
(** alpha_sc, beta_mp and R_s are used as given; the steps run in order, each on the results of the ones before *)
Theorem C136_steps : forall k q pf ls ms cells Eg alpha beta Rs rc mn it tt l, fit_pvsyst_iec61853 k q pf ls ms cells Eg (Some alpha) beta Rs rc mn it tt = Ok l <->
  exists b rref r0 rexp rs g mu il g' mu',
    match beta with Some b0 => b = b0 | None => fit_tempco pf (against_t vmp_ (filter (near_g it) ms)) #25 = Ok b end /\
    fit_shunt_resistances pf ms b rc mn = Ok (rref, r0, rexp) /\
    match Rs with Some r => rs = r | None => fit_series_resistance ls ms = Ok rs end /\
    let s := Resist rref r0 rexp rs cells in
    fit_diode_ideality_factor k q ls (filter (near_t tt) ms) s = Ok (g, mu) /\
    let io := fit_saturation_current k q ms s g mu Eg in
    fit_photocurrent k q ls ms s alpha g mu io Eg = Ok il /\
    fit_diode_ideality_factor_post k q ls ms s alpha il io Eg = Ok (g', mu') /\
    l = [("alpha_sc", alpha); ("gamma_ref", g'); ("mu_gamma", mu'); ("I_L_ref", il); ("I_o_ref", io); ("R_sh_ref", rref); ("R_sh_0", r0); ("R_sh_exp", rexp); ("R_s", rs); ("cells_in_series", cells); ("EgRef", Eg)]%string.
Proof.
  intros k q pf ls ms cells Eg alpha beta Rs rc mn it tt l. unfold fit_pvsyst_iec61853. change (fun m => Rleb (Rabs (g_ m - 1000)) it) with (near_g it). change (fun m => Rleb (Rabs (t_ m - 25)) tt) with (near_t tt). cbv zeta. cbn [default bind]. fold (against_t vmp_ (filter (near_g it) ms)).
  split.
  - intros H. destruct (default beta _) as [b|] eqn:EB; [|discriminate]. cbn [bind] in H. destruct (fit_shunt_resistances pf ms b rc mn) as [[[rref r0] rexp]|] eqn:ES; [|discriminate]. cbn [bind] in H.
    destruct (default Rs _) as [rs|] eqn:ER; [|discriminate]. cbn [bind] in H. destruct (fit_diode_ideality_factor _ _ _ _ _) as [[g mu]|] eqn:ED; [|discriminate]. cbn [bind] in H.
    destruct (fit_photocurrent _ _ _ _ _ _ _ _ _ _) as [il|] eqn:EP; [|discriminate]. cbn [bind] in H. destruct (fit_diode_ideality_factor_post _ _ _ _ _ _ _ _ _) as [[g' mu']|] eqn:EF; [|discriminate]. cbn [bind fst snd] in H. apply Ok_inj in H.
    exists b, rref, r0, rexp, rs, g, mu, il, g', mu'. split; [destruct beta; cbn [default] in EB; [apply Ok_inj in EB; symmetry; exact EB|exact EB]|]. split; [exact ES|]. split; [destruct Rs; cbn [default] in ER; [apply Ok_inj in ER; symmetry; exact ER|exact ER]|]. split; [exact ED|]. split; [exact EP|]. split; [exact EF|]. symmetry. exact H.
  - intros (b & rref & r0 & rexp & rs & g & mu & il & g' & mu' & EB & ES & ER & ED & EP & EF & EL). assert (EB' : default beta (fit_tempco pf (against_t vmp_ (filter (near_g it) ms)) #25) = Ok b) by (destruct beta; cbn [default]; [rewrite EB; reflexivity|exact EB]).
    assert (ER' : default Rs (fit_series_resistance ls ms) = Ok rs) by (destruct Rs; cbn [default]; [rewrite ER; reflexivity|exact ER]). rewrite EB'. cbn [bind]. rewrite ES. cbn [bind]. rewrite ER'. cbn [bind]. rewrite ED. cbn [bind]. rewrite EP. cbn [bind]. rewrite EF. cbn [bind fst snd]. rewrite EL. reflexivity.
Qed.
Print Assumptions C136_steps.
(** the relative temperature coefficient of maximum power: the relative slope somewhere within the step, and exactly the coefficient of a power linear in temperature *)
Theorem C136_tempcoeff : forall k q dx pmp alpha gam mu IL I0 rref r0 Rs cells rexp Eg Gr Tr (f f' : R -> R), 0 < dx -> f Tr <> 0 ->
  (forall t, pmp (calcparams_pvsyst k q Gr #t alpha gam mu IL I0 rref r0 Rs cells rexp Eg Gr #Tr) = #(f t)) ->
  let r := pvsyst_temperature_coeff k q dx pmp alpha gam mu IL I0 rref r0 Rs cells rexp Eg Gr #Tr in
  ((forall t, Tr - dx <= t <= Tr + dx -> derivable_pt_lim f t (f' t)) -> exists t, Tr - dx < t < Tr + dx /\ r = #(f' t / f Tr)) /\
  (forall P0 c, (forall t, f t = P0 * (1 + c * (t - Tr))) -> r = #c).
Proof.
  intros k q dx pmp alpha gam mu IL I0 rref r0 Rs cells rexp Eg Gr Tr f f' DX NZ HF r. unfold r, pvsyst_temperature_coeff. cbv zeta. rewrite fadd_fin. rewrite (fsub_fin Tr dx). rewrite !HF. rewrite fsub_fin. rewrite fdiv_fin by lra. rewrite fdiv_fin by lra. rewrite fdiv_fin by exact NZ. split.
  - intros D. destruct (MVT_cor2 f f' (Tr - dx) (Tr + dx) ltac:(lra) D) as (t & E & B). exists t. split; [exact B|]. f_equal. rewrite E. field. split; [exact NZ|lra].
  - intros P0 c L. rewrite !L in *. f_equal. replace (P0 * (1 + c * (Tr - Tr))) with P0 in * by ring. field. split; [lra|exact NZ].
Qed.
Print Assumptions C136_tempcoeff.
