(** Property C181: reverse transposition, irradiance.ghi_from_poa_driesse_2024.  Model: Model/Reverse.v. *)
From Coq Require Import Lia Ranalysis5.
From Verif Require Import Base.Fl Base.FlFacts Base.Py Spec.Decomposition Model.Atmosphere Model.Irradiance Model.IrradDecomp Model.Reverse
  Proofs.ReverseP Proofs.Atmos Proofs.IrradGeom Proofs.IrradSky Proofs.Decomp Props.PIrradiance1 Props.PIrradiance2.
Open Scope R_scope.

(** ** the forward model: split ghi with erbs_driesse, transpose with the continuous Perez-Driesse model *)
Definition forward (f : nat -> nat -> fl -> fl) (s : sample) (ghi poa : fl) : Prop :=
  exists d q, erbs_driesse ghi (s_solar_zenith s) None (Some (s_dni_extra s)) #0.065 #87 = Ok d /\
    get_total_irradiance f (s_surface_tilt s) (s_surface_azimuth s) (s_solar_zenith s) (s_solar_azimuth s) (d_dni d) ghi (d_dhi d)
      (Some (s_dni_extra s)) (s_airmass s) (s_albedo s) None "perez-driesse" "allsitescomposite1990" false = Ok q /\ poa_global q = poa.
(** the largest irradiance searched: clearness 1.25, at least 10 *)
Definition upper (x zen : R) : R := Rmax 10 (1.25 * (x * cosD zen)).

Lemma forward_ok f s g : exists p, forward f s g p /\ poa_error f s g = Ok (fsub p (s_poa_global s)).
Proof.
  unfold forward, poa_error, poa_from_ghi. unfold erbs_driesse. cbn [bind].
  unfold get_total_irradiance, get_sky_diffuse. 
  change (lower "perez-driesse") with "perez-driesse"%string. cbn [String.eqb Ascii.eqb Bool.eqb bind andb mem existsb get_ground_diffuse].
  unfold get_ground_diffuse. cbn [bind]. eexists. split; [do 2 eexists; split; [reflexivity|]; split; [reflexivity|reflexivity]|reflexivity].
Qed.
Lemma forward_error f s g p : forward f s g p -> poa_error f s g = Ok (fsub p (s_poa_global s)).
Proof.
  intros (d & q & E1 & E2 & E3). unfold poa_error, poa_from_ghi. rewrite E1. cbn [bind]. rewrite E2. cbn [bind]. rewrite E3. reflexivity.
Qed.

Section One.
Variables (f : nat -> nat -> fl -> fl) (s : sample) (xtol zen x P : R) (F : R -> R).
Hypothesis (Hz : s_solar_zenith s = #zen) (Hx : s_dni_extra s = #x) (Hp : s_poa_global s = #P) (P0 : 0 < P) (T0 : 0 < xtol).
Hypothesis HF : forall g, 0 <= g <= upper x zen -> forward f s #g #(F g).

Lemma upper_pos : 10 <= upper x zen. Proof. apply Rmax_l. Qed.
Lemma error_fin g : 0 <= g <= upper x zen -> poa_error f s #g = Ok #(F g - P).
Proof. intros H. rewrite (forward_error _ _ _ _ (HF g H)), Hp. reflexivity. Qed.
Lemma search_eq : ghi_from_poa_driesse_2024 f [s] #xtol =
  match bisect (poa_error f s) #0 #(upper x zen) #xtol 25 with
  | Err ValueError => Ok [(NaN, false, (-1)%Z)] | Err e => Err e | Ok r => Ok [(r_root r, r_converged r, r_iterations r)] end.
Proof.
  unfold ghi_from_poa_driesse_2024. rewrite fleb_fin, Rleb_f by exact T0. cbn [mapM]. unfold ghi_from_poa. rewrite Hp, Hz, Hx. cbn [isnan].
  rewrite fleb_fin, Rleb_f by exact P0. rewrite cosd_fin, !fmul_fin, fmax_fin. fold (upper x zen).
  destruct (bisect _ _ _ _ _) as [[v c n]|[]]; reflexivity.
Qed.
End One.

(** ** C181: the search brackets a ghi that reproduces the measured irradiance *)
Theorem C181_bisection : forall f s xtol zen x P F,
  s_solar_zenith s = #zen -> s_dni_extra s = #x -> s_poa_global s = #P -> 0 < P -> 0 < xtol ->
  let hi := upper x zen in
  (forall g, 0 <= g <= hi -> forward f s #g #(F g)) ->
  (0 < (F 0 - P) * (F hi - P) -> ghi_from_poa_driesse_2024 f [s] #xtol = Ok [(NaN, false, (-1)%Z)]) /\
  ((F 0 - P) * (F hi - P) <= 0 -> exists v converged niter,
     ghi_from_poa_driesse_2024 f [s] #xtol = Ok [(#v, converged, niter)] /\ 0 <= v <= hi /\ (0 <= niter <= 25)%Z /\
     (exists k : nat, v = hi * INR k / 2 ^ Z.to_nat niter) /\
     (converged = true -> F v = P \/
        (let d := hi / 2 ^ Z.to_nat niter in d < xtol + v / 2 ^ 50 /\ 0 <= v - d /\ v + d <= hi /\ (F (v - d) - P) * (F (v + d) - P) < 0)) /\
     (converged = false -> niter = 25%Z /\ (let d := hi / 2 ^ 25 in xtol <= d /\ v + d <= hi /\ (F v - P) * (F (v + d) - P) < 0))).
Proof.
  intros f s xtol zen x P F Hz Hx Hp P0 T0 hi HF. pose proof (upper_pos zen x) as U. fold hi in U.
  rewrite (search_eq f s xtol zen x P Hz Hx Hp P0 T0). fold hi.
  destruct (bisect_spec (poa_error f s) (fun g => F g - P) 0 hi xtol (fun g Hg => error_fin f s zen x P F Hp HF g Hg) T0 25 ltac:(lra) ltac:(lia)) as [B1 B2].
  split; intros H; [rewrite (B1 H); reflexivity|].
  destruct (B2 H) as (v & c & n & E & (V & N & (k & K) & C1 & C2)). rewrite E. cbn [r_root r_converged r_iterations].
  exists v, c, n. split; [reflexivity|]. split; [exact V|]. split; [lia|]. split; [exists k; rewrite K; rewrite Rplus_0_l, Rminus_0_r; reflexivity|].
  rewrite Rminus_0_r in C1, C2. split.
  - intros C. destruct (C1 C) as [C3|C3]; [left; lra|]. right. cbv zeta in *. destruct C3 as (D1 & D2 & D3 & D4). rewrite Rabs_pos_eq in D1 by lra.
    split; [|repeat split; assumption]. replace (v / 2 ^ 50) with (4 / 2 ^ 52 * v) by lra. exact D1.
  - intros C. destruct (C2 C) as (D1 & D2). split; [exact D1|exact D2].
Qed.
Print Assumptions C181_bisection.

(** where the forward model increases: a converged result is within xtol (plus rounding 2^-50) of the true value, any other result within the width left after 25 halvings; and the search converges when that width is below xtol *)
Theorem C181_true_value : forall f s xtol zen x P F g0,
  s_solar_zenith s = #zen -> s_dni_extra s = #x -> s_poa_global s = #P -> 0 < P -> 0 < xtol ->
  let hi := upper x zen in
  (forall g, 0 <= g <= hi -> forward f s #g #(F g)) -> (forall g h, 0 <= g -> g < h -> h <= hi -> F g < F h) -> 0 <= g0 <= hi -> F g0 = P ->
  exists v converged niter, ghi_from_poa_driesse_2024 f [s] #xtol = Ok [(#v, converged, niter)] /\ 0 <= v <= hi /\
    (converged = true -> Rabs (v - g0) < xtol + v / 2 ^ 50) /\
    (converged = false -> v < g0 < v + hi / 2 ^ 25) /\
    (hi / 2 ^ 25 < xtol -> converged = true).
Proof.
  intros f s xtol zen x P F g0 Hz Hx Hp P0 T0 hi HF M G E0. pose proof (upper_pos zen x) as U. fold hi in U.
  assert (Le : forall g h, 0 <= g -> g <= h -> h <= hi -> F g <= F h) by (intros g h A B C; destruct B as [B|B]; [left; apply M; assumption | subst; lra]).
  destruct (C181_bisection f s xtol zen x P F Hz Hx Hp P0 T0 HF) as [_ B]. fold hi in B.
  destruct B as (v & c & n & E & V & N & K & C1 & C2).
  { pose proof (Le 0 g0 ltac:(lra) ltac:(lra) ltac:(lra)). pose proof (Le g0 hi ltac:(lra) ltac:(lra) ltac:(lra)).
    assert (Q : 0 <= (P - F 0) * (F hi - P)) by (apply Rmult_le_pos; lra). lra. }
  assert (Br : forall l h, 0 <= l -> l < h -> h <= hi -> (F l - P) * (F h - P) < 0 -> l < g0 < h).
  { intros l h A1 A2 A3 A4. pose proof (M l h A1 A2 A3) as I1.
    assert (L : F l < P). { destruct (Rlt_le_dec (F l) P) as [|Q]; [assumption|]. exfalso. assert (0 <= (F l - P) * (F h - P)) by (apply Rmult_le_pos; lra). lra. }
    assert (L2 : P < F h). { destruct (Rlt_le_dec P (F h)) as [|Q]; [assumption|]. exfalso. assert (0 <= (P - F l) * (P - F h)) by (apply Rmult_le_pos; lra). lra. }
    split; apply Rnot_le_lt; intros Q.
    - pose proof (Le g0 l ltac:(lra) Q ltac:(lra)). lra.
    - pose proof (Le h g0 ltac:(lra) Q ltac:(lra)). lra. }
  assert (D : forall m, 0 < hi / 2 ^ m) by (intros m; apply Rmult_lt_0_compat; [lra|apply Rinv_0_lt_compat, pow_lt; lra]).
  exists v, c, n. split; [exact E|]. split; [exact V|]. split; [|split].
  - intros C. destruct (C1 C) as [C3|C3].
    + assert (v = g0). { destruct (Rtotal_order v g0) as [A|[A|A]]; [|exact A|]; exfalso; [pose proof (M v g0 ltac:(lra) A ltac:(lra)) | pose proof (M g0 v ltac:(lra) A ltac:(lra))]; lra. }
      subst v. replace (g0 - g0) with 0 by lra. rewrite Rabs_R0. assert (0 <= g0 / 2 ^ 50) by (apply Rmult_le_pos; [lra|left; apply Rinv_0_lt_compat, pow_lt; lra]). lra.
    + cbv zeta in C3. destruct C3 as (D1 & D2 & D3 & D4). pose proof (D (Z.to_nat n)) as Dn. set (d := hi / 2 ^ Z.to_nat n) in *. destruct (Br (v - d) (v + d) D2 ltac:(lra) D3 D4). apply Rabs_def1; lra.
  - intros C. destruct (C2 C) as (_ & D1 & D2 & D3). pose proof (D 25%nat). apply Br; lra.
  - intros W. destruct c; [reflexivity|]. destruct (C2 eq_refl) as (_ & D1 & _). lra.
Qed.
Print Assumptions C181_true_value.

(** where the forward model is continuous there is a ghi that reproduces the irradiance exactly, just as close *)
Theorem C181_reproduces : forall f s xtol zen x P F v niter,
  s_solar_zenith s = #zen -> s_dni_extra s = #x -> s_poa_global s = #P -> 0 < P -> 0 < xtol ->
  let hi := upper x zen in
  (forall g, 0 <= g <= hi -> forward f s #g #(F g)) -> (forall g, 0 <= g <= hi -> continuity_pt F g) ->
  ghi_from_poa_driesse_2024 f [s] #xtol = Ok [(#v, true, niter)] ->
  exists g, 0 <= g <= hi /\ F g = P /\ Rabs (v - g) < xtol + v / 2 ^ 50.
Proof.
  intros f s xtol zen x P F v n Hz Hx Hp P0 T0 hi HF Cont E. pose proof (upper_pos zen x) as U. fold hi in U.
  destruct (C181_bisection f s xtol zen x P F Hz Hx Hp P0 T0 HF) as [B1 B2]. fold hi in B1, B2.
  destruct (Rlt_le_dec 0 ((F 0 - P) * (F hi - P))) as [B|B]; [rewrite (B1 B) in E; discriminate|].
  destruct (B2 B) as (v' & c & n' & E' & V & _ & _ & C1 & _). rewrite E in E'. injection E' as <- <- <-.
  assert (D : forall m, 0 < hi / 2 ^ m) by (intros m; apply Rmult_lt_0_compat; [lra|apply Rinv_0_lt_compat, pow_lt; lra]).
  destruct (C1 eq_refl) as [C3|C3].
  - exists v. split; [exact V|]. split; [exact C3|]. replace (v - v) with 0 by lra. rewrite Rabs_R0.
    assert (0 <= v / 2 ^ 50) by (apply Rmult_le_pos; [lra|left; apply Rinv_0_lt_compat, pow_lt; lra]). lra.
  - cbv zeta in C3. destruct C3 as (D1 & D2 & D3 & D4). pose proof (D (Z.to_nat n)) as Dn. set (d := hi / 2 ^ Z.to_nat n) in *.
    set (k := if Rlt_dec (F (v - d)) P then 1 else -1).
    assert (Ck : forall g, v - d <= g <= v + d -> continuity_pt (fun g => k * (F g - P)) g).
    { intros g Hg. apply (continuity_pt_scal (fun g => F g - P)%R k g). apply (continuity_pt_minus F (fun _ => P) g); [apply Cont; lra|]. apply continuity_pt_const. intros a b; reflexivity. }
    destruct (IVT_interv _ (v - d) (v + d) Ck ltac:(lra)) as (g & G1 & G2).
    + unfold k. destruct (Rlt_dec (F (v - d)) P) as [L|L]; [lra|]. destruct (Req_dec (F (v - d)) P) as [Q|Q]; [rewrite Q in D4; lra|]. lra.
    + unfold k. destruct (Rlt_dec (F (v - d)) P) as [L|L].
      * destruct (Rlt_le_dec P (F (v + d))) as [|Q]; [lra|]. exfalso. assert (0 <= (P - F (v - d)) * (P - F (v + d))) by (apply Rmult_le_pos; lra). lra.
      * destruct (Rlt_le_dec (F (v + d)) P) as [|Q]; [lra|]. exfalso. assert (0 <= (F (v - d) - P) * (F (v + d) - P)) by (apply Rmult_le_pos; lra). lra.
    + assert (G3 : k * (F g - P) = 0) by exact G2.
      assert (G4 : F g = P) by (unfold k in G3; destruct (Rlt_dec (F (v - d)) P); lra).
      exists g. split; [lra|]. split; [exact G4|].
      destruct G1 as [G1 G1']. assert (g <> v - d) by (intros Q; rewrite Q in G4; rewrite G4 in D4; lra).
      assert (g <> v + d) by (intros Q; rewrite Q in G4; rewrite G4 in D4; lra).
      apply Rabs_def1.
      * destruct (Rtotal_order g (v - d)) as [A|[A|A]]; [lra|contradiction|lra].
      * destruct (Rtotal_order g (v + d)) as [A|[A|A]]; [lra|contradiction|lra].
Qed.
Print Assumptions C181_reproduces.

(** ** errors, missing and dark samples *)
Lemma call_error f x e : (forall g, exists p, f g = Ok p) -> call f x = Err e -> e = ValueError.
Proof. intros H E. unfold call in E. destruct (H x) as (p & Q). rewrite Q in E. cbn [bind] in E. destruct (isnan p); congruence. Qed.
Lemma loop_error f xtol left : (forall g, exists p, f g = Ok p) -> forall fa xa dm n e, bisect_loop f xtol fa xa dm n left = Err e -> e = ValueError.
Proof.
  intros H. induction left as [|left IH]; intros fa xa dm n e E; [discriminate|]. cbn [bisect_loop] in E.
  destruct (call f (xa + dm * #0.5)%fl) as [fm|e'] eqn:C; cbn [bind] in E; [|injection E as <-; exact (call_error _ _ _ H C)].
  destruct (_ || _); [discriminate|]. exact (IH _ _ _ _ _ E).
Qed.
Lemma bisect_error f a b xtol m e : (forall g, exists p, f g = Ok p) -> bisect f a b xtol m = Err e -> e = ValueError.
Proof.
  intros H E. unfold bisect in E. destruct (fleb xtol #0); [congruence|].
  destruct (call f a) as [fa|e'] eqn:A; cbn [bind] in E; [|injection E as <-; exact (call_error _ _ _ H A)].
  destruct (call f b) as [fb|e'] eqn:B; cbn [bind] in E; [|injection E as <-; exact (call_error _ _ _ H B)].
  destruct (feqb fa #0); [discriminate|]. destruct (feqb fb #0); [discriminate|]. destruct (Bool.eqb _ _); [congruence|].
  exact (loop_error _ _ _ H _ _ _ _ _ E).
Qed.
Lemma sample_ok f s xtol : exists o, ghi_from_poa f s xtol = Ok o.
Proof.
  unfold ghi_from_poa. destruct (isnan (s_poa_global s)); [eauto|]. destruct (fleb (s_poa_global s) #0); [eauto|].
  destruct (bisect _ _ _ _ _) as [r|e] eqn:B; [eauto|].
  assert (e = ValueError) by (refine (bisect_error _ _ _ _ _ _ _ B); intros g; destruct (forward_ok f s g) as (p & _ & Q); eauto). subst e. eauto.
Qed.
(** the only exceptions are a tolerance that is not positive and an empty input; every sample has its own result *)
Theorem C181_errors : forall f samples xtol e,
  ghi_from_poa_driesse_2024 f samples xtol = Err e <-> e = ValueError /\ (fleb xtol #0 = true \/ samples = []).
Proof.
  intros f samples xtol e. unfold ghi_from_poa_driesse_2024. destruct (fleb xtol #0).
  { split; [intros E; injection E as <-; auto|intros [-> _]; reflexivity]. }
  destruct samples as [|s l]; [split; [intros E; injection E as <-; auto|intros [-> _]; reflexivity]|].
  assert (H : exists o, mapM (fun s => ghi_from_poa f s xtol) (s :: l) = Ok o).
  { generalize (s :: l). intros l'. induction l' as [|t l' IH]; [exists []; reflexivity|]. cbn [mapM]. destruct (sample_ok f t xtol) as (o & ->). cbn [bind]. destruct IH as (os & ->). eexists; reflexivity. }
  destruct H as (o & ->). split; [discriminate|]. intros (_ & [C|C]); discriminate.
Qed.
Print Assumptions C181_errors.
Theorem C181_elementwise : forall f samples xtol out,
  ghi_from_poa_driesse_2024 f samples xtol = Ok out -> Forall2 (fun s o => ghi_from_poa_driesse_2024 f [s] xtol = Ok [o]) samples out.
Proof.
  intros f samples xtol out. unfold ghi_from_poa_driesse_2024. destruct (fleb xtol #0); [discriminate|]. destruct samples as [|s l]; [discriminate|].
  generalize (s :: l). intros l' E. revert out E. induction l' as [|t l' IH]; intros out E; cbn [mapM] in E; [injection E as <-; constructor|].
  destruct (ghi_from_poa f t xtol) as [o|] eqn:T; [|discriminate]. cbn [bind] in E. destruct (mapM _ l') as [os|]; [|discriminate]. cbn [bind] in E. injection E as <-.
  constructor; [cbn [mapM]; rewrite T; reflexivity|]. apply IH. reflexivity.
Qed.
Print Assumptions C181_elementwise.
(** a missing irradiance gives a missing result, no irradiance gives zero, and missing angles or extraterrestrial irradiance give a missing result with -1 iterations *)
Theorem C181_trivial : forall f s xtol, fleb xtol #0 = false ->
  (s_poa_global s = NaN -> ghi_from_poa_driesse_2024 f [s] xtol = Ok [(NaN, false, 0%Z)]) /\
  (fleb (s_poa_global s) #0 = true -> ghi_from_poa_driesse_2024 f [s] xtol = Ok [(#0, true, 0%Z)]).
Proof.
  intros f s xtol T. unfold ghi_from_poa_driesse_2024. rewrite T. cbn [mapM]. unfold ghi_from_poa. split; intros H.
  - rewrite H. reflexivity.
  - rewrite H. destruct (s_poa_global s); try discriminate H; reflexivity.
Qed.
Print Assumptions C181_trivial.

Lemma forward_nan f s g p : forward f s g p ->
  (isfinite (s_surface_tilt s) && isfinite (s_surface_azimuth s) && isfinite (s_solar_zenith s) && isfinite (s_solar_azimuth s) = false \/ s_albedo s = NaN \/ s_dni_extra s = NaN) ->
  p = NaN.
Proof.
  intros (d & q & E1 & E2 & E3) H. destruct (C03_poa_accounting _ _ _ _ _ _ _ _ _ _ _ _ _ _ _ _ E2) as (sk & gd & S1 & G1 & A1 & A2 & A3 & A4 & A5).
  rewrite <- E3, A1. destruct H as [H|[H|H]].
  - apply C02_aoi_nan in H. unfold get_total_irradiance in E2. rewrite S1 in E2. cbn [bind] in E2. rewrite G1 in E2. cbn [bind] in E2.
    assert (Q : q = poa_components (aoi (s_surface_tilt s) (s_surface_azimuth s) (s_solar_zenith s) (s_solar_azimuth s)) (d_dni d) (sky_total sk) gd) by congruence.
    rewrite Q. unfold poa_components. cbn [poa_direct]. rewrite H. change (fcos (fradians NaN)) with NaN.
    rewrite fmul_nan_r. reflexivity.
  - rewrite A2, A4. unfold get_ground_diffuse in G1. cbn [bind] in G1. rewrite H in G1. unfold ground_diffuse in G1. rewrite fmul_nan_r in G1. cbn [fmul] in G1.
    injection G1 as <-. rewrite fadd_nan_r, fadd_nan_r. reflexivity.
  - rewrite A2, A3. rewrite H in *. unfold get_sky_diffuse in S1. change (lower "perez-driesse") with "perez-driesse"%string in S1.
    cbn [String.eqb Ascii.eqb Bool.eqb bind andb mem existsb] in S1. injection S1 as <-. unfold perez_driesse, calc_delta. 
    assert (DN : forall a, fdiv (d_dhi d) (fdiv NaN a) = NaN) by (intros a; destruct (d_dhi d), a; reflexivity). rewrite DN. rewrite !fmul_nan_r.
    rewrite !fadd_nan_r. rewrite !fadd_nan_l. unfold perez_terms. cbn [fclip fmax fmin]. unfold fclip; cbn [fmax fmin fmul fdiv].
    rewrite !fadd_nan_r. cbn [sky_total]. rewrite !fmul_nan_r. change (fmax NaN #0) with NaN. rewrite !fadd_nan_l, !fadd_nan_r. reflexivity.
Qed.
(** missing angles, albedo or extraterrestrial irradiance give a missing result with -1 iterations *)
Theorem C181_missing : forall f s xtol P, s_poa_global s = #P -> 0 < P -> fleb xtol #0 = false ->
  isfinite (s_surface_tilt s) && isfinite (s_surface_azimuth s) && isfinite (s_solar_zenith s) && isfinite (s_solar_azimuth s) = false \/ s_albedo s = NaN \/ s_dni_extra s = NaN ->
  ghi_from_poa_driesse_2024 f [s] xtol = Ok [(NaN, false, (-1)%Z)].
Proof.
  intros f s xtol P Hp P0 T H. unfold ghi_from_poa_driesse_2024. rewrite T. cbn [mapM]. unfold ghi_from_poa. rewrite Hp. cbn [isnan]. rewrite fleb_fin, Rleb_f by exact P0.
  unfold bisect. rewrite T. unfold call at 1. destruct (forward_ok f s #0) as (p & F1 & E). rewrite E. cbn [bind].
  rewrite (forward_nan _ _ _ _ F1 H). reflexivity.
Qed.
Print Assumptions C181_missing.

(** ** a horizontal surface: the forward model is the identity, whatever the spline *)
Definition finite_spline (f : nat -> nat -> fl -> fl) : Prop := forall i j z, exists y, f i j #z = #y.
Lemma horizontal_forward f s az zen saz x al am g :
  s_surface_tilt s = #0 -> s_surface_azimuth s = #az -> s_solar_zenith s = #zen -> s_solar_azimuth s = #saz -> s_dni_extra s = #x -> s_albedo s = #al ->
  s_airmass s = None \/ (s_airmass s = Some #am /\ am <> 0) -> finite_spline f -> 0 <= zen <= 85 -> 0 < x -> 0 <= g -> forward f s #g #g.
Proof.
  intros Ht Ha Hz Hs Hx Hl Hm Hf Z X G. destruct (forward_ok f s #g) as (p & (d & q & E1 & E2 & E3) & _).
  exists d, q. split; [exact E1|]. split; [exact E2|]. rewrite Ht, Ha, Hz, Hs, Hx, Hl in *.
  pose proof (cosD_pos zen ltac:(lra)) as CP.
  destruct (C09_undefined_exactly g zen x 0.065 87 #0 #0) as (_ & _ & _ & U). specialize (U None d E1).
  assert (KT : d_kt d <> NaN).
  { intros K. apply U in K. destruct K as [_ K]. apply Rmult_integral in K. destruct K as [K|K]; [lra|]. pose proof (Rmax_r (cosD zen) 0.065). lra. }
  destruct (C09_erbs_driesse_closure g zen None x 0.065 87 d E1 KT ltac:(lra)) as (n & h & D1 & D2 & D3 & D4 & _ & D5).
  rewrite (Rmax_right 0 g) in * by exact G. specialize (D5 G (or_introl CP)).
  destruct (C03_poa_accounting _ _ _ _ _ _ _ _ _ _ _ _ _ _ _ _ E2) as (sk & gd & S1 & G1 & A1 & A2 & A3 & A4 & A5).
  rewrite A1, A2, A3, A4, A5. rewrite D1, D2 in *. 
  assert (BN : beam_component #0 #az #zen #saz #n = #(n * cosD zen)).
  { unfold beam_component. rewrite aoi_projection_horizontal. fin. f_equal. apply Rmax_left. apply Rmult_le_pos; lra. }
  rewrite BN. unfold get_ground_diffuse in G1. cbn [bind] in G1. injection G1 as <-. rewrite ground_horizontal.
  unfold get_sky_diffuse in S1. change (lower "perez-driesse") with "perez-driesse"%string in S1. cbn [String.eqb Ascii.eqb Bool.eqb bind andb mem existsb] in S1. injection S1 as <-.
  assert (HZ : exists zeta, calc_zeta #h #n #zen = #zeta).
  { unfold calc_zeta. rewrite feqb_fin, fadd_fin, fradians_fin, fpown_fin, fmul_fin. unfold where_. 
    assert (Z3 : 0 <= Rrad zen ^ 3) by (apply pow_le; unfold Rrad; apply Rmult_le_pos; [apply Rmult_le_pos; [lra|left; exact PI_RGT_0]|lra]).
    destruct (Reqb_spec h 0) as [H0|H0].
    - rewrite fsub_fin, fmul_fin, fsub_fin, fdiv_fin by lra. eauto.
    - rewrite (fdiv_fin n (h + n)) by lra. rewrite fsub_fin, fmul_fin, fsub_fin. 
      assert (n / (h + n) <= 1). { apply Rmult_le_reg_r with (h + n); [lra|]. unfold Rdiv. rewrite Rmult_assoc, Rinv_l by lra. lra. }
      assert (0 <= 1.041 * Rrad zen ^ 3 * (1 - n / (h + n))) by (apply Rmult_le_pos; lra).
      rewrite fdiv_fin by lra. eauto. }
  destruct HZ as (zeta & HZ).
  assert (HD : exists delta, calc_delta #h #x #zen (s_airmass s) = #delta).
  { unfold calc_delta. rewrite fgeb_fin. unfold where_. rewrite Rleb_f by lra. destruct Hm as [Hm|[Hm M0]]; rewrite Hm.
    - unfold airmass_z, where_. rewrite fgtb_fin, Rltb_f by lra. rewrite ky_fin by lra.
      assert (0 < 0.50572 * Rpower (6.07995 + (90 - zen)) (-1.6364)) by (apply Rmult_lt_0_compat; [lra|apply exp_pos]).
      assert (Q : 0 < 1 / (cosD zen + 0.50572 * Rpower (6.07995 + (90 - zen)) (-1.6364))) by (apply Rdiv_lt_0_compat; lra).
      rewrite fdiv_fin by lra. rewrite fdiv_fin; [eauto|]. apply Rgt_not_eq. apply Rdiv_lt_0_compat; assumption.
    - rewrite fdiv_fin by exact M0. rewrite fdiv_fin; [eauto|]. apply Rmult_integral_contrapositive_currified; [lra|apply Rinv_neq_0_compat; exact M0]. }
  destruct HD as (delta & HD).
  destruct (Hf 1%nat 1%nat zeta) as (y1 & Y1), (Hf 1%nat 2%nat zeta) as (y2 & Y2), (Hf 1%nat 3%nat zeta) as (y3 & Y3), (Hf 2%nat 1%nat zeta) as (y4 & Y4), (Hf 2%nat 2%nat zeta) as (y5 & Y5), (Hf 2%nat 3%nat zeta) as (y6 & Y6).
  rewrite (C04_horizontal_perez_driesse f az h n x zen saz (s_airmass s) (y1 + y2 * delta + y3 * Rrad zen) (y4 + y5 * delta + y6 * Rrad zen)); [|lra|exact Z|].
  - fin. f_equal. lra.
  - cbv zeta. rewrite HZ, HD, Y1, Y2, Y3, Y4, Y5, Y6. split; fin; reflexivity.
Qed.
Theorem C181_horizontal : forall f s az zen saz x al am P xtol,
  s_surface_tilt s = #0 -> s_surface_azimuth s = #az -> s_solar_zenith s = #zen -> s_solar_azimuth s = #saz -> s_dni_extra s = #x -> s_albedo s = #al ->
  s_airmass s = None \/ (s_airmass s = Some #am /\ am <> 0) -> finite_spline f -> 0 <= zen <= 85 -> 0 < x ->
  s_poa_global s = #P -> 0 < P -> 0 < xtol ->
  let hi := upper x zen in
  (hi < P -> ghi_from_poa_driesse_2024 f [s] #xtol = Ok [(NaN, false, (-1)%Z)]) /\
  (P <= hi -> exists v converged niter, ghi_from_poa_driesse_2024 f [s] #xtol = Ok [(#v, converged, niter)] /\
     (converged = true -> Rabs (v - P) < xtol + v / 2 ^ 50) /\ (converged = false -> v < P < v + hi / 2 ^ 25) /\ (hi / 2 ^ 25 < xtol -> converged = true)).
Proof.
  intros f s az zen saz x al am P xtol Ht Ha Hz Hs Hx Hl Hm Hf Z X Hp P0 T0 hi. pose proof (upper_pos zen x) as U. fold hi in U.
  assert (HF : forall g, 0 <= g <= hi -> forward f s #g #g) by (intros g G; apply (horizontal_forward f s az zen saz x al am); tauto || lra).
  split; intros H.
  - apply (proj1 (C181_bisection f s xtol zen x P (fun g => g) Hz Hx Hp P0 T0 HF)). fold hi.
    assert (0 < (P - 0) * (P - hi)) by (apply Rmult_lt_0_compat; lra). lra.
  - destruct (C181_true_value f s xtol zen x P (fun g => g) P Hz Hx Hp P0 T0 HF) as (v & c & n & A & B & C); [intros; lra | fold hi; lra | reflexivity|].
    exists v, c, n. split; [exact A|exact C].
Qed.
Print Assumptions C181_horizontal.

(** the documentation promises a result within xtol of the true value: for a small xtol the search stops after 25 halvings and returns its last point, further away than xtol *)
Definition flat_plate (P : R) : sample := Sample #0 #180 #0 #180 #P #1000 None #0.25.
Lemma upper_flat : upper 1000 0 = 1250.
Proof. unfold upper. rewrite cosD_0. rewrite Rmax_right; lra. Qed.
Theorem C181_xtol_refuted : exists f s xtol g0, finite_spline f /\ 0 < xtol /\ forward f s #g0 (s_poa_global s) /\
  exists v, ghi_from_poa_driesse_2024 f [s] #xtol = Ok [(#v, false, 25%Z)] /\ xtol < Rabs (v - g0).
Proof.
  set (P := 1250 * (2 ^ 25 + 1) / 2 ^ 26). set (f := (fun _ _ _ => #0) : nat -> nat -> fl -> fl).
  assert (FS : finite_spline f) by (intros i j z; exists 0; reflexivity).
  assert (E26 : 2 ^ 26 = 2 * 2 ^ 25) by (cbn [pow]; ring). 
  assert (V25 : 2 ^ 25 = 33554432) by (cbn [pow]; ring).
  assert (VP : P = 625 + 625 / 33554432) by (unfold P; rewrite E26, V25; lra).
  assert (HF : forall g, 0 <= g <= upper 1000 0 -> forward f (flat_plate P) #g #g).
  { intros g G. apply (horizontal_forward f (flat_plate P) 180 0 180 1000 0.25 1); try reflexivity; try lra; [left; reflexivity|exact FS]. }
  exists f, (flat_plate P), (1 / 1000000), P. split; [exact FS|]. split; [lra|]. split; [apply HF; rewrite upper_flat; lra|].
  destruct (C181_bisection f (flat_plate P) (1 / 1000000) 0 1000 P (fun g => g) eq_refl eq_refl eq_refl ltac:(lra) ltac:(lra) HF) as [_ B].
  rewrite upper_flat in B. destruct B as (v & c & n & E & V & N & (k & K) & C1 & C2).
  { assert (Q : 0 <= P * (1250 - P)) by (apply Rmult_le_pos; lra). lra. }
  assert (PW : forall m, (m <= 25)%nat -> exists j : nat, 2 ^ 25 = 2 ^ m * INR j /\ (1 <= j)%nat).
  { intros m M. exists (2 ^ (25 - m))%nat. rewrite pow_INR. cbn [INR]. replace (1 + 1) with 2 by lra. rewrite <- pow_add. split; [f_equal; lia|]. clear. induction (25 - m)%nat; cbn [Nat.pow]; lia. }
  destruct (PW (Z.to_nat n) ltac:(lia)) as (j & J & J1).
  assert (PN : 0 < 2 ^ Z.to_nat n) by (apply pow_lt; lra).
  assert (NE : v <> P).
  { intros Q. rewrite K, VP in Q.
    assert (Q2 : 2 * 1250 * (INR k * INR j) = 1250 * (33554432 + 1)).
    { rewrite <- V25. replace (1250 * INR k / 2 ^ Z.to_nat n) with (1250 * (INR k * INR j) / 2 ^ 25) in Q by (rewrite J; field; split; first [apply not_0_INR; lia | apply Rgt_not_eq; exact PN]).
      apply (Rmult_eq_compat_r (2 * 2 ^ 25)) in Q. rewrite V25 in *. lra. }
    assert (Q3 : INR (2 * (k * j)) = INR 1 + IZR 33554432) by (rewrite !mult_INR; cbn [INR]; lra).
    rewrite !INR_IZR_INZ, <- plus_IZR in Q3. apply eq_IZR in Q3. lia. }
  destruct c.
  - exfalso. destruct (C1 eq_refl) as [C3|C3]; [exact (NE C3)|]. cbv zeta in C3. destruct C3 as (D1 & _).
    assert (W : 1250 / 33554432 <= 1250 / 2 ^ Z.to_nat n).
    { apply Rmult_le_compat_l; [lra|]. apply Rinv_le_contravar; [exact PN|]. rewrite <- V25. apply Rle_pow; [lra|lia]. }
    assert (V50 : 2 ^ 50 = 1125899906842624) by (cbn [pow]; ring). rewrite V50 in D1. lra.
  - destruct (C2 eq_refl) as (-> & D1 & D2 & D3). cbv zeta in *. change (Z.to_nat 25) with 25%nat in *. exists v. split; [exact E|].
    rewrite V25 in *. 
    (* v = 1250 k / 2^25 and P lies halfway between two such values *)
    destruct (Rle_lt_dec (INR k) 16777216) as [L|L].
    + rewrite K. rewrite VP. rewrite Rabs_left1; lra.
    + assert (16777217 <= INR k). { rewrite INR_IZR_INZ in *. apply IZR_le. apply lt_IZR in L. lia. }
      rewrite K, VP. rewrite Rabs_pos_eq; lra.
Qed.
Print Assumptions C181_xtol_refuted.

(** the hypotheses are met: a flat plate under an overhead sun, and the default tolerance converges *)
Example C181_example : forall P, 0 < P <= 1250 -> exists v n,
  ghi_from_poa_driesse_2024 (fun _ _ _ => #0) [flat_plate P] #0.01 = Ok [(#v, true, n)] /\ Rabs (v - P) < 0.01 + v / 2 ^ 50.
Proof.
  intros P HP. assert (FS : finite_spline (fun _ _ _ => #0)) by (intros i j z; exists 0; reflexivity).
  destruct (C181_horizontal (fun _ _ _ => #0) (flat_plate P) 180 0 180 1000 0.25 1 P 0.01) as [_ H]; try reflexivity; try lra; [left; reflexivity|exact FS|].
  rewrite upper_flat in H. destruct H as (v & c & n & A & B & _ & D); [lra|].
  assert (V25 : 2 ^ 25 = 33554432) by (cbn [pow]; ring). rewrite V25 in D. rewrite (D ltac:(lra)) in *. exists v, n. split; [exact A|]. exact (B eq_refl).
Qed.
