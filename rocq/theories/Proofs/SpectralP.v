(** Proofs about the spectral correction factors. *)
From Verif Require Import Base.Fl Base.FlFacts Base.Py Model.Atmosphere Model.Iam Model.Spectrum Spec.SpectralSpec Proofs.Atmos Proofs.PvsystemP.
Open Scope R_scope.

Lemma sapm_factor_fin am a0 a1 a2 a3 a4 : spectral_factor_sapm #am (SapmA #a0 #a1 #a2 #a3 #a4) =
  #(Rmax 0 (a0 + a1 * am + a2 * am ^ 2 + a3 * am ^ 3 + a4 * am ^ 4)).
Proof.
  unfold spectral_factor_sapm, polyval. cbn [fold_left Spectrum.A0 Spectrum.A1 Spectrum.A2 Spectrum.A3 Spectrum.A4]. fsx.
  cbn [isnan where_]. fsx. do 2 f_equal. ring.
Qed.
Lemma sapm_factor_total am m : spectral_factor_sapm am m <> NaN /\ atleast #0 (spectral_factor_sapm am m).
Proof.
  unfold spectral_factor_sapm. set (p := polyval _ _). destruct p as [x| | |]; cbn [isnan where_].
  - cbn. split; [discriminate|]. apply atleast_fin. apply Rmax_l.
  - cbn. split; [discriminate|]. unfold atleast. right. reflexivity.
  - cbn. split; [discriminate|]. apply atleast_fin. lra.
  - cbn. split; [discriminate|]. apply atleast_fin. apply Rmax_l.
Qed.

(** ** First Solar *)
Lemma pick_some t e m c : lookup (lower m) t = Some c -> pick_coefficients t e (Some m) None = Ok c.
Proof. intros H. unfold pick_coefficients, getitem. rewrite H. reflexivity. Qed.
Lemma firstsolar_eval pw am mt co c0 c1 c2 c3 c4 c5 rest a b lo hi :
  pick_coefficients firstsolar_coefficients TypeError mt co = Ok (c0 :: c1 :: c2 :: c3 :: c4 :: c5 :: rest) ->
  0 < a -> a <= b -> 0 <= lo -> lo <= hi ->
  spectral_factor_firstsolar #pw #am mt co #a #b #lo #hi =
  Ok (if Rltb b pw then NaN else #(firstsolar c0 c1 c2 c3 c4 c5 (Rmax (Rmin am hi) lo) (Rmax pw a))).
Proof.
  intros H Ha Hab Hl Hlh. unfold spectral_factor_firstsolar. rewrite H. cbn [bind coef nth_error]. rewrite fmax_fin, fmin_fin, fgtb_fin, fmax_fin.
  destruct (Rltb b pw) eqn:E; [apply Rltb_true in E; rewrite Rltb_t by (rmm; lra)|apply Rltb_false in E; rewrite Rltb_f by (rmm; lra)]; cbn [where_].
  - reflexivity.
  - set (P := Rmax pw a). set (A := Rmax (Rmin am hi) lo).
    assert (0 < P) by (unfold P; rmm; lra). assert (0 <= A) by (unfold A; rmm; lra).
    rewrite !fsqrt_fin by lra. fsx. rewrite fdiv_fin by (apply Rgt_not_eq, sqrt_lt_R0; assumption). fsx. reflexivity.
Qed.
Lemma firstsolar_table m c : firstsolar_published (lower m) c -> lookup (lower m) firstsolar_coefficients = Some c.
Proof. intros H. destruct H as [|n [->| ->]|n [->| ->]| |]; reflexivity. Qed.
Lemma firstsolar_unknown m : (forall c, ~ firstsolar_published (lower m) c) -> lookup (lower m) firstsolar_coefficients = None.
Proof.
  intros H. destruct (lookup (lower m) firstsolar_coefficients) as [c|] eqn:E; [|reflexivity]. exfalso.
  apply lookup_In in E. cbn in E. apply (H c). revert E. generalize (lower m). intros s E.
  repeat (destruct E as [E|E]; [injection E as <- <-; constructor; tauto|]). destruct E.
Qed.
Lemma firstsolar_range s c0 c1 c2 c3 c4 c5 am pw : firstsolar_published s [c0; c1; c2; c3; c4; c5] ->
  0.58 <= am <= 10 -> 0.1 <= pw <= 8 -> 0.2 < firstsolar c0 c1 c2 c3 c4 c5 am pw < 1.4.
Proof.
  intros H HA HP. unfold firstsolar. set (s1 := sqrt am). set (t := sqrt pw).
  assert (S2 : s1 * s1 = am) by (apply sqrt_sqrt; lra). assert (T2 : t * t = pw) by (apply sqrt_sqrt; lra).
  assert (S0 : 0 <= s1) by apply sqrt_pos. assert (T0 : 0 <= t) by apply sqrt_pos.
  assert (Sb : 0.75 <= s1 <= 3.17) by (split; nra). assert (Tb : 0.316 <= t <= 2.83) by (split; nra).
  assert (SS : 0 <= (s1 - 0.75) * (3.17 - s1)) by nra. assert (TT : 0 <= (t - 0.316) * (2.83 - t)) by nra.
  assert (R1 : 0 <= am / t <= 31.7). { split; [unfold Rdiv; apply Rmult_le_pos; [lra|left; apply Rinv_0_lt_compat; lra]|]. apply Rmult_le_reg_r with t; [lra|]. unfold Rdiv. rewrite Rmult_assoc, Rinv_l by lra. lra. }
  assert (D : forall c, c * am / t = c * (am / t)) by (intros; unfold Rdiv; ring). rewrite D. clear D.
  set (r := am / t) in *. clearbody r.
  assert (M1 : 0 <= (s1 - 1.27) * (s1 - 1.27)) by (apply (Rle_0_sqr (s1 - 1.27))). 
  assert (M2 : 0 <= (t - 2.83) * (t - 2.83)) by (apply (Rle_0_sqr (t - 2.83))).
  assert (M3 : 0 <= (s1 - 2.5) * (s1 - 2.5)) by (apply (Rle_0_sqr (s1 - 2.5))).
  clearbody s1 t. remember [c0; c1; c2; c3; c4; c5] as l eqn:L. rewrite <- S2, <- T2 in *.
  destruct H; injection L as <- <- <- <- <- <-; lra.
Qed.

(** ** JRC, PVSPEC *)
Lemma jrc_eval am kc mt co c0 c1 c2 rest : pick_coefficients jrc_coefficients ValueError mt co = Ok (c0 :: c1 :: c2 :: rest) ->
  spectral_factor_jrc #am #kc mt co = Ok #(jrc c0 c1 c2 am kc).
Proof. intros H. unfold spectral_factor_jrc. rewrite H. cbn [bind coef nth_error]. fsx. reflexivity. Qed.
Lemma jrc_table m c : jrc_published (lower m) c -> lookup (lower m) jrc_coefficients = Some c.
Proof. intros H. destruct H; reflexivity. Qed.
Lemma pvspec_eval am kc mt co c0 c1 c2 rest : pick_coefficients pvspec_coefficients ValueError mt co = Ok (c0 :: c1 :: c2 :: rest) ->
  0 < am -> 0 < kc -> spectral_factor_pvspec #am #kc mt co = Ok #(c0 * Rpower kc c1 * Rpower am c2).
Proof. intros H Ha Hk. unfold spectral_factor_pvspec. rewrite H. cbn [bind coef nth_error]. rewrite !fpow_fin by assumption. fsx. reflexivity. Qed.
Lemma pvspec_table m c : pvspec_published (lower m) c -> lookup (lower m) pvspec_coefficients = Some c.
Proof. intros H. destruct H; reflexivity. Qed.

(** ** Caballero *)
Lemma caballero_eval am aod pw m v : caballero_value am aod pw m v -> 0 < am ->
  spectral_factor_caballero #pw #am #aod (Some m) None = Ok #v.
Proof.
  intros H Ha. destruct H; unfold spectral_factor_caballero; cbn [getitem lookup caballero_coefficients String.eqb Ascii.eqb Bool.eqb bind coef nth_error];
    rewrite fln_fin by assumption; rewrite !fpown_fin; fsx; unfold caballero_cdte, caballero, caballero_am;
    f_equal; f_equal; generalize (ln am); intros l; lra.
Qed.
(** at the reference aerosol load and water content only the airmass polynomial is left *)
Lemma caballero_errors pw am aod m c :
  spectral_factor_caballero pw am aod None None = Err ValueError /\
  spectral_factor_caballero pw am aod (Some m) (Some c) = Err ValueError /\
  (~ In m ["cdte"; "monosi"; "multisi"; "cigs"; "asi"; "perovskite"]%string -> spectral_factor_caballero pw am aod (Some m) None = Err KeyError).
Proof.
  repeat split. intros H. unfold spectral_factor_caballero, getitem.
  destruct (lookup m caballero_coefficients) eqn:E; [|reflexivity]. exfalso. apply H. apply lookup_In in E. cbn in *.
  repeat (destruct E as [E|E]; [injection E as <- _; tauto|]). destruct E.
Qed.

(** ** Polo *)
Lemma polo_table m c : polo_published m c -> lookup m polo_coefficients = Some c.
Proof. intros H. destruct H; reflexivity. Qed.
Lemma ky_pos z : 0 <= z <= 90 -> 0 < kasten_young z.
Proof.
  intros H. unfold kasten_young. pose proof (cosD_nonneg z ltac:(lra)). pose proof (Rpower_pos (96.07995 - z) (-1.6364)).
  unfold Rdiv. rewrite Rmult_1_l. apply Rinv_0_lt_compat. lra.
Qed.
Lemma polo_eval pw am aod aoi p m co albedo c0 c1 c2 c3 c4 c5 d0 d1 d2 rest :
  (co = None /\ exists n, m = Some n /\ lookup n polo_coefficients = Some (c0 :: c1 :: c2 :: c3 :: c4 :: c5 :: d0 :: d1 :: d2 :: rest)) \/
  (m = None /\ co = Some (c0 :: c1 :: c2 :: c3 :: c4 :: c5 :: d0 :: d1 :: d2 :: rest)) ->
  0 <= pw -> 0 < am -> aod <> 0 -> 0 <= aoi -> 0 < p ->
  c2 + Rpower (kasten_young (Rmin aoi 90) * p / 101325 / am) c3 <> 0 ->
  spectral_factor_polo #pw #am #aod #aoi #p m co #albedo =
  Ok #(polo c0 c1 c2 c3 c4 c5 d0 d1 d2 (kasten_young (Rmin aoi 90) * p / 101325 / am) aod pw albedo).
Proof.
  intros Hc Hpw Ham Haod Haoi Hp Hd. unfold spectral_factor_polo.
  assert (B : 0 <= Rmin aoi 90 <= 90) by (rmm; lra). pose proof (ky_pos _ B) as K.
  rewrite fmin_fin, airmass_z_up by lra. rewrite ky_fin by lra.
  replace (6.07995 + (90 - Rmin aoi 90)) with (96.07995 - Rmin aoi 90) by lra. fold (kasten_young (Rmin aoi 90)).
  unfold get_absolute_airmass. fsx. rewrite (fdiv_fin _ 101325) by lra. rewrite (fdiv_fin _ am) by lra.
  set (ram := kasten_young (Rmin aoi 90) * p / 101325 / am) in *.
  assert (0 < ram). { unfold ram, Rdiv. apply Rmult_lt_0_compat; [|apply Rinv_0_lt_compat; lra]. apply Rmult_lt_0_compat; [|apply Rinv_0_lt_compat; lra].
    apply Rmult_lt_0_compat; assumption. }
  assert (E : forall A (k : list R -> res A), (let* _ := match m, co with None, None => Err ValueError | Some _, Some _ => Err ValueError | _, _ => Ok tt end in
     let* c := match m, co with Some m, _ => getitem polo_coefficients m | None, Some c => Ok c | None, None => Err ValueError end in k c) =
     k (c0 :: c1 :: c2 :: c3 :: c4 :: c5 :: d0 :: d1 :: d2 :: rest)).
  { intros A k. destruct Hc as [(-> & n & -> & L)|(-> & ->)]; cbn [bind]; [unfold getitem; rewrite L|]; reflexivity. }
  cbv zeta. rewrite E. cbn [bind coef nth_error]. f_equal.
  rewrite fpow_fin by assumption. fsx. rewrite (fdiv_fin c1) by exact Hd. rewrite (fdiv_fin c4) by assumption.
  rewrite (fdiv_fin albedo) by lra. rewrite fsqrt_fin by assumption. fsx. unfold polo. reflexivity.
Qed.
Lemma polo_errors pw am aod aoi p m c albedo :
  spectral_factor_polo pw am aod aoi p None None albedo = Err ValueError /\
  spectral_factor_polo pw am aod aoi p (Some m) (Some c) albedo = Err ValueError /\
  (~ In m ["cdte"; "monosi"; "cigs"; "asi"]%string -> spectral_factor_polo pw am aod aoi p (Some m) None albedo = Err KeyError).
Proof.
  repeat split. intros H. unfold spectral_factor_polo, getitem. cbn [bind].
  destruct (lookup m polo_coefficients) eqn:E; [|reflexivity]. exfalso. apply H. apply lookup_In in E. cbn in *.
  repeat (destruct E as [E|E]; [injection E as <- _; tauto|]). destruct E.
Qed.

(** ** Integrals of spectra *)
Lemma trap_scale c e : trapezoid (scaled_by c e) = c * trapezoid e.
Proof.
  induction e as [|[x0 y0] e IH]; [cbn; ring|]. destruct e as [|[x1 y1] e]; [cbn; ring|].
  change (trapezoid (scaled_by c ((x0, y0) :: (x1, y1) :: e))) with ((x1 - x0) * (c * y0 + c * y1) / 2 + trapezoid (scaled_by c ((x1, y1) :: e))).
  rewrite IH. change (trapezoid ((x0, y0) :: (x1, y1) :: e)) with ((x1 - x0) * (y0 + y1) / 2 + trapezoid ((x1, y1) :: e)). field.
Qed.
Definition weigh (f : R -> R) (e : list (R * R)) : list (R * R) := map (fun p => (fst p, snd p * f (fst p))) e.
Lemma trap_bounds f lo hi e : ascending e -> nonneg e -> Forall (fun p => lo <= f (fst p) <= hi) e ->
  lo * trapezoid e <= trapezoid (weigh f e) <= hi * trapezoid e.
Proof.
  induction e as [|[x0 y0] e IH]; intros A N B; [cbn; lra|]. destruct e as [|[x1 y1] e]; [cbn; lra|].
  inversion A as [| |? ? ? L A']; subst. inversion N as [|? ? N0 N']; subst. inversion B as [|? ? B0 B']; subst.
  specialize (IH A' N' B').
  change (trapezoid (weigh f ((x0, y0) :: (x1, y1) :: e))) with ((x1 - x0) * (y0 * f x0 + y1 * f x1) / 2 + trapezoid (weigh f ((x1, y1) :: e))).
  change (trapezoid ((x0, y0) :: (x1, y1) :: e)) with ((x1 - x0) * (y0 + y1) / 2 + trapezoid ((x1, y1) :: e)).
  inversion N' as [|? ? N1 _]; subst. inversion B' as [|? ? B1 _]; subst. cbn [fst snd] in *.
  assert (0 <= y0 * (f x0 - lo)) by nra. assert (0 <= y0 * (hi - f x0)) by nra.
  assert (0 <= y1 * (f x1 - lo)) by nra. assert (0 <= y1 * (hi - f x1)) by nra.
  assert (0 <= (x1 - x0) * (y0 * (f x0 - lo) + y1 * (f x1 - lo))) by nra.
  assert (0 <= (x1 - x0) * (y0 * (hi - f x0) + y1 * (hi - f x1))) by nra.
  nra.
Qed.
Lemma trap_nonneg e : ascending e -> nonneg e -> 0 <= trapezoid e.
Proof.
  induction e as [|[x0 y0] e IH]; intros A N; [cbn; lra|]. destruct e as [|[x1 y1] e]; [cbn; lra|].
  inversion A as [| |? ? ? L A']; subst. inversion N as [|? ? N0 N']; subst. inversion N' as [|? ? N1 _]; subst. cbn [fst snd] in *.
  change (trapezoid ((x0, y0) :: (x1, y1) :: e)) with ((x1 - x0) * (y0 + y1) / 2 + trapezoid ((x1, y1) :: e)).
  specialize (IH A' N'). assert (0 <= (x1 - x0) * (y0 + y1)) by nra. lra.
Qed.
Lemma trap_pos e a b : ascending e -> nonneg e -> adjacent a b e -> 0 < snd a + snd b -> 0 < trapezoid e.
Proof.
  intros A N (pre & post & ->) H. induction pre as [|[x y] pre IH].
  - cbn [app] in *. destruct a as [x0 y0], b as [x1 y1]. inversion A as [| |? ? ? L A']; subst. inversion N as [|? ? N0 N']; subst.
    change (trapezoid ((x0, y0) :: (x1, y1) :: post)) with ((x1 - x0) * (y0 + y1) / 2 + trapezoid ((x1, y1) :: post)).
    pose proof (trap_nonneg _ A' N'). cbn [fst snd] in *. assert (0 < (x1 - x0) * (y0 + y1)) by nra. lra.
  - cbn [app] in A, N. cbn [app]. destruct (pre ++ a :: b :: post)%list as [|[x1 y1] l] eqn:E; [destruct pre; discriminate|].
    inversion A as [| |? ? ? L A']; subst. inversion N as [|? ? N0 N']; subst. inversion N' as [|? ? N1 _]; subst. cbn [fst snd] in *.
    change (trapezoid ((x, y) :: (x1, y1) :: l)) with ((x1 - x) * (y + y1) / 2 + trapezoid ((x1, y1) :: l)).
    specialize (IH N' A'). assert (0 <= (x1 - x) * (y + y1)) by nra. lra.
Qed.
(** ** interpolation of the response *)
Lemma asc_tail p l : ascending (p :: l) -> ascending l.
Proof. intros H. inversion H; subst; [constructor|assumption]. Qed.
Lemma asc_lt p l : ascending (p :: l) -> forall q, In q l -> fst p < fst q.
Proof.
  revert p. induction l as [|r l IH]; intros p H q Hq; [destruct Hq|]. inversion H as [| |? ? ? L A]; subst.
  destruct Hq as [->|Hq]; [exact L|]. specialize (IH r A q Hq). lra.
Qed.
Lemma interp_from_last x x0 y0 l : ascending ((x0, y0) :: l) -> x0 <= x -> (forall q, In q ((x0, y0) :: l) -> fst q < x) -> interp_from x x0 y0 l = 0.
Proof.
  revert x0 y0. induction l as [|[x1 y1] l IH]; intros x0 y0 A Hx H; cbn [interp_from].
  - rewrite Reqb_f; [reflexivity|]. specialize (H _ (or_introl eq_refl)). cbn in H. lra.
  - pose proof (H (x1, y1) (or_intror (or_introl eq_refl))) as H1. cbn in H1. rewrite Rltb_f by lra. apply IH; [eapply asc_tail; eassumption|lra|].
    intros q Hq. apply H. right. exact Hq.
Qed.
Lemma interp_from_seg x a b l x0 y0 : ascending ((x0, y0) :: l) -> adjacent a b ((x0, y0) :: l) -> fst a <= x < fst b ->
  interp_from x x0 y0 l = snd a + (snd b - snd a) / (fst b - fst a) * (x - fst a).
Proof.
  revert x0 y0. induction l as [|[x1 y1] l IH]; intros x0 y0 A (pre & post & E) Hx.
  - destruct pre as [|? [|? ?]]; discriminate.
  - cbn [interp_from]. destruct pre as [|p0 pre].
    + injection E as <- <- <-. cbn [fst snd] in *. rewrite Rltb_t by lra. reflexivity.
    + injection E as <- E. assert (M : x1 <= fst a).
      { destruct pre as [|p1 pre]; [injection E as <- _; cbn; lra|]. injection E as <- E.
        apply asc_tail in A. pose proof (asc_lt _ _ A a) as Q. cbn [fst] in Q. left. apply Q. rewrite E. apply in_or_app. right. left. reflexivity. }
      rewrite Rltb_f by lra. apply IH; [eapply asc_tail; eassumption|exists pre, post; exact E|exact Hx].
Qed.
Lemma interp_from_end x0 y0 l a : ascending ((x0, y0) :: l) -> (exists pre, (x0, y0) :: l = (pre ++ [a])%list) -> interp_from (fst a) x0 y0 l = snd a.
Proof.
  revert x0 y0. induction l as [|[x1 y1] l IH]; intros x0 y0 A (pre & E); cbn [interp_from].
  - destruct pre as [|p0 [|p1 pre]]; [|discriminate|discriminate]. injection E as <-. rewrite Reqb_t by reflexivity. reflexivity.
  - destruct pre as [|p0 pre]; [discriminate|]. injection E as <- E.
    assert (M : x1 <= fst a). { destruct pre as [|p1 pre]; [injection E as <- _; cbn; lra|]. injection E as <- E.
      apply asc_tail in A. pose proof (asc_lt _ _ A a) as Q. cbn [fst] in Q. left. apply Q. rewrite E. apply in_or_app. right. left. reflexivity. }
    rewrite Rltb_f by lra. apply IH; [eapply asc_tail; eassumption|exists pre; exact E].
Qed.
(** the interpolant stays inside any interval that contains the samples and 0 *)
Lemma interp_from_bounds x x0 y0 l lo hi : ascending ((x0, y0) :: l) -> x0 <= x -> lo <= 0 <= hi -> Forall (fun p => lo <= snd p <= hi) ((x0, y0) :: l) ->
  lo <= interp_from x x0 y0 l <= hi.
Proof.
  revert x0 y0. induction l as [|[x1 y1] l IH]; intros x0 y0 A Hx H0 B; cbn [interp_from].
  - inversion B; subst. cbn in *. destruct (Reqb x x0); lra.
  - inversion B as [|? ? B0 B']; subst. inversion B' as [|? ? B1 _]; subst. inversion A as [| |? ? ? L A']; subst. cbn [fst snd] in *.
    destruct (Rltb_spec x x1) as [Lt|Ge]; [|apply IH; [assumption|lra|assumption..]].
    set (w := (x - x0) / (x1 - x0)). assert (W : 0 <= w <= 1).
    { unfold w. split; [unfold Rdiv; apply Rmult_le_pos; [lra|left; apply Rinv_0_lt_compat; lra]|]. apply Rmult_le_reg_r with (x1 - x0); [lra|]. unfold Rdiv. rewrite Rmult_assoc, Rinv_l by lra. lra. }
    replace (y0 + (y1 - y0) / (x1 - x0) * (x - x0)) with ((1 - w) * y0 + w * y1) by (unfold w; field; lra). nra.
Qed.
Lemma interp_bounds x sr lo hi : ascending sr -> lo <= 0 <= hi -> Forall (fun p => lo <= snd p <= hi) sr -> lo <= np_interp0 x sr <= hi.
Proof.
  intros A H0 B. destruct sr as [|[x0 y0] l]; [cbn; lra|]. cbn [np_interp0]. destruct (Rltb_spec x x0); [lra|]. apply interp_from_bounds; [assumption|lra|assumption..].
Qed.
