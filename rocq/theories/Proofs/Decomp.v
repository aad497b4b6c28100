(** Lemmas: clearness indices, decomposition models, component completion. *)
From Verif Require Import Base.Fl Base.FlFacts Base.Py Spec.Decomposition Model.IrradTables Model.Atmosphere
  Model.Irradiance Model.IrradDecomp.
From Coq Require Import Psatz.
Open Scope R_scope.

(** ** clearness indices *)
Lemma clamp0_within m x : 0 <= m -> within #0 #m (fmin (fmax x #0) #m).
Proof. intros H. apply fclip_within. exact H. Qed.
Lemma clearness_index_within g z x mc m : 0 <= m -> within #0 #m (clearness_index g z x mc #m).
Proof. intros H. apply clamp0_within. exact H. Qed.
Lemma clearness_index_fin g z x mc m :
  x * Rmax (cosD z) mc <> 0 ->
  clearness_index #g #z #x #mc #m = #(Rmin (Rmax (g / (x * Rmax (cosD z) mc)) 0) m).
Proof. intros H. unfold clearness_index. fin. reflexivity. Qed.
Lemma clearness_index_nan g z x mc m :
  clearness_index #g #z #x #mc #m = NaN <-> g = 0 /\ x * Rmax (cosD z) mc = 0.
Proof.
  destruct (Req_dec (x * Rmax (cosD z) mc) 0) as [H|H].
  - unfold clearness_index. fin. rewrite H, fdiv_zero. unfold sinf, Rpos, Rneg. rcase; simpl.
    + split; [discriminate|intros [-> _]; lra].
    + rcase; simpl; [split; [discriminate|intros [-> _]; lra]|]. split; auto. intros _. split; lra.
  - rewrite clearness_index_fin by exact H. split; [discriminate|tauto].
Qed.
Lemma clearness_index_zi_within k am m : 0 <= m -> within #0 #m (clearness_index_zenith_independent k am #m).
Proof. intros H. apply clamp0_within. exact H. Qed.

Lemma kt_kt_prime_factor_fin am : 0 < am ->
  kt_kt_prime_factor #am = #(1.031 * exp (-1.4 / (0.9 + 9.4 / am)) + 0.1).
Proof.
  intros H. unfold kt_kt_prime_factor.
  assert (0 < 9.4 / am) by (apply Rdiv_lt_0_compat; lra). fin. reflexivity.
Qed.
Lemma clearness_index_zi_fin k am m : 0 < am ->
  clearness_index_zenith_independent #k #am #m
  = #(Rmin (Rmax (k / (1.031 * exp (-1.4 / (0.9 + 9.4 / am)) + 0.1)) 0) m).
Proof.
  intros H. unfold clearness_index_zenith_independent. rewrite kt_kt_prime_factor_fin by exact H.
  pose proof (exp_pos (-1.4 / (0.9 + 9.4 / am))). fin. reflexivity.
Qed.

Lemma clearsky_index_within g c m : 0 <= m -> within #0 #m (clearsky_index g c #m).
Proof. intros H. apply clamp0_within. exact H. Qed.
Lemma clearsky_index_nan g c m : clearsky_index g c #m = NaN <-> isfinite g && isfinite c = false.
Proof.
  unfold clearsky_index, where_. destruct (isfinite g) eqn:Hg, (isfinite c) eqn:Hc; simpl;
  try (split; [reflexivity|reflexivity]).
  destruct (isfinite (fdiv g c)) eqn:Hd; simpl; [|split; discriminate].
  destruct (fdiv g c); try discriminate Hd. simpl. split; discriminate.
Qed.
Lemma clearsky_index_fin g c m :
  c <> 0 -> clearsky_index #g #c #m = #(Rmin (Rmax (g / c) 0) m).
Proof. intros H. unfold clearsky_index. rewrite fdiv_fin by exact H. reflexivity. Qed.
Lemma clearsky_index_zero g m : 0 <= m -> clearsky_index #g #0 #m = #0.
Proof.
  intros H. unfold clearsky_index. rewrite fdiv_zero.
  unfold sinf. destruct (Rpos g), (Rneg g); simpl; f_equal; rmm; lra.
Qed.

(** ** decomposition models *)
Lemma decomp_tail_night df g z mz kt :
  fgtb z mz = true -> d_dni (decomp_tail df g z mz kt) = #0 /\ d_dhi (decomp_tail df g z mz kt) = g.
Proof. intros H. unfold decomp_tail; cbv zeta; cbn [d_dni d_dhi]. rewrite H. split; reflexivity. Qed.
Lemma decomp_tail_nonneg df g z mz kt : atleast #0 (d_dni (decomp_tail df g z mz kt)).
Proof.
  unfold decomp_tail; cbv zeta; cbn [d_dni]. unfold where_.
  set (n := fdiv _ _). destruct (fgtb z mz); cbn [orb]; [apply atleast_fin; lra|].
  destruct (fltb g #0); cbn [orb]; [apply atleast_fin; lra|].
  destruct (fltb n #0) eqn:Hn; [apply atleast_fin; lra|].
  destruct n as [r| | |]; try discriminate Hn.
  - apply atleast_fin. simpl in Hn. apply Rltb_false in Hn. exact Hn.
  - right; reflexivity.
  - left; reflexivity.
Qed.
Lemma decomp_tail_closure df g z mz kt : cosD z <> 0 -> exists n h,
  d_dni (decomp_tail #df #g #z #mz kt) = #n /\ d_dhi (decomp_tail #df #g #z #mz kt) = #h /\
  0 <= n /\ g = h + n * cosD z.
Proof.
  intros Hz. unfold decomp_tail; cbv zeta; cbn [d_dni d_dhi]. fin. unfold where_.
  destruct (_ || _)%bool eqn:Hb.
  - exists 0, g. repeat split; lra.
  - apply orb_false_iff in Hb. destruct Hb as [Hb Hn]. apply Rltb_false in Hn.
    eexists _, _. repeat split; [exact Hn|]. field. exact Hz.
Qed.
(** in daylight the value is the diffuse fraction applied to ghi *)
Lemma decomp_tail_day df g z mz kt : 0 < cosD z -> z <= mz -> 0 <= g -> df <= 1 ->
  d_dni (decomp_tail #df #g #z #mz kt) = #(g * (1 - df) / cosD z) /\
  d_dhi (decomp_tail #df #g #z #mz kt) = #(df * g).
Proof.
  intros Hz Hm Hg Hd. unfold decomp_tail; cbv zeta; cbn [d_dni d_dhi]. fin. unfold where_.
  assert (0 <= (g - df * g) / cosD z).
  { apply Rmult_le_pos; [nra|]. left. apply Rinv_0_lt_compat. exact Hz. }
  rdec. cbn [orb]. split; f_equal. f_equal. lra.
Qed.
Lemma decomp_tail_dhi_range df g z mz kt h :
  0 <= df -> 0 <= g -> (mz < z \/ 0 < cosD z) ->
  d_dhi (decomp_tail #df #g #z #mz kt) = #h -> 0 <= h <= g.
Proof.
  intros Hd Hg Hz. unfold decomp_tail; cbv zeta; cbn [d_dni d_dhi].
  destruct Hz as [Hz|Hz].
  - assert (E : fgtb #z #mz = true) by (simpl; apply Rltb_t; exact Hz). rewrite E. simpl.
    intros H. apply Fin_inj in H. lra.
  - fin. unfold where_. destruct (_ || _)%bool eqn:Hb; intros H; apply Fin_inj in H; [lra|].
    apply orb_false_iff in Hb. destruct Hb as [_ Hn]. apply Rltb_false in Hn.
    subst h. split; [nra|].
    assert (H : 0 <= (g - df * g) / cosD z * cosD z) by (apply Rmult_le_pos; lra).
    replace ((g - df * g) / cosD z * cosD z) with (g - df * g) in H by (field; lra). lra.
Qed.

Lemma kt_cases g z x mc :
  clearness_index #g #z #x #mc #1 = NaN \/
  exists k, clearness_index #g #z #x #mc #1 = #k /\ 0 <= k <= 1.
Proof. apply within_inv. apply clearness_index_within. lra. Qed.

(** Bernstein certificates: products of (k-a) and (b-k) of degree 4 *)
Lemma bern4 a b k : a <= k <= b ->
  0 <= (k-a)^4 /\ 0 <= (k-a)^3*(b-k) /\ 0 <= (k-a)^2*(b-k)^2 /\ 0 <= (k-a)*(b-k)^3 /\ 0 <= (b-k)^4.
Proof.
  intros [H1 H2]. assert (A : 0 <= k-a) by lra. assert (B : 0 <= b-k) by lra.
  repeat split; repeat apply Rmult_le_pos; try apply pow_le; lra.
Qed.

Lemma erbs_poly_pos k :
  0 < 0.9511 - 0.1604 * k + 4.388 * k ^ 2 - 16.638 * k ^ 3 + 12.336 * k ^ 4.
Proof.
  pose proof (Rle_0_sqr (24.672 * (k * k) - 16.638 * k - 2.3)) as H1. unfold Rsqr in H1.
  pose proof (Rle_0_sqr (k - 0.7)) as H2. pose proof (Rle_0_sqr (k - 0.9)) as H3. unfold Rsqr in H2, H3. lra.
Qed.
Lemma erbs_poly_le1 k : 0.22 <= k <= 0.8 ->
  0.9511 - 0.1604 * k + 4.388 * k ^ 2 - 16.638 * k ^ 3 + 12.336 * k ^ 4 <= 1.
Proof.
  intros H. destruct (Rle_dec k 0.4).
  - destruct (bern4 0.22 0.4 k ltac:(lra)) as (h0&h1&h2&h3&h4). lra.
  - destruct (bern4 0.4 0.8 k ltac:(lra)) as (h0&h1&h2&h3&h4). lra.
Qed.
Lemma erbs_df_fin k : 0 <= k <= 1 -> exists d, erbs_df #k = #d /\ 0 < d <= 1.
Proof.
  intros H. unfold erbs_df, where_. fin. rcase; [eexists; split; [reflexivity|lra]|].
  rcase; [|simpl; eexists; split; [reflexivity|lra]].
  rcase; [|lra]. simpl andb. cbv iota. eexists; split; [reflexivity|].
  split; [apply erbs_poly_pos|apply erbs_poly_le1; lra].
Qed.
(** the three published pieces *)
Lemma erbs_df_pieces k :
  (k <= 0.22 -> erbs_df #k = #(1 - 0.09 * k)) /\
  (0.22 < k <= 0.8 -> erbs_df #k = #(0.9511 - 0.1604 * k + 4.388 * k ^ 2 - 16.638 * k ^ 3 + 12.336 * k ^ 4)) /\
  (0.8 < k -> erbs_df #k = #0.165).
Proof.
  unfold erbs_df, where_. fin. repeat split; intros; rdec; reflexivity.
Qed.

Lemma erbs_driesse_polyval k : polyval erbs_driesse_p #k = #(erbs_driesse_poly k).
Proof.
  unfold polyval, erbs_driesse_p, erbs_driesse_poly. cbn [fold_left]. fin. f_equal. lra.
Qed.
Lemma erbs_driesse_poly_pos k : 0 <= k <= 1 -> 0 < erbs_driesse_poly k.
Proof.
  intros H. unfold erbs_driesse_poly.
  assert (P2 : 0 <= k ^ 2) by (apply pow_le; lra). assert (P3 : 0 <= k ^ 3) by (apply pow_le; lra).
  assert (P4 : 0 <= k ^ 4) by (apply pow_le; lra).
  assert (Q : 0 < 12.269 * k ^ 4 - 16.471 * k ^ 3 + 4.246 * k ^ 2 - 0.114 * k + 0.946).
  { pose proof (Rle_0_sqr (24.538 * (k * k) - 16.471 * k - 2.3)) as H1. unfold Rsqr in H1.
    pose proof (Rle_0_sqr (k - 0.7)) as H2. pose proof (Rle_0_sqr (k - 0.9)) as H3.
    unfold Rsqr in H2, H3. lra. }
  lra.
Qed.
Lemma erbs_driesse_poly_le1 k : 0.216 <= k <= 0.792 -> erbs_driesse_poly k <= 1.
Proof.
  intros H. unfold erbs_driesse_poly. destruct (Rle_dec k 0.4).
  - destruct (bern4 0.216 0.4 k ltac:(lra)) as (h0&h1&h2&h3&h4). lra.
  - destruct (bern4 0.4 0.792 k ltac:(lra)) as (h0&h1&h2&h3&h4). lra.
Qed.
Lemma erbs_driesse_df_fin k : 0 <= k <= 1 -> exists d, erbs_driesse_df #k = #d /\ 0 < d <= 1.
Proof.
  intros H. unfold erbs_driesse_df, where_. rewrite erbs_driesse_polyval. fin.
  rcase; [eexists; split; [reflexivity|lra]|].
  rcase; [|eexists; split; [reflexivity|lra]].
  eexists; split; [reflexivity|].
  split; [apply erbs_driesse_poly_pos; lra|apply erbs_driesse_poly_le1; lra].
Qed.
Lemma erbs_driesse_df_pieces k :
  (k <= 0.216 -> erbs_driesse_df #k = #(1 - 0.09 * k)) /\
  (0.216 < k <= 0.792 -> erbs_driesse_df #k = #(erbs_driesse_poly k)) /\
  (0.792 < k -> erbs_driesse_df #k = #0.165).
Proof.
  unfold erbs_driesse_df, where_. rewrite erbs_driesse_polyval. fin.
  repeat split; intros; rdec; reflexivity.
Qed.
Lemma orgill_hollands_df_fin k : 0 <= k <= 1 -> exists d, orgill_hollands_df #k = #d /\ 0 < d <= 1.
Proof.
  intros H. unfold orgill_hollands_df, where_. fin.
  rcase; [eexists; split; [reflexivity|lra]|].
  destruct (_ && _)%bool eqn:Hb; [|eexists; split; [reflexivity|lra]].
  apply andb_true_iff in Hb. rewrite !Rleb_true in Hb.
  eexists; split; [reflexivity|lra].
Qed.
Lemma orgill_hollands_df_pieces k :
  (k < 0.35 -> orgill_hollands_df #k = #(1 - 0.249 * k)) /\
  (0.35 <= k <= 0.75 -> orgill_hollands_df #k = #(1.557 - 1.84 * k)) /\
  (0.75 < k -> orgill_hollands_df #k = #0.177).
Proof. unfold orgill_hollands_df, where_. fin. repeat split; intros; rdec; reflexivity. Qed.
Lemma boland_df_fin k a b : boland_df #k #a #b = #(1 / (1 + exp (a * (k - b)))).
Proof. unfold boland_df. pose proof (exp_pos (a * (k - b))). fin. reflexivity. Qed.
Lemma boland_df_range k a b : exists d, boland_df #k #a #b = #d /\ 0 < d <= 1.
Proof.
  rewrite boland_df_fin. eexists; split; [reflexivity|]. pose proof (exp_pos (a * (k - b))) as H.
  set (e := exp _) in *. split; [apply Rdiv_lt_0_compat; lra|].
  apply Rmult_le_reg_r with (1 + e); [lra|]. unfold Rdiv. rewrite Rmult_assoc, Rinv_l by lra. lra.
Qed.

Definition dcloses g z mz (d : decomp) : Prop := closes g z mz (d_dni d) (d_dhi d).
Lemma decomp_tail_closes df g z mz kt : 0 <= df -> cosD z <> 0 -> dcloses g z mz (decomp_tail #df #g #z #mz kt).
Proof.
  intros Hd Hz. destruct (decomp_tail_closure df g z mz kt Hz) as (n&h&E1&E2&Hn&Hc).
  exists n, h. repeat apply conj; auto.
  - intros Hm. destruct (decomp_tail_night #df #g #z #mz kt) as [A B]; [simpl; apply Rltb_t; exact Hm|].
    rewrite E1 in A. rewrite E2 in B. apply Fin_inj in A. apply Fin_inj in B. auto.
  - intros Hg Hz'. eapply decomp_tail_dhi_range; [exact Hd|exact Hg| |exact E2]. tauto.
Qed.
Lemma erbs_closes g z x mc mz :
  d_kt (erbs #g #z #x #mc #mz) <> NaN -> cosD z <> 0 -> dcloses g z mz (erbs #g #z #x #mc #mz).
Proof.
  unfold erbs; cbv zeta; cbn [d_kt decomp_tail]. intros Hk Hz.
  destruct (kt_cases g z x mc) as [E|(k&E&Hr)]; [contradiction|]. rewrite E.
  destruct (erbs_df_fin k Hr) as (d&Ed&Hd). rewrite Ed. apply decomp_tail_closes; [lra|exact Hz].
Qed.
Lemma orgill_hollands_closes g z x mc mz :
  d_kt (orgill_hollands #g #z #x #mc #mz) <> NaN -> cosD z <> 0 ->
  dcloses g z mz (orgill_hollands #g #z #x #mc #mz).
Proof.
  unfold orgill_hollands; cbv zeta; cbn [d_kt decomp_tail]. intros Hk Hz.
  destruct (kt_cases g z x mc) as [E|(k&E&Hr)]; [contradiction|]. rewrite E.
  destruct (orgill_hollands_df_fin k Hr) as (d&Ed&Hd). rewrite Ed. apply decomp_tail_closes; [lra|exact Hz].
Qed.
Lemma boland_closes g z x a b mc mz :
  d_kt (boland #g #z #x #a #b #mc #mz) <> NaN -> cosD z <> 0 ->
  dcloses g z mz (boland #g #z #x #a #b #mc #mz).
Proof.
  unfold boland; cbv zeta; cbn [d_kt decomp_tail]. intros Hk Hz.
  destruct (kt_cases g z x mc) as [E|(k&E&Hr)]; [contradiction|]. rewrite E.
  destruct (boland_df_range k a b) as (d&Ed&Hd). rewrite Ed. apply decomp_tail_closes; [lra|exact Hz].
Qed.
Lemma erbs_driesse_closes g z xt x mc mz d :
  erbs_driesse #g #z xt (Some #x) #mc #mz = Ok d ->
  d_kt d <> NaN -> cosD z <> 0 -> dcloses (Rmax 0 g) z mz d.
Proof.
  unfold erbs_driesse; cbv zeta; cbn [bind]. rewrite fmax_fin. set (g' := Rmax 0 g).
  intros [= <-]. cbn [d_kt decomp_tail]. intros Hk Hz.
  destruct (kt_cases g' z x mc) as [E|(k&E&Hr)]; [contradiction|]. rewrite E.
  destruct (erbs_driesse_df_fin k Hr) as (d&Ed&Hd). rewrite Ed. apply decomp_tail_closes; [lra|exact Hz].
Qed.
Lemma erbs_driesse_args g z xt x mc mz :
  (forall v, x = Some v -> erbs_driesse g z xt x mc mz = erbs_driesse g z None x mc mz) /\
  (forall v, x = None -> xt = Some v -> erbs_driesse g z xt x mc mz = erbs_driesse g z None (Some v) mc mz) /\
  (forall e, erbs_driesse g z xt x mc mz = Err e <-> e = ValueError /\ x = None /\ xt = None).
Proof.
  repeat apply conj.
  - intros v ->. reflexivity.
  - intros v -> ->. reflexivity.
  - intros e. unfold erbs_driesse. destruct x as [x|]; [|destruct xt as [xt|]]; cbn [bind];
      (split; [intros H|intros (H1&H2&H3)]); try discriminate; subst; auto.
    injection H as <-. auto.
Qed.
(** NaN exactly when the clearness index is undefined *)
Lemma decomp_kt_nan g z x mc mz a b :
  (d_kt (erbs #g #z #x #mc #mz) = NaN <-> g = 0 /\ x * Rmax (cosD z) mc = 0) /\
  (d_kt (orgill_hollands #g #z #x #mc #mz) = NaN <-> g = 0 /\ x * Rmax (cosD z) mc = 0) /\
  (d_kt (boland #g #z #x a b #mc #mz) = NaN <-> g = 0 /\ x * Rmax (cosD z) mc = 0) /\
  (forall xt d, erbs_driesse #g #z xt (Some #x) #mc #mz = Ok d ->
     (d_kt d = NaN <-> g <= 0 /\ x * Rmax (cosD z) mc = 0)).
Proof.
  repeat apply conj; try (unfold erbs, orgill_hollands, boland; cbv zeta; cbn [d_kt decomp_tail];
  apply clearness_index_nan).
  intros xt d. unfold erbs_driesse; cbn [bind]. rewrite fmax_fin. intros [= <-]. cbn [d_kt decomp_tail].
  rewrite clearness_index_nan. split; intros [A B]; (split; [|exact B]).
  - rmm_in A; lra.
  - apply Rmax_left; exact A.
Qed.

Lemma louche_closes g z I0 mz : I0 <> 0 ->
  exists n h, d_dni (louche #g #z #I0 #mz) = #n /\ d_dhi (louche #g #z #I0 #mz) = #h /\
    0 <= n /\ g = h + n * cosD z /\ (mz < z -> n = 0 /\ h = g).
Proof.
  intros HI. unfold louche; cbv zeta; cbn [d_dni d_dhi].
  assert (Hm : I0 * Rmax (cosD z) 0.065 <> 0).
  { apply Rmult_integral_contrapositive_currified; [exact HI|]. pose proof (Rmax_r (cosD z) 0.065). lra. }
  rewrite clearness_index_fin by exact Hm. fin. unfold where_.
  set (n := (_ * I0)). destruct (_ || _)%bool eqn:Hb.
  - exists 0, g. repeat split; lra.
  - apply orb_false_iff in Hb. destruct Hb as [Hb Hn]. apply orb_false_iff in Hb. destruct Hb as [Hb _].
    apply Rltb_false in Hn. apply Rltb_false in Hb.
    exists n, (g - n * cosD z). repeat split; lra.
Qed.
(** every model, any input: dni is not negative *)
Lemma dni_nonneg_all g z x a b mc mz :
  atleast #0 (d_dni (erbs g z x mc mz)) /\ atleast #0 (d_dni (orgill_hollands g z x mc mz)) /\
  atleast #0 (d_dni (boland g z x a b mc mz)) /\ atleast #0 (d_dni (louche g z x mz)) /\
  (forall xt d, erbs_driesse g z xt (Some x) mc mz = Ok d -> atleast #0 (d_dni d)).
Proof.
  repeat apply conj; try apply decomp_tail_nonneg.
  - unfold louche; cbv zeta; cbn [d_dni]. unfold where_. set (n := fmul _ x).
    destruct (fgtb z mz); cbn [orb]; [apply atleast_fin; lra|].
    destruct (fltb g #0); cbn [orb]; [apply atleast_fin; lra|].
    destruct (fltb n #0) eqn:Hn; [apply atleast_fin; lra|].
    destruct n as [r| | |]; try discriminate Hn.
    + apply atleast_fin. simpl in Hn. apply Rltb_false in Hn. exact Hn.
    + right; reflexivity.
    + left; reflexivity.
  - unfold erbs_driesse; cbn [bind]. intros xt d [= <-]. apply decomp_tail_nonneg.
Qed.
(** any input, also nan irradiance: dni is exactly 0 above max_zenith and dhi is ghi *)
Lemma night_all g z x a b mc mz : fgtb z mz = true ->
  (d_dni (erbs g z x mc mz) = #0 /\ d_dhi (erbs g z x mc mz) = g) /\
  (d_dni (orgill_hollands g z x mc mz) = #0 /\ d_dhi (orgill_hollands g z x mc mz) = g) /\
  (d_dni (boland g z x a b mc mz) = #0 /\ d_dhi (boland g z x a b mc mz) = g) /\
  (d_dni (louche g z x mz) = #0 /\ d_dhi (louche g z x mz) = g) /\
  (forall xt d, erbs_driesse g z xt (Some x) mc mz = Ok d -> d_dni d = #0 /\ d_dhi d = fmax #0 g).
Proof.
  intros H. split; [apply (decomp_tail_night _ _ _ _ _ H)|].
  split; [apply (decomp_tail_night _ _ _ _ _ H)|].
  split; [apply (decomp_tail_night _ _ _ _ _ H)|]. split.
  - unfold louche; cbv zeta; cbn [d_dni d_dhi]. rewrite H. split; reflexivity.
  - unfold erbs_driesse; cbn [bind]. intros xt d [= <-]. apply (decomp_tail_night _ _ _ _ _ H).
Qed.

Lemma erbs_df_frac k : erbs_df #k = #(erbs_fraction k).
Proof.
  destruct (erbs_df_pieces k) as (A & B & C). unfold erbs_fraction.
  destruct (Rle_dec k 0.22); [apply A; lra|]. destruct (Rle_dec k 0.8); [apply B; lra|apply C; lra].
Qed.
Lemma erbs_driesse_df_frac k : erbs_driesse_df #k = #(erbs_driesse_fraction k).
Proof.
  destruct (erbs_driesse_df_pieces k) as (A & B & C). unfold erbs_driesse_fraction.
  destruct (Rle_dec k 0.216); [apply A; lra|]. destruct (Rle_dec k 0.792); [apply B; lra|apply C; lra].
Qed.
Lemma orgill_hollands_df_frac k : orgill_hollands_df #k = #(orgill_hollands_fraction k).
Proof.
  destruct (orgill_hollands_df_pieces k) as (A & B & C). unfold orgill_hollands_fraction.
  destruct (Rlt_dec k 0.35); [apply A; lra|]. destruct (Rle_dec k 0.75); [apply B; lra|apply C; lra].
Qed.

Definition dby_fraction frac k g z (d : decomp) : Prop := by_fraction frac k g z (d_kt d) (d_dni d) (d_dhi d).
Lemma by_fraction_intro (F : fl -> fl) frac g z x mc mz :
  (forall k, 0 <= k <= 1 -> exists d, F #k = #d /\ 0 < d <= 1) -> (forall k, F #k = #(frac k)) ->
  x * Rmax (cosD z) mc <> 0 -> 0 < cosD z -> z <= mz -> 0 <= g ->
  let kt := clearness_index #g #z #x #mc #1 in
  dby_fraction frac (Rmin (Rmax (g / (x * Rmax (cosD z) mc)) 0) 1) g z
    (decomp_tail (F kt) #g #z #mz kt).
Proof.
  intros HF Hfr Hx Hz Hm Hg kt. unfold kt. clear kt. rewrite clearness_index_fin by exact Hx.
  set (k := Rmin _ 1).
  assert (Hk : 0 <= k <= 1).
  { unfold k. pose proof (Rmax_r (g / (x * Rmax (cosD z) mc)) 0). split; [|apply Rmin_r].
    apply Rmin_glb; lra. }
  destruct (HF k Hk) as (f&Ef&Hf). pose proof (Hfr k) as E2. rewrite E2 in Ef. apply Fin_inj in Ef. subst f.
  unfold dby_fraction, by_fraction. rewrite E2.
  destruct (decomp_tail_day (frac k) g z mz #k Hz Hm Hg) as [A B]; [lra|].
  repeat apply conj; auto; lra.
Qed.
Lemma daytime_all g z x mc mz a b :
  x * Rmax (cosD z) mc <> 0 -> 0 < cosD z -> z <= mz -> 0 <= g ->
  let k := Rmin (Rmax (g / (x * Rmax (cosD z) mc)) 0) 1 in
  dby_fraction erbs_fraction k g z (erbs #g #z #x #mc #mz) /\
  dby_fraction orgill_hollands_fraction k g z (orgill_hollands #g #z #x #mc #mz) /\
  dby_fraction (boland_fraction a b) k g z (boland #g #z #x #a #b #mc #mz) /\
  (forall xt, exists d, erbs_driesse #g #z xt (Some #x) #mc #mz = Ok d /\ dby_fraction erbs_driesse_fraction k g z d).
Proof.
  intros Hx Hz Hm Hg k. split; [|split; [|split]].
  - apply (by_fraction_intro erbs_df); auto using erbs_df_fin, erbs_df_frac.
  - apply (by_fraction_intro orgill_hollands_df); auto using orgill_hollands_df_fin, orgill_hollands_df_frac.
  - apply (by_fraction_intro (fun k => boland_df k #a #b)); auto; intros; [apply boland_df_range|apply boland_df_fin].
  - intros xt. unfold erbs_driesse; cbn [bind]. rewrite fmax_fin, (Rmax_right 0 g) by exact Hg.
    eexists; split; [reflexivity|].
    apply (by_fraction_intro erbs_driesse_df); auto using erbs_driesse_df_fin, erbs_driesse_df_frac.
Qed.

Lemma diffuse_range_all g z x a b mc mz h : 0 <= g -> 0 < cosD z \/ (mz < z /\ cosD z <> 0) ->
  (d_dhi (erbs #g #z #x #mc #mz) = #h -> d_kt (erbs #g #z #x #mc #mz) <> NaN -> 0 <= h <= g) /\
  (d_dhi (orgill_hollands #g #z #x #mc #mz) = #h -> d_kt (orgill_hollands #g #z #x #mc #mz) <> NaN -> 0 <= h <= g) /\
  (d_dhi (boland #g #z #x #a #b #mc #mz) = #h -> d_kt (boland #g #z #x #a #b #mc #mz) <> NaN -> 0 <= h <= g) /\
  (forall xt d, erbs_driesse #g #z xt (Some #x) #mc #mz = Ok d -> d_dhi d = #h -> d_kt d <> NaN -> 0 <= h <= g).
Proof.
  intros Hg Hz. assert (Hc : cosD z <> 0) by (destruct Hz; lra).
  assert (K : forall g' d, closes g' z mz (d_dni d) (d_dhi d) -> g' = g -> d_dhi d = #h -> 0 <= h <= g).
  { intros g' d (n & h' & E1 & E2 & _ & _ & _ & R) -> E. rewrite E in E2. apply Fin_inj in E2. subst h'.
    apply R; [exact Hg|tauto]. }
  repeat apply conj.
  - intros E N. eapply K; [apply erbs_closes; eauto|reflexivity|exact E].
  - intros E N. eapply K; [apply orgill_hollands_closes; eauto|reflexivity|exact E].
  - intros E N. eapply K; [apply boland_closes; eauto|reflexivity|exact E].
  - intros xt d Ed E N. eapply K; [eapply erbs_driesse_closes; eauto|apply Rmax_right, Hg|exact E].
Qed.

(** ** completion *)
Lemma irr_dni_value g h z c :
  cosD z <> 0 ->
  let raw := (g - h) / cosD z in
  (raw < 0 -> irr_dni #g #h #z c #1.1 #88 #80 = NaN) /\
  (88 <= z -> raw <> 0 -> irr_dni #g #h #z c #1.1 #88 #80 = NaN) /\
  (0 <= raw -> (88 <= z -> raw = 0) ->
     (c = None \/ z < 80 \/ 88 <= z -> irr_dni #g #h #z c #1.1 #88 #80 = #raw) /\
     (forall cc, c = Some #cc -> 80 <= z < 88 -> irr_dni #g #h #z c #1.1 #88 #80 = #(Rmin raw (cc * 1.1)))).
Proof.
  intros Hz raw. unfold irr_dni. fin. fold raw. unfold where_.
  assert (nan_case : forall b : bool,
     match c with None => NaN | Some cc => if (b && fgtb NaN (fmul cc #1.1))%bool then fmul cc #1.1 else NaN end = NaN).
  { intros b. destruct c; auto. unfold fgtb. destruct (fmul f #1.1); simpl; rewrite andb_false_r; reflexivity. }
  split; [|split].
  - intros H. rdec.
    match goal with |- context [if ?b then NaN else NaN] => replace (if b then NaN else NaN) with NaN by (destruct b; reflexivity) end; apply nan_case.
  - intros H1 H2. destruct (Rltb_spec raw 0).
    + match goal with |- context [if ?b then NaN else NaN] => replace (if b then NaN else NaN) with NaN by (destruct b; reflexivity) end; apply nan_case.
    + unfold fneqb. fin. rewrite (Rleb_t 88 z), (Reqb_f raw 0) by auto. simpl. apply nan_case.
  - intros H1 H2. rewrite (Rltb_f raw 0) by lra. unfold fneqb. fin.
    assert (E : (Rleb 88 z && negb (Reqb raw 0))%bool = false).
    { destruct (Rleb_spec 88 z); [rewrite (Reqb_t raw 0) by auto|]; reflexivity. }
    rewrite E. split.
    + intros [->|H]; [reflexivity|]. destruct c; [|reflexivity].
      assert (E2 : (Rleb 80 z && Rltb z 88)%bool = false).
      { destruct (Rleb_spec 80 z), (Rltb_spec z 88); simpl; auto; lra. }
      rewrite E2. reflexivity.
    + intros cc -> H. rdec. fin. simpl andb. rcase; f_equal; rmm; lra.
Qed.

Lemma complete_irradiance_spec z ghi dhi dni c :
  (forall g d, ghi = Some g -> dhi = Some d -> dni = None ->
     complete_irradiance z ghi dhi dni c = Ok (g, d, irr_dni g d z c #1.1 #88 #80)) /\
  (forall d n, ghi = None -> dhi = Some d -> dni = Some n ->
     complete_irradiance z ghi dhi dni c = Ok (fadd d (fmul n (cosd z)), d, n)) /\
  (forall g n, ghi = Some g -> dhi = None -> dni = Some n ->
     complete_irradiance z ghi dhi dni c = Ok (g, fsub g (fmul n (cosd z)), n)) /\
  (forall e, complete_irradiance z ghi dhi dni c = Err e <->
     e = ValueError /\
     (length (filter (fun o : option fl => match o with None => true | _ => false end) [ghi; dhi; dni]) <> 1)%nat).
Proof.
  repeat apply conj; try (intros; subst; reflexivity).
  intros e. destruct ghi, dhi, dni; simpl; split;
  try (intros H; discriminate H); try (intros H; injection H as <-; split; [reflexivity|lia]);
  intros [-> H]; try reflexivity; lia.
Qed.

(** closure of the completed triple wherever it is finite *)
Lemma complete_irradiance_closure z ghi dhi dni g d n :
  cosD z <> 0 ->
  complete_irradiance #z ghi dhi dni None = Ok (#g, #d, #n) -> g = d + n * cosD z.
Proof.
  intros Hz. unfold complete_irradiance. destruct ghi as [g'|], dhi as [d'|], dni as [n'|]; try discriminate.
  - remember (irr_dni g' d' #z None #1.1 #88 #80) as q eqn:Hq.
    intros H. injection H as -> -> H. rewrite Hq in H. clear Hq.
    destruct (irr_dni_value g d z None Hz) as (A&B&C). cbv zeta in *.
    destruct (Rlt_dec ((g - d) / cosD z) 0); [rewrite A in H by auto; discriminate|].
    destruct (Rle_dec 88 z), (Req_dec ((g-d)/cosD z) 0).
    + destruct C as [C _]; [lra|auto|]. rewrite C in H by auto. apply Fin_inj in H. subst n. field; auto.
    + rewrite B in H by auto. discriminate.
    + destruct C as [C _]; [lra|intros; lra|]. rewrite C in H by auto. apply Fin_inj in H. subst n. field; auto.
    + destruct C as [C _]; [lra|intros; lra|]. rewrite C in H by auto. apply Fin_inj in H. subst n. field; auto.
  - intros H. injection H as -> H ->. rewrite cosd_fin in H. simpl in H. injection H as H. lra.
  - intros H. injection H as H -> ->. rewrite cosd_fin in H. simpl in H. injection H as H. lra.
Qed.
