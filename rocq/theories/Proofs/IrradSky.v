(** Lemmas: sky-diffuse and ground-diffuse models. *)
From Verif Require Import Base.Fl Base.FlFacts Base.Py Spec.Geometry Model.IrradTables Model.Atmosphere
  Model.Irradiance Proofs.IrradGeom.
Open Scope R_scope.

Lemma dot_horizontal a z s : dot (dirvec 0 a) (dirvec z s) = cosD z.
Proof. rewrite dot_dirvec, cosD_0, sinD_0. ring. Qed.

Lemma aoi_projection_horizontal a z s : aoi_projection #0 #a #z #s = #(cosD z).
Proof. rewrite aoi_projection_fin, dot_horizontal. reflexivity. Qed.

(** ** horizontal plane *)
Lemma isotropic_horizontal dhi : sky_total (isotropic #0 #dhi) = #dhi.
Proof. unfold isotropic; cbn [sky_total sky_only]. fin. rewrite cosD_0. f_equal. lra. Qed.

Lemma ground_horizontal ghi alb : ground_diffuse #0 #ghi #alb = #0.
Proof. unfold ground_diffuse. fin. rewrite Rrad_0, cos_0. f_equal. lra. Qed.

Lemma king_horizontal dhi ghi z : 0 <= dhi -> sky_total (king #0 #dhi #ghi #z) = #dhi.
Proof.
  intros H. unfold king; cbn [sky_total sky_only]. fin. rewrite cosD_0. f_equal.
  rewrite Rmax_left; lra.
Qed.

Lemma rb_horizontal a z s : 0.01745 <= cosD z -> projection_ratio_of #0 #a #z #s = #1.
Proof.
  intros H. unfold projection_ratio_of. rewrite aoi_projection_horizontal. fin.
  rewrite (Rmax_left (cosD z) 0) by lra. rewrite Rmax_left by lra.
  rewrite fdiv_fin by lra. f_equal. field. lra.
Qed.

Lemma haydavies_horizontal a dhi dni x z s :
  0 <= dhi -> 0 <= dni <= x -> 0 < x -> 0.01745 <= cosD z ->
  sky_total (haydavies #0 #a #dhi #dni #x #z #s None) = #dhi.
Proof.
  intros Hd Hn Hx Hz. unfold haydavies. rewrite rb_horizontal by exact Hz.
  unfold haydavies_rb; cbn [sky_total sky_only]. rewrite fdiv_fin by lra. fin. rewrite cosD_0.
  assert (0 <= dni / x <= 1).
  { split; [apply Rmult_le_pos; [lra|left; apply Rinv_0_lt_compat; lra]|].
    apply Rmult_le_reg_r with x; [lra|]. unfold Rdiv. rewrite Rmult_assoc, Rinv_l by lra. lra. }
  f_equal. set (ai := dni / x) in *.
  rewrite !Rmax_left; nra.
Qed.

Lemma reindl_horizontal a dhi dni ghi x z s :
  0 <= ghi -> 0 < x -> 0.01745 <= cosD z ->
  sky_total (reindl #0 #a #dhi #dni #ghi #x #z #s) = #dhi.
Proof.
  intros Hg Hx Hz. unfold reindl; cbv zeta; cbn [sky_total]. rewrite aoi_projection_horizontal.
  fin. rewrite (Rmax_left (cosD z) 0) by lra. rewrite (Rmax_left (cosD z) 0.01745) by lra.
  rewrite (fdiv_fin (cosD z)) by lra. fin.
  replace (0 / 2) with 0 by lra. rewrite sinD_0, cosD_0.
  set (hb := fsqrt _).
  assert (Hh : exists h, hb = #h).
  { unfold hb, where_. rcase.
    - eexists. apply fsqrt_fin. lra.
    - rewrite fdiv_fin by lra. eexists. apply fsqrt_fin.
      apply Rmult_le_pos; [apply Rmax_r|]. left. apply Rinv_0_lt_compat. lra. }
  destruct Hh as [h ->]. fin. f_equal. field. lra.
Qed.

(** ** perez row selection *)
Lemma cosD_85_pos : 0 < cosD 85. Proof. apply cosD_pos. lra. Qed.

Lemma perez_terms_horizontal a z s F1 F2 :
  0 <= z <= 85 ->
  perez_terms #0 #a #z #s #F1 #F2 = (#(1 - F1), #F1, #0).
Proof.
  intros Hz. pose proof cosD_85_pos. pose proof (cosD_decr z 85) as Hd.
  unfold perez_terms. rewrite aoi_projection_horizontal. fin.
  rewrite (Rmax_left (cosD z) 0) by lra. rewrite (Rmax_left (cosD z) (cosD 85)) by lra.
  rewrite fdiv_fin by lra. rewrite sinD_0, cosD_0.
  apply f_equal2; [apply f_equal2|]; apply f_equal; [lra|field; lra|lra].
Qed.

(** Independent reading of the eight published bins: 0-based row number of a clearness value. *)
Definition perez_row_spec (e : R) (n : nat) : Prop :=
  match n with
  | 0%nat => 0 <= e < 1.065
  | 1%nat => 1.065 <= e < 1.23
  | 2%nat => 1.23 <= e < 1.5
  | 3%nat => 1.5 <= e < 1.95
  | 4%nat => 1.95 <= e < 2.8
  | 5%nat => 2.8 <= e < 4.5
  | 6%nat => 4.5 <= e < 6.2
  | 7%nat => 6.2 <= e
  | _ => False
  end.

Lemma perez_ebin_fin e n : perez_ebin #e = Some n <-> perez_row_spec e n.
Proof.
  unfold perez_ebin, digitize, perez_bins. cbn [isnan]. cbn [filter].
  autorewrite with flfin.
  destruct (Rleb_spec 0 e); destruct (Rleb_spec 1.065 e); try lra;
  destruct (Rleb_spec 1.23 e); try lra; destruct (Rleb_spec 1.5 e); try lra;
  destruct (Rleb_spec 1.95 e); try lra; destruct (Rleb_spec 2.8 e); try lra;
  destruct (Rleb_spec 4.5 e); try lra; destruct (Rleb_spec 6.2 e); try lra; cbn [length];
  (split; [intros [= <-] || discriminate; simpl; lra|]);
  intros Hs; do 8 (destruct n as [|n]; [simpl in Hs; first [reflexivity|lra]|]); contradiction.
Qed.
Lemma perez_ebin_neg e : e < 0 -> perez_ebin #e = None.
Proof.
  intros H. unfold perez_ebin, digitize, perez_bins. cbn [isnan filter].
  autorewrite with flfin. rdec. reflexivity.
Qed.
Lemma perez_ebin_special : perez_ebin NaN = None /\ perez_ebin NInf = None /\ perez_ebin PInf = Some 7%nat.
Proof. repeat split. Qed.

Lemma perez_row_total e : 0 <= e -> exists n, (n < 8)%nat /\ perez_row_spec e n.
Proof.
  intros H.
  destruct (Rlt_dec e 1.065); [exists 0%nat; split; [lia|simpl; lra]|].
  destruct (Rlt_dec e 1.23); [exists 1%nat; split; [lia|simpl; lra]|].
  destruct (Rlt_dec e 1.5); [exists 2%nat; split; [lia|simpl; lra]|].
  destruct (Rlt_dec e 1.95); [exists 3%nat; split; [lia|simpl; lra]|].
  destruct (Rlt_dec e 2.8); [exists 4%nat; split; [lia|simpl; lra]|].
  destruct (Rlt_dec e 4.5); [exists 5%nat; split; [lia|simpl; lra]|].
  destruct (Rlt_dec e 6.2); [exists 6%nat; split; [lia|simpl; lra]|].
  exists 7%nat; split; [lia|simpl; lra].
Qed.
Lemma perez_row_unique e n m : perez_row_spec e n -> perez_row_spec e m -> n = m.
Proof.
  intros Hn Hm. rewrite <- perez_ebin_fin in Hn, Hm. congruence.
Qed.

(** every published table has exactly 8 rows *)
Lemma perez_tables_shape name table : getitem perez_coeffdict name = Ok table -> length table = 8%nat.
Proof.
  unfold getitem. destruct (lookup name perez_coeffdict) as [t|] eqn:H; [|discriminate].
  intros [= <-]. apply lookup_In in H. unfold perez_coeffdict in H.
  repeat (destruct H as [H|H]; [inversion H; reflexivity|]). contradiction.
Qed.

(** clearness of physical inputs is at least 1 *)
Lemma perez_eps_fin dhi dni z :
  0 < dhi -> 0 <= z ->
  perez_eps #dhi #dni #z
  = #(((dhi + dni) / dhi + 1.041 * Rrad z ^ 3) / (1 + 1.041 * Rrad z ^ 3)).
Proof.
  intros Hd Hz.
  assert (0 <= Rrad z ^ 3). { apply pow_le. rewrite <- Rrad_0. apply Rrad_le, Hz. }
  unfold perez_eps. fin. reflexivity.
Qed.
Lemma perez_eps_ge1 dhi dni z :
  0 < dhi -> 0 <= dni -> 0 <= z -> exists e, perez_eps #dhi #dni #z = #e /\ 1 <= e.
Proof.
  intros Hd Hn Hz. rewrite perez_eps_fin by assumption. eexists; split; [reflexivity|].
  assert (H3 : 0 <= Rrad z ^ 3). { apply pow_le. rewrite <- Rrad_0. apply Rrad_le, Hz. }
  apply Rmult_le_reg_r with (1 + 1.041 * Rrad z ^ 3); [lra|].
  unfold Rdiv. rewrite Rmult_assoc, Rinv_l by lra.
  assert (1 <= (dhi + dni) * / dhi).
  { apply Rmult_le_reg_r with dhi; [lra|]. rewrite Rmult_assoc, Rinv_l by lra. lra. }
  lra.
Qed.
Lemma perez_eps_dark dni z : 0 < dni -> 0 <= z -> perez_eps #0 #dni #z = PInf.
Proof.
  intros Hd Hz. unfold perez_eps. fin. rewrite fdiv_zero. unfold sinf, Rpos.
  rewrite Rltb_t by lra. cbn [fadd fdiv]. unfold Rneg.
  assert (0 <= Rrad z ^ 3). { apply pow_le. rewrite <- Rrad_0. apply Rrad_le, Hz. }
  rewrite Rltb_f by lra. reflexivity.
Qed.
Lemma perez_eps_nan z : perez_eps #0 #0 #z = NaN.
Proof. unfold perez_eps. fin. rewrite fdiv_zero. unfold sinf, Rpos, Rneg. rdec. reflexivity. Qed.

(** a selected row of an 8-row table gives finite F1 >= 0 and F2 *)
Lemma perez_F_fin table dhi dni x z am n :
  length table = 8%nat -> x <> 0 ->
  perez_ebin (perez_eps #dhi #dni #z) = Some n -> (n < 8)%nat ->
  exists F1 F2, perez_F table #dhi #dni #x #z #am = (#F1, #F2) /\ 0 <= F1.
Proof.
  intros Hl Hx He Hn. unfold perez_F. rewrite He. unfold perez_row_fl.
  destruct (nth_error table n) as [[[[[[f11 f12] f13] f21] f22] f23]|] eqn:Hr.
  2:{ apply nth_error_None in Hr. lia. }
  fin. eexists; eexists; split; [reflexivity|]. apply Rmax_r.
Qed.

Lemma perez_with_horizontal table a dhi dni x z s am :
  length table = 8%nat -> 0 <= dhi -> 0 <= dni -> 0 < dhi + dni -> x <> 0 -> 0 <= z <= 85 ->
  sky_total (perez_with table #0 #a #dhi #dni #x #z #s #am) = #dhi.
Proof.
  intros Hl Hd Hn Hs Hx Hz.
  assert (He : exists n, perez_ebin (perez_eps #dhi #dni #z) = Some n /\ (n < 8)%nat).
  { destruct (Req_EM_T dhi 0) as [->|Hd0].
    - rewrite perez_eps_dark by lra. exists 7%nat. split; [reflexivity|lia].
    - destruct (perez_eps_ge1 dhi dni z) as (e & -> & He); try lra.
      destruct (perez_row_total e) as (n & Hn8 & Hr); [lra|].
      exists n. split; [apply perez_ebin_fin, Hr|exact Hn8]. }
  destruct He as (n & He & Hn8).
  destruct (perez_F_fin table dhi dni x z am n Hl Hx He Hn8) as (F1 & F2 & HF & HF1).
  unfold perez_with. rewrite HF. rewrite perez_terms_horizontal by exact Hz.
  cbn [sky_total isnan]. unfold where_. fin.
  replace (dhi * (1 - F1 + F1 + 0)) with dhi by ring.
  rewrite Rmax_left by lra. rcase; [subst; reflexivity|reflexivity].
Qed.
Lemma perez_horizontal model a dhi dni x z s am sk :
  0 <= dhi -> 0 <= dni -> 0 < dhi + dni -> x <> 0 -> 0 <= z <= 85 ->
  perez model #0 #a #dhi #dni #x #z #s #am = Ok sk -> sky_total sk = #dhi.
Proof.
  intros H1 H2 H3 H4 H5. unfold perez, bind.
  destruct (getitem perez_coeffdict model) as [t|] eqn:Ht; [|discriminate].
  intros [= <-]. apply perez_with_horizontal; auto. eapply perez_tables_shape, Ht.
Qed.

(** perez_driesse on a horizontal plane: any spline giving finite F1, F2 *)
Lemma perez_driesse_horizontal f a dhi dni x z s am F1 F2 :
  0 <= dhi -> 0 <= z <= 85 ->
  (let zeta := calc_zeta #dhi #dni #z in
   let delta := calc_delta #dhi #x #z am in
   fadd (fadd (f 1%nat 1%nat zeta) (fmul (f 1%nat 2%nat zeta) delta))
        (fmul (f 1%nat 3%nat zeta) (fradians #z)) = #F1 /\
   fadd (fadd (f 2%nat 1%nat zeta) (fmul (f 2%nat 2%nat zeta) delta))
        (fmul (f 2%nat 3%nat zeta) (fradians #z)) = #F2) ->
  sky_total (perez_driesse f #0 #a #dhi #dni #x #z #s am) = #dhi.
Proof.
  intros Hd Hz HF. cbv zeta in HF. destruct HF as [HF1 HF2].
  unfold perez_driesse. cbv zeta. rewrite HF1, HF2. rewrite fclip_fin.
  rewrite perez_terms_horizontal by exact Hz. cbn [sky_total]. fin.
  f_equal. rewrite Rmax_left; [ring|]. ring_simplify. exact Hd.
Qed.

(** ** sums of components *)
Lemma haydavies_sum t a dhi dni x z s pr :
  let k := haydavies t a dhi dni x z s pr in
  exists i c, sky_iso k = Some i /\ sky_circ k = Some c /\ sky_horiz k = None /\
              sky_total k = fadd i c /\ atleast #0 i /\ atleast #0 c.
Proof.
  cbv zeta. unfold haydavies, haydavies_rb. cbn [sky_iso sky_circ sky_horiz sky_total].
  do 2 eexists. repeat split; apply fmax_atleast.
Qed.

Lemma reindl_sum t a dhi dni ghi x z s tot :
  sky_total (reindl #t #a #dhi #dni #ghi #x #z #s) = #tot ->
  let k := reindl #t #a #dhi #dni #ghi #x #z #s in
  exists i c h, sky_iso k = Some #i /\ sky_circ k = Some #c /\ sky_horiz k = Some #h /\ tot = i + c + h.
Proof.
  intros H k. subst k. unfold reindl in *. cbv zeta in *. cbn [sky_total sky_iso sky_circ sky_horiz] in *.
  apply fmul_fin_inv in H. destruct H as (d & b & Hd & Hb & ->). injection Hd as <-.
  apply fadd_fin_inv in Hb. destruct Hb as (u & w & Hu & -> & ->).
  apply fadd_fin_inv in Hu. destruct Hu as (p & q & -> & -> & ->).
  exists (dhi * p), (dhi * q), (dhi * w). repeat split; try (rewrite fmul_fin; reflexivity). ring.
Qed.

Lemma perez_with_sum table t a dhi dni x z s am tot :
  sky_total (perez_with table t a #dhi dni x z s am) = #tot ->
  let k := perez_with table t a #dhi dni x z s am in
  0 <= tot /\
  exists i c h, sky_iso k = Some #i /\ sky_circ k = Some #c /\ sky_horiz k = Some #h /\
    (0 < tot -> tot = i + c + h) /\ (tot = 0 -> i = 0 /\ c = 0 /\ h = 0).
Proof.
  cbv zeta. unfold perez_with.
  destruct (perez_F table #dhi dni x z am) as [F1 F2].
  destruct (perez_terms t a z s F1 F2) as [[t1 t2] t3].
  cbn [sky_total sky_iso sky_circ sky_horiz]. unfold where_.
  destruct (isnan am).
  - rewrite feqb_fin, Reqb_t by reflexivity. intros [= <-]. split; [lra|].
    exists 0, 0, 0. repeat split; auto; lra.
  - destruct (feqb (fmax (fmul #dhi (fadd (fadd t1 t2) t3)) #0) #0) eqn:Hm.
    + intros [= <-]. split; [lra|]. exists 0, 0, 0. repeat split; auto; lra.
    + intros H. rewrite H in Hm.
      destruct (fmul #dhi (fadd (fadd t1 t2) t3)) as [v| | |] eqn:Hv; try discriminate.
      * rewrite fmax_fin in H. injection H as H. rewrite feqb_fin in Hm.
        apply Reqb_false in Hm.
        apply fmul_fin_inv in Hv. destruct Hv as (d & b & Hd & Hb & Hvv). injection Hd as <-.
        apply fadd_fin_inv in Hb. destruct Hb as (u & w & Hu & -> & Hbb).
        apply fadd_fin_inv in Hu. destruct Hu as (p & q & -> & -> & Huu).
        subst b u v. split; [rewrite <- H; apply Rmax_r|].
        exists (dhi * p), (dhi * q), (dhi * w).
        rewrite !fmul_fin. repeat split; try (intros; contradiction).
        intros Hpos. rewrite <- H in Hpos |- *.
        unfold Rmax in *. destruct (Rle_dec _ _); [lra|ring].
      * cbn [fmax] in H. rewrite <- H in Hm. injection H as <-.
        rewrite feqb_fin, Reqb_t in Hm by reflexivity. discriminate.
Qed.

Lemma perez_driesse_sum f t a dhi dni x z s am tot :
  sky_total (perez_driesse f t a #dhi dni x z s am) = #tot -> 0 < tot ->
  let k := perez_driesse f t a #dhi dni x z s am in
  exists i c h, sky_iso k = Some #i /\ sky_circ k = Some #c /\ sky_horiz k = Some #h /\ tot = i + c + h.
Proof.
  cbv zeta. unfold perez_driesse. cbv zeta.
  destruct (perez_terms _ _ _ _ _ _) as [[t1 t2] t3].
  cbn [sky_total sky_iso sky_circ sky_horiz]. intros H Hpos.
  destruct (fmul #dhi (fadd (fadd t1 t2) t3)) as [v| | |] eqn:Hv; try discriminate.
  - rewrite fmax_fin in H. injection H as H.
    apply fmul_fin_inv in Hv. destruct Hv as (d & b & Hd & Hb & Hvv). injection Hd as <-.
    apply fadd_fin_inv in Hb. destruct Hb as (u & w & Hu & -> & Hbb).
    apply fadd_fin_inv in Hu. destruct Hu as (p & q & -> & -> & Huu). subst b u v.
    exists (dhi * p), (dhi * q), (dhi * w). rewrite !fmul_fin. repeat split.
    rewrite <- H in Hpos |- *. unfold Rmax in *. destruct (Rle_dec _ _); [lra|ring].
  - cbn [fmax] in H. injection H as H. lra.
Qed.

(** ** non-negativity *)
Lemma fadd_atleast0 x y : atleast #0 x -> atleast #0 y -> atleast #0 (fadd x y).
Proof.
  unfold atleast, fle.
  destruct x as [a| | |], y as [b| | |]; simpl; intros [Hx|Hx] [Hy|Hy]; try discriminate; auto; right;
  rewrite ?Rleb_true in *; try lra; reflexivity.
Qed.
Lemma haydavies_nonneg t a dhi dni x z s pr : atleast #0 (sky_total (haydavies t a dhi dni x z s pr)).
Proof.
  destruct (haydavies_sum t a dhi dni x z s pr) as (i & c & _ & _ & _ & -> & Hi & Hc).
  apply fadd_atleast0; assumption.
Qed.
Lemma king_nonneg t dhi ghi z : atleast #0 (sky_total (king t dhi ghi z)).
Proof. apply fmax_atleast. Qed.
Lemma atleast_where b lo x y : atleast lo x -> atleast lo y -> atleast lo (where_ b x y).
Proof. destruct b; auto. Qed.
Lemma atleast00 : atleast #0 #0. Proof. apply atleast_fin. lra. Qed.
Lemma perez_with_nonneg tb t a dhi dni x z s am : atleast #0 (sky_total (perez_with tb t a dhi dni x z s am)).
Proof.
  unfold perez_with. destruct (perez_F _ _ _ _ _ _) as [F1 F2].
  destruct (perez_terms _ _ _ _ _ _) as [[t1 t2] t3]. cbn [sky_total].
  repeat apply atleast_where; try apply atleast00. apply fmax_atleast.
Qed.
Lemma perez_driesse_nonneg f t a dhi dni x z s am : atleast #0 (sky_total (perez_driesse f t a dhi dni x z s am)).
Proof.
  unfold perez_driesse. cbv zeta. destruct (perez_terms _ _ _ _ _ _) as [[t1 t2] t3].
  apply fmax_atleast.
Qed.
Lemma perez_nonneg m t a dhi dni x z s am sk :
  perez m t a dhi dni x z s am = Ok sk -> atleast #0 (sky_total sk).
Proof.
  unfold perez, bind. destruct (getitem perez_coeffdict m); [|discriminate].
  intros [= <-]. apply perez_with_nonneg.
Qed.

Lemma isotropic_range t dhi v :
  0 <= dhi -> sky_total (isotropic #t #dhi) = #v -> 0 <= v <= dhi.
Proof.
  intros H. unfold isotropic. cbn [sky_total]. fin. intros [= <-].
  pose proof (cosD_bound t). nra.
Qed.
Lemma isotropic_is t dhi : sky_total (isotropic #t #dhi) = #(dhi * (1 + cosD t) / 2).
Proof. unfold isotropic; cbn [sky_total]. fin. f_equal. lra. Qed.

Definition klucher_F (dhi ghi : R) : R := if Req_EM_T ghi 0 then 0 else 1 - (dhi / ghi) ^ 2.
Lemma klucher_fin t a dhi ghi z s :
  0 <= dhi <= ghi ->
  sky_total (klucher #t #a #dhi #ghi #z #s) =
  #(dhi * ((1 + cosD t) / 2) * (1 + klucher_F dhi ghi * sinD (t / 2) ^ 3)
    * (1 + klucher_F dhi ghi * (Rmax (dot (dirvec t a) (dirvec z s)) 0) ^ 2 * sinD z ^ 3)).
Proof.
  intros H. unfold klucher. cbn [sky_total sky_only]. rewrite aoi_projection_fin. fin.
  unfold klucher_F. destruct (Req_EM_T ghi 0) as [->|Hg].
  - assert (dhi = 0) as -> by lra. rewrite fdiv_zero. unfold sinf, Rpos, Rneg. rdec.
    cbn [fpown fmul fneg fsub fadd isnan where_]. fin. f_equal. lra.
  - rewrite fdiv_fin by exact Hg. fin. cbn [isnan where_]. fin.
    replace (0.5 * t) with (t / 2) by lra. f_equal. lra.
Qed.
Lemma klucher_F_range dhi ghi : 0 <= dhi <= ghi -> 0 <= klucher_F dhi ghi <= 1.
Proof.
  intros H. unfold klucher_F. destruct (Req_EM_T ghi 0); [lra|].
  assert (0 <= dhi / ghi <= 1).
  { split; [apply Rmult_le_pos; [lra|left; apply Rinv_0_lt_compat; lra]|].
    apply Rmult_le_reg_r with ghi; [lra|]. unfold Rdiv. rewrite Rmult_assoc, Rinv_l by lra. lra. }
  simpl. nra.
Qed.
Lemma klucher_ge_isotropic t a dhi ghi z s v :
  0 <= t <= 180 -> 0 <= z <= 180 -> 0 <= dhi <= ghi ->
  sky_total (klucher #t #a #dhi #ghi #z #s) = #v ->
  0 <= dhi * (1 + cosD t) / 2 <= v.
Proof.
  intros Ht Hz Hd. rewrite klucher_fin by exact Hd. intros Hv; apply Fin_inj in Hv; subst v.
  pose proof (klucher_F_range dhi ghi Hd) as HF. set (F := klucher_F dhi ghi) in *.
  assert (Hs1 : 0 <= sinD (t / 2) ^ 3) by (apply pow_le, sinD_nonneg; lra).
  assert (Hs2 : 0 <= sinD z ^ 3) by (apply pow_le, sinD_nonneg; lra).
  assert (Hp : 0 <= Rmax (dot (dirvec t a) (dirvec z s)) 0 ^ 2) by (apply pow_le, Rmax_r).
  pose proof (cosD_bound t) as Hc.
  set (u := sinD (t/2) ^ 3) in *. set (w := sinD z ^ 3) in *.
  set (p := Rmax (dot (dirvec t a) (dirvec z s)) 0 ^ 2) in *.
  assert (H1 : 1 <= 1 + F * u) by nra.
  assert (H2 : 1 <= 1 + F * p * w). { assert (0 <= F * p) by nra. nra. }
  assert (H0 : 0 <= dhi * ((1 + cosD t) / 2)) by nra.
  split; [lra|].
  assert (1 <= (1 + F * u) * (1 + F * p * w)) by nra.
  replace (dhi * (1 + cosD t) / 2) with (dhi * ((1 + cosD t) / 2) * 1) by lra.
  rewrite (Rmult_assoc (dhi * ((1 + cosD t) / 2))). apply Rmult_le_compat_l; assumption.
Qed.

Lemma div01 a b : 0 <= a <= b -> 0 < b -> 0 <= a / b <= 1.
Proof.
  intros H Hb. split; [apply Rmult_le_pos; [lra|left; apply Rinv_0_lt_compat; lra]|].
  apply Rmult_le_reg_r with b; [lra|]. unfold Rdiv. rewrite Rmult_assoc, Rinv_l by lra. lra.
Qed.

Lemma reindl_nonneg t a dhi dni ghi x z s :
  0 <= t <= 180 -> 0 <= dhi -> 0 <= ghi -> 0 <= dni <= x -> 0 < x ->
  exists v, sky_total (reindl #t #a #dhi #dni #ghi #x #z #s) = #v /\ 0 <= v.
Proof.
  intros Ht Hd Hg Hn Hx. unfold reindl; cbv zeta; cbn [sky_total].
  rewrite aoi_projection_fin. fin.
  assert (HB : 0 < Rmax (cosD z) 0.01745) by (pose proof (Rmax_r (cosD z) 0.01745); lra).
  rewrite (fdiv_fin _ (Rmax (cosD z) 0.01745)) by lra. fin.
  pose proof (div01 dni x Hn Hx) as HAI. set (AI := dni / x) in *.
  set (hb := fsqrt _).
  assert (Hh : exists h, hb = #h /\ 0 <= h).
  { unfold hb, where_. rcase.
    - eexists. split; [apply fsqrt_fin; lra|apply sqrt_pos].
    - rewrite fdiv_fin by lra. eexists. split; [apply fsqrt_fin|apply sqrt_pos].
      apply Rmult_le_pos; [apply Rmax_r|]. left. apply Rinv_0_lt_compat. lra. }
  destruct Hh as (h & -> & Hh). fin. eexists; split; [reflexivity|].
  assert (Hs : 0 <= sinD (t / 2) ^ 3) by (apply pow_le, sinD_nonneg; lra).
  set (w := sinD (t/2) ^ 3) in *. pose proof (cosD_bound t) as Hc.
  assert (HR : 0 <= Rmax (dot (dirvec t a) (dirvec z s)) 0 / Rmax (cosD z) 0.01745).
  { apply Rmult_le_pos; [apply Rmax_r|left; apply Rinv_0_lt_compat; exact HB]. }
  set (Rb := Rmax (dot (dirvec t a) (dirvec z s)) 0 / Rmax (cosD z) 0.01745) in *.
  apply Rmult_le_pos; [exact Hd|].
  assert (0 <= (1 - AI) * ((1 + cosD t) / 2)) by (apply Rmult_le_pos; lra).
  assert (0 <= AI * Rb) by nra. assert (0 <= h * w) by nra. 
  set (q := (1 - AI) * ((1 + cosD t) / 2)) in *. nra.
Qed.

(** ** ground diffuse *)
Lemma ground_diffuse_fin t ghi alb :
  ground_diffuse #t #ghi #alb = #(ghi * alb * ((1 - cosD t) / 2)).
Proof. unfold ground_diffuse. fin. f_equal. unfold cosD. lra. Qed.

Lemma albedos_range st a : getitem SURFACE_ALBEDOS st = Ok a -> exists r, a = #r /\ 0 < r < 1.
Proof.
  unfold getitem. destruct (lookup st SURFACE_ALBEDOS) as [b|] eqn:H; [|discriminate].
  intros [= <-]. apply lookup_In in H. unfold SURFACE_ALBEDOS in H.
  repeat (destruct H as [H|H]; [inversion H; subst; eexists; split; [reflexivity|lra]|]). contradiction.
Qed.

(** ** Klucher does not reduce to DHI on a horizontal plane *)
Lemma klucher_horizontal_gt a dhi ghi z s v :
  0 < dhi < ghi -> 0 < z < 90 ->
  sky_total (klucher #0 #a #dhi #ghi #z #s) = #v -> dhi < v.
Proof.
  intros Hd Hz. rewrite klucher_fin by lra. intros Hv; apply Fin_inj in Hv; subst v.
  rewrite dot_horizontal. replace (0 / 2) with 0 by lra. rewrite sinD_0, cosD_0.
  assert (Hc : 0 < cosD z) by (apply cosD_pos; lra).
  assert (Hs : 0 < sinD z) by (apply sinD_pos; lra).
  rewrite Rmax_left by lra.
  assert (HF : 0 < klucher_F dhi ghi).
  { unfold klucher_F. destruct (Req_EM_T ghi 0); [lra|].
    assert (0 < dhi / ghi < 1).
    { split; [apply Rmult_lt_0_compat; [lra|apply Rinv_0_lt_compat; lra]|].
      apply Rmult_lt_reg_r with ghi; [lra|]. unfold Rdiv. rewrite Rmult_assoc, Rinv_l by lra. lra. }
    simpl. nra. }
  assert (Hp : 0 < klucher_F dhi ghi * cosD z ^ 2 * sinD z ^ 3).
  { apply Rmult_lt_0_compat; [apply Rmult_lt_0_compat; [exact HF|]|]; apply pow_lt; assumption. }
  set (k := klucher_F dhi ghi * cosD z ^ 2 * sinD z ^ 3) in *.
  replace (dhi * ((1 + 1) / 2) * (1 + klucher_F dhi ghi * 0 ^ 3) * (1 + k)) with (dhi * (1 + k)) by (simpl; lra).
  nra.
Qed.

Lemma perez_with_night tb t a dhi dni x z s : sky_total (perez_with tb t a dhi dni x z s NaN) = #0.
Proof.
  unfold perez_with. destruct (perez_F _ _ _ _ _ _) as [F1 F2].
  destruct (perez_terms _ _ _ _ _ _) as [[t1 t2] t3]. cbn [sky_total isnan where_].
  unfold where_. rewrite feqb_fin, Reqb_t by reflexivity. reflexivity.
Qed.
Lemma perez_with_no_row tb t a dhi dni x z s am :
  perez_ebin (perez_eps dhi dni z) = None -> isnan am = false ->
  sky_total (perez_with tb t a dhi dni x z s am) = NaN.
Proof.
  intros He Ha.
  assert (HF : perez_F tb dhi dni x z am = (NaN, NaN)).
  { unfold perez_F. rewrite He. reflexivity. }
  unfold perez_with. rewrite HF. unfold perez_terms. cbv zeta. cbn [sky_total]. rewrite Ha.
  rewrite (fmul_nan_l (sind t)), fadd_nan_r, fmul_nan_r. reflexivity.
Qed.
Lemma perez_F_row tb dhi dni x z am n e f11 f12 f13 f21 f22 f23 :
  x <> 0 -> perez_eps #dhi #dni #z = #e -> perez_row_spec e n ->
  nth_error tb n = Some (f11, f12, f13, f21, f22, f23) ->
  let delta := dhi * am / x in
  perez_F tb #dhi #dni #x #z #am =
    (#(Rmax (f11 + f12 * delta + f13 * Rrad z) 0), #(f21 + f22 * delta + f23 * Rrad z)).
Proof.
  intros Hx He Hr Hn delta. unfold perez_F. rewrite He.
  apply perez_ebin_fin in Hr. rewrite Hr.
  unfold perez_row_fl, perez_row. cbv beta iota. rewrite Hn. cbv zeta. fin. reflexivity.
Qed.

Lemma ground_view_factor :
  (forall tilt, 0 <= (1 - cosD tilt) / 2 <= 1) /\
  ground_diffuse #0 #1 #1 = #0 /\ ground_diffuse #180 #1 #1 = #1 /\
  (forall t1 t2 v1 v2, 0 <= t1 -> t1 <= t2 -> t2 <= 180 ->
     ground_diffuse #t1 #1 #1 = #v1 -> ground_diffuse #t2 #1 #1 = #v2 -> v1 <= v2) /\
  (forall tilt, fadd (ground_diffuse #tilt #1 #1) (sky_total (isotropic #tilt #1)) = #1).
Proof.
  split; [|split; [|split; [|split]]].
  - intros t. pose proof (cosD_bound t). lra.
  - apply ground_horizontal.
  - rewrite ground_diffuse_fin, cosD_180. f_equal. lra.
  - intros t1 t2 v1 v2 H0 H1 H2 E1 E2. rewrite ground_diffuse_fin in E1, E2.
    apply Fin_inj in E1. apply Fin_inj in E2. pose proof (cosD_decr t1 t2 H0 H1 H2). lra.
  - intros t. rewrite ground_diffuse_fin, isotropic_is. fin. f_equal. lra.
Qed.
