(** C37, C38, C61-C63: pvlib.iam. *)
From Verif Require Import Base.Fl Base.FlFacts Base.Py Base.Trig Model.Iam Spec.Optics Spec.IamFit Proofs.IamP Proofs.IamCoat Proofs.IamFitP.
From Coq Require Import ZArith Lia Lra Psatz.
Open Scope R_scope.

(** ** C37 *)
Theorem C37_ashrae : forall b, 0 <= b ->
  (forall x, within #0 #1 (ashrae x #b)) /\                                    (* every float angle *)
  ashrae #0 #b = #1 /\
  (forall x, fle #90 (fabs x) -> ashrae x #b = #0) /\
  (forall a, ashrae #(- a) #b = ashrae #a #b) /\
  (forall a, Rabs a < 90 -> ashrae #a #b = #(Rmax 0 (1 - b * (1 / cosD a - 1)))) /\
  (forall x y, 0 <= x -> x <= y -> exists u v, ashrae #x #b = #u /\ ashrae #y #b = #v /\ v <= u).
Proof.
  intros b Hb. split; [intros; apply ashrae_range, Hb|]. split; [|split; [|split; [|split]]].
  - rewrite ashrae_fin by (rewrite Rabs_R0; lra). rewrite cosD_0. f_equal. replace (1 - b * (1 / 1 - 1)) with 1 by field. apply Rmax_right. lra.
  - intros x H. apply ashrae_back, H.
  - intros. apply ashrae_even.
  - intros. apply ashrae_fin. assumption.
  - intros x y Hx Hxy. exists (ashraeR b x), (ashraeR b y). rewrite !ashrae_R by lra. split; [reflexivity|]. split; [reflexivity|].
    apply ashraeR_decr; assumption.
Qed.
Print Assumptions C37_ashrae.
Theorem C37_martin_ruiz : forall ar, 0 < ar ->
  (forall x, exists y, martin_ruiz x #ar = Ok y /\ within #0 #1 y) /\
  martin_ruiz #0 #ar = Ok #1 /\
  (forall x, fle #90 (fabs x) -> martin_ruiz x #ar = Ok #0) /\
  (forall a, martin_ruiz #(- a) #ar = martin_ruiz #a #ar) /\
  (forall a, Rabs a < 90 -> martin_ruiz #a #ar = Ok #((1 - exp (- cosD a / ar)) / (1 - exp (- (1) / ar)))) /\
  (forall x y, 0 <= x -> x <= y -> y < 90 -> exists u v, martin_ruiz #x #ar = Ok #u /\ martin_ruiz #y #ar = Ok #v /\ v <= u).
Proof.
  intros ar Ha. split; [intros; apply mr_range, Ha|]. split; [|split; [|split; [|split]]].
  - rewrite mr_fin by (try rewrite Rabs_R0; lra). rewrite cosD_0, mr_val_1 by exact Ha. reflexivity.
  - intros x H. apply mr_back; assumption.
  - intros a. destruct (Rlt_dec (Rabs a) 90) as [H|H].
    + rewrite !mr_fin by (try rewrite Rabs_Ropp; assumption). rewrite cosD_even. reflexivity.
    + rewrite !mr_back; try reflexivity; try assumption; cbn; apply Rleb_t; try rewrite Rabs_Ropp; lra.
  - intros. apply mr_fin; assumption.
  - intros x y Hx Hxy Hy. rewrite !mr_fin by (try rewrite Rabs_pos_eq; lra). do 2 eexists. split; [reflexivity|]. split; [reflexivity|].
    apply mr_val_mono; [exact Ha|]. apply cosD_decr; lra.
Qed.
Print Assumptions C37_martin_ruiz.
Theorem C37_schlick :
  (forall x, within #0 #1 (schlick x)) /\ schlick #0 = #1 /\ (forall x, fle #90 (fabs x) -> schlick x = #0) /\
  (forall a, schlick #(- a) = schlick #a) /\
  (forall a, Rabs a < 90 -> schlick #a = #(1 - (1 - cosD a) ^ 5)) /\
  (forall x y, 0 <= x -> x <= y -> y < 90 -> exists u v, schlick #x = #u /\ schlick #y = #v /\ v <= u).
Proof.
  split; [apply schlick_range|]. split; [|split; [|split; [|split]]].
  - rewrite schlick_fin by (rewrite Rabs_R0; lra). rewrite cosD_0. f_equal. ring.
  - intros x H. apply schlick_back, H.
  - intros a. destruct (Rlt_dec (Rabs a) 90) as [H|H].
    + rewrite !schlick_fin by (try rewrite Rabs_Ropp; assumption). rewrite cosD_even. reflexivity.
    + rewrite !schlick_back; try reflexivity; try assumption; cbn; apply Rleb_t; try rewrite Rabs_Ropp; lra.
  - intros. apply schlick_fin. assumption.
  - intros x y Hx Hxy Hy. rewrite !schlick_fin by (rewrite Rabs_pos_eq; lra). do 2 eexists. split; [reflexivity|]. split; [reflexivity|].
    assert (cosD y <= cosD x) by (apply cosD_decr; lra). pose proof (cosD_bound x). pose proof (cosD_bound y).
    assert ((1 - cosD x) ^ 5 <= (1 - cosD y) ^ 5) by (apply pow_incr; lra). lra.
Qed.
Print Assumptions C37_schlick.
(** the uncoated physical model is the De Soto transmittance ratio, with the refraction angle given by Snell's law *)
Theorem C37_physical_is_desoto : forall n K L th thr,
  1 <= n -> 0 < th < PI / 2 -> 0 < thr < PI / 2 -> sin th = n * sin thr ->
  physical #(Rdeg th) #n #K #L None = #(tau_desoto (K * L) th thr / tau_desoto_normal n (K * L)).
Proof.
  intros n K L th thr Hn H1 H2 HS. destruct (c2_thr n th thr (Rdeg th) ltac:(lra) eq_refl H1 H2 HS) as [E1 E2].
  pose proof PI_RGT_0. rewrite phys_fin; [|lra|rewrite E2; apply cos_gt_0; lra].
  rewrite E1, E2, phys_desoto by (try assumption; lra).
  assert (D : Rdeg th < 90) by (rewrite <- Rdeg_PI2; apply Rdeg_lt; lra).
  destruct (fclose #n #1); [|reflexivity]. rewrite Rleb_f by exact D. reflexivity.
Qed.
Print Assumptions C37_physical_is_desoto.
Theorem C37_physical_range : forall n K L, 1 <= n -> n <= 2 + sqrt 3 -> 0 <= K -> 0 <= L ->
  (forall a, Rabs a < 90 \/ 1 < n -> exists x, physical #a #n #K #L None = #x /\ 0 <= x <= 1) /\
  physical #0 #n #K #L None = #1 /\
  (forall a, 90 <= a <= 180 \/ (1 < n /\ 90 <= Rabs a <= 180) -> physical #a #n #K #L None = #0).
Proof.
  intros n K L Hn Hq HK HL.
  assert (H3 : sqrt 3 * sqrt 3 = 3) by (apply sqrt_sqrt; lra). pose proof (sqrt_pos 3).
  assert (S1 : 1 <= sqrt 3) by nra.
  assert (Q : n * n + 1 <= 4 * n) by (assert (0 <= (2 + sqrt 3 - n) * (n - 2 + sqrt 3)) by (apply Rmult_le_pos; lra); lra).
  assert (HKL : 0 <= K * L) by (apply Rmult_le_pos; assumption).
  assert (P1 : forall a, 0 < c2 n a -> exists x, physical #a #n #K #L None = #x /\ 0 <= x <= 1).
  { intros a H2. rewrite phys_fin by (try lra; assumption).
    pose proof (c1_range a). destruct (snell n a Hn) as ([_ S2] & _).
    pose proof (phys_val_range n (K * L) (c1 a) (c2 n a) ltac:(lra) Q HKL ltac:(lra) ltac:(lra)).
    destruct (fclose #n #1); [unfold where_; destruct (Rleb 90 a)|]; eexists; (split; [reflexivity|]); lra. }
  split; [|split].
  - intros a Ha. apply P1. apply c2_pos. destruct Ha as [Ha|Ha]; [|left; exact Ha]. right. split; [exact Hn|].
    unfold c1. assert (0 < cosD a) by (apply cosD_pos; apply Rabs_def2 in Ha; lra). rmm; lra.
  - rewrite phys_fin by (try lra; rewrite c2_0; lra). rewrite c1_0, c2_0, phys_val_normal by lra. rewrite Rleb_f by lra.
    destruct (fclose #n #1); reflexivity.
  - intros a Ha.
    assert (AB : 90 <= Rabs a <= 180) by (destruct Ha as [Ha|Ha]; [rewrite Rabs_pos_eq; lra|lra]).
    assert (C0 : c1 a = 0) by (unfold c1; apply Rmax_left; apply cosD_neg_range; exact AB).
    destruct (Rlt_dec 1 n) as [N1|N1].
    + rewrite phys_fin by (try lra; apply c2_pos; left; exact N1). rewrite C0, phys_val_grazing by (try lra; apply c2_pos; left; exact N1).
      destruct (fclose #n #1); [unfold where_; destruct (Rleb 90 a)|]; reflexivity.
    + assert (n = 1) by lra. subst n. assert (Ha90 : 90 <= a) by lra.
      unfold physical, phys_n2. rewrite fclose_self. cbv zeta.
      unfold fgeb. rewrite fleb_fin, Rleb_t by exact Ha90; reflexivity.
Qed.
Print Assumptions C37_physical_range.
(** an AR-coated cover is also normalised at normal incidence *)
Theorem C37_physical_coated_normal : forall n n_ar K L, 0 < n -> 0 < n_ar -> physical #0 #n #K #L (Some #n_ar) = #1.
Proof. exact phys_coated_normal. Qed.
Print Assumptions C37_physical_coated_normal.
(** coated glass: air-coating-glass transmission with the multiple reflections in the coating, relative to normal incidence; an index within the comparison
    tolerance of 1 is no coating, one within it of the glass index is a plain cover of the coating's index *)
Theorem C37_physical_coated : forall n na K L th thc thg, 0 < n -> 0 < na -> 0.00001001 < Rabs (na - 1) -> 0.00000001 + 0.00001 * Rabs na < Rabs (n - na) ->
  0 < th < PI / 2 -> 0 < thc < PI / 2 -> 0 < thg < PI / 2 -> sin th = na * sin thc -> na * sin thc = n * sin thg ->
  physical #(Rdeg th) #n #K #L (Some #na) = #(tau_coated (K * L) th thc thg / tau_coated_normal na n (K * L)).
Proof. exact coat_fin. Qed.
Print Assumptions C37_physical_coated.
Theorem C37_physical_coating_ignored : forall n na a K L,
  (Rabs (na - 1) <= 0.00001001 -> physical a #n K L (Some #na) = physical a #n K L None) /\
  (0.00001001 < Rabs (na - 1) -> Rabs (n - na) <= 0.00000001 + 0.00001 * Rabs na -> physical a #n K L (Some #na) = physical a #na K L None).
Proof. intros. split; [apply coat_none|apply coat_glass]. Qed.
Print Assumptions C37_physical_coating_ignored.
(** above n = 2 + sqrt 3 the normalised transmittance exceeds 1 (the unrestricted claim is false) *)
Theorem C37_physical_above_one_refuted : forall n K, 2 + sqrt 3 < n ->
  exists a x, 0 < a < 90 /\ physical #a #n #K #0 None = #x /\ 1 < x.
Proof.
  intros n K H. assert (H3 : sqrt 3 * sqrt 3 = 3) by (apply sqrt_sqrt; lra). pose proof (sqrt_pos 3).
  assert (0 < (n - 2 - sqrt 3) * (n - 2 + sqrt 3)) by (apply Rmult_lt_0_compat; lra). apply physical_above_one; lra.
Qed.
Print Assumptions C37_physical_above_one_refuted.
Example C37_nonvacuous : 1 <= 1.526 /\ 1.526 <= 2 + sqrt 3 /\ fle #90 (fabs #120) /\ 0 < 0.16.
Proof. pose proof (sqrt_pos 3). repeat split; try lra. unfold fle. rewrite fabs_fin, fleb_fin. apply Rleb_t. rewrite Rabs_pos_eq; lra. Qed.

(** ** C38 *)
Theorem C38_martin_ruiz_error_iff : forall aoi ar,
  (exists v, martin_ruiz aoi ar = Ok v) <-> ~ fle ar #0.
Proof.
  intros aoi ar. unfold martin_ruiz, fle. destruct (fleb ar #0); split; [intros [v H]; discriminate|intros H; exfalso; auto|discriminate|eexists; reflexivity].
Qed.
Print Assumptions C38_martin_ruiz_error_iff.
Theorem C38_martin_ruiz_error_kind : forall aoi ar e, martin_ruiz aoi ar = Err e -> e = ValueError /\ fle ar #0.
Proof. intros aoi ar e. unfold martin_ruiz, fle. destruct (fleb ar #0); [intros [= <-]; auto|discriminate]. Qed.
Print Assumptions C38_martin_ruiz_error_kind.
(** interp: quadratic needs 3 points, cubic 4, any other method 2 *)
Theorem C38_interp : forall spline aoi theta iam method normalize,
  let needed := (if String.eqb method "quadratic" then 3 else if String.eqb method "cubic" then 4 else 2)%nat in
  let bad := (length theta < needed)%nat \/ (exists x, In x iam /\ flt x #0) \/
             ~ In method ["linear"; "quadratic"; "cubic"; "nearest"; "nearest-up"; "zero"; "slinear"; "previous"; "next"]%string in
  (bad -> interp spline aoi theta iam method normalize = Err ValueError) /\
  (~ bad -> exists v, interp spline aoi theta iam method normalize = Ok v /\
       v = (let raw := fmax (spline method theta iam (fabs aoi)) #0 in
            if normalize then fdiv raw (spline method theta iam #0) else raw)).
Proof.
  intros. unfold interp, interp_min_vals. fold needed.
  destruct (Nat.ltb_spec (length theta) needed) as [H1|H1].
  { split; [reflexivity|]. intros B. exfalso. apply B. left. exact H1. }
  destruct (existsb (fun x => fltb x #0) iam) eqn:H2.
  { split; [reflexivity|]. intros B. exfalso. apply B. right. left. apply existsb_exists in H2 as (x & I & L). exists x. auto. }
  destruct (mem method interp_methods) eqn:H3; cbn [negb].
  - split.
    + intros [B|[(x & I & L)|B]]; exfalso; [lia| |apply B; apply mem_In; exact H3].
      assert (existsb (fun x => fltb x #0) iam = true) by (apply existsb_exists; exists x; auto). congruence.
    + intros _. eexists. split; reflexivity.
  - split; [reflexivity|]. intros B. exfalso. apply B. right. right. intros I. apply (mem_In method interp_methods) in I. congruence.
Qed.
Print Assumptions C38_interp.
Theorem C38_interp_nonnegative : forall spline aoi theta iam method v,
  interp spline aoi theta iam method false = Ok v -> atleast #0 v.
Proof.
  intros spline aoi theta iam method v. unfold interp. destruct (Nat.ltb _ _); [discriminate|]. destruct (existsb _ _); [discriminate|].
  destruct (negb _); [discriminate|]. intros [= <-]. apply fmax_atleast.
Qed.
Print Assumptions C38_interp_nonnegative.
(** sapm is the clipped polynomial B0 + B1 aoi + ... + B5 aoi^5, 0 for negative aoi *)
Theorem C38_sapm : forall a b0 b1 b2 b3 b4 b5,
  let m := SapmB #b0 #b1 #b2 #b3 #b4 #b5 in
  let p := b0 + b1 * a + b2 * a ^ 2 + b3 * a ^ 3 + b4 * a ^ 4 + b5 * a ^ 5 in
  (a < 0 -> forall u, iam_sapm #a m u = #0) /\
  (0 <= a -> iam_sapm #a m None = #(Rmax p 0)) /\
  (0 <= a -> forall u, iam_sapm #a m (Some #u) = #(Rmin (Rmax p 0) u)).
Proof.
  intros. assert (EP : polyval [B5 m; B4 m; B3 m; B2 m; B1 m; B0 m] #a = #p).
  { unfold polyval, m; cbn [fold_left B0 B1 B2 B3 B4 B5]. rewrite !fmul_fin, !fadd_fin, ?fmul_fin, ?fadd_fin, ?fmul_fin, ?fadd_fin, ?fmul_fin, ?fadd_fin, ?fmul_fin, ?fadd_fin, ?fmul_fin, ?fadd_fin.
    f_equal. unfold p. ring. }
  unfold iam_sapm. rewrite EP. cbn [isnan negb]. rewrite fltb_fin. cbn [andb]. split; [|split]; intros H.
  - intros u. rewrite Rltb_t by exact H. reflexivity.
  - rewrite Rltb_f by exact H. reflexivity.
  - intros u. rewrite Rltb_f by exact H. reflexivity.
Qed.
Print Assumptions C38_sapm.
Theorem C38_sapm_bounds : forall aoi m,
  atleast #0 (iam_sapm aoi m None) /\
  (forall u, 0 <= u -> within #0 #u (iam_sapm aoi m (Some #u))) /\
  (forall u, flt aoi #0 -> iam_sapm aoi m u = #0).
Proof.
  intros aoi m. split; [apply sapm_lower; exact I|]. split.
  - intros u Hu. destruct (sapm_lower aoi m (Some #u)) as [H|H]; [apply fle_fin; exact Hu|left; exact H|].
    destruct (sapm_upper aoi m u Hu) as [H'|H']; [left; exact H'|right; split; assumption].
  - intros u H. unfold iam_sapm. unfold flt in H. rewrite H. destruct aoi; [reflexivity..|discriminate].
Qed.
Print Assumptions C38_sapm_bounds.
Example C38_nonvacuous : interp (fun _ _ _ x => x) #1 [#0; #90] [#1; #0] "linear" false = Ok (fmax (fabs #1) #0).
Proof.
  unfold interp, interp_min_vals. cbn [String.eqb length Nat.ltb Nat.leb]. cbn -[Rltb fmax fabs].
  rewrite (Rltb_f 1 0), (Rltb_f 0 0) by lra. reflexivity.
Qed.

(** ** C61 Marion integration *)
Theorem C61_weighted_average : forall f t r num lo hi, r <> OtherRegion ->
  (forall a, 0 <= a < 90 -> lo <= f a <= hi) ->
  exists v, marion_integrate f t r num = Ok v /\ (v = 0 \/ lo <= v <= hi).
Proof.
  intros f t r num lo hi Hr Hf.
  assert (E : exists n, region_num num r = Ok n) by (destruct r; try contradiction; eexists; reflexivity).
  destruct E as [n E]. destruct (marion_average f t r num n lo hi E) as (v & Ev & H).
  - intros p Hp q Hq. apply Hf. unfold q, marion_patch in *. cbn [fst snd] in *.
    destruct (Rltb_spec (acos (cos (Rrad t) * cos (fst p + 0.5 * (PI / INR n)) + sin (Rrad t) * sin (fst p + 0.5 * (PI / INR n)) * cos (snd p + 0.5 * (PI / INR n)))) (PI / 2)) as [L|L]; [|congruence].
    pose proof (acos_bound (cos (Rrad t) * cos (fst p + 0.5 * (PI / INR n)) + sin (Rrad t) * sin (fst p + 0.5 * (PI / INR n)) * cos (snd p + 0.5 * (PI / INR n)))) as [B _].
    split; [rewrite <- Rdeg_0; apply Rdeg_le; exact B|rewrite <- Rdeg_PI2; apply Rdeg_lt; exact L].
  - exists v. split; [exact Ev|]. destruct H as [[H _]|H]; auto.
Qed.
Print Assumptions C61_weighted_average.
(** a constant modifier is reproduced, unless no patch of the region is visible *)
Theorem C61_constant : forall c t r num, r <> OtherRegion ->
  exists v, marion_integrate (fun _ => c) t r num = Ok v /\ (v = 0 \/ v = c).
Proof.
  intros c t r num Hr. destruct (C61_weighted_average (fun _ => c) t r num c c Hr ltac:(intros; lra)) as (v & E & H).
  exists v. split; [exact E|]. lra.
Qed.
Print Assumptions C61_constant.
Theorem C61_errors : forall iam_of model t f num,
  (In model ["physical"; "ashrae"; "sapm"; "martin_ruiz"; "schlick"]%string <-> exists v, marion_diffuse iam_of model t = Ok v) /\
  (forall e, marion_diffuse iam_of model t = Err e -> e = ValueError) /\
  marion_integrate f t OtherRegion num = Err ValueError.
Proof.
  intros. unfold marion_diffuse. destruct (mem model marion_models) eqn:M.
  - split; [|split; [|reflexivity]].
    + split; [intros _; unfold marion_integrate; cbn [region_num bind]; eexists; reflexivity|intros _; apply (mem_In model marion_models), M].
    + unfold marion_integrate. cbn [region_num bind]. discriminate.
  - split; [|split; [|reflexivity]].
    + split; [intros H; apply (mem_In model marion_models) in H; congruence|intros [v H]; discriminate].
    + intros e [= <-]. reflexivity.
Qed.
Print Assumptions C61_errors.
Lemma marion_num f t r num n : region_num num r = Ok n -> marion_integrate f t r num = marion_integrate f t r (Some n).
Proof. intros H. unfold marion_integrate. rewrite H. destruct r; try discriminate; reflexivity. Qed.
(** marion_diffuse reports the three regions in order, each an average of the same modifier *)
Theorem C61_diffuse_regions : forall iam_of model t s h g, marion_diffuse iam_of model t = Ok (s, h, g) ->
  marion_integrate (iam_of model) t Sky (Some 180%nat) = Ok s /\
  marion_integrate (iam_of model) t Horizon (Some 1800%nat) = Ok h /\
  marion_integrate (iam_of model) t Ground (Some 180%nat) = Ok g.
Proof.
  intros iam_of model t s h g. unfold marion_diffuse. destruct (mem model marion_models); [|discriminate].
  rewrite (marion_num (iam_of model) t Sky None 180 eq_refl), (marion_num (iam_of model) t Horizon None 1800 eq_refl), (marion_num (iam_of model) t Ground None 180 eq_refl).
  generalize (marion_integrate (iam_of model) t Sky (Some 180%nat)) (marion_integrate (iam_of model) t Horizon (Some 1800%nat)) (marion_integrate (iam_of model) t Ground (Some 180%nat)).
  intros [A|] [B|] [C|]; cbn [bind]; try discriminate. intros [= <- <- <-]. repeat split; reflexivity.
Qed.
Print Assumptions C61_diffuse_regions.
(** averages of modifiers with values in [0,1] stay in [0,1]: e.g. schlick *)
Theorem C61_schlick_average : forall t r num, r <> OtherRegion ->
  exists v, marion_integrate (fun a => 1 - (1 - cosD a) ^ 5) t r num = Ok v /\ 0 <= v <= 1.
Proof.
  intros t r num Hr. destruct (C61_weighted_average (fun a => 1 - (1 - cosD a) ^ 5) t r num 0 1 Hr) as (v & E & H).
  - intros a Ha. pose proof (cosD_bound a). assert (0 <= cosD a) by (apply cosD_nonneg; lra).
    pose proof (pow5_range (1 - cosD a) ltac:(lra)). lra.
  - exists v. split; [exact E|]. lra.
Qed.
Print Assumptions C61_schlick_average.

(** ** C62 convert and fit *)
Theorem C62_convert_errors : forall mini src params tgt weight fix_n,
  (~ In src iam_convertible \/ ~ In tgt iam_convertible -> convert mini src params tgt weight fix_n = Err NotImplementedError) /\
  (In src iam_convertible -> In tgt iam_convertible ->
     ~ (forall k, In k (map fst params) <->
          In k (if String.eqb src "ashrae" then ["b"] else if String.eqb src "martin_ruiz" then ["a_r"] else ["n"; "K"; "L"])%string) ->
     convert mini src params tgt weight fix_n = Err ValueError).
Proof.
  intros. unfold convert. split.
  - intros [H|H].
    + destruct (mem src iam_convertible) eqn:M; [apply mem_In in M; contradiction|reflexivity].
    + destruct (mem tgt iam_convertible) eqn:M; [apply mem_In in M; contradiction|]. destruct (negb (mem src iam_convertible)); reflexivity.
  - intros Hs Ht HK. rewrite (proj2 (mem_In src iam_convertible) Hs), (proj2 (mem_In tgt iam_convertible) Ht). cbn [negb].
    destruct (same_keys (map fst params) (iam_model_params src)) eqn:SK; [|reflexivity]. exfalso. apply HK. intros k.
    unfold same_keys in SK. apply andb_prop in SK as [S1 S2]. rewrite forallb_forall in S1, S2.
    assert (EI : In k (iam_model_params src) <-> In k (if String.eqb src "ashrae" then ["b"] else if String.eqb src "martin_ruiz" then ["a_r"] else ["n"; "K"; "L"])%string).
    { cbn [In iam_convertible] in Hs. destruct Hs as [<-|[<-|[<-|[]]]]; reflexivity. }
    rewrite <- EI. split; intros H; [apply mem_In, S1, H|apply mem_In, S2, H].
Qed.
Print Assumptions C62_convert_errors.
(** finding: converting physical to physical crashes whatever the parameters *)
Theorem C62_physical_to_physical_crashes : forall mini n K L weight fix_n,
  convert mini "physical" [("n", n); ("K", K); ("L", L)]%string "physical" weight fix_n = Err UnboundLocalError.
Proof.
  intros. unfold convert. cbn [iam_convertible mem existsb String.eqb Ascii.eqb Bool.eqb orb negb same_keys forallb andb map fst iam_model_params
    source_params getitem lookup bind].
  assert (M : forall l, exists t, mapM (iam_eval (PPhysical n K L)) l = Ok t).
  { induction l as [|a l (t & E)]; [exists []; reflexivity|]. cbn [mapM]. unfold iam_eval at 1. unfold bind. rewrite E. eauto. }
  destruct (M convert_aoi) as (t & ->). reflexivity.
Qed.
Print Assumptions C62_physical_to_physical_crashes.
(** what comes back has the target's parameters; for the physical model K = 4 and L <= n *)
Theorem C62_convert_result : forall mini src params tgt weight fix_n p,
  convert mini src params tgt weight fix_n = Ok p ->
  (tgt = "ashrae" /\ exists b, p = PAshrae b)%string \/ (tgt = "martin_ruiz" /\ exists a, p = PMartinRuiz a)%string \/
  (tgt = "physical" /\ exists n L, p = PPhysical n 4 L /\ L <= n)%string.
Proof.
  intros mini src params tgt weight fix_n p. unfold convert. destruct (negb (mem src _)); [discriminate|].
  destruct (mem tgt iam_convertible) eqn:M; [|discriminate]. cbn [negb]. destruct (negb _); [discriminate|].
  destruct (source_params src params) as [sp|]; [|discriminate]. cbn [bind]. destruct (mapM _ _) as [si|]; [|discriminate]. cbn [bind].
  destruct (convert_setup src params tgt fix_n) as [gb|]; [|discriminate]. cbn [bind]. destruct (mini _ (fst gb) (snd gb)) as [x|]; [|discriminate]. cbn [bind].
  apply mem_In in M. cbn [In iam_convertible] in M. destruct M as [<-|[<-|[<-|[]]]]; unfold process_return; cbn [String.eqb Ascii.eqb Bool.eqb];
    destruct x as [|x0 [|x1 [|]]]; try discriminate.
  - intros [= <-]. left. split; [reflexivity|eauto].
  - intros [= <-]. right. left. split; [reflexivity|eauto].
  - right. right. split; [reflexivity|]. destruct (Rltb_spec x1 x0) as [L|L]; injection H as <-; do 2 eexists; (split; [reflexivity|]); lra.
Qed.
Print Assumptions C62_convert_result.
Theorem C62_fit : forall mini aois iams model weight p, fit mini aois iams model weight = Ok p ->
  (model = "ashrae" /\ exists b, p = PAshrae b)%string \/ (model = "martin_ruiz" /\ exists a, p = PMartinRuiz a)%string \/
  (model = "physical" /\ exists n L, p = PPhysical n 4 L /\ L <= n)%string.
Proof.
  intros mini aois iams model weight p. unfold fit. destruct (mem model iam_convertible) eqn:M; [|discriminate]. cbn [negb].
  destruct (mini _ _ _) as [x|]; [|discriminate]. cbn [bind].
  apply mem_In in M. cbn [In iam_convertible] in M. destruct M as [<-|[<-|[<-|[]]]]; unfold process_return; cbn [String.eqb Ascii.eqb Bool.eqb];
    destruct x as [|x0 [|x1 [|]]]; try discriminate.
  - intros [= <-]. left. split; [reflexivity|eauto].
  - intros [= <-]. right. left. split; [reflexivity|eauto].
  - right. right. split; [reflexivity|]. destruct (Rltb_spec x1 x0) as [L|L]; injection H as <-; do 2 eexists; (split; [reflexivity|]); lra.
Qed.
Print Assumptions C62_fit.
Theorem C62_fit_unknown : forall mini aois iams weight model, ~ In model ["ashrae"; "martin_ruiz"; "physical"]%string -> fit mini aois iams model weight = Err NotImplementedError.
Proof. intros mini aois iams weight model H. unfold fit. destruct (mem model iam_convertible) eqn:M; [apply mem_In in M; contradiction|reflexivity]. Qed.
Print Assumptions C62_fit_unknown.
(** an optimiser whose answer is inside the box and no worse than any other point of the box *)
Definition finds_minimum (mini : optimizer) : Prop := forall f guess box x, mini f guess box = Ok x ->
  inside x box /\ forall y u v, inside y box -> f x = Ok #u -> f y = Ok #v -> u <= v.
(** the parameter sets a fit chooses from *)
Definition fit_range (model : string) (p : iam_params) : Prop :=
  (model = "ashrae" /\ exists b, p = PAshrae b /\ 1e-8 <= b <= 1)%string \/
  (model = "martin_ruiz" /\ exists a, p = PMartinRuiz a /\ 1e-8 <= a <= 1)%string \/
  (model = "physical" /\ exists n L, p = PPhysical n 4 L /\ 1 <= n <= 2 /\ 0 <= L <= 0.08)%string.
(** fit returns the parameters with the smallest weighted misfit to the measured points *)
Theorem C62_fit_minimises_misfit : forall mini pts model weight w p, finds_minimum mini -> (forall a, weight #a = #(w a)) ->
  fit mini (map (fun p => #(fst p)) pts) (map (fun p => #(snd p)) pts) model weight = Ok p ->
  fit_range model p /\ forall q, fit_range model q -> misfit w (value_of p) pts <= misfit w (value_of q) pts.
Proof.
  intros mini pts model weight w p HM HW. fold (ptsa pts) (ptsm pts). unfold fit. destruct (mem model iam_convertible) eqn:M; [|discriminate]. cbn [negb].
  destruct (mini _ _ _) as [x|] eqn:EX; [|discriminate]. cbn [bind]. destruct (HM _ _ _ _ EX) as [HI HB]. clear EX.
  assert (OPT : forall q y, proper p -> proper q -> target_params false model x = Ok p -> target_params false model y = Ok q ->
     inside y (snd (fit_setup model)) -> misfit w (value_of p) pts <= misfit w (value_of q) pts).
  { intros q y Hp Hq Ex Ey Iy. apply (HB y _ _ Iy); apply objective_target; assumption. }
  apply mem_In in M. cbn [In iam_convertible] in M. unfold inside in *.
  destruct M as [<-|[<-|[<-|[]]]]; cbn [fit_setup String.eqb Ascii.eqb Bool.eqb fst snd] in *; unfold process_return; cbn [String.eqb Ascii.eqb Bool.eqb].
  - inversion HI as [|x0 b0 x' b' H0 H']; subst. inversion H'; subst. cbn [fst snd] in *. intros [= <-].
    split; [left; split; [reflexivity|]; exists x0; split; [reflexivity|lra]|].
    intros q [[_ (b & -> & Hb)]|[[E _]|[E _]]]; try discriminate. apply (OPT _ [b]); cbn [proper]; try reflexivity; auto.
    all: repeat (apply Forall2_cons || apply Forall2_nil); cbn [fst snd]; lra.
  - inversion HI as [|x0 b0 x' b' H0 H']; subst. inversion H'; subst. cbn [fst snd] in *. intros [= <-].
    split; [right; left; split; [reflexivity|]; exists x0; split; [reflexivity|lra]|].
    intros q [[E _]|[[_ (b & -> & Hb)]|[E _]]]; try discriminate. apply (OPT _ [b]); cbn [proper]; try reflexivity; try lra.
    all: repeat (apply Forall2_cons || apply Forall2_nil); cbn [fst snd]; lra.
  - inversion HI as [|x0 b0 x' b' H0 H']; subst. inversion H' as [|x1 b1 x'' b'' H1 H'']; subst. inversion H''; subst. cbn [fst snd] in *.
    destruct (Rltb_spec x1 x0) as [L|L]; [lra|]. intros [= <-].
    split; [right; right; split; [reflexivity|]; exists x1, x0; split; [reflexivity|lra]|].
    intros q [[E _]|[[E _]|[_ (n & L0 & -> & Hn & HL)]]]; try discriminate. apply (OPT _ [L0; n]); cbn [proper]; try reflexivity; try lra.
    all: repeat (apply Forall2_cons || apply Forall2_nil); cbn [fst snd]; lra.
Qed.
Print Assumptions C62_fit_minimises_misfit.
(** how the optimiser is started *)
Theorem C62_fit_start : forall mini aois iams weight,
  (exists f, fit mini aois iams "physical" weight = (let* x := mini f [0.002; 1 + 1e-8] [(0, 0.08); (1, 2)] in process_return "physical" x)) /\
  (forall m, m = "ashrae"%string \/ m = "martin_ruiz"%string ->
   exists f, fit mini aois iams m weight = (let* x := mini f [0.05] [(1e-8, 1)] in process_return m x)).
Proof.
  intros. split.
  - eexists. unfold fit. cbn [mem existsb iam_convertible String.eqb Ascii.eqb Bool.eqb orb negb fit_setup fst snd].
    replace 0.00000001 with 1e-8 by lra. reflexivity.
  - intros m [->| ->]; eexists; unfold fit; cbn [mem existsb iam_convertible String.eqb Ascii.eqb Bool.eqb orb negb fit_setup fst snd];
    replace 0.00000001 with 1e-8 by lra; reflexivity.
Qed.
Print Assumptions C62_fit_start.
(** the parameter sets convert chooses from *)
Definition convert_range (src : string) (params : list (string * R)) (tgt : string) (fix_n : bool) (p : iam_params) : Prop :=
  (tgt = "ashrae" /\ exists b, p = PAshrae b /\ 1e-4 <= b <= 1)%string \/
  (tgt = "martin_ruiz" /\ exists a, p = PMartinRuiz a /\ 1e-4 <= a <= 1)%string \/
  (tgt = "physical" /\ exists n L, p = PPhysical n 4 L /\ 1e-6 <= L <= 0.08 /\
     ((src = "martin_ruiz" /\ 1.05 <= n <= 2) \/
      (src = "ashrae" /\ fix_n = false /\ 0.8 <= n <= 2) \/
      (src = "ashrae" /\ fix_n = true /\ exists b, params = [("b", b)] /\ sind (ashrae_intercept #b) = #n)))%string.
(** convert returns the target parameters closest to the source curve at the 91 whole degrees *)
Theorem C62_convert_minimises_misfit : forall mini src params sp tgt weight w fix_n (s : R -> R) p,
  finds_minimum mini -> (forall a, weight #a = #(w a)) ->
  (src = "ashrae" /\ (exists b, params = [("b", b)] /\ sp = PAshrae b /\ 0 < b <= 300) \/
   src = "martin_ruiz" /\ (exists a, params = [("a_r", a)] /\ sp = PMartinRuiz a) \/
   src = "physical" /\ (exists n K L, params = [("n", n); ("K", K); ("L", L)] /\ sp = PPhysical n K L))%string ->
  (forall a, 0 <= a <= 90 -> iam_eval sp #a = Ok #(s a)) ->
  convert mini src params tgt weight fix_n = Ok p ->
  convert_range src params tgt fix_n p /\
  forall q, convert_range src params tgt fix_n q ->
    let pts := map (fun k => (INR k, s (INR k))) (seq 0 91) in misfit w (value_of p) pts <= misfit w (value_of q) pts.
Proof.
  intros mini src params sp tgt weight w fix_n s p HM HW HS HE. set (pts := map (fun k => (INR k, s (INR k))) (seq 0 91)).
  assert (ESP : source_params src params = Ok sp /\ mem src iam_convertible = true /\ same_keys (map fst params) (iam_model_params src) = true).
  { destruct HS as [(-> & b & -> & -> & _)|[(-> & a & -> & ->)|(-> & n & K & L & -> & ->)]]; repeat split; reflexivity. }
  destruct ESP as (ESP & ES & EK). unfold convert. rewrite ES, EK, ESP. cbn [negb bind].
  destruct (mem tgt iam_convertible) eqn:M; [|discriminate]. cbn [negb].
  assert (EA : convert_aoi = ptsa pts).
  { unfold convert_aoi, ptsa, pts. rewrite map_map. reflexivity. }
  assert (EI : mapM (iam_eval sp) convert_aoi = Ok (ptsm pts)).
  { unfold convert_aoi, ptsm, pts. rewrite map_map. cbn [snd].
    assert (HL : forall k, In k (seq 0 91) -> 0 <= INR k <= 90).
    { intros k Hk. apply in_seq in Hk. split; [apply pos_INR|]. replace 90 with (INR 90) by (simpl; lra). apply le_INR. lia. }
    revert HL. generalize (seq 0 91). induction l as [|k l IH]; intros HL; [reflexivity|]. cbn [map mapM]. rewrite HE by (apply HL; left; reflexivity).
    unfold bind. rewrite IH by (intros; apply HL; right; assumption). reflexivity. }
  rewrite EI. cbn [bind]. rewrite EA. destruct (convert_setup src params tgt fix_n) as [[g bx]|] eqn:EC; [|discriminate]. cbn [bind fst snd].
  destruct (mini _ _ _) as [x|] eqn:EX; [|discriminate]. cbn [bind]. destruct (HM _ _ _ _ EX) as [HI HB]. clear EX.
  assert (OPT : forall q y, proper p -> proper q -> target_params (String.eqb src "martin_ruiz") tgt x = Ok p ->
     target_params (String.eqb src "martin_ruiz") tgt y = Ok q ->
     inside y bx -> misfit w (value_of p) pts <= misfit w (value_of q) pts).
  { intros q y Hp Hq Ex Ey Iy. apply (HB y _ _ Iy); apply objective_target; assumption. }
  apply mem_In in M. cbn [In iam_convertible] in M. unfold inside in *.
  destruct M as [<-|[<-|[<-|[]]]]; unfold convert_setup in EC; cbn [String.eqb Ascii.eqb Bool.eqb fst snd] in EC; unfold process_return; cbn [String.eqb Ascii.eqb Bool.eqb].
  - injection EC as <- <-. inversion HI as [|x0 b0 x' b' H0 H']; subst. inversion H'; subst. cbn [fst snd] in *. intros [= <-].
    split; [left; split; [reflexivity|]; exists x0; split; [reflexivity|lra]|].
    intros q [[_ (b & -> & Hb)]|[[E _]|[E _]]]; try discriminate. apply (OPT _ [b]); cbn [proper]; try reflexivity; auto.
    all: repeat (apply Forall2_cons || apply Forall2_nil); cbn [fst snd]; lra.
  - injection EC as <- <-. inversion HI as [|x0 b0 x' b' H0 H']; subst. inversion H'; subst. cbn [fst snd] in *. intros [= <-].
    split; [right; left; split; [reflexivity|]; exists x0; split; [reflexivity|lra]|].
    intros q [[E _]|[[_ (b & -> & Hb)]|[E _]]]; try discriminate. apply (OPT _ [b]); cbn [proper]; try reflexivity; try lra.
    all: repeat (apply Forall2_cons || apply Forall2_nil); cbn [fst snd]; lra.
  - destruct HS as [(-> & b & -> & -> & Hb)|[(-> & a & -> & ->)|(-> & n & K & L & -> & ->)]]; cbn [String.eqb Ascii.eqb Bool.eqb getitem lookup bind] in EC;
      [| |discriminate].
    + (* ashrae *)
      destruct fix_n.
      * destruct (intercept_sin b Hb) as (n0 & En & Hn0). rewrite En in EC. injection EC as <- <-.
        inversion HI as [|x0 b0 x' b' H0 H']; subst. inversion H' as [|x1 b1 x'' b'' H1 H'']; subst. inversion H''; subst. cbn [fst snd] in *.
        destruct (Rltb_spec x1 x0) as [L|L]; [lra|]. intros [= <-].
        split; [right; right; split; [reflexivity|]; exists x1, x0; split; [reflexivity|]; split; [lra|]; right; right;
           split; [reflexivity|]; split; [reflexivity|]; exists b; split; [reflexivity|]; rewrite En; f_equal; lra|].
        intros q [[E _]|[[E _]|[_ (n & L0 & -> & HL & [[E _]|[(_ & E & _)|(_ & _ & b' & Eb & Hn)]])]]]; try discriminate.
        injection Eb as <-. rewrite En in Hn. apply Fin_inj in Hn. subst n.
        apply (OPT _ [L0; n0]); cbn [proper]; try reflexivity; try lra.
        all: repeat (apply Forall2_cons || apply Forall2_nil); cbn [fst snd]; lra.
      * injection EC as <- <-.
        inversion HI as [|x0 b0 x' b' H0 H']; subst. inversion H' as [|x1 b1 x'' b'' H1 H'']; subst. inversion H''; subst. cbn [fst snd] in *.
        destruct (Rltb_spec x1 x0) as [L|L]; [lra|]. intros [= <-].
        split; [right; right; split; [reflexivity|]; exists x1, x0; split; [reflexivity|]; split; [lra|]; right; left;
           split; [reflexivity|]; split; [reflexivity|]; lra|].
        intros q [[E _]|[[E _]|[_ (n & L0 & -> & HL & [[E _]|[(_ & _ & Hn)|(_ & E & _)]])]]]; try discriminate.
        apply (OPT _ [L0; n]); cbn [proper]; try reflexivity; try lra.
        all: repeat (apply Forall2_cons || apply Forall2_nil); cbn [fst snd]; lra.
    + (* martin_ruiz *)
      destruct (Rltb 0.22 a); injection EC as <- <-;
      inversion HI as [|x0 b0 x' b' H0 H']; subst; inversion H' as [|x1 b1 x'' b'' H1 H'']; subst; inversion H''; subst; cbn [fst snd] in *;
      [rewrite (Rltb_t x1 x0) by lra|rewrite (Rltb_f x1 x0) by lra]; intros [= <-].
      * split; [right; right; split; [reflexivity|]; exists x0, x1; split; [reflexivity|]; split; [lra|]; left; split; [reflexivity|]; lra|].
        intros q [[E _]|[[E _]|[_ (n & L0 & -> & HL & [[_ Hn]|[(E & _)|(E & _)]])]]]; try discriminate.
        apply (OPT _ [n; L0]); cbn [proper target_params String.eqb Ascii.eqb Bool.eqb]; try lra;
          [rewrite Rltb_f by lra; reflexivity|rewrite Rltb_f by lra; reflexivity|repeat (apply Forall2_cons || apply Forall2_nil); cbn [fst snd]; lra].
      * split; [right; right; split; [reflexivity|]; exists x1, x0; split; [reflexivity|]; split; [lra|]; left; split; [reflexivity|]; lra|].
        intros q [[E _]|[[E _]|[_ (n & L0 & -> & HL & [[_ Hn]|[(E & _)|(E & _)]])]]]; try discriminate.
        apply (OPT _ [L0; n]); cbn [proper target_params String.eqb Ascii.eqb Bool.eqb]; try lra;
          [rewrite Rltb_t by lra; reflexivity|rewrite Rltb_t by lra; reflexivity|repeat (apply Forall2_cons || apply Forall2_nil); cbn [fst snd]; lra].
Qed.
Print Assumptions C62_convert_minimises_misfit.
(** a martin_ruiz source needs a positive parameter *)
Theorem C62_martin_ruiz_source : forall mini a tgt weight fix_n, In tgt ["ashrae"; "martin_ruiz"; "physical"]%string -> a <= 0 ->
  convert mini "martin_ruiz" [("a_r", a)]%string tgt weight fix_n = Err ValueError.
Proof.
  intros mini a tgt weight fix_n HT Ha. unfold convert.
  replace (mem tgt iam_convertible) with true by (symmetry; apply mem_In; exact HT).
  cbn [iam_convertible mem existsb String.eqb Ascii.eqb Bool.eqb orb negb same_keys forallb andb map fst iam_model_params source_params getitem lookup bind].
  change convert_aoi with (#(INR 0) :: map (fun k => #(INR k)) (seq 1 90)). cbn [mapM iam_eval]. unfold martin_ruiz at 1. rewrite fleb_fin, Rleb_t by exact Ha. reflexivity.
Qed.
Print Assumptions C62_martin_ruiz_source.
(** the optimiser is started inside the bounds it is given *)
Theorem C62_guess_within_bounds : forall src params tgt fix_n g b,
  convert_setup src params tgt fix_n = Ok (g, b) -> Forall2 (fun x lh => fst lh <= x <= snd lh) g b.
Proof.
  intros src params tgt fix_n g b. unfold convert_setup. destruct (String.eqb tgt "physical").
  - destruct (String.eqb src "ashrae").
    + destruct (getitem params "b"); [|discriminate]. cbn [bind]. destruct fix_n.
      * destruct (sind (ashrae_intercept #a)); try discriminate. intros [= <- <-]. repeat constructor; cbn [fst snd]; lra.
      * intros [= <- <-]. repeat constructor; cbn [fst snd]; lra.
    + destruct (String.eqb src "martin_ruiz"); [|discriminate]. destruct (getitem params "a_r"); [|discriminate]. cbn [bind].
      destruct (Rltb 0.22 a); intros [= <- <-]; repeat constructor; cbn [fst snd]; lra.
  - intros [= <- <-]. repeat constructor; cbn [fst snd]; lra.
Qed.
Print Assumptions C62_guess_within_bounds.
(** fix_n: the physical model with the n chosen by convert has the same zero as the ashrae model it replaces:
    positive below the intercept, 0 at it, not a number above (where the fit treats it as 0) *)
Theorem C62_fix_n_same_intercept : forall b K L, 0 < b -> 0 < K * L ->
  exists a n, 0 < a < 90 /\ sind (ashrae_intercept #b) = #n /\
    convert_setup "ashrae" [("b", b)]%string "physical" true = Ok ([0.002; n], [(0.000001, 0.08); (n, n)]) /\
    ashrae #a #b = #0 /\ (forall x, 0 <= x < a -> exists y, ashrae #x #b = #y /\ 0 < y) /\
    physical #a #n #K #L None = #0 /\
    (forall x, 0 <= x < a -> exists y, physical #x #n #K #L None = #y /\ 0 < y) /\
    (forall x, a < x < 90 -> physical #x #n #K #L None = NaN).
Proof.
  intros b K L Hb HK. destruct (ashrae_intercept_zero b Hb) as (a & Ea & Ha & E0 & Epos).
  exists a, (sinD a). split; [exact Ha|]. assert (ES : sind (ashrae_intercept #b) = #(sinD a)) by (rewrite Ea; apply sind_fin).
  assert (Sp : 0 < sinD a) by (apply sinD_pos; lra).
  assert (MONO : forall x y, 0 <= x -> x < y -> y <= 90 -> sinD x < sinD y).
  { intros x y H1 H2 H3. unfold sinD. apply sin_increasing_1.
    - assert (Rrad 0 <= Rrad x) by (apply Rrad_le; lra). rewrite Rrad_0 in H. pose proof PI_RGT_0. lra.
    - rewrite <- Rrad_90. apply Rrad_le. lra.
    - assert (Rrad 0 <= Rrad y) by (apply Rrad_le; lra). rewrite Rrad_0 in H. pose proof PI_RGT_0. lra.
    - rewrite <- Rrad_90. apply Rrad_le. lra.
    - apply Rrad_lt. exact H2. }
  split; [exact ES|]. split.
  - unfold convert_setup. cbn [String.eqb Ascii.eqb Bool.eqb]. cbn [getitem lookup String.eqb Ascii.eqb Bool.eqb bind]. rewrite ES. reflexivity.
  - split; [exact E0|]. split; [exact Epos|]. split; [apply phys_at_critical; auto|]. split.
    + intros x Hx. apply phys_below_critical; [exact Sp|lra|]. apply MONO; lra.
    + intros x Hx. apply phys_beyond_critical; [exact Sp|lra|]. apply MONO; lra.
Qed.
Print Assumptions C62_fix_n_same_intercept.
Example C62_nonvacuous : convert (fun f g _ => Ok g) "martin_ruiz" [("a_r", 0.3)]%string "physical" (fun _ => #1) false = Ok (PPhysical 1.1 4 0.002).
Proof.
  unfold convert. cbn [iam_convertible mem existsb String.eqb Ascii.eqb Bool.eqb orb negb same_keys forallb andb map fst iam_model_params source_params getitem lookup bind].
  destruct (mapM_eval (PMartinRuiz 0.3) (map INR (seq 0 91)) ltac:(cbn; lra)) as (t & E & _). rewrite map_map in E. fold convert_aoi in E. rewrite E.
  cbn -[Rltb]. rewrite Rltb_t by lra. cbn -[Rltb]. rewrite Rltb_t by lra. reflexivity.
Qed.
(** an optimiser that meets the contract: it reports failure *)
Example C62_contract_satisfiable : finds_minimum (fun _ _ _ => Err RuntimeError) /\
  (forall a, 0 <= a <= 90 -> exists y, iam_eval (PAshrae 0.05) #a = Ok #y) /\ fit_range "physical" (PPhysical 1.5 4 0.002).
Proof.
  split; [intros f g b x H; discriminate|]. split.
  - intros a Ha. cbn [iam_eval]. rewrite ashrae_R by lra. eauto.
  - right. right. split; [reflexivity|]. exists 1.5, 0.002. split; [reflexivity|]. lra.
Qed.

(** ** C63 analytic diffuse modifiers *)
(** the two singular tilts are nudged by a millionth of a degree *)
Theorem C63_martin_ruiz_limits : forall ar c1 c2,
  martin_ruiz_diffuse #0 ar c1 c2 = martin_ruiz_diffuse #0.000001 ar c1 c2 /\
  martin_ruiz_diffuse #180 ar c1 c2 = martin_ruiz_diffuse #(180 - 0.000001) ar c1 c2.
Proof.
  intros ar c1 c2. unfold martin_ruiz_diffuse.
  assert (E0 : mrd_tilt #0 = mrd_tilt #0.000001).
  { unfold mrd_tilt. cbn [feqb]. rewrite Reqb_t by reflexivity. rewrite (Reqb_f 0.000001 0) by lra. reflexivity. }
  assert (E1 : mrd_tilt #180 = mrd_tilt #(180 - 0.000001)).
  { unfold mrd_tilt. cbn [feqb]. rewrite (Reqb_f 180 0) by lra. rewrite (Reqb_f (180 - 0.000001) 0) by lra. cbn [where_ feqb].
    rewrite Reqb_t by reflexivity. rewrite (Reqb_f (180 - 0.000001) 180) by lra. reflexivity. }
  rewrite E0, E1. split; reflexivity.
Qed.
Print Assumptions C63_martin_ruiz_limits.
(** martin_ruiz_diffuse: the ground value at tilt t is the sky value at 180 - t *)
Theorem C63_martin_ruiz_symmetry : forall t ar c1 c2, 0 < t < 180 -> ar <> 0 ->
  fst (martin_ruiz_diffuse #t #ar #c1 (Some #c2)) = snd (martin_ruiz_diffuse #(180 - t) #ar #c1 (Some #c2)) /\
  snd (martin_ruiz_diffuse #t #ar #c1 (Some #c2)) = fst (martin_ruiz_diffuse #(180 - t) #ar #c1 (Some #c2)).
Proof.
  intros t ar k1 k2 Ht Ha. rewrite (mrd_fin t), (mrd_fin (180 - t)) by (try exact Ha; lra). cbn [fst snd].
  replace (180 - (180 - t)) with t by ring. split; reflexivity.
Qed.
Print Assumptions C63_martin_ruiz_symmetry.
Theorem C63_martin_ruiz_default_c2 : forall t ar c1,
  martin_ruiz_diffuse t #ar c1 None = martin_ruiz_diffuse t #ar c1 (Some #(0.5 * ar - 0.154)).
Proof. intros. reflexivity. Qed.
Print Assumptions C63_martin_ruiz_default_c2.
(** the exact values, in closed form *)
Theorem C63_martin_ruiz_value : forall t ar c1 c2, 0 < t < 180 -> ar <> 0 ->
  let b := Rrad t in
  let sky := sin b + (PI - b - sin b) / (1 + cos b) in
  let gnd := sin b + (b - sin b) / (1 - cos b) in
  martin_ruiz_diffuse #t #ar #c1 (Some #c2) = (#(1 - exp (- (c1 + c2 * sky) * sky / ar)), #(1 - exp (- (c1 + c2 * gnd) * gnd / ar))).
Proof.
  intros t ar k1 k2 Ht Ha b sky gnd. rewrite mrd_fin by assumption. fold b.
  assert (EG : mrt (Rrad (180 - t)) = gnd).
  { unfold mrt, gnd, b. rewrite Rrad_minus, Rrad_180, sin_PI_x, cos_minus, cos_PI, sin_PI.
    replace (PI - (PI - Rrad t) - sin (Rrad t)) with (Rrad t - sin (Rrad t)) by ring.
    replace (1 + (-1 * cos (Rrad t) + 0 * sin (Rrad t))) with (1 - cos (Rrad t)) by ring. reflexivity. }
  rewrite EG. reflexivity.
Qed.
Print Assumptions C63_martin_ruiz_value.
(** schlick_diffuse: sky and ground values, weighted by their view factors, add up to the hemispherical value 20/21 *)
Theorem C63_schlick_closure : forall t, 0.000001 <= t < 180 ->
  exists s g, schlick_diffuse #t = (#s, #g) /\ s * ((1 + cosD t) / 2) + g * ((1 - cosD t) / 2) = 20 / 21.
Proof.
  intros t Ht.
  assert (HC : -1 < cosD t < 1).
  { unfold cosD. split; [rewrite <- cos_PI|rewrite <- cos_0]; apply cos_decreasing_1;
      try (rewrite <- Rrad_0; apply Rrad_le; lra); try (rewrite <- Rrad_180; apply Rrad_le; lra);
      try (rewrite <- Rrad_180; apply Rrad_lt; lra); try (rewrite <- Rrad_0; apply Rrad_lt; lra); pose proof PI_RGT_0; lra. }
  rewrite schlick_diffuse_fin by exact HC. rewrite Rltb_f by lra. do 2 eexists. split; [reflexivity|]. field. lra.
Qed.
Print Assumptions C63_schlick_closure.
Theorem C63_schlick_flat : schlick_diffuse #0 = (#(20/21), #0).
Proof.
  unfold schlick_diffuse. rewrite cosd_fin, sind_fin, fradians_fin, cosD_0, sinD_0, Rrad_0. cbv zeta.
  pose proof PI_RGT_0. rewrite fltb_fin, Rltb_t by lra. unfold where_.
  repeat first [rewrite !fpown_fin | rewrite !fmul_fin | rewrite !fadd_fin | rewrite !fsub_fin].
  rewrite (fdiv_fin 2) by nra. rewrite fmul_fin. apply f_equal2; [|reflexivity]. f_equal. field. lra.
Qed.
Print Assumptions C63_schlick_flat.
Example C63_nonvacuous : 0 < 30 < 180 /\ 0.000001 <= 30 < 180 /\ 0.16 <> 0. Proof. repeat split; lra. Qed.
