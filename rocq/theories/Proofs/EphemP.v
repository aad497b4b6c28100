(** Proofs about [ephemeris]. *)
From Verif Require Import Base.Fl Base.FlFacts Base.Py Base.Trig Model.SolarPosition Spec.SolarSpec Proofs.SolarP.
From Coq Require Import ZArith Psatz.
Open Scope R_scope.

(** *** Kepler's equation *)
Lemma sin_lip x y : Rabs (sin x - sin y) <= Rabs (x - y).
Proof.
  destruct (Rtotal_order x y) as [H|[H|H]].
  - destruct (MVT_cor2 sin cos x y H (fun c _ => derivable_pt_lim_sin c)) as (c & E & _).
    rewrite (Rabs_minus_sym (sin x)), (Rabs_minus_sym x), E, Rabs_mult. pose proof (COS_bound c). pose proof (Rabs_pos (y - x)).
    assert (Rabs (cos c) <= 1) by (apply Rabs_le; lra). nra.
  - subst. rewrite !Rminus_diag_eq, Rabs_R0 by reflexivity. lra.
  - destruct (MVT_cor2 sin cos y x H (fun c _ => derivable_pt_lim_sin c)) as (c & E & _).
    rewrite E, Rabs_mult. pose proof (COS_bound c). pose proof (Rabs_pos (x - y)).
    assert (Rabs (cos c) <= 1) by (apply Rabs_le; lra). nra.
Qed.
Lemma step_lip s a b : Rabs (eccen s) <= 0.02 -> Rabs (kepler_step s a - kepler_step s b) <= 0.02 * Rabs (a - b).
Proof.
  intros H. unfold kepler_step.
  replace (mean_anom s + Rdeg (eccen s) * sin (Rrad a) - (mean_anom s + Rdeg (eccen s) * sin (Rrad b)))
    with (eccen s * (180 / PI * (sin (Rrad a) - sin (Rrad b)))) by (unfold Rdeg; field; apply PI_neq0).
  rewrite !Rabs_mult. pose proof PI_RGT_0 as P.
  assert (Q : 0 < 180 / PI) by (apply Rdiv_lt_0_compat; lra). rewrite (Rabs_right (180 / PI)) by lra.
  assert (K : 180 / PI * Rabs (sin (Rrad a) - sin (Rrad b)) <= Rabs (a - b)).
  { replace (Rabs (a - b)) with (180 / PI * Rabs (Rrad a - Rrad b)).
    - apply Rmult_le_compat_l; [lra | apply sin_lip].
    - replace (Rrad a - Rrad b) with (PI / 180 * (a - b)) by (unfold Rrad; field).
      rewrite Rabs_mult, (Rabs_right (PI / 180)) by lra. field. lra. }
  apply Rmult_le_compat; try apply Rabs_pos; [|exact H | exact K]. apply Rmult_le_pos; [lra | apply Rabs_pos].
Qed.
Lemma step_first s a : Rabs (eccen s) <= 0.02 -> Rabs (kepler_step s a - mean_anom s) <= 1.15.
Proof.
  intros H. unfold kepler_step. replace (mean_anom s + _ - mean_anom s) with (eccen s * (180 / PI) * sin (Rrad a)) by (unfold Rdeg; field; apply PI_neq0).
  rewrite !Rabs_mult. pose proof PI_3141 as P.
  assert (Q : (180 / PI) * PI = 180) by (field; lra). set (q := 180 / PI) in *.
  assert (B : 0 < q <= 57.3) by (split; nra). rewrite (Rabs_right q) by lra.
  pose proof (SIN_bound (Rrad a)) as S. assert (T : Rabs (sin (Rrad a)) <= 1) by (apply Rabs_le; lra).
  pose proof (Rabs_pos (eccen s)). pose proof (Rabs_pos (sin (Rrad a))).
  assert (Rabs (eccen s) * q <= 0.02 * 57.3) by (apply Rmult_le_compat; lra).
  assert (0 <= Rabs (eccen s) * q) by (apply Rmult_le_pos; lra). nra.
Qed.
Lemma step_0 s : kepler_step s 0 = mean_anom s.
Proof. unfold kepler_step. rewrite Rrad_0, sin_0. ring. Qed.

Lemma max_move_le l b : 0 <= b -> (forall p, In p l -> Rabs (fst p - snd p) <= b) -> max_move l <= b.
Proof.
  intros B H. induction l as [|p l IH]; cbn [max_move fold_right]; [exact B|]. apply Rmax_lub.
  - apply H. left. reflexivity.
  - apply IH. intros q Q. apply H. right. exact Q.
Qed.
Lemma max_move_ge l p : In p l -> Rabs (fst p - snd p) <= max_move l.
Proof.
  induction l as [|q l IH]; intros H; [destruct H|]. cbn [max_move fold_right]. destruct H as [-> | H].
  - apply Rmax_l.
  - eapply Rle_trans; [apply IH, H | apply Rmax_r].
Qed.

(** state of the loop on one sample: [anom] is one step from [e] *)
Inductive tri := Tri (s : stamp) (anom e : R).
Definition t_s x := let 'Tri s _ _ := x in s.
Definition t_a x := let 'Tri _ a _ := x in a.
Definition t_e x := let 'Tri _ _ e := x in e.
Definition advance x := let 'Tri s a _ := x in Tri s (kepler_step s a) a.
Lemma loop_tri fuel (l : list tri) :
  kepler_loop fuel (map t_s l) (map t_a l) (map t_e l)
  = (if Rltb 0.0001 (max_move (map (fun x => (t_a x, t_e x)) l)) then
       match fuel with O => None | S k => kepler_loop k (map t_s (map advance l)) (map t_a (map advance l)) (map t_e (map advance l)) end
     else Some (map t_a l)).
Proof.
  assert (C : combine (map t_a l) (map t_e l) = map (fun x => (t_a x, t_e x)) l) by (induction l as [|x l IH]; [reflexivity | cbn [map combine]; rewrite IH; reflexivity]).
  assert (D : map (fun p => kepler_step (fst p) (snd p)) (combine (map t_s l) (map t_a l)) = map t_a (map advance l)).
  { clear C. induction l as [|[s a e] l IH]; [reflexivity|]. cbn [map combine]. rewrite IH. reflexivity. }
  assert (F : map t_s (map advance l) = map t_s l) by (rewrite map_map; apply map_ext; intros [s a e]; reflexivity).
  assert (G : map t_e (map advance l) = map t_a l) by (rewrite map_map; apply map_ext; intros [s a e]; reflexivity).
  destruct fuel; cbn [kepler_loop]; rewrite C; [reflexivity|]. rewrite D, F, G. reflexivity.
Qed.
Definition moved (b : R) (l : list tri) : Prop := forall x, In x l -> Rabs (eccen (t_s x)) <= 0.02 /\ t_a x = kepler_step (t_s x) (t_e x) /\ Rabs (t_a x - t_e x) <= b.
Lemma advance_moved b l : moved b l -> moved (0.02 * b) (map advance l).
Proof.
  intros H x X. apply in_map_iff in X. destruct X as (y & <- & Y). destruct (H y Y) as (A & B & C). destruct y as [s a e].
  cbn [advance t_s t_a t_e] in *. repeat split; [exact A|]. rewrite B at 2. eapply Rle_trans; [apply step_lip, A|]. lra.
Qed.
(** what the loop guarantees on exit *)
Definition solved (s : stamp) (a : R) : Prop := Rabs (a - kepler_step s a) <= 0.02 * 0.0001 /\ Rabs (a - mean_anom s) <= 1.15.
Lemma loop_result n : forall fuel b l, (n <= fuel)%nat -> moved b l -> 0 <= b -> 0.02 ^ n * b <= 0.0001 ->
  exists r, kepler_loop fuel (map t_s l) (map t_a l) (map t_e l) = Some r /\ Forall2 solved (map t_s l) r.
Proof.
  induction n as [|n IH]; intros fuel b l F H B L; rewrite loop_tri.
  - rewrite pow_O, Rmult_1_l in L. rewrite Rltb_f.
    + exists (map t_a l). split; [reflexivity|]. clear F. induction l as [|x l IH]; [constructor|]. cbn [map]. constructor.
      * destruct (H x (or_introl eq_refl)) as (A & C & D). split.
        -- rewrite C at 1. rewrite Rabs_minus_sym. eapply Rle_trans; [apply step_lip, A|]. lra.
        -- rewrite C. apply step_first, A.
      * apply IH. intros y Y. apply H. right. exact Y.
    + eapply Rle_trans; [apply (max_move_le _ b B)|exact L]. intros p P. apply in_map_iff in P. destruct P as (x & <- & X). apply H, X.
  - destruct (Rltb_spec 0.0001 (max_move (map (fun x => (t_a x, t_e x)) l))) as [K|K].
    + destruct fuel as [|k]; [lia|].
      destruct (IH k (0.02 * b) (map advance l)) as (r & E & S); [lia | apply advance_moved, H | lra | |].
      * replace (0.02 ^ n * (0.02 * b)) with (0.02 ^ S n * b) by (cbn [pow]; ring). exact L.
      * exists r. split; [exact E|]. replace (map t_s l) with (map t_s (map advance l)); [exact S|].
        rewrite map_map. apply map_ext. intros [s a e]. reflexivity.
    + exists (map t_a l). split; [reflexivity|].
      assert (M : forall x, In x l -> Rabs (t_a x - t_e x) <= 0.0001).
      { intros x X. eapply Rle_trans; [|exact (Rnot_lt_le _ _ K)]. apply (max_move_ge _ (t_a x, t_e x)). apply in_map_iff. exists x. auto. }
      clear K F IH L. induction l as [|x l IH]; [constructor|]. cbn [map]. constructor.
      * destruct (H x (or_introl eq_refl)) as (A & C & D). pose proof (M x (or_introl eq_refl)) as D'. split.
        -- rewrite C at 1. rewrite Rabs_minus_sym. eapply Rle_trans; [apply step_lip, A|]. lra.
        -- rewrite C. apply step_first, A.
      * apply IH; intros y Y; [apply H | apply M]; right; exact Y.
Qed.
Lemma mean_anom_range s : 0 <= mean_anom s < 360.
Proof. apply Rmodp_spec. lra. Qed.
Lemma kepler_result fuel l : (4 <= fuel)%nat -> (forall s, In s l -> Rabs (eccen s) <= 0.02) ->
  exists r, kepler fuel l = Some r /\ Forall2 solved l r.
Proof.
  intros F H. unfold kepler.
  set (l0 := map (fun s => Tri s (mean_anom s) 0) l).
  assert (E1 : map t_s l0 = l) by (unfold l0; rewrite map_map; cbn [t_s]; apply map_id).
  assert (E2 : map t_a l0 = map mean_anom l) by (unfold l0; rewrite map_map; reflexivity).
  assert (E3 : map t_e l0 = map (fun _ => 0) l) by (unfold l0; rewrite map_map; reflexivity).
  rewrite <- E2, <- E3. rewrite <- E1.
  assert (M0 : moved 360 l0).
  { intros x X. unfold l0 in X. apply in_map_iff in X. destruct X as (s & <- & S). cbn [t_s t_a t_e].
    repeat split; [apply H, S | symmetry; apply step_0|]. pose proof (mean_anom_range s). rewrite Rabs_right; lra. }
  rewrite loop_tri. destruct (Rltb_spec 0.0001 (max_move (map (fun x => (t_a x, t_e x)) l0))) as [K|K].
  - destruct fuel as [|k]; [lia|].
    destruct (loop_result 3 k 1.15 (map advance l0)) as (r & E & S); [lia | | lra | simpl; lra |].
    + intros x X. pose proof (advance_moved _ _ M0 x X) as (A & B & _). repeat split; [exact A | exact B |].
      apply in_map_iff in X. destruct X as (y & <- & Y). unfold l0 in Y. apply in_map_iff in Y. destruct Y as (s & <- & Q).
      cbn [advance t_a t_e t_s] in *. apply step_first, A.
    + exists r. split; [exact E|]. replace (map t_s l0) with (map t_s (map advance l0)); [exact S|].
      rewrite map_map. apply map_ext. intros [s a e]. reflexivity.
  - destruct (loop_result 0 0 0.0001 l0) as (r & E & S); [lia | | lra | simpl; lra |].
    + intros x X. destruct (M0 x X) as (A & B & _). repeat split; [exact A | exact B |].
      eapply Rle_trans; [|exact (Rnot_lt_le _ _ K)]. apply (max_move_ge _ (t_a x, t_e x)). apply in_map_iff. exists x. auto.
    + exists r. split; [|exact S]. rewrite <- E, loop_tri. rewrite Rltb_f by lra. reflexivity.
Qed.

(** *** the exact solution *)
Lemma kepler_eq_step s x : kepler_eq (mean_anom s) (eccen s) x <-> x = kepler_step s x.
Proof. unfold kepler_eq, kepler_step. replace (x * PI / 180) with (Rrad x) by (unfold Rrad; field). replace (eccen s * (180 / PI)) with (Rdeg (eccen s)) by (unfold Rdeg; field; apply PI_neq0). reflexivity. Qed.
Lemma kepler_root s : Rabs (eccen s) <= 0.02 -> exists x, kepler_eq (mean_anom s) (eccen s) x.
Proof.
  intros H. set (g := fun x => x - kepler_step s x).
  assert (C : continuity g).
  { unfold g, kepler_step, Rrad. intros x. apply continuity_pt_minus; [apply derivable_continuous_pt, derivable_pt_id|].
    apply continuity_pt_plus; [apply continuity_pt_const; intros a b; reflexivity|].
    apply continuity_pt_mult; [apply continuity_pt_const; intros a b; reflexivity|].
    apply (continuity_pt_comp (fun x => x * PI / 180) sin); [|apply continuity_sin].
    apply derivable_continuous_pt. unfold Rdiv. apply derivable_pt_mult; [apply derivable_pt_mult; [apply derivable_pt_id | apply derivable_pt_const] | apply derivable_pt_const]. }
  pose proof (Rabs_le_inv _ _ (step_first s (mean_anom s - 2) H)) as A.
  pose proof (Rabs_le_inv _ _ (step_first s (mean_anom s + 2) H)) as B.
  destruct (IVT g (mean_anom s - 2) (mean_anom s + 2) C) as (x & _ & E).
  - lra.
  - unfold g. lra.
  - unfold g. lra.
  - exists x. apply kepler_eq_step. unfold g in E. lra.
Qed.
Lemma solved_near s a x : Rabs (eccen s) <= 0.02 -> solved s a -> kepler_eq (mean_anom s) (eccen s) x -> Rabs (a - x) <= 0.0000021.
Proof.
  intros H [S _] X. apply kepler_eq_step in X. pose proof (step_lip s a x H) as L. rewrite <- X in L.
  assert (T : Rabs (a - x) <= Rabs (a - kepler_step s a) + Rabs (kepler_step s a - x)).
  { replace (a - x) with ((a - kepler_step s a) + (kepler_step s a - x)) by ring. apply Rabs_triang. }
  lra.
Qed.
Lemma kepler_unique s x y : Rabs (eccen s) <= 0.02 -> kepler_eq (mean_anom s) (eccen s) x -> kepler_eq (mean_anom s) (eccen s) y -> x = y.
Proof.
  intros H X Y. apply kepler_eq_step in X, Y. pose proof (step_lip s x y H) as L. rewrite <- X, <- Y in L.
  pose proof (Rabs_pos (x - y)). assert (Z : Rabs (x - y) = 0) by lra.
  destruct (Req_dec (x - y) 0) as [E|E]; [lra|]. apply Rabs_no_R0 in E. contradiction.
Qed.
(** the eccentricity stays in range for a thousand years and more *)
Lemma eccen_range s : -10 <= t1 s <= 20 -> 0.015 <= eccen s <= 0.02.
Proof. intros H. unfold eccen. cbv zeta. set (t := t1 s) in *. simpl. split; nra. Qed.
Definition valid_stamp (s : stamp) : Prop :=
  (1000 <= st_year s <= 3000)%Z /\ (1 <= st_dayofyear s <= 366)%Z /\ (0 <= st_hour s <= 23)%Z /\ (0 <= st_minute s <= 59)%Z
  /\ (0 <= st_second s <= 59)%Z /\ (0 <= st_microsecond s <= 999999)%Z.
Lemma dec_hours_range s : valid_stamp s -> 0 <= dec_hours s < 24.
Proof.
  intros (_ & _ & [H1 H2] & [M1 M2] & [S1 S2] & [U1 U2]). apply IZR_le in H1, H2, M1, M2, S1, S2, U1, U2. unfold dec_hours. split; [|lra].
  repeat apply Rplus_le_le_0_compat; lra.
Qed.
Lemma t1_range s : valid_stamp s -> -9.1 <= t1 s <= 11.1.
Proof.
  intros V. pose proof (dec_hours_range s V) as D. destruct V as ([Y1 Y2] & [J1 J2] & _). apply IZR_le in Y1, Y2, J1, J2.
  unfold t1, epoch_date, ezero. cbv zeta. set (q := (IZR (st_year s) - 1900 - 1) / 4).
  assert (F : q - 1 < Rfloor q <= q).
  { unfold Rfloor. pose proof (base_Int_part q). lra. }
  set (f := Rfloor q) in *. clearbody f. unfold q in F. split; apply Rmult_le_reg_r with (r := 36525); lra.
Qed.

(** *** true anomaly *)
Lemma Rpower_half x : 0 < x -> Rpower x 0.5 = sqrt x.
Proof. intros H. replace 0.5 with (/ 2) by lra. apply Rpower_sqrt, H. Qed.
Lemma cos_2atan x : cos (2 * atan x) = (1 - x * x) / (1 + x * x).
Proof.
  rewrite cos_2a_cos, cos_atan. pose proof (Rle_0_sqr x) as P. unfold Rsqr in *.
  assert (S : sqrt (1 + x * x) * sqrt (1 + x * x) = 1 + x * x) by (apply sqrt_sqrt; lra).
  assert (N : sqrt (1 + x * x) <> 0) by (apply Rgt_not_eq, sqrt_lt_R0; lra).
  replace (2 * (1 / sqrt (1 + x * x)) * (1 / sqrt (1 + x * x)) - 1) with (2 / (sqrt (1 + x * x) * sqrt (1 + x * x)) - 1) by (field; exact N).
  rewrite S. field. lra.
Qed.
Lemma sin_2atan x : sin (2 * atan x) = 2 * x / (1 + x * x).
Proof.
  rewrite sin_2a, cos_atan, sin_atan. pose proof (Rle_0_sqr x) as P. unfold Rsqr in *.
  assert (S : sqrt (1 + x * x) * sqrt (1 + x * x) = 1 + x * x) by (apply sqrt_sqrt; lra).
  assert (N : sqrt (1 + x * x) <> 0) by (apply Rgt_not_eq, sqrt_lt_R0; lra).
  replace (2 * (x / sqrt (1 + x * x)) * (1 / sqrt (1 + x * x))) with (2 * x / (sqrt (1 + x * x) * sqrt (1 + x * x))) by (field; exact N).
  rewrite S. reflexivity.
Qed.
Lemma half_angle e ea : -1 < e < 1 -> cos (ea / 2) <> 0 ->
  on_orbit e ea (2 * atan (sqrt ((1 + e) / (1 - e)) * tan (ea / 2))).
Proof.
  intros He C. unfold on_orbit. rewrite cos_2atan, sin_2atan. set (q := sqrt ((1 + e) / (1 - e))).
  assert (Q : q * q = (1 + e) / (1 - e)) by (apply sqrt_sqrt, Rlt_le, Rdiv_lt_0_compat; lra).
  assert (Q2 : q * (1 - e) = sqrt (1 - e * e)).
  { symmetry. unfold q. rewrite <- (sqrt_square (1 - e)) at 2 by lra. rewrite <- sqrt_mult_alt by (apply Rlt_le, Rdiv_lt_0_compat; lra).
    f_equal. field. lra. }
  set (c := cos (ea / 2)) in *. set (s := sin (ea / 2)).
  assert (E : cos ea = c * c - s * s) by (replace ea with (2 * (ea / 2)) by field; rewrite cos_2a; reflexivity).
  assert (F : sin ea = 2 * s * c) by (replace ea with (2 * (ea / 2)) by field; rewrite sin_2a; reflexivity).
  assert (S1 : s * s + c * c = 1) by apply sin2cos2.
  assert (T : tan (ea / 2) = s / c) by reflexivity. rewrite T.
  assert (D : q * (s / c) * (q * (s / c)) = (1 + e) * (s * s) / ((1 - e) * (c * c))).
  { transitivity ((q * q) * ((s * s) / (c * c))); [field; exact C|]. rewrite Q. field. split; [exact C | lra]. }
  rewrite D. clear D. assert (Cp : 0 < c * c) by (apply Rsqr_pos_lt in C; exact C).
  assert (Sp : 0 <= s * s) by (pose proof (Rle_0_sqr s); assumption).
  assert (Den : 0 < (1 - e) * (c * c) + (1 + e) * (s * s)) by nra.
  assert (Den2 : 1 - e * cos ea = (1 - e) * (c * c) + (1 + e) * (s * s)) by (rewrite E; nra).
  assert (Num : cos ea - e = (1 - e) * (c * c) - (1 + e) * (s * s)) by (rewrite E; nra).
  rewrite Num, Den2, F, <- Q2. clear E F Num Den2. split.
  - field. repeat split; try exact C; lra.
  - field. repeat split; try exact C; lra.
Qed.
Lemma on_orbit_PI e ea : -1 < e < 1 -> cos (ea / 2) = 0 -> on_orbit e ea PI.
Proof.
  intros He C. assert (S : sin ea = 0) by (replace ea with (2 * (ea / 2)) by field; rewrite sin_2a, C; ring).
  assert (K : cos ea = -1) by (replace ea with (2 * (ea / 2)) by field; rewrite cos_2a_cos, C; ring).
  unfold on_orbit. rewrite S, K, cos_PI, sin_PI. split; field; lra.
Qed.
Lemma Rdeg_scale a b : a * Rdeg b = Rdeg (a * b). Proof. unfold Rdeg. field. apply PI_neq0. Qed.
Lemma on_orbit_turns e ea nu x (k : Z) : on_orbit e ea nu -> x = Rdeg nu + 360 * IZR k -> on_orbit e ea (Rrad x).
Proof.
  unfold on_orbit. intros [A B] ->.
  change (cos (Rrad (Rdeg nu + 360 * IZR k))) with (cosD (Rdeg nu + 360 * IZR k)).
  change (sin (Rrad (Rdeg nu + 360 * IZR k))) with (sinD (Rdeg nu + 360 * IZR k)).
  rewrite cosD_turn, sinD_turn, cosD_deg, sinD_deg. split; assumption.
Qed.
Lemma true_anom_fin s e : 0 < eccen s < 1 -> exists v, true_anom s e = #v /\ 0 <= v < 720 /\ on_orbit (eccen s) (Rrad e) (Rrad v).
Proof.
  intros He. unfold true_anom. autorewrite with flfin. rewrite !fdiv_fin by lra. autorewrite with flfin.
  assert (Q : 0 < (1 + eccen s) / (1 - eccen s)) by (apply Rdiv_lt_0_compat; lra).
  rewrite fpow_fin, Rpower_half by exact Q. set (q := sqrt _).
  assert (Qp : 0 < q) by (apply sqrt_lt_R0, Q).
  assert (Fin2 : forall nu, on_orbit (eccen s) (Rrad e) (2 * nu) ->
     exists v, (#2 * fmod (fdegrees #nu) #360)%fl = #v /\ 0 <= v < 720 /\ on_orbit (eccen s) (Rrad e) (Rrad v)).
  { intros nu O. rewrite fdegrees_fin, fmod_fin by lra. rewrite fmul_fin. eexists. split; [reflexivity|].
    destruct (Rmodp_spec (Rdeg nu) 360) as (B & k & K); [lra|]. split; [lra|].
    apply (on_orbit_turns _ _ _ _ (-2 * k)%Z O). rewrite mult_IZR. rewrite <- Rdeg_scale. lra. }
  destruct (Req_EM_T (cos (Rrad e / 2)) 0) as [C|C].
  - assert (S : sin (Rrad e / 2) = 1 \/ sin (Rrad e / 2) = -1).
    { pose proof (sin2cos2 (Rrad e / 2)) as S. rewrite C in S.
      destruct (Rle_lt_dec 0 (sin (Rrad e / 2))); [left | right]; nra. }
    unfold ftan. rewrite fsin_fin, fcos_fin, C, fdiv_zero.
    destruct S as [S|S]; rewrite S.
    + replace (fatan2 (#q * sinf 1) #1)%fl with #(PI / 2); [|unfold sinf at 1, Rpos; rewrite Rltb_t by lra; cbn [fmul]; unfold sinf, Rpos; rewrite Rltb_t by exact Qp; reflexivity].
      apply Fin2. replace (2 * (PI / 2)) with PI by field. apply on_orbit_PI; [lra | exact C].
    + replace (fatan2 (#q * sinf (-1)) #1)%fl with #(- (PI / 2)).
      * apply Fin2. replace (2 * - (PI / 2)) with (- PI) by field.
        destruct (on_orbit_PI (eccen s) (Rrad e)) as [A B]; [lra | exact C|]. unfold on_orbit. rewrite cos_neg, sin_neg, <- A, <- B, sin_PI. split; ring.
      * unfold sinf at 1, Rpos, Rneg. rewrite Rltb_f, Rltb_t by lra. cbn [fmul]. unfold sinf, Rpos, Rneg. rewrite Rltb_f, Rltb_t by lra. reflexivity.
  - rewrite ftan_fin by exact C. rewrite fmul_fin, fatan2_fin. apply Fin2.
    replace (Ratan2 (q * tan (Rrad e / 2)) 1) with (atan (q * tan (Rrad e / 2))).
    + apply half_angle; [lra | exact C].
    + unfold Ratan2. rewrite Rltb_t by lra. f_equal. field.
Qed.

(** *** geometry: from a unit vector in equatorial axes to azimuth and elevation *)
Section Horizontal.
  Variables x y z p th : R.
  Hypothesis U : x * x + y * y + z * z = 1.
  Let dec := asin z.
  Let ra := Ratan2 y x.
  Lemma zb : -1 <= z <= 1.
  Proof. pose proof (Rle_0_sqr x) as X. pose proof (Rle_0_sqr y) as Y. unfold Rsqr in *. split; nra. Qed.
  Lemma sin_dec : sin dec = z. Proof. apply sin_asin, zb. Qed.
  Lemma cos_dec : cos dec = sqrt (x * x + y * y).
  Proof. unfold dec. rewrite cos_asin by apply zb. f_equal. unfold Rsqr. lra. Qed.
  Lemma dec_x : cos dec * cos ra = x. Proof. rewrite cos_dec. apply atan2_polar. Qed.
  Lemma dec_y : cos dec * sin ra = y. Proof. rewrite cos_dec. apply atan2_polar. Qed.
  Lemma east_eq : sun_east p dec (th - ra) = loc_east x y z p th.
  Proof. unfold sun_east, loc_east. rewrite sin_minus. rewrite <- dec_x, <- dec_y. ring. Qed.
  Lemma north_eq : sun_north p dec (th - ra) = loc_north x y z p th.
  Proof. unfold sun_north, loc_north. rewrite cos_minus, sin_dec. rewrite <- dec_x, <- dec_y. ring. Qed.
  Lemma up_eq : sun_up p dec (th - ra) = loc_up x y z p th.
  Proof. unfold sun_up, loc_up. rewrite cos_minus, sin_dec. rewrite <- dec_x, <- dec_y. ring. Qed.
End Horizontal.
(** elevation by asin and azimuth by atan2 of the vector divided by cos(dec) *)
Lemma az_el_points p d h : 0 < cos d ->
  points_to (Ratan2 (- sin h) (cos p * tan d - sin p * cos h)) (asin (sun_up p d h)) (sun_east p d h) (sun_north p d h) (sun_up p d h).
Proof.
  intros D. pose proof (sun_up_bound p d h) as B. unfold points_to.
  assert (C : cos (asin (sun_up p d h)) = cos d * sqrt ((cos p * tan d - sin p * cos h) * (cos p * tan d - sin p * cos h) + - sin h * - sin h)).
  { rewrite cos_asin by exact B. rewrite <- (sqrt_square (cos d)) at 1 by lra. rewrite <- sqrt_mult_alt by nra. f_equal.
    pose proof (sun_norm p d h) as N. unfold Rsqr.
    replace (1 - sun_up p d h * sun_up p d h) with (sun_east p d h * sun_east p d h + sun_north p d h * sun_north p d h) by lra.
    unfold sun_east, sun_north, tan. field. lra. }
  destruct (atan2_polar (- sin h) (cos p * tan d - sin p * cos h)) as [P Q]. rewrite C. repeat split.
  - rewrite Rmult_assoc, Q. unfold sun_east. ring.
  - rewrite Rmult_assoc, P. unfold sun_north, tan. field. lra.
  - apply sin_asin, B.
Qed.

(** *** one sample *)
Lemma obliquity_range s : -10 <= t1 s <= 20 -> 23 <= obliquity s <= 24.
Proof. intros H. unfold obliquity. cbv zeta. set (t := t1 s) in *. simpl. split; nra. Qed.
Lemma loc_ast_fin s lon : exists th, loc_ast s #lon = #th /\ 0 <= th < 360 /\ same_angle th (gmst s + lon).
Proof.
  unfold loc_ast. autorewrite with flfin. rewrite fmod_fin by lra. eexists. split; [reflexivity|].
  destruct (Rmodp_spec (360 + gmst s - -1 * lon) 360) as (B & k & K); [lra|]. split; [exact B|].
  exists (1 - k)%Z. rewrite minus_IZR. lra.
Qed.
Lemma same_angle_trig a b : same_angle a b -> cos (Rrad a) = cos (Rrad b) /\ sin (Rrad a) = sin (Rrad b).
Proof. intros [k ->]. split; [apply (cosD_turn b k) | apply (sinD_turn b k)]. Qed.
Lemma ec_lon_fin s e : 0 < eccen s < 1 -> exists L nu, ec_lon s e = #L /\ on_orbit (eccen s) (Rrad e) (Rrad nu)
  /\ same_angle L (ml_perigee s + nu - 20 / 3600).
Proof.
  intros He. destruct (true_anom_fin s e He) as (v & E & _ & O). unfold ec_lon. rewrite E. autorewrite with flfin. rewrite fmod_fin by lra.
  autorewrite with flfin. exists (Rmodp (ml_perigee s + v) 360 - 20 / 3600), v. split; [reflexivity|]. split; [exact O|].
  destruct (Rmodp_spec (ml_perigee s + v) 360) as (B & k & K); [lra|]. exists (- k)%Z. rewrite opp_IZR. lra.
Qed.
Lemma eq_norm l b eps : eq_x l b eps * eq_x l b eps + eq_y l b eps * eq_y l b eps + eq_z l b eps * eq_z l b eps = 1.
Proof.
  unfold eq_x, eq_y, eq_z. pose proof (sin2cos2 l) as A. pose proof (sin2cos2 b) as B. pose proof (sin2cos2 eps) as C.
  transitivity (cos b * cos b * (cos l * cos l) + (sin eps * sin eps + cos eps * cos eps) * (cos b * cos b * (sin l * sin l) + sin b * sin b)); [ring|].
  rewrite C. transitivity (cos b * cos b * (sin l * sin l + cos l * cos l) + sin b * sin b); [ring|]. rewrite A. lra.
Qed.
Lemma eq_z_lt l eps : 0 < cos eps -> Rabs (sin eps * sin l) < 1.
Proof.
  intros C. pose proof (SIN_bound l) as L. pose proof (sin2cos2 eps) as S.
  assert (Q : Rabs (sin eps) < 1) by (apply Rabs_def1; nra).
  rewrite Rabs_mult. assert (Rabs (sin l) <= 1) by (apply Rabs_le; lra). pose proof (Rabs_pos (sin eps)). pose proof (Rabs_pos (sin l)). nra.
Qed.

Definition sun_at (s : stamp) (L lat lon az el st : R) : Prop :=
  let eps := Rrad (obliquity s) in let x := eq_x (Rrad L) 0 eps in let y := eq_y (Rrad L) 0 eps in let z := eq_z (Rrad L) 0 eps in
  let p := Rrad lat in let th := Rrad (gmst s + lon) in
  let E := loc_east x y z p th in let N := loc_north x y z p th in let U := loc_up x y z p th in
  points_to (Rrad az) (Rrad el) E N U /\ 0 <= az < 360 /\ -90 <= el <= 90 /\ 0 <= st <= 24
  /\ exists r, 0 < r /\ r * sin (Rrad (15 * (st - 12))) = - E /\ r * cos (Rrad (15 * (st - 12))) = cos p * U - sin p * N.
Lemma ephemeris_at_sun s e lat lon pressure temp : 0 < eccen s < 1 -> 0 < cos (Rrad (obliquity s)) ->
  exists L nu az el st, on_orbit (eccen s) (Rrad e) (Rrad nu) /\ same_angle L (ml_perigee s + nu - 20 / 3600) /\
  let r := ephemeris_at s e #lat #lon pressure temp in
  sp_azimuth r = #az /\ sp_elevation r = #el /\ sp_zenith r = #(90 - el) /\ sp_solar_time r = #st /\
  sp_apparent_elevation r = fadd #el (ephemeris_refraction #el pressure temp) /\
  sp_apparent_zenith r = fsub #90 (sp_apparent_elevation r) /\ sun_at s L lat lon az el st.
Proof.
  intros He Ho. destruct (ec_lon_fin s e He) as (L & nu & EL & O & SL). destruct (loc_ast_fin s lon) as (th & ET & BT & ST).
  exists L, nu. unfold ephemeris_at. rewrite EL, ET. autorewrite with flfin. cbv zeta.
  set (eps := Rrad (obliquity s)) in *. set (l := Rrad L). set (p := Rrad lat).
  set (x := eq_x l 0 eps). set (y := eq_y l 0 eps). set (z := eq_z l 0 eps).
  assert (Ex : cos l = x) by (unfold x, eq_x; rewrite cos_0; ring).
  assert (Ey : cos eps * sin l = y) by (unfold y, eq_y; rewrite cos_0, sin_0; ring).
  assert (Ez : sin eps * sin l = z) by (unfold z, eq_z; rewrite cos_0, sin_0; ring).
  assert (U : x * x + y * y + z * z = 1) by apply eq_norm.
  assert (Zb : Rabs z < 1) by (rewrite <- Ez; apply eq_z_lt, Ho). apply Rabs_def2 in Zb.
  rewrite Ex, Ey, Ez. rewrite (fasin_fin z) by lra. set (dec := asin z). set (ra := Ratan2 y x). autorewrite with flfin.
  assert (Dc : 0 < cos dec).
  { unfold dec. rewrite cos_asin by lra. apply sqrt_lt_R0. unfold Rsqr. nra. }
  rewrite ftan_fin by lra. autorewrite with flfin.
  set (H := Rrad (th - Rdeg ra)).
  replace (cos p * cos dec * cos H + sin p * sin dec) with (sun_up p dec H) by (unfold sun_up; ring).
  rewrite (fasin_fin (sun_up p dec H)) by apply sun_up_bound. autorewrite with flfin.
  set (A := Ratan2 (- sin H) (cos p * tan dec - sin p * cos H)).
  pose proof (atan2_range (- sin H) (cos p * tan dec - sin p * cos H)) as RA. fold A in RA.
  set (az := if Rltb (Rdeg A) 0 then Rdeg A + 360 else Rdeg A).
  set (el := Rdeg (asin (sun_up p dec H))).
  set (hr := th - Rdeg ra). set (hr' := hr - 360 * (if Rltb 180 (Rabs hr) then 1 else 0)).
  exists az, el, ((180 + hr') / 15). split; [exact O|]. split; [exact SL|].
  split; [|split; [reflexivity|split; [reflexivity|split; [|split; [reflexivity|split; [reflexivity|]]]]]].
  - unfold az. destruct (Rltb (Rdeg A) 0); reflexivity.
  - assert (K : (if Rltb 180 (Rabs hr) then #1 else #0) = #(if Rltb 180 (Rabs hr) then 1 else 0)) by (destruct (Rltb 180 (Rabs hr)); reflexivity).
    rewrite K. autorewrite with flfin. rewrite fdiv_fin by lra. reflexivity.
  - (* direction *)
    pose proof (az_el_points p dec H Dc) as (P1 & P2 & P3). fold A in P1, P2.
    assert (Ang : Rrad (gmst s + lon) - ra = Rrad (gmst s + lon - Rdeg ra)) by (rewrite Rrad_minus, Rrad_deg; reflexivity).
    destruct (same_angle_trig hr (gmst s + lon - Rdeg ra)) as [HC HS].
    { unfold hr. destruct ST as [k K]. exists k. lra. }
    fold H in HC, HS.
    assert (Ee : sun_east p dec H = loc_east x y z p (Rrad (gmst s + lon))).
    { rewrite <- (east_eq x y z p (Rrad (gmst s + lon)) U). fold dec ra. rewrite Ang. unfold sun_east. change (sin H) with (sin (Rrad hr)). rewrite HS. reflexivity. }
    assert (En : sun_north p dec H = loc_north x y z p (Rrad (gmst s + lon))).
    { rewrite <- (north_eq x y z p (Rrad (gmst s + lon)) U). fold dec ra. rewrite Ang. unfold sun_north. change (cos H) with (cos (Rrad hr)). rewrite HC. reflexivity. }
    assert (Eu : sun_up p dec H = loc_up x y z p (Rrad (gmst s + lon))).
    { rewrite <- (up_eq x y z p (Rrad (gmst s + lon)) U). fold dec ra. rewrite Ang. unfold sun_up. change (cos H) with (cos (Rrad hr)). rewrite HC. reflexivity. }
    assert (Taz : cos (Rrad az) = cos A /\ sin (Rrad az) = sin A).
    { unfold az. destruct (Rltb (Rdeg A) 0).
      - change (cos (Rrad (Rdeg A + 360))) with (cosD (Rdeg A + 360)). change (sin (Rrad (Rdeg A + 360))) with (sinD (Rdeg A + 360)).
        rewrite cosD_360, sinD_360, cosD_deg, sinD_deg. split; reflexivity.
      - rewrite Rrad_deg. split; reflexivity. }
    destruct Taz as [TC TS].
    assert (Tel : Rrad el = asin (sun_up p dec H)) by (unfold el; apply Rrad_deg).
    unfold sun_at. cbv zeta. fold eps l x y z p. unfold points_to. rewrite TC, TS, Tel, P1, P2, P3, <- Ee, <- En, <- Eu. repeat split.
    + unfold az. destruct (Rltb_spec (Rdeg A) 0) as [K|K]; [|lra]. assert (Rdeg (- PI) < Rdeg A) by (apply Rdeg_lt; lra). rewrite Rdeg_opp, Rdeg_PI in *. lra.
    + unfold az. assert (Rdeg A <= 180) by (rewrite <- Rdeg_PI; apply Rdeg_le; lra). destruct (Rltb_spec (Rdeg A) 0); lra.
    + unfold el. assert (X : Rdeg (- (PI / 2)) <= Rdeg (asin (sun_up p dec H))) by (apply Rdeg_le, asin_bound). rewrite Rdeg_opp, Rdeg_PI2 in X. exact X.
    + unfold el. rewrite <- Rdeg_PI2. apply Rdeg_le, asin_bound.
    + pose proof (atan2_range y x) as RR. fold ra in RR. assert (R1 : Rdeg (- PI) < Rdeg ra) by (apply Rdeg_lt; lra). rewrite Rdeg_opp, Rdeg_PI in R1.
      assert (R2 : Rdeg ra <= 180) by (rewrite <- Rdeg_PI; apply Rdeg_le; lra). unfold hr', hr. 
      destruct (Rltb_spec 180 (Rabs (th - Rdeg ra))) as [K|K]; [|apply Rnot_lt_le, Rabs_le_inv in K; lra].
      unfold Rabs in K. destruct (Rcase_abs (th - Rdeg ra)); lra.
    + pose proof (atan2_range y x) as RR. fold ra in RR. assert (R1 : Rdeg (- PI) < Rdeg ra) by (apply Rdeg_lt; lra). rewrite Rdeg_opp, Rdeg_PI in R1.
      assert (R2 : Rdeg ra <= 180) by (rewrite <- Rdeg_PI; apply Rdeg_le; lra). unfold hr', hr. 
      destruct (Rltb_spec 180 (Rabs (th - Rdeg ra))) as [K|K]; [|apply Rnot_lt_le, Rabs_le_inv in K; lra].
      unfold Rabs in K. destruct (Rcase_abs (th - Rdeg ra)); lra.
    + exists (cos dec). split; [exact Dc|].
      destruct (same_angle_trig (15 * ((180 + hr') / 15 - 12)) hr) as [SC SS].
      { unfold hr'. destruct (Rltb 180 (Rabs hr)); [exists (-1)%Z | exists 0%Z]; field. }
      rewrite SC, SS. change (Rrad hr) with H. unfold sun_east, sun_up, sun_north. pose proof (sin2cos2 p) as S2. split; [ring|].
      transitivity (cos dec * cos H * (sin p * sin p + cos p * cos p)); [rewrite S2; ring | ring].
Qed.

(** *** refraction *)
Lemma tan_ge x : 0 <= x < PI / 2 -> x <= tan x.
Proof.
  intros [[X|X] Y]; [|subst; rewrite tan_0; lra].
  destruct (MVT_cor2 (sin - id * cos)%F (fun c => cos c - (1 * cos c + id c * - sin c)) 0 x X) as (c & E & C).
  - intros c _. apply derivable_pt_lim_minus; [apply derivable_pt_lim_sin|].
    apply derivable_pt_lim_mult; [apply derivable_pt_lim_id | apply derivable_pt_lim_cos].
  - unfold minus_fct, mult_fct, id in E. rewrite sin_0, Rmult_0_l in E.
    assert (S : 0 < sin c) by (apply sin_gt_0; lra). assert (K : 0 < cos x) by (apply cos_gt_0; lra).
    assert (L : x * cos x <= sin x).
    { assert (0 <= c * sin c * x) by (repeat (lra || apply Rmult_le_pos)). lra. }
    unfold tan. apply Rmult_le_reg_r with (r := cos x); [exact K|].
    unfold Rdiv. rewrite Rmult_assoc, Rinv_l, Rmult_1_r by lra. exact L.
Qed.
Lemma tan_mono x y : 0 <= x <= y -> y < PI / 2 -> tan x <= tan y.
Proof. intros [A [B|B]] C; [apply Rlt_le, tan_increasing; lra | subst; lra]. Qed.
(** 5 to 85 degrees *)
Lemma refr_high t : 0.087 <= t -> 0 < 58.1 / t - 0.07 / t ^ 3 + 8.6e-05 / t ^ 5 <= 700.
Proof.
  intros T. set (w := / t). assert (W0 : 0 < w) by (apply Rinv_0_lt_compat; lra).
  assert (W1 : w <= 11.5) by (unfold w; apply Rmult_le_reg_r with (r := t); [lra|]; rewrite Rinv_l by lra; lra).
  replace (58.1 / t - 0.07 / t ^ 3 + 8.6e-05 / t ^ 5) with (w * (58.1 - 0.07 * (w * w) + 8.6e-05 * ((w * w) * (w * w)))) by (unfold w; field; lra).
  set (u := w * w) in *. assert (U : 0 <= u <= 132.25) by (unfold u; nra).
  assert (V : 0 < 58.1 - 0.07 * u + 8.6e-05 * (u * u) <= 59.7) by (split; nra). split; [apply Rmult_lt_0_compat; lra|].
  apply Rle_trans with (11.5 * 59.7); [apply Rmult_le_compat; lra | lra].
Qed.
(** -0.575 to 5 degrees *)
Lemma refr_mid x : -0.575 < x <= 5 -> 0 < x * (-518.2 + x * (103.4 + x * (-12.79 + x * 0.711))) + 1735 <= 2100.
Proof.
  intros X. destruct (Rle_lt_dec 0 x) as [P|P].
  - assert (A : 39.4 <= 103.4 + x * (-12.79 + x * 0.711) <= 103.4) by (split; nra). set (a := 103.4 + x * (-12.79 + x * 0.711)) in *. clearbody a.
    assert (B : -518.2 + 39.4 * x <= -518.2 + x * a <= 0) by (split; nra). set (b := -518.2 + x * a) in *. clearbody b.
    assert (C : x * (-518.2 + 39.4 * x) <= x * b) by (apply Rmult_le_compat_l; lra).
    assert (D : x * b <= 0) by nra. split; [nra | lra].
  - assert (A : 103.4 <= 103.4 + x * (-12.79 + x * 0.711) <= 112) by (split; nra). set (a := 103.4 + x * (-12.79 + x * 0.711)) in *. clearbody a.
    assert (B : -600 <= -518.2 + x * a <= 0) by (split; nra). set (b := -518.2 + x * a) in *. clearbody b. split; nra.
Qed.
(** -1 to -0.575 degrees *)
Lemma refr_low x : -1 < x <= -0.575 -> 0 < -20.774 / tan (Rrad x) <= 2100.
Proof.
  intros X. pose proof PI_3141 as P. assert (T : 0.01 <= tan (Rrad (- x))).
  { apply Rle_trans with (Rrad (- x)); [unfold Rrad; nra|]. apply tan_ge. unfold Rrad. split; nra. }
  rewrite Rrad_opp, tan_neg in T. set (t := tan (Rrad x)) in *.
  replace (-20.774 / t) with (20.774 * / (- t)) by (replace (/ - t) with (- / t) by (field; lra); unfold Rdiv; lra). set (w := / - t). 
  assert (W0 : 0 < w) by (apply Rinv_0_lt_compat; lra).
  assert (W1 : w <= 100) by (unfold w; apply Rmult_le_reg_r with (r := - t); [lra|]; rewrite Rinv_l by lra; lra). split; nra.
Qed.
(** the published piecewise formula, in seconds of arc at 10 C and 101325 Pa *)
Definition refr (x : R) : R :=
  if Rltb 5 x && Rleb x 85 then let t := tan (Rrad x) in 58.1 / t - 0.07 / t ^ 3 + 8.6e-05 / t ^ 5
  else if Rltb (-0.575) x && Rleb x 5 then x * (-518.2 + x * (103.4 + x * (-12.79 + x * 0.711))) + 1735
  else if Rltb (-1) x && Rleb x (-0.575) then -20.774 / tan (Rrad x) else 0.
Lemma tan_el x : 5 < x <= 85 -> 0.087 <= tan (Rrad x).
Proof.
  intros X. pose proof PI_3141 as P. apply Rle_trans with (tan (Rrad 5)).
  - apply Rle_trans with (Rrad 5); [unfold Rrad; lra|]. apply tan_ge. unfold Rrad. lra.
  - apply tan_mono; [split; [unfold Rrad; lra | apply Rrad_le; lra] | unfold Rrad; nra].
Qed.
Lemma refr_range x : 0 <= refr x <= 2100.
Proof.
  unfold refr. destruct (Rltb_spec 5 x) as [A|A]; destruct (Rleb_spec x 85) as [B|B]; cbn [andb];
    [pose proof (refr_high _ (tan_el x (conj A B))) as H; cbv zeta; lra| | |];
  (destruct (Rltb_spec (-0.575) x) as [C|C]; destruct (Rleb_spec x 5) as [D|D]; cbn [andb];
    [pose proof (refr_mid x (conj C D)); lra | | |]);
  (destruct (Rltb_spec (-1) x) as [E|E]; destruct (Rleb_spec x (-0.575)) as [F|F]; cbn [andb];
    [pose proof (refr_low x (conj E F)); lra | lra | lra | lra]).
Qed.
Lemma refr_pos x : -1 < x <= 85 -> 0 < refr x.
Proof.
  intros X. unfold refr. destruct (Rltb_spec 5 x) as [A|A].
  - rewrite Rleb_t by lra. cbn [andb]. cbv zeta. pose proof (refr_high _ (tan_el x ltac:(lra))). lra.
  - cbn [andb]. rewrite (Rleb_t x 5) by lra. rewrite andb_true_r. destruct (Rltb_spec (-0.575) x) as [C|C].
    + pose proof (refr_mid x ltac:(lra)). lra.
    + rewrite Rltb_t, Rleb_t by lra. cbn [andb]. pose proof (refr_low x ltac:(lra)). lra.
Qed.
Lemma refraction_fin x pr te : te <> -273 -> ephemeris_refraction #x #pr #te = #(refr x * (283 / (273 + te) * (pr / 101325) / 3600)).
Proof.
  intros Te. unfold ephemeris_refraction. cbv zeta. autorewrite with flfin. unfold refr.
  rewrite (fdiv_fin 283) by lra. rewrite (fdiv_fin pr) by lra. rewrite fmul_fin. rewrite (fdiv_fin _ 3600) by lra.
  destruct (Rltb_spec 5 x) as [A|A]; destruct (Rleb_spec x 85) as [B|B]; cbn [andb].
  - rewrite (Rleb_f x 5) by lra. rewrite andb_false_r. rewrite (Rleb_f x (-0.575)) by lra. rewrite andb_false_r.
    pose proof (tan_el x (conj A B)) as T. assert (C : cos (Rrad x) <> 0).
    { apply Rgt_not_eq, cos_gt_0; pose proof PI_3141; unfold Rrad; nra. }
    rewrite ftan_fin by exact C. cbv zeta. set (t := tan (Rrad x)) in *.
    rewrite !fpown_fin. rewrite !fdiv_fin by (try apply pow_nonzero; lra). autorewrite with flfin. reflexivity.
  - rewrite (Rleb_f x 5) by lra. rewrite andb_false_r. rewrite (Rleb_f x (-0.575)) by lra. rewrite andb_false_r. cbn [andb]. autorewrite with flfin. reflexivity.
  - rewrite (Rleb_t x 5) by lra. rewrite !andb_true_r. destruct (Rltb_spec (-0.575) x) as [C|C].
    + rewrite (Rleb_f x (-0.575)) by lra. rewrite andb_false_r. autorewrite with flfin. reflexivity.
    + rewrite (Rleb_t x (-0.575)) by lra. rewrite andb_true_r. destruct (Rltb_spec (-1) x) as [D|D].
      * assert (K : 0 < tan (Rrad (- x))).
        { apply tan_gt_0; pose proof PI_3141; unfold Rrad; nra. }
        rewrite Rrad_opp, tan_neg in K.
        assert (Cc : cos (Rrad x) <> 0) by (apply Rgt_not_eq, cos_gt_0; pose proof PI_3141; unfold Rrad; nra).
        rewrite ftan_fin by exact Cc. rewrite fdiv_fin by lra. autorewrite with flfin. reflexivity.
      * autorewrite with flfin. reflexivity.
  - exfalso. lra.
Qed.

(** *** calendar and sidereal time *)
Lemma Rfloor_div4 a : Rfloor (IZR a / 4) = IZR (a / 4).
Proof.
  assert (B : IZR (a / 4) <= IZR a / 4 < IZR (a / 4) + 1).
  { pose proof (Z.div_mod a 4 ltac:(discriminate)) as D. pose proof (Z.mod_pos_bound a 4 ltac:(reflexivity)) as [M1 M2].
    apply (f_equal IZR) in D. rewrite plus_IZR, mult_IZR in D. apply IZR_le in M1. apply Z.lt_le_pred, IZR_le in M2.
    change (Z.pred 4) with 3%Z in M2. lra. }
  change (Rfloor (IZR a / 4)) with (IZR (Int_part (IZR a / 4))). f_equal. pose proof (base_Int_part (IZR a / 4)) as [C1 C2].
  assert (L1 : (Int_part (IZR a / 4) < a / 4 + 1)%Z) by (apply lt_IZR; rewrite plus_IZR; lra).
  assert (L2 : (a / 4 < Int_part (IZR a / 4) + 1)%Z) by (apply lt_IZR; rewrite plus_IZR; lra). lia.
Qed.
Lemma ezero_days s : ezero s = IZR (365 * (st_year s - 1900) + (st_year s - 1901) / 4 + st_dayofyear s) - 0.5.
Proof.
  unfold ezero. cbv zeta. replace ((IZR (st_year s) - 1900 - 1) / 4) with (IZR (st_year s - 1901) / 4) by (rewrite minus_IZR; lra).
  rewrite Rfloor_div4, !plus_IZR, mult_IZR, minus_IZR. ring.
Qed.
Lemma days_agree y n : (1901 <= y <= 2100)%Z -> (365 * (y - 1900) + (y - 1901) / 4 + n = gregorian_day y n - gregorian_day 1900 1 + 1)%Z.
Proof. intros H. unfold gregorian_day. change ((1900 - 1) / 4)%Z with 474%Z. change ((1900 - 1) / 100)%Z with 18%Z. change ((1900 - 1) / 400)%Z with 4%Z.
  assert (((y - 1) / 4 = (y - 1901) / 4 + 475)%Z) by (Z.to_euclidean_division_equations; lia).
  assert (((y - 1) / 100 - (y - 1) / 400 = 15)%Z) by (Z.to_euclidean_division_equations; lia). lia. Qed.
Lemma gmst_eq s : same_angle (gmst s) (sidereal_seconds (ezero s / 36525) / 240 + 360 * (1.0027379093 * dec_hours s / 24)).
Proof.
  unfold gmst. cbv zeta. set (g := 6 / 24 + 38 / 1440 + _). set (d := 360 * (1.0027379093 * dec_hours s / 24)).
  destruct (Rmodp_spec (360 * (g - Rfloor g) + d) 360) as (_ & k & K); [lra|].
  exists (- k - Int_part g)%Z. rewrite minus_IZR, opp_IZR.
  replace (sidereal_seconds (ezero s / 36525) / 240) with (360 * g) by (unfold g, sidereal_seconds; field).
  unfold Rfloor in K. unfold Rfloor. lra.
Qed.
