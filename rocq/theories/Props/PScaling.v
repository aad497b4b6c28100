(** C117-C119: the wavelet variability model and local coordinates. *)
From Verif Require Import Base.Fl Base.FlFacts Base.Py Base.Round Model.Clearsky Model.Scaling Spec.ScalingSpec Proofs.ClearskyD Proofs.ScalingP.
From Coq Require Import ZArith Psatz Arith.
Open Scope R_scope.
Open Scope list_scope.

Lemma Ok_inj {A} (a b : A) : Ok a = Ok b -> a = b. Proof. congruence. Qed.

Lemma wavelet_ok c vals dt : time_step c (length vals) = Ok dt -> vals <> [] -> 0 < dt <= 2 ^ 12 ->
  exists k, (1 <= k)%nat /\ compute_wavelet c vals = Ok (map (wavelet_row vals k) (seq 0 k), map (fun i => 2 ^ i * dt) (seq 0 k)) /\ 2 ^ 11 < 2 ^ (k - 1) * dt <= 2 ^ 12.
Proof.
  intros T N D. destruct (scale_count_spec dt (proj1 D)) as (k & K & K1 & _ & K2). assert (P : (1 <= k)%Z) by (apply K1; lra).
  exists (Z.to_nat k). split; [lia|]. split; [|apply K2, P]. unfold compute_wavelet. rewrite T. cbn [bind]. rewrite K.
  destruct vals; [congruence|]. cbn [length Nat.eqb bind]. replace (k <? 0)%Z with false by (symmetry; apply Z.ltb_ge; lia). replace (k =? 0)%Z with false by (symmetry; apply Z.eqb_neq; lia). reflexivity.
Qed.
Lemma wavelet_inv c vals w ts : compute_wavelet c vals = Ok (w, ts) -> exists dt k, time_step c (length vals) = Ok dt /\ vals <> [] /\ 0 < dt <= 2 ^ 12 /\ (1 <= k)%nat /\
  w = map (wavelet_row vals k) (seq 0 k) /\ ts = map (fun i => 2 ^ i * dt) (seq 0 k) /\ 2 ^ 11 < 2 ^ (k - 1) * dt <= 2 ^ 12.
Proof.
  intros E. pose proof E as E0. unfold compute_wavelet in E. destruct (time_step c (length vals)) as [dt|] eqn:T; [|discriminate]. cbn [bind] in E.
  destruct (Nat.eqb_spec (length vals) 0) as [Z|Z]; [discriminate|]. assert (N : vals <> []) by (intros ->; apply Z; reflexivity).
  assert (D : 0 < dt). { destruct (Rlt_le_dec 0 dt) as [D|D]; [exact D|]. exfalso. unfold scale_count in E. destruct (Rltb_spec dt 0); [discriminate|]. rewrite (proj2 (Reqb_true dt 0)) in E by lra. discriminate. }
  destruct (scale_count_spec dt D) as (k & K & K1 & _ & _). rewrite K in E. cbn [bind] in E. destruct (Z.ltb_spec k 0); [discriminate|]. destruct (Z.eqb_spec k 0); [discriminate|].
  assert (DD : dt <= 2 ^ 12) by (apply K1; lia). destruct (wavelet_ok c vals dt T N (conj D DD)) as (k' & P & W & B). rewrite W in E0. apply Ok_inj in E0.
  exists dt, k'. split; [reflexivity|]. split; [exact N|]. split; [lra|]. split; [exact P|]. split; [congruence|]. split; [congruence|exact B].
Qed.

(** ** C117: the wavelets *)
Theorem C117_timescales : forall fmin c vals pos speed sm w ts, wvm fmin c vals pos speed = Ok (sm, w, ts) ->
  exists dt, time_step c (length vals) = Ok dt /\ 0 < dt <= 4096 /\ length w = length ts /\ (1 <= length ts)%nat /\ (forall i, (i < length ts)%nat -> nth i ts 0 = 2 ^ i * dt) /\
    2048 < 2 ^ (length ts - 1) * dt <= 4096 /\ length sm = length vals /\ (forall row, In row w -> length row = length vals).
Proof.
  intros fmin c vals pos speed sm w ts E. unfold wvm in E. destruct (compute_wavelet c vals) as [[w' ts']|] eqn:W; [|discriminate]. cbn [bind fst snd] in E.
  destruct (compute_vr fmin pos speed ts') as [vr|]; [|discriminate]. cbn [bind] in E. apply Ok_inj in E. assert (w' = w) by congruence. assert (ts' = ts) by congruence. subst w' ts'.
  assert (SL : length sm = length vals). { replace sm with (map (smooth_column (length ts) vr w) (seq 0 (length vals))) by congruence. rewrite map_length, seq_length. reflexivity. }
  destruct (wavelet_inv _ _ _ _ W) as (dt & k & T & N & D & K & -> & -> & B). exists dt. rewrite !map_length, seq_length. split; [exact T|]. split; [lra|]. split; [reflexivity|]. split; [exact K|].
  split; [intros i I; apply (nth_map_seq 0); exact I|]. split; [lra|]. split; [exact SL|]. intros row R0. apply in_map_iff in R0. destruct R0 as (i & <- & _). apply wavelet_row_length.
Qed.
Print Assumptions C117_timescales.
(** it succeeds exactly for data, sites, a moving cloud and a step up to 4096 seconds *)
Theorem C117_accepts : forall fmin c vals pos speed, (exists o, wvm fmin c vals pos speed = Ok o) <->
  (exists dt, time_step c (length vals) = Ok dt /\ 0 < dt <= 4096) /\ vals <> [] /\ pos <> [] /\ speed <> 0.
Proof.
  intros fmin c vals pos speed. split.
  - intros [o E]. unfold wvm in E. destruct (compute_wavelet c vals) as [[w ts]|] eqn:W; [|discriminate]. cbn [bind fst snd] in E. destruct (wavelet_inv _ _ _ _ W) as (dt & k & T & N & D & K & _ & ET & B).
    split; [exists dt; split; [exact T|lra]|]. split; [exact N|]. unfold compute_vr in E. destruct pos; [discriminate|]. split; [discriminate|]. intros ->.
    destruct k as [|k]; [lia|]. rewrite ET in E. cbn [seq map mapM] in E. rewrite (proj2 (Reqb_true (0 / 2) 0)) in E by lra. discriminate E.
  - intros ((dt & T & D) & N & P & SP). destruct (wavelet_ok c vals dt T N ltac:(lra)) as (k & K & W & B). unfold wvm. rewrite W. cbn [bind fst snd].
    unfold compute_vr. destruct pos; [congruence|]. cbv zeta. rewrite (proj2 (Reqb_false (speed / 2) 0)) by lra.
    match goal with |- context [mapM (fun t => Ok (@?g t)) ?l] => rewrite (mapM_ok (fun t => Ok (g t)) g l (fun _ _ => eq_refl)) end. cbn [bind]. eexists. reflexivity.
Qed.
Print Assumptions C117_accepts.
(** how unusable time steps fail, for a numpy array *)
Theorem C117_step_errors : forall fmin vals pos speed, vals <> [] ->
  wvm fmin (Array None) vals pos speed = Err ValueError /\
  forall dt, (dt < 0 -> wvm fmin (Array (Some dt)) vals pos speed = Err ValueError) /\ (dt = 0 -> wvm fmin (Array (Some dt)) vals pos speed = Err OverflowError) /\
    (4096 < dt <= 8192 -> wvm fmin (Array (Some dt)) vals pos speed = Err IndexError) /\ (8192 < dt -> wvm fmin (Array (Some dt)) vals pos speed = Err ValueError).
Proof.
  intros fmin vals pos speed N. split; [reflexivity|]. intros dt. unfold wvm, compute_wavelet. cbn [time_step bind]. destruct vals as [|v vals]; [congruence|]. cbn [length Nat.eqb].
  split; [|split; [|split]]; intros H.
  - unfold scale_count. rewrite (proj2 (Rltb_true dt 0)) by lra. reflexivity.
  - unfold scale_count. rewrite (proj2 (Rltb_false dt 0)) by lra. rewrite (proj2 (Reqb_true dt 0)) by lra. reflexivity.
  - destruct (scale_count_spec dt ltac:(lra)) as (k & K & K1 & K0 & _). rewrite K. cbn [bind]. assert (0 <= k)%Z by (apply K0; lra). assert (~ (1 <= k)%Z) by (rewrite K1; lra).
    replace k with 0%Z by lia. reflexivity.
  - destruct (scale_count_spec dt ltac:(lra)) as (k & K & K1 & K0 & _). rewrite K. cbn [bind]. assert (~ (0 <= k)%Z) by (rewrite K0; lra).
    replace (k <? 0)%Z with true by (symmetry; apply Z.ltb_lt; lia). reflexivity.
Qed.
Print Assumptions C117_step_errors.
(** the step of a time index is right for steps shorter than a day ... *)
Theorem C117_time_index : forall us n, (2 <= n)%nat -> (0 <= us < 86400 * 1000000)%Z -> time_step (TimeIndex us) n = Ok (IZR us / 1000000).
Proof.
  intros us n N U. unfold time_step. replace (Nat.ltb n 2) with false by (symmetry; apply Nat.ltb_ge; exact N). rewrite (Z.mod_small us) by lia. f_equal.
  pose proof (Z_div_mod_eq_full us 1000000) as E. rewrite E at 3. rewrite plus_IZR, mult_IZR. lra.
Qed.
Print Assumptions C117_time_index.
(** ... and loses whole days otherwise: a day and a second count as one second *)
Theorem C117_long_step_refuted : ~ (forall us n, (2 <= n)%nat -> (0 < us)%Z -> time_step (TimeIndex us) n = Ok (IZR us / 1000000)).
Proof. intros H. specialize (H 86401000000%Z 2%nat ltac:(lia) ltac:(lia)). unfold time_step in H. cbn [Nat.ltb Nat.leb] in H. apply Ok_inj in H. change (86401000000 mod 86400000000)%Z with 1000000%Z in H. change (1000000 / 1000000)%Z with 1%Z in H. change (1000000 mod 1000000)%Z with 0%Z in H. lra. Qed.
Print Assumptions C117_long_step_refuted.
(** the wavelets of a complete series are differences of successive moving averages; the last row is the widest average *)
Theorem C117_wavelets : forall fmin c x pos speed sm w ts, wvm fmin c (map Fin x) pos speed = Ok (sm, w, ts) -> forall i t, (i < length w)%nat -> (t < length x)%nat ->
  nth t (nth i w []) NaN = #(if Nat.ltb (S i) (length w) then moving_average x i t - moving_average x (S i) t else moving_average x i t).
Proof.
  intros fmin c x pos speed sm w ts E i t I T. unfold wvm in E. destruct (compute_wavelet c (map Fin x)) as [[w' ts']|] eqn:W; [|discriminate]. cbn [bind fst snd] in E.
  destruct (compute_vr fmin pos speed ts') as [vr|]; [|discriminate]. cbn [bind] in E. apply Ok_inj in E. assert (w' = w) by congruence. subst w'. clear E.
  destruct (wavelet_inv _ _ _ _ W) as (dt & k & _ & _ & _ & K & -> & _ & _). rewrite map_length, seq_length in I |- *. rewrite nth_map_seq by exact I.
  rewrite wavelet_row_nth by (rewrite map_length; exact T). cbv zeta. rewrite map_length. rewrite !csi_mean_fin by exact T. destruct (Nat.ltb (S i) k); [fin; reflexivity|reflexivity].
Qed.
Print Assumptions C117_wavelets.

Lemma detail_telescope m k : detail_sum (fun _ => 1) m k = m O - m k.
Proof. induction k as [|k IH]; cbn [detail_sum]; [ring|]. rewrite IH. ring. Qed.
Lemma column_sum (a m : nat -> R) k : fsum (map (fun i => #(if Nat.ltb i k then a i * (m i - m (S i)) else m i)) (seq 0 (S k))) = #(detail_sum a m k + m k).
Proof.
  assert (G : forall j, (j <= k)%nat -> fsum (map (fun i => #(if Nat.ltb i k then a i * (m i - m (S i)) else m i)) (seq 0 j)) = #(detail_sum a m j)).
  { induction j as [|j IH]; intros J; [reflexivity|]. rewrite seq_S, map_app. unfold fsum. rewrite fold_left_app. fold (fsum (map (fun i => #(if Nat.ltb i k then a i * (m i - m (S i)) else m i)) (seq 0 j))). rewrite IH by lia.
    cbn [map fold_left Nat.add]. replace (Nat.ltb j k) with true by (symmetry; apply Nat.ltb_lt; lia). reflexivity. }
  rewrite seq_S, map_app. unfold fsum. rewrite fold_left_app. fold (fsum (map (fun i => #(if Nat.ltb i k then a i * (m i - m (S i)) else m i)) (seq 0 k))). rewrite G by lia.
  cbn [map fold_left Nat.add]. rewrite Nat.ltb_irrefl. reflexivity.
Qed.
(** nothing is lost: the wavelets of every sample add up to the sample *)
Theorem C117_reconstruction : forall fmin c x pos speed sm w ts, wvm fmin c (map Fin x) pos speed = Ok (sm, w, ts) -> forall t, (t < length x)%nat ->
  fsum (map (fun row => nth t row NaN) w) = #(nth t x 0).
Proof.
  intros fmin c x pos speed sm w ts E t T. pose proof (C117_wavelets _ _ _ _ _ _ _ _ E) as V. destruct (C117_timescales _ _ _ _ _ _ _ _ E) as (dt & _ & _ & L & K & _).
  destruct (length w) as [|k] eqn:LW; [lia|]. rewrite (list_as_map [] w), LW, map_map.
  assert (M : map (fun i => nth t (nth i w []) NaN) (seq 0 (S k)) = map (fun i => #(if Nat.ltb i k then 1 * (moving_average x i t - moving_average x (S i) t) else moving_average x i t)) (seq 0 (S k))).
  { apply map_ext_in. intros i I. apply in_seq in I. rewrite V by lia. f_equal. change (Nat.ltb (S i) (S k)) with (Nat.ltb i k). destruct (Nat.ltb i k); [ring|reflexivity]. }
  rewrite M, (column_sum (fun _ => 1) (fun i => moving_average x i t)), detail_telescope. f_equal. cbn [moving_average]. ring.
Qed.
Print Assumptions C117_reconstruction.

(** ** C118: smoothing *)
(** the only positive zero of the function minimised is the number of sites, so a minimiser near it is what fmin has to deliver *)
Theorem C118_count_is_the_minimum : forall n x, 0 < x -> (2 <= n)%nat -> Rabs ((x ^ 2 - x) / 2 - INR n * (INR n - 1) / 2) = 0 <-> x = INR n.
Proof.
  intros n x X N. assert (2 <= INR n) by (change 2 with (INR 2); apply le_INR; exact N). split.
  - intros H0. assert (E : (x ^ 2 - x) / 2 - INR n * (INR n - 1) / 2 = 0). { destruct (Req_dec ((x ^ 2 - x) / 2 - INR n * (INR n - 1) / 2) 0) as [Q|Q]; [exact Q|]. apply Rabs_no_R0 in Q. contradiction. }
    assert (F : (x - INR n) * (x + INR n - 1) = 0) by lra. apply Rmult_integral in F. destruct F; lra.
  - intros ->. replace ((INR n ^ 2 - INR n) / 2 - INR n * (INR n - 1) / 2) with 0 by field. apply Rabs_R0.
Qed.
Print Assumptions C118_count_is_the_minimum.
Theorem C118_variability_reduction : forall fmin pos speed scales, pos <> [] -> finds_count fmin (length pos) -> 0 < speed -> (forall s, In s scales -> 0 < s) ->
  compute_vr fmin pos speed scales = Ok (map (fun s => #(variability_reduction speed s pos)) scales) /\
  forall s, 0 < s -> 1 <= variability_reduction speed s pos <= INR (length pos).
Proof. intros fmin pos speed scales N F SP P. split; [apply compute_vr_eq; lra || assumption|]. intros s Q. apply vr_range; assumption. Qed.
Print Assumptions C118_variability_reduction.
(** faster clouds and longer time scales are reduced less *)
Theorem C118_reduction_monotone : forall speed s speed' s' pos, pos <> [] -> 0 < speed -> 0 < s -> 0 < speed' -> 0 < s' -> speed * s <= speed' * s' ->
  variability_reduction speed' s' pos <= variability_reduction speed s pos.
Proof. exact vr_decreasing. Qed.
Print Assumptions C118_reduction_monotone.
(** each wavelet is divided by the root of its variability reduction; the slowest one is kept *)
Theorem C118_smoothed : forall fmin c x pos speed sm w ts, wvm fmin c (map Fin x) pos speed = Ok (sm, w, ts) -> finds_count fmin (length pos) -> 0 < speed -> forall t, (t < length x)%nat ->
  nth t sm NaN = #(detail_sum (fun i => 1 / sqrt (variability_reduction speed (nth i ts 0) pos)) (fun i => moving_average x i t) (length ts - 1) + moving_average x (length ts - 1) t).
Proof.
  intros fmin c x pos speed sm w ts E F SP t T. pose proof (C117_wavelets _ _ _ _ _ _ _ _ E) as V. destruct (C117_timescales _ _ _ _ _ _ _ _ E) as (dt & T0 & D & L & K & TS & _).
  assert (A : exists o, wvm fmin c (map Fin x) pos speed = Ok o) by (eexists; exact E). apply C117_accepts in A. destruct A as (_ & _ & NP & NS).
  unfold wvm in E. destruct (compute_wavelet c (map Fin x)) as [[w' ts']|]; [|discriminate]. cbn [bind fst snd] in E.
  destruct (compute_vr fmin pos speed ts') as [vr|] eqn:VR; [|discriminate]. cbn [bind] in E. apply Ok_inj in E. assert (w' = w) by congruence. assert (ts' = ts) by congruence. subst w' ts'.
  assert (SM : sm = map (smooth_column (length ts) vr w) (seq 0 (length (map Fin x)))) by congruence. clear E.
  assert (P : forall s, In s ts -> 0 < s). { intros s I. apply (In_nth _ _ 0) in I. destruct I as (i & I & <-). rewrite TS by exact I. apply Rmult_lt_0_compat; [apply pow_lt; lra|lra]. }
  rewrite (compute_vr_eq fmin pos speed ts NP F NS P) in VR. apply Ok_inj in VR. subst vr sm. rewrite map_length, nth_map_seq by exact T.
  unfold smooth_column. destruct (length ts) as [|k] eqn:LT; [lia|]. replace (S k - 1)%nat with k by lia. 
  rewrite <- (column_sum (fun i => 1 / sqrt (variability_reduction speed (nth i ts 0) pos)) (fun i => moving_average x i t) k). f_equal. apply map_ext_in. intros i I. apply in_seq in I.
  cbv zeta. rewrite V by lia. rewrite L. change (Nat.ltb (S i) (S k)) with (Nat.ltb i k). destruct (Nat.ltb_spec i k) as [Q|Q]; [|reflexivity].
  rewrite (map_nth' (fun s => #(variability_reduction speed s pos)) 0) by lia. assert (B : 1 <= variability_reduction speed (nth i ts 0) pos) by (apply vr_range; try assumption; apply P, nth_In; lia).
  unfold fsqrt, Rneg. rewrite (proj2 (Rltb_false _ 0)) by lra. assert (0 < sqrt (variability_reduction speed (nth i ts 0) pos)) by (apply sqrt_lt_R0; lra).
  rewrite fdiv_fin by lra. f_equal. field. lra.
Qed.
Print Assumptions C118_smoothed.
(** the smoothed index is a weighted mean of moving averages: it never leaves the range of the input *)
Theorem C118_within_range : forall fmin c x pos speed sm w ts lo hi, wvm fmin c (map Fin x) pos speed = Ok (sm, w, ts) -> finds_count fmin (length pos) -> 0 < speed ->
  (forall v, In v x -> lo <= v <= hi) -> forall t, (t < length x)%nat -> exists s, nth t sm NaN = #s /\ lo <= s <= hi.
Proof.
  intros fmin c x pos speed sm w ts lo hi E F SP B t T. rewrite (C118_smoothed _ _ _ _ _ _ _ _ E F SP t T). eexists. split; [reflexivity|].
  destruct (C117_timescales _ _ _ _ _ _ _ _ E) as (dt & T0 & D & L & K & TS & _). assert (A : exists o, wvm fmin c (map Fin x) pos speed = Ok o) by (eexists; exact E). apply C117_accepts in A. destruct A as (_ & _ & NP & NS).
  set (m := fun i => moving_average x i t). assert (M : forall i, lo <= m i <= hi) by (intros i; apply moving_average_bounds; assumption).
  destruct (length ts - 1)%nat as [|k] eqn:LK; [cbn [detail_sum]; pose proof (M O) as M0; unfold m in M0; lra|].
  set (a := fun i => 1 / sqrt (variability_reduction speed (2 ^ i * dt) pos)).
  assert (P2 : forall i, 0 < 2 ^ i * dt) by (intros i; apply Rmult_lt_0_compat; [apply pow_lt; lra|lra]).
  assert (AR : forall i, 0 < a i <= 1). { intros i. pose proof (vr_range speed (2 ^ i * dt) pos NP SP (P2 i)) as R0. unfold a. assert (1 <= sqrt (variability_reduction speed (2 ^ i * dt) pos)) by (rewrite <- sqrt_1 at 1; apply sqrt_le_1; lra).
    unfold Rdiv. rewrite Rmult_1_l. split; [apply Rinv_0_lt_compat; lra|]. replace 1 with (/ 1) by field. apply Rinv_le_contravar; lra. }
  assert (AI : forall i, a i <= a (S i)). { intros i. unfold a, Rdiv. rewrite !Rmult_1_l. pose proof (vr_range speed (2 ^ (S i) * dt) pos NP SP (P2 _)) as R0.
    apply Rinv_le_contravar; [apply sqrt_lt_R0; lra|]. apply sqrt_le_1; [lra| |].
    - pose proof (vr_range speed (2 ^ i * dt) pos NP SP (P2 _)). lra.
    - apply vr_decreasing; try assumption; try apply P2. cbn [pow]. pose proof (P2 i). nra. }
  pose proof (abel a m lo hi M (fun i => Rlt_le _ _ (proj1 (AR i))) AI k) as AB.
  assert (ES : detail_sum (fun i => 1 / sqrt (variability_reduction speed (nth i ts 0) pos)) m (S k) = detail_sum a m (S k)).
  { assert (G : forall j, (j <= S k)%nat -> detail_sum (fun i => 1 / sqrt (variability_reduction speed (nth i ts 0) pos)) m j = detail_sum a m j).
    { induction j as [|j IH]; intros J; [reflexivity|]. cbn [detail_sum]. rewrite IH by lia. unfold a at 2. rewrite TS by lia. reflexivity. }
    apply G. lia. }
  rewrite ES. pose proof (AR k) as A1. pose proof (M (S k)) as M1. assert (0 <= (1 - a k) * (m (S k) - lo)) by (apply Rmult_le_pos; lra). assert (0 <= (1 - a k) * (hi - m (S k))) by (apply Rmult_le_pos; lra).
  fold (m (S k)). lra.
Qed.
Print Assumptions C118_within_range.
(** sites at one point smooth nothing *)
Theorem C118_coincident : forall fmin c x pos speed sm w ts, wvm fmin c (map Fin x) pos speed = Ok (sm, w, ts) -> finds_count fmin (length pos) -> 0 < speed ->
  (forall p q, In p pos -> In q pos -> p = q) -> forall t, (t < length x)%nat -> nth t sm NaN = #(nth t x 0).
Proof.
  intros fmin c x pos speed sm w ts E F SP Q t T. rewrite (C118_smoothed _ _ _ _ _ _ _ _ E F SP t T). f_equal.
  assert (A : exists o, wvm fmin c (map Fin x) pos speed = Ok o) by (eexists; exact E). apply C117_accepts in A. destruct A as (_ & _ & NP & NS).
  assert (V : forall s, variability_reduction speed s pos = 1).
  { intros s. unfold variability_reduction. assert (G : forall l, (forall p, In p l -> In p pos) -> total (map (fun p => total (map (correlation speed s p) pos)) l) = INR (length l) * INR (length pos)).
    { assert (H1 : forall p m, In p pos -> (forall q, In q m -> In q pos) -> total (map (correlation speed s p) m) = INR (length m)).
      { intros p m P. induction m as [|q m IH]; intros I; [reflexivity|]. cbn [map total fold_right length]. fold (total (map (correlation speed s p) m)). rewrite IH by (intros; apply I; right; assumption).
        rewrite (Q p q P (I q (or_introl eq_refl))), corr_self, S_INR. ring. }
      induction l as [|p l IH]; intros I; [cbn; ring|]. cbn [map total fold_right length]. fold (total (map (fun p => total (map (correlation speed s p) pos)) l)). rewrite IH by (intros; apply I; right; assumption).
      fold (total (map (correlation speed s p) pos)). rewrite (H1 p pos) by (try (apply I; left; reflexivity); auto). rewrite S_INR. ring. }
    rewrite G by auto. assert (0 < INR (length pos)) by (apply lt_0_INR; destruct pos; [congruence|cbn; lia]). field. lra. }
  assert (G : forall j, detail_sum (fun i => 1 / sqrt (variability_reduction speed (nth i ts 0) pos)) (fun i => moving_average x i t) j = detail_sum (fun _ => 1) (fun i => moving_average x i t) j).
  { induction j as [|j IH]; [reflexivity|]. cbn [detail_sum]. rewrite IH, V, sqrt_1. f_equal. f_equal. field. }
  rewrite G, detail_telescope. cbn [moving_average]. ring.
Qed.
Print Assumptions C118_coincident.
(** a single site gives nan when the minimiser stays at its start, which is already a minimum: the number of sites comes out as 0 *)
Theorem C118_single_site_refuted : ~ (forall fmin p speed scales, (forall f x0, f x0 = 0 -> fmin f x0 = x0) -> 0 < speed -> (forall s, In s scales -> 0 < s) ->
  compute_vr fmin [p] speed scales = Ok (map (fun s => #(variability_reduction speed s [p])) scales)).
Proof.
  intros H. specialize (H (fun _ x0 => x0) (0, 0) 1 [1] (fun _ _ _ => eq_refl) ltac:(lra)). assert (P : forall s, In s [1] -> 0 < s) by (intros s [<-|[]]; lra). specialize (H P).
  unfold compute_vr in H. cbn [pdist map app length INR mapM] in H. rewrite sqrt_0 in H. rewrite (proj2 (Reqb_false (1 / 2) 0)) in H by lra. cbn [bind] in H. apply Ok_inj in H.
  change 0 with (IZR 0) in H at 1 3. rewrite round_even_IZR in H. unfold fsum in H. cbn [fold_left] in H. rewrite fmul_fin in H. cbn [fadd] in H. unfold fdiv in H. rewrite (proj2 (Reqb_true (2 * 0 + 0) 0)) in H by ring.
  unfold sinf, Rpos, Rneg in H. rewrite (proj2 (Rltb_false 0 (0 ^ 2))) in H by (cbn; lra). rewrite (proj2 (Rltb_false (0 ^ 2) 0)) in H by (cbn; lra). discriminate H.
Qed.
Print Assumptions C118_single_site_refuted.

(** gaps neither spread nor close: a sample of the result is missing exactly where the input is *)
Theorem C117_missing : forall fmin c vals pos speed sm w ts, wvm fmin c vals pos speed = Ok (sm, w, ts) -> finds_count fmin (length pos) -> 0 < speed ->
  (forall v, In v vals -> v <> PInf /\ v <> NInf) -> forall t, (t < length vals)%nat -> (nth t sm NaN = NaN <-> nth t vals NaN = NaN) /\ (nth t sm NaN <> NaN -> exists r, nth t sm NaN = #r).
Proof.
  intros fmin c vals pos speed sm w ts E F SP G t T. destruct (C117_timescales _ _ _ _ _ _ _ _ E) as (dt & T0 & D & L & K & TS & _).
  assert (A : exists o, wvm fmin c vals pos speed = Ok o) by (eexists; exact E). apply C117_accepts in A. destruct A as (_ & _ & NP & NS).
  unfold wvm in E. destruct (compute_wavelet c vals) as [[w' ts']|] eqn:W; [|discriminate]. cbn [bind fst snd] in E.
  destruct (compute_vr fmin pos speed ts') as [vr|] eqn:VR; [|discriminate]. cbn [bind] in E. apply Ok_inj in E. assert (w' = w) by congruence. assert (ts' = ts) by congruence. subst w' ts'.
  assert (SM : sm = map (smooth_column (length ts) vr w) (seq 0 (length vals))) by congruence. clear E.
  assert (P : forall s, In s ts -> 0 < s). { intros s I. apply (In_nth _ _ 0) in I. destruct I as (i & I & <-). rewrite TS by exact I. apply Rmult_lt_0_compat; [apply pow_lt; lra|lra]. }
  rewrite (compute_vr_eq fmin pos speed ts NP F NS P) in VR. apply Ok_inj in VR. subst vr sm. rewrite nth_map_seq by exact T.
  destruct (wavelet_inv _ _ _ _ W) as (dt' & k & _ & _ & _ & K' & EW & ET & _). assert (LT : length ts = k) by (rewrite ET, map_length, seq_length; reflexivity). rewrite LT in *.
  assert (SQ : forall i, (i < k)%nat -> exists q, 0 < q /\ fsqrt (nth i (map (fun s => #(variability_reduction speed s pos)) ts) NaN) = #q).
  { intros i I. rewrite (map_nth' (fun s => #(variability_reduction speed s pos)) 0) by lia. assert (B : 1 <= variability_reduction speed (nth i ts 0) pos) by (apply vr_range; try assumption; apply P, nth_In; lia).
    unfold fsqrt, Rneg. rewrite (proj2 (Rltb_false _ 0)) by lra. eexists. split; [|reflexivity]. apply sqrt_lt_R0. lra. }
  assert (CN : nth t vals NaN = NaN -> smooth_column k (map (fun s => #(variability_reduction speed s pos)) ts) w t = NaN).
  { intros N. unfold smooth_column. apply fsum_has_nan. apply in_map_iff. exists O. split; [|apply in_seq; lia]. cbv zeta.
    assert (R0 : nth t (nth 0 w []) NaN = NaN). { rewrite EW, nth_map_seq by lia. rewrite wavelet_row_nth by exact T. cbv zeta. cbn [csi_mean]. rewrite sym_pad_mid, N by exact T. destruct (Nat.ltb 1 k); reflexivity. }
    rewrite R0. destruct (Nat.ltb 0 (k - 1)); reflexivity. }
  assert (CF : nth t vals NaN <> NaN -> exists r, smooth_column k (map (fun s => #(variability_reduction speed s pos)) ts) w t = #r).
  { intros N. assert (V : exists r, nth t vals NaN = #r). { pose proof (G _ (nth_In vals NaN T)) as [G1 G2]. destruct (nth t vals NaN) as [r| | |]; try congruence. exists r. reflexivity. }
    destruct V as [r V]. assert (IV : In #r vals) by (rewrite <- V; apply nth_In, T).
    assert (M : forall i, exists s, nth (length vals + t) (csi_mean (sym_pad vals) i) NaN = #s).
    { intros [|i]; [cbn [csi_mean]; rewrite sym_pad_mid by exact T; exists r; exact V|]. apply (csi_mean_number vals i r); [exact IV|]. rewrite sym_pad_length. lia. }
    unfold smooth_column. apply fsum_number. intros x X. apply in_map_iff in X. destruct X as (i & <- & I). apply in_seq in I. cbv zeta.
    assert (R0 : exists s, nth t (nth i w []) NaN = #s). { rewrite EW, nth_map_seq by lia. rewrite wavelet_row_nth by exact T. cbv zeta. destruct (M i) as [s1 ->], (M (S i)) as [s2 ->]. destruct (Nat.ltb (S i) k); eexists; reflexivity. }
    destruct R0 as [s ->]. destruct (Nat.ltb i (k - 1)); [|exists s; reflexivity]. destruct (SQ i ltac:(lia)) as (q & Q & ->). rewrite fdiv_fin by lra. eexists. reflexivity. }
  split; [|intros N; apply CF; intros N'; apply N, CN, N']. split; [|exact CN]. intros H. destruct (nth t vals NaN) as [r| | |] eqn:V; [|specialize (G PInf ltac:(rewrite <- V; apply nth_In, T)); destruct G; congruence|specialize (G NInf ltac:(rewrite <- V; apply nth_In, T)); destruct G; congruence|reflexivity].
  destruct CF as [q Q]; [discriminate|]. congruence.
Qed.
Print Assumptions C117_missing.


(** the assumption on the minimiser is met by any that finds the positive zero *)
Example finds_count_met : exists fmin, forall n, (1 <= n)%nat -> finds_count fmin n.
Proof.
  exists (fun f x0 => (1 + sqrt (1 + 8 * x0 ^ 2)) / 2). intros n N. unfold finds_count. cbv zeta. intros f _.
  assert (1 <= INR n) by (change 1 with (INR 1); apply le_INR; exact N). assert (0 <= INR n * (INR n - 1)) by (apply Rmult_le_pos; lra).
  rewrite pow2_sqrt by lra. replace (1 + 8 * (INR n * (INR n - 1) / 2)) with (Rsqr (2 * INR n - 1)) by (unfold Rsqr; field). rewrite sqrt_Rsqr by lra.
  replace ((1 + (2 * INR n - 1)) / 2 - INR n) with 0 by field. rewrite Rabs_R0. lra.
Qed.
(** a run that meets every assumption: three samples 30 seconds apart, one of them missing, two sites *)
Example wvm_runs : forall fmin, exists o, wvm fmin (TimeIndex 30000000) [#0.5; NaN; #1] [(0, 0); (300, 400)] 15 = Ok o.
Proof.
  intros fmin. apply C117_accepts. split; [|split; [discriminate|split; [discriminate|lra]]]. exists (IZR 30000000 / 1000000). split; [apply C117_time_index; cbn; lia|lra].
Qed.

(** ** C119: local coordinates *)
Lemma nth_map_xy (f : R * R -> R * R) (l : list (R * R)) i d : (i < length l)%nat -> nth i (map f l) d = f (nth i l (0, 0)).
Proof. intros I. rewrite (nth_indep _ d (f (0, 0))) by (rewrite map_length; exact I). apply map_nth. Qed.
(** (latitude, longitude) pairs become (x, y) pairs: y along the meridian, x along the parallel of the mean latitude *)
Theorem C119_coordinates : forall sites, length (latlon_to_xy sites) = length sites /\ forall i, (i < length sites)%nat ->
  fst (nth i (latlon_to_xy sites) (0, 0)) = arc_length (earth_radius * cos (mean (map fst sites) * PI / 180)) (snd (nth i sites (0, 0))) /\
  snd (nth i (latlon_to_xy sites) (0, 0)) = arc_length earth_radius (fst (nth i sites (0, 0))).
Proof.
  intros sites. unfold latlon_to_xy. split; [apply map_length|]. intros i I. rewrite nth_map_xy by exact I. unfold to_xy, arc_length, earth_radius, r_earth, mean, total. cbn [fst snd]. rewrite map_length. split; [|field].
  replace (PI / 180 * (fold_right Rplus 0 (map fst sites) / INR (length sites))) with (fold_right Rplus 0 (map fst sites) / INR (length sites) * PI / 180) by (unfold Rdiv; ring). field.
Qed.
Print Assumptions C119_coordinates.
Theorem C119_single : forall lat lon, latlon_to_xy_single (lat, lon) = (arc_length (earth_radius * cos (lat * PI / 180)) lon, arc_length earth_radius lat) /\ latlon_to_xy [(lat, lon)] = [latlon_to_xy_single (lat, lon)].
Proof.
  intros lat lon. unfold latlon_to_xy_single, latlon_to_xy, to_xy, arc_length, earth_radius, r_earth. cbn [map fst snd fold_right length INR]. replace ((lat + 0) / 1) with lat by field. split; [|reflexivity].
  replace (PI / 180 * lat) with (lat * PI / 180) by (unfold Rdiv; ring). f_equal; field.
Qed.
Print Assumptions C119_single.
(** differences of coordinates do not depend on the reference meridian *)
Theorem C119_meridian : forall sites d i j, (i < length sites)%nat -> (j < length sites)%nat ->
  let moved := latlon_to_xy (map (fun c => (fst c, snd c + d)) sites) in let here := latlon_to_xy sites in
  fst (nth i moved (0, 0)) - fst (nth j moved (0, 0)) = fst (nth i here (0, 0)) - fst (nth j here (0, 0)) /\
  snd (nth i moved (0, 0)) - snd (nth j moved (0, 0)) = snd (nth i here (0, 0)) - snd (nth j here (0, 0)).
Proof.
  intros sites d i j I J. cbv zeta. set (moved := map (fun c => (fst c, snd c + d)) sites). assert (L : length moved = length sites) by apply map_length.
  assert (FM : map fst moved = map fst sites) by (unfold moved; rewrite map_map; apply map_ext; reflexivity).
  destruct (proj2 (C119_coordinates moved) i ltac:(lia)) as [-> ->]. destruct (proj2 (C119_coordinates moved) j ltac:(lia)) as [-> ->]. destruct (proj2 (C119_coordinates sites) i I) as [-> ->]. destruct (proj2 (C119_coordinates sites) j J) as [-> ->].
  rewrite FM. unfold moved. rewrite !nth_map_xy by assumption. cbn [fst snd]. unfold arc_length. split; [field|ring].
Qed.
Print Assumptions C119_meridian.
(** the wavelet model sees only distances: shifting every site by the same vector, or mirroring the plane, changes nothing *)
Theorem C119_only_distances : forall fmin c vals pos pos' speed, map (fun p => map (fun q => sqrt ((fst p - fst q) ^ 2 + (snd p - snd q) ^ 2)) pos) pos = map (fun p => map (fun q => sqrt ((fst p - fst q) ^ 2 + (snd p - snd q) ^ 2)) pos') pos' ->
  wvm fmin c vals pos speed = wvm fmin c vals pos' speed.
Proof.
  intros fmin c vals pos pos' speed H. assert (PD : pdist pos = pdist pos').
  { assert (G : forall (a a' : list (R * R)), map (fun p => map (euclid p) a) a = map (fun p => map (euclid p) a') a' -> pdist a = pdist a').
    { induction a as [|p a IH]; intros [|p' a'] Q; try reflexivity; try discriminate. cbn [map] in Q. injection Q as Q1 Q2 Q3. cbn [pdist]. f_equal; [exact Q2|]. apply IH.
      assert (M : forall (l l' : list (R * R)), map (fun q => euclid q p :: map (euclid q) a) l = map (fun q => euclid q p' :: map (euclid q) a') l' -> map (fun q => map (euclid q) a) l = map (fun q => map (euclid q) a') l').
      { induction l as [|q l IHl]; intros [|q' l'] Z; try reflexivity; try discriminate. cbn [map] in Z |- *. injection Z as Z1 Z2 Z3. f_equal; [exact Z2|apply IHl; exact Z3]. }
      apply M. exact Q3. }
    apply G. exact H. }
  unfold wvm. destruct (compute_wavelet c vals) as [[w ts]|]; [|reflexivity]. cbn [bind fst snd]. assert (V : compute_vr fmin pos speed ts = compute_vr fmin pos' speed ts).
  { unfold compute_vr. rewrite PD. destruct pos, pos'; try reflexivity; discriminate. }
  rewrite V. reflexivity.
Qed.
Print Assumptions C119_only_distances.
