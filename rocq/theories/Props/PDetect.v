(** C99: clear-sky detection. *)
From Verif Require Import Base.Fl Base.FlFacts Base.Py Base.Series Base.Round Base.Trig Model.Tools Model.Clearsky Spec.ToolsSpec Spec.ClearskySpec Proofs.ClearskyP Proofs.ClearskyT Proofs.ClearskyD Props.PTools.
From Coq Require Import Psatz Lia List ZArith.
Import ListNotations.
Open Scope R_scope.

(** the thresholds in force: the caller's, or those for the sample interval *)
Definition in_force (infer : bool) (user : limits) (dt : R) (lim : limits) : Prop :=
  if infer then clearsky_get_threshold dt = Ok lim else lim = user.
(** clear samples of the series [f] (present where [pm]) against [g] (present where [pc]) scaled by [a] *)
Definition clear_with (lim : limits) (dt : R) (w n : nat) (pm pc : nat -> bool) (f g : nat -> R) (a : R) (i : nat) : Prop :=
  sample_is_clear (l_mean_diff lim) (l_max_diff lim) (l_lower_line_length lim) (l_upper_line_length lim) (l_var_diff lim) (l_slope_dev lim) dt w n pm pc f g a i.
Definition to_4_digits (a : R) : Z := round_even (a * 10000).

Lemma detect_unfold infer user dt ds lim W meas clear maxit : 0 < dt < 1440 -> (forall x, In x ds -> x = dt) -> in_force infer user dt lim -> 0 <= l_window_length user -> 0 <= l_window_length lim ->
  IZR W * dt <= l_window_length lim < (IZR W + 1) * dt -> detect_clearsky true (dt :: ds) meas clear infer user maxit =
  if Z.ltb W 3 then Err ValueError else if Z.ltb (Z.of_nat (length meas)) W then Err ValueError else detect_loop lim #dt (Z.to_nat W) meas clear #1 maxit None.
Proof.
  intros Hd Hs Hl Hu Hv Hw. destruct (C59_samples_per_window dt ds (l_window_length user) Hd Hu Hs) as (W0 & E0 & _). destruct (C59_samples_per_window dt ds (l_window_length lim) Hd Hv Hs) as (W1 & E1 & B1).
  assert (W1 = W) as ->. { assert (A : IZR W1 < IZR W + 1 /\ IZR W < IZR W1 + 1) by (split; apply Rmult_lt_reg_r with dt; lra). destruct A as [A B]. rewrite <- plus_IZR in A, B. apply lt_IZR in A, B. lia. }
  unfold detect_clearsky. rewrite E0. cbn [bind]. unfold in_force in Hl. destruct infer; [rewrite Hl|rewrite <- Hl]; cbn [bind]; rewrite E1; cbn [bind]; reflexivity.
Qed.

(** the result is that of [K] passes starting from the scale 1: every pass selects the samples of the windows that meet the criteria for its scale and fits the next
    scale to them; passes end when the scale is unchanged to four digits, or after max_iterations *)
Theorem C99_clear_samples : forall infer user dt ds lim w n pm pc f g maxit,
  0 < dt < 1440 -> (forall x, In x ds -> x = dt) -> in_force infer user dt lim -> 0 <= l_window_length user -> 0 <= l_window_length lim ->
  INR w * dt <= l_window_length lim < (INR w + 1) * dt -> (3 <= w <= n)%nat -> (1 <= maxit)%nat ->
  exists d K (s : nat -> R), detect_clearsky true (dt :: ds) (series pm f n) (series pc g n) infer user maxit = Ok d /\
  (1 <= K <= maxit)%nat /\ s 0%nat = 1 /\
  (forall k, (k < K)%nat -> exists sel, (forall i, (i < n)%nat -> sel i = true <-> clear_with lim dt w n pm pc f g (s k) i) /\ best_scale sel n f g (s k) (s (S k))) /\
  (forall k, (S k < K)%nat -> to_4_digits (s (S k)) <> to_4_digits (s k)) /\
  length (d_samples d) = n /\ (forall i, (i < n)%nat -> nth i (d_samples d) false = true <-> clear_with lim dt w n pm pc f g (s (K - 1)%nat) i) /\
  d_alpha d = #(s K) /\ (d_converged d = true <-> to_4_digits (s K) = to_4_digits (s (K - 1)%nat)) /\ (d_converged d = false -> K = maxit).
Proof.
  intros infer user dt ds lim w n pm pc f g maxit Hd Hs Hl Hu Hv Hb Hw Hm.
  rewrite (detect_unfold infer user dt ds lim (Z.of_nat w)) by (rewrite <- ?INR_IZR_INZ; assumption). rewrite series_length, Nat2Z.id.
  destruct (Z.ltb_spec (Z.of_nat w) 3); [lia|]. destruct (Z.ltb_spec (Z.of_nat n) (Z.of_nat w)); [lia|].
  destruct (loop_spec lim dt w n pm pc f g Hw (proj1 Hd) maxit 1 None Hm) as (K & s & D & HK & S0 & P & NC & R & O).
  assert (PS : forall k, (k < K)%nat -> length (d_samples (D k)) = n /\ (forall i, (i < n)%nat -> nth i (d_samples (D k)) false = true <-> clear_with lim dt w n pm pc f g (s k) i) /\
    best_scale (fun i => nth i (d_samples (D k)) false) n f g (s k) (s (S k)) /\ (d_converged (D k) = true <-> to_4_digits (s (S k)) = to_4_digits (s k))).
  { intros k Hk. destruct (P k Hk) as [E A]. destruct (pass_spec lim dt (s k) w n pm pc f g Hw (proj1 Hd)) as (d & a' & Ed & L & Q & _ & Ea & B & C & _). rewrite E in Ed. assert (D k = d) by congruence. subst d.
    rewrite A in Ea. apply Fin_inj in Ea. subst a'. repeat split; try assumption; try apply Q; try apply C; assumption. }
  exists (D (K - 1)%nat), K, s. split; [exact R|]. split; [exact HK|]. split; [exact S0|]. destruct (PS (K - 1)%nat ltac:(lia)) as (L & Q & B & C). replace (S (K - 1)) with K in C by lia.
  split; [|split; [|split; [exact L|split; [exact Q|split; [|split; [exact C|]]]]]].
  - intros k Hk. destruct (PS k Hk) as (_ & Qk & Bk & _). eexists. split; [exact Qk|exact Bk].
  - intros k Hk E. destruct (PS k ltac:(lia)) as (_ & _ & _ & Ck). apply Ck in E. rewrite NC in E by exact Hk. discriminate.
  - destruct (P (K - 1)%nat ltac:(lia)) as [_ A]. replace (S (K - 1)) with K in A by lia. exact A.
  - intros E. destruct O as [O | O]; [congruence|exact O].
Qed.
Print Assumptions C99_clear_samples.
(** a sample missing from either series is never clear *)
Theorem C99_missing_never_clear : forall infer user dt ds lim w n pm pc f g maxit d i,
  0 < dt < 1440 -> (forall x, In x ds -> x = dt) -> in_force infer user dt lim -> 0 <= l_window_length user -> 0 <= l_window_length lim ->
  INR w * dt <= l_window_length lim < (INR w + 1) * dt -> (3 <= w <= n)%nat -> (1 <= maxit)%nat ->
  detect_clearsky true (dt :: ds) (series pm f n) (series pc g n) infer user maxit = Ok d -> (i < n)%nat -> pm i = false \/ pc i = false -> nth i (d_samples d) false = false.
Proof.
  intros infer user dt ds lim w n pm pc f g maxit d i Hd Hs Hl Hu Hv Hb Hw Hm E Hi HN. destruct (C99_clear_samples infer user dt ds lim w n pm pc f g maxit Hd Hs Hl Hu Hv Hb Hw Hm) as (d' & K & s & E' & _ & _ & _ & _ & _ & Q & _).
  rewrite E in E'. assert (d = d') by congruence. subst d'. destruct (nth i (d_samples d) false) eqn:F; [|reflexivity]. apply Q in F; [|exact Hi]. destruct F as (j & H1 & _ & H3 & _). destruct (H3 i H1) as [A B]. destruct HN; congruence.
Qed.
Print Assumptions C99_missing_never_clear.
(** measurements equal to the clear-sky series are clear everywhere, with factor one, as long as the series itself is smooth enough *)
Theorem C99_clear_sky_is_clear : forall infer user dt ds lim w n f maxit,
  0 < dt < 1440 -> (forall x, In x ds -> x = dt) -> in_force infer user dt lim -> 0 <= l_window_length user -> 0 <= l_window_length lim ->
  INR w * dt <= l_window_length lim < (INR w + 1) * dt -> (3 <= w <= n)%nat -> (1 <= maxit)%nat ->
  0 < l_mean_diff lim -> 0 < l_max_diff lim -> l_lower_line_length lim < 0 < l_upper_line_length lim -> 0 < l_slope_dev lim ->
  (forall j, (j + w <= n)%nat -> mean_over (from f j) w <> 0 /\ slope_variation (from f j) dt w < l_var_diff lim) ->
  exists d, detect_clearsky true (dt :: ds) (series (fun _ => true) f n) (series (fun _ => true) f n) infer user maxit = Ok d /\
  (forall i, (i < n)%nat -> nth i (d_samples d) false = true) /\ d_alpha d = #1 /\ d_converged d = true.
Proof.
  intros infer user dt ds lim w n f maxit Hd Hs Hl Hu Hv Hb Hw Hm T1 T2 T3 T5 SM.
  destruct (C99_clear_samples infer user dt ds lim w n (fun _ => true) (fun _ => true) f f maxit Hd Hs Hl Hu Hv Hb Hw Hm) as (d & K & s & E & HK & S0 & P & NC & L & Q & A & C & _).
  assert (W1 : forall i, (i < n)%nat -> clear_with lim dt w n (fun _ => true) (fun _ => true) f f 1 i).
  { intros i Hi. exists (Nat.min i (n - w)). split; [lia|]. split; [lia|]. split; [auto|]. set (j := Nat.min i (n - w)). assert (Hj : (j + w <= n)%nat) by (unfold j; lia). destruct (SM j Hj) as [M V].
    unfold window_is_clear. cbn zeta. assert (Z : forall x, x - 1 * x = 0) by (intros; ring). destruct (fmaxl_over (fun i => #(from f j i)) (from f j) w ltac:(lia) ltac:(reflexivity)) as (X & _ & LX).
    split; [rewrite Z, Rabs_R0; exact T1|]. split; [exists X, X; split; [exact LX|]; split; [exact LX|]; rewrite Z, Rabs_R0; exact T2|].
    assert (LE : line_length (fun i => 1 * from f j i) dt w = line_length (from f j) dt w). { unfold line_length, sum_over. f_equal. apply map_ext. intros k. unfold step. f_equal. ring. }
    split; [rewrite LE; lra|]. split; [exact M|]. split; [exact V|]. split; [intros k Hk; rewrite Z, Rabs_R0; exact T5|exact M]. }
  assert (S1 : s 1%nat = 1).
  { destruct (P 0%nat ltac:(lia)) as (sel & Hsel & [[Zero ->] | [Ex Best]]); [exact S0|]. destruct (Req_dec (s 1%nat) 1) as [-> | N]; [reflexivity|]. exfalso. specialize (Best 1 ltac:(auto)).
    assert (SD1 : squared_deviation sel n f f 1 = 0). { unfold squared_deviation. induction (filter sel (seq 0 n)) as [|i l IH]; cbn [map fold_right]; [reflexivity|]. rewrite IH. ring. }
    assert (0 <= squared_deviation sel n f f (s 1%nat)). { unfold squared_deviation. induction (filter sel (seq 0 n)) as [|i l IH]; cbn [map fold_right]; [lra|]. pose proof (pow2_ge_0 (f i - s 1%nat * f i)). lra. }
    lra. }
  assert (K1 : K = 1%nat). { destruct (Nat.eq_dec K 1) as [-> | N]; [reflexivity|]. exfalso. apply (NC 0%nat); [lia|]. rewrite S0, S1. reflexivity. }
  subst K. cbn [Nat.sub] in *. rewrite S0 in *. rewrite S1 in *. exists d. split; [exact E|]. split; [intros i Hi; apply Q; [exact Hi|apply W1, Hi]|]. split; [exact A|apply C; reflexivity].
Qed.
Print Assumptions C99_clear_sky_is_clear.
(** Finding: the factor returned is the one fitted after the last pass, not "the factor applied to obtain the detected samples": here it is 1.05 although the samples
    were obtained with 1 *)
Definition default_limits : limits :=
  {| l_window_length := 10; l_mean_diff := 75; l_max_diff := 75; l_lower_line_length := -5; l_upper_line_length := 10; l_var_diff := 0.005; l_slope_dev := 8 |}.
Theorem C99_alpha_produced_the_samples_refuted :
  exists d, detect_clearsky true (3 :: 3 :: nil) (series (fun _ => true) (fun _ => 105) 3) (series (fun _ => true) (fun _ => 100) 3) false default_limits 1 = Ok d /\
  d_samples d = [true; true; true] /\ d_alpha d = #1.05.
Proof.
  assert (IN3 : INR 3 = 3) by (rewrite INR_IZR_INZ; reflexivity).
  assert (B : INR 3 * 3 <= l_window_length default_limits < (INR 3 + 1) * 3) by (rewrite IN3; cbn [l_window_length default_limits]; lra).
  assert (U : 0 <= l_window_length default_limits) by (cbn [l_window_length default_limits]; lra).
  assert (HS : forall x, In x (3 :: nil) -> x = 3) by (intros x [<- | []]; reflexivity).
  destruct (C99_clear_samples false default_limits 3 (3 :: nil) default_limits 3 3 (fun _ => true) (fun _ => true) (fun _ => 105) (fun _ => 100) 1
    ltac:(lra) HS eq_refl U U B ltac:(lia) ltac:(lia)) as (d & K & s & E & HK & S0 & P & _ & L & Q & A & _).
  assert (K = 1%nat) by lia. subst K. cbn [Nat.sub] in *. rewrite S0 in *. 
  assert (W1 : forall i, (i < 3)%nat -> clear_with default_limits 3 3 3 (fun _ => true) (fun _ => true) (fun _ => 105) (fun _ => 100) 1 i).
  { intros i Hi. exists 0%nat. split; [lia|]. split; [lia|]. split; [auto|]. unfold window_is_clear. cbn zeta. unfold default_limits. cbn [l_mean_diff l_max_diff l_lower_line_length l_upper_line_length l_var_diff l_slope_dev].
    assert (ME : forall c, mean_over (from (fun _ => c) 0) 3 = c) by (intros c; unfold mean_over, sum_over, from; rewrite IN3; cbn [seq map fold_right]; field).
    assert (LA : forall c, largest_over (from (fun _ => c) 0) 3 c) by (intros c; split; [exists 0%nat; split; [lia|reflexivity]|intros; unfold from; lra]).
    assert (ST : forall c i, step (from (fun _ => c) 0) i = 0) by (intros; unfold step, from; ring).
    rewrite !ME. split; [unfold Rabs; destruct Rcase_abs; lra|]. split; [exists 105, 100; split; [apply LA|]; split; [apply LA|unfold Rabs; destruct Rcase_abs; lra]|].
    assert (LL : line_length (fun i => 1 * from (fun _ => 100) 0 i) 3 3 = line_length (from (fun _ => 105) 0) 3 3). { unfold line_length, sum_over. f_equal. apply map_ext. intros k. unfold step, from. f_equal. ring. }
    split; [rewrite LL; lra|]. split; [lra|]. split.
    - unfold slope_variation. rewrite ME. assert (SD : std_over (fun i => step (from (fun _ => 105) 0) i / 3) (3 - 1) = 0).
      { unfold std_over. replace (sum_over _ (3 - 1) / _) with 0; [apply sqrt_0|]. unfold mean_over, sum_over, step, from. cbn [seq map fold_right Nat.sub]. cbn [INR]. field. }
      rewrite SD. lra.
    - split; [intros k Hk; rewrite !ST; unfold Rabs; destruct Rcase_abs; lra|lra]. }
  exists d. split; [exact E|]. split.
  - assert (D : forall i, (i < 3)%nat -> nth i (d_samples d) false = true) by (intros i Hi; apply Q; [exact Hi|apply W1, Hi]).
    destruct (d_samples d) as [|x [|y [|z [|]]]]; try discriminate. pose proof (D 0%nat ltac:(lia)). pose proof (D 1%nat ltac:(lia)). pose proof (D 2%nat ltac:(lia)). cbn [nth] in *. subst. reflexivity.
  - rewrite A. f_equal. destruct (P 0%nat ltac:(lia)) as (sel & Hsel & [[Zero _] | [Ex Best]]).
    + exfalso. assert (100 = 0) by (apply (Zero 0%nat); [lia|apply Hsel; [lia|]; rewrite S0; apply W1; lia]). lra.
    + destruct (Req_dec (s 1%nat) 1.05) as [-> | N]; [reflexivity|]. exfalso. specialize (Best 1.05 ltac:(auto)).
      assert (0 <= squared_deviation sel 3 (fun _ => 105) (fun _ => 100) (s 1%nat)). { unfold squared_deviation. induction (filter sel (seq 0 3)) as [|i l IH]; cbn [map fold_right]; [lra|]. pose proof (pow2_ge_0 (105 - s 1%nat * 100)). lra. }
      assert (squared_deviation sel 3 (fun _ => 105) (fun _ => 100) 1.05 = 0). { unfold squared_deviation. induction (filter sel (seq 0 3)) as [|i l IH]; cbn [map fold_right]; [reflexivity|]. rewrite IH. lra. }
      lra.
Qed.
Print Assumptions C99_alpha_produced_the_samples_refuted.
(** the refusals *)
Theorem C99_refusals : forall infer user dt ds lim W meas clear maxit,
  0 < dt < 1440 -> (forall x, In x ds -> x = dt) -> in_force infer user dt lim -> 0 <= l_window_length user -> 0 <= l_window_length lim ->
  IZR W * dt <= l_window_length lim < (IZR W + 1) * dt ->
  ((W < 3)%Z \/ (Z.of_nat (length meas) < W)%Z -> detect_clearsky true (dt :: ds) meas clear infer user maxit = Err ValueError) /\
  ((3 <= W <= Z.of_nat (length meas))%Z -> detect_clearsky true (dt :: ds) meas clear infer user 0 = Err UnboundLocalError).
Proof.
  intros infer user dt ds lim W meas clear maxit Hd Hs Hl Hu Hv Hb. rewrite !(detect_unfold infer user dt ds lim W) by assumption. split.
  - intros H. destruct (Z.ltb_spec W 3); [reflexivity|]. destruct (Z.ltb_spec (Z.of_nat (length meas)) W); [reflexivity|lia].
  - intros H. destruct (Z.ltb_spec W 3); [lia|]. destruct (Z.ltb_spec (Z.of_nat (length meas)) W); [lia|reflexivity].
Qed.
Print Assumptions C99_refusals.
Theorem C99_uneven_sampling_refused : forall fi deltas meas clear infer user maxit, fi = false \/ deltas = [] \/ (exists x y, In x deltas /\ In y deltas /\ x <> y) ->
  detect_clearsky fi deltas meas clear infer user maxit = Err NotImplementedError.
Proof. intros fi deltas meas clear infer user maxit H. unfold detect_clearsky. rewrite (proj2 (C59_uneven_sampling_raises fi deltas (l_window_length user)) H). reflexivity. Qed.
Print Assumptions C99_uneven_sampling_refused.
(** inferred thresholds: refused outside 1..30 minutes; otherwise on the straight line between the tabulated rows *)
Theorem C99_inferred_limits : forall dt,
  (dt < 1 \/ 30 < dt -> clearsky_get_threshold dt = Err ValueError) /\
  (1 <= dt <= 30 -> exists lim, clearsky_get_threshold dt = Ok lim /\ forall k, (k < 3)%nat ->
    let row i := nth i published_limits (0, []) in let x0 := fst (row k) in let x1 := fst (row (S k)) in
    x0 <= dt <= x1 -> [l_window_length lim; l_mean_diff lim; l_max_diff lim; l_lower_line_length lim; l_upper_line_length lim; l_var_diff lim; l_slope_dev lim] =
      map (fun c => on_line x0 (nth c (snd (row k)) 0) x1 (nth c (snd (row (S k))) 0) dt) [0; 1; 2; 3; 4; 5; 6]%nat).
Proof.
  intros dt. split.
  - intros H. unfold clearsky_get_threshold. destruct (Rltb_spec dt 1) as [A | A]; [reflexivity|]. destruct (Rltb_spec 30 dt) as [B | B]; [reflexivity|lra].
  - intros H. unfold clearsky_get_threshold. rewrite !Rltb_f by lra. cbn [orb]. eexists. split; [reflexivity|]. intros k Hk. cbn zeta. cbn [l_window_length l_mean_diff l_max_diff l_lower_line_length l_upper_line_length l_var_diff l_slope_dev].
    intros Hx. assert (AS : ascends [1; 5; 15; 30]) by (intros i Hi; cbn in Hi; do 3 (destruct i as [|i]; [cbv [nth]; lra|]); lia).
    assert (F : forall y0 y1 y2 y3, np_interp dt [1; 5; 15; 30] [y0; y1; y2; y3] = on_line (nth k [1; 5; 15; 30] 0) (nth k [y0; y1; y2; y3] 0) (nth (S k) [1; 5; 15; 30] 0) (nth (S k) [y0; y1; y2; y3] 0) dt).
    { intros. rewrite (np_interp_seg [1; 5; 15; 30] _ dt k); [unfold on_line, Rdiv; ring|reflexivity|exact AS|cbn; lia|].
      revert Hx. do 3 (destruct k as [|k]; [exact (fun H => H)|]). lia. }
    rewrite !F. clear F. do 3 (destruct k as [|k]; [reflexivity|]). lia.
Qed.
Print Assumptions C99_inferred_limits.
(** the components mean_diff and max_diff, read at the centre of a window, use the returned factor *)
Theorem C99_components : forall lim dt a w n pm pc f g d j, 0 < dt -> (3 <= w <= n)%nat -> (j + w <= n)%nat -> (forall k, (j <= k < j + w)%nat -> pm k = true /\ pc k = true) ->
  detect_pass lim #dt w (series pm f n) (series pc g n) #a = Ok d -> exists a' M C,
  d_alpha d = #a' /\ largest_over (from f j) w M /\ largest_over (from g j) w C /\
  nth (j + w / 2) (d_mean_diff d) NaN = #(Rabs (mean_over (from f j) w - a' * mean_over (from g j) w)) /\
  nth (j + w / 2) (d_max_diff d) NaN = #(Rabs (M - a' * C)) /\
  (nth (j + w / 2) (d_windows d) false = true <-> window_is_clear (l_mean_diff lim) (l_max_diff lim) (l_lower_line_length lim) (l_upper_line_length lim) (l_var_diff lim) (l_slope_dev lim) dt w f g a j).
Proof.
  intros lim dt a w n pm pc f g d j Hd Hw Hj HP E. destruct (pass_spec lim dt a w n pm pc f g Hw Hd) as (d' & a' & E' & _ & _ & EW & EA & _ & _ & E1 & E2). rewrite E in E'. assert (d = d') by congruence. subst d'.
  assert (Hf : forall i, (i < w)%nat -> nth (j + i) (series pm f n) NaN = #(f (j + i)%nat)) by (intros i Hi; rewrite series_nth by lia; destruct (HP (j + i)%nat ltac:(lia)) as [-> _]; reflexivity).
  assert (Hg : forall i, (i < w)%nat -> nth (j + i) (series pc g n) NaN = #(g (j + i)%nat)) by (intros i Hi; rewrite series_nth by lia; destruct (HP (j + i)%nat ltac:(lia)) as [_ ->]; reflexivity).
  destruct (max_at_fin w n j _ (series_length pm f n) ltac:(lia) Hj f Hf) as (M & EM & LM). destruct (max_at_fin w n j _ (series_length pc g n) ltac:(lia) Hj g Hg) as (C & EC & LC).
  exists a', M, C. split; [exact EA|]. split; [exact LM|]. split; [exact LC|]. pose proof (half_lt w ltac:(lia)).
  pose proof (win_lengths w #dt (series pm f n)) as (A1 & A2 & _). pose proof (win_lengths w #dt (series pc g n)) as (B1 & B2 & _). rewrite series_length in A1, A2, B1, B2.
  split; [|split].
  - rewrite E1, (zip_with_nth _ NaN NaN) by (rewrite ?A1, ?B1; lia). rewrite (mean_at_fin w n j _ (series_length pm f n) ltac:(lia) Hj f Hf), (mean_at_fin w n j _ (series_length pc g n) ltac:(lia) Hj g Hg). reflexivity.
  - rewrite E2, (zip_with_nth _ NaN NaN) by (rewrite ?A2, ?B2; lia). rewrite EM, EC. reflexivity.
  - rewrite EW. rewrite (flag_series lim dt a w n pm pc f g Hw Hd j Hj). tauto.
Qed.
Print Assumptions C99_components.
