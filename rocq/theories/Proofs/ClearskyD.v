(** detect_clearsky: windows, statistics, one pass, the loop. *)
From Verif Require Import Base.Fl Base.FlFacts Base.Py Base.Series Base.Round Base.Trig Model.Tools Model.Clearsky Spec.ClearskySpec Proofs.ClearskyP.
From Coq Require Import Psatz Lia List ZArith.
Import ListNotations.
Open Scope R_scope.

(** ** lists *)
Lemma nth_skipn_ {A} (d : A) j : forall l i, nth i (skipn j l) d = nth (j + i) l d.
Proof. induction j as [|j IH]; intros l i; [reflexivity|]. destruct l as [|a l]; [rewrite skipn_nil; destruct i; reflexivity|]. apply IH. Qed.
Lemma nth_firstn_ {A} (d : A) w : forall l i, (i < w)%nat -> nth i (firstn w l) d = nth i l d.
Proof. induction w as [|w IH]; intros l i H; [lia|]. destruct l as [|a l]; [reflexivity|]. destruct i as [|i]; [reflexivity|]. cbn [firstn nth]. apply IH. lia. Qed.
Lemma nth_map_seq {A} (d : A) f n i : (i < n)%nat -> nth i (map f (seq 0 n)) d = f i.
Proof. intros H. rewrite (nth_indep _ d (f 0%nat)) by (rewrite map_length, seq_length; exact H). rewrite (map_nth f). rewrite seq_nth by exact H. reflexivity. Qed.
Lemma list_as_map {A} (d : A) l : l = map (fun i => nth i l d) (seq 0 (length l)).
Proof. apply (nth_ext _ _ d d); [rewrite map_length, seq_length; reflexivity|]. intros i Hi. rewrite nth_map_seq by exact Hi. reflexivity. Qed.
Lemma window_nth {A} (d : A) w j l : (j + w <= length l)%nat -> window w j l = map (fun i => nth (j + i) l d) (seq 0 w).
Proof.
  intros H. assert (L : length (window w j l) = w) by (unfold window; rewrite firstn_length, skipn_length; lia).
  rewrite (list_as_map d (window w j l)), L. apply map_ext_in. intros i Hi. apply in_seq in Hi. unfold window. rewrite nth_firstn_ by lia. apply nth_skipn_.
Qed.
Lemma fdiffs_length l : length (fdiffs l) = (length l - 1)%nat.
Proof. induction l as [|x [|y l] IH]; try reflexivity. cbn [fdiffs length] in *. rewrite IH. lia. Qed.
Lemma fdiffs_nth l : forall i, (S i < length l)%nat -> nth i (fdiffs l) NaN = fsub (nth (S i) l NaN) (nth i l NaN).
Proof.
  induction l as [|x [|y l] IH]; intros i H; cbn in H; try lia. destruct i as [|i]; [reflexivity|]. change (nth (S i) (fdiffs (x :: y :: l)) NaN) with (nth i (fdiffs (y :: l)) NaN). rewrite IH by (cbn; lia). reflexivity.
Qed.
Lemma zip_with_nth {A B C} (f : A -> B -> C) a b c : forall l m i, (i < length l)%nat -> (i < length m)%nat -> nth i (zip_with f l m) c = f (nth i l a) (nth i m b).
Proof. induction l as [|x l IH]; intros [|y m] i H1 H2; cbn in H1, H2; try lia. destruct i as [|i]; [reflexivity|]. cbn [zip_with nth]. apply IH; lia. Qed.
Lemma zip_with_length {A B C} (f : A -> B -> C) : forall l m, length (zip_with f l m) = Nat.min (length l) (length m).
Proof. induction l as [|x l IH]; intros [|y m]; try reflexivity. cbn. rewrite IH. reflexivity. Qed.
Lemma to_centered_length n w vals : length (to_centered n w vals) = n.
Proof. unfold to_centered. rewrite firstn_length, !app_length, !repeat_length. lia. Qed.
Lemma to_centered_at n w vals j : (j < length vals)%nat -> (j + w / 2 < n)%nat -> nth (j + w / 2) (to_centered n w vals) NaN = nth j vals NaN.
Proof.
  intros H1 H2. unfold to_centered. rewrite nth_firstn_ by exact H2. rewrite app_nth2 by (rewrite repeat_length; lia). rewrite repeat_length, app_nth1 by lia. f_equal. lia.
Qed.
Lemma map_nth' {A B} (f : A -> B) a b l i : (i < length l)%nat -> nth i (map f l) b = f (nth i l a).
Proof. intros H. rewrite (nth_indep _ b (f a)) by (rewrite map_length; exact H). apply map_nth. Qed.

(** ** statistics on real samples *)
Lemma fsum_over (F : nat -> fl) h w : (forall i, (i < w)%nat -> F i = #(h i)) -> fsum (map F (seq 0 w)) = #(sum_over h w).
Proof.
  intros H. unfold sum_over. assert (G : forall l acc, (forall i, In i l -> F i = #(h i)) -> fold_left fadd (map F l) #acc = #(acc + fold_right Rplus 0 (map h l))).
  { induction l as [|i l IH]; intros acc HF; cbn [map fold_left fold_right]; [f_equal; ring|]. rewrite (HF i) by (left; reflexivity). rewrite fadd_fin, IH by (intros; apply HF; right; assumption). f_equal. ring. }
  unfold fsum. rewrite (G (seq 0 w) 0) by (intros i Hi; apply H; apply in_seq in Hi; lia). f_equal. ring.
Qed.
Lemma fsum_has_nan l : In NaN l -> fsum l = NaN.
Proof.
  unfold fsum. generalize #0. induction l as [|x l IH]; intros acc H; [destruct H|]. cbn [fold_left]. destruct H as [-> | H]; [|apply IH, H].
  assert (E : fadd acc NaN = NaN) by (destruct acc; reflexivity). rewrite E. clear. induction l as [|x l IH]; [reflexivity|exact IH].
Qed.
Lemma INR_pos w : (1 <= w)%nat -> 0 < INR w. Proof. intros H. apply lt_0_INR. lia. Qed.
Lemma fmean_over (F : nat -> fl) h w : (1 <= w)%nat -> (forall i, (i < w)%nat -> F i = #(h i)) -> fmean (map F (seq 0 w)) = #(mean_over h w).
Proof. intros P H. unfold fmean. rewrite (fsum_over F h w H), map_length, seq_length. pose proof (INR_pos w P). apply fdiv_fin. lra. Qed.
Lemma fmean_nan l : In NaN l -> fmean l = NaN.
Proof. intros H. unfold fmean. rewrite fsum_has_nan by exact H. reflexivity. Qed.
Lemma fmaxl_over (F : nat -> fl) h w : (1 <= w)%nat -> (forall i, (i < w)%nat -> F i = #(h i)) -> exists M, fmaxl (map F (seq 0 w)) = #M /\ largest_over h w M.
Proof.
  intros P H. destruct w as [|w]; [lia|]. cbn [seq map fmaxl]. rewrite (H 0%nat) by lia.
  assert (G : forall l m, (forall i, In i l -> (i < S w)%nat) -> exists M, fold_left fmax (map F l) #m = #M /\ m <= M /\ (forall i, In i l -> h i <= M) /\ (M = m \/ exists i, In i l /\ h i = M)).
  { induction l as [|i l IH]; intros m B; [exists m; repeat split; [lra|intros i []|left; reflexivity]|]. cbn [map fold_left]. rewrite (H i) by (apply B; left; reflexivity). rewrite fmax_fin.
    destruct (IH (Rmax m (h i))) as (M & E & L & A & O); [intros; apply B; right; assumption|]. exists M. split; [exact E|]. pose proof (Rmax_l m (h i)). pose proof (Rmax_r m (h i)). split; [lra|]. split.
    - intros k [-> | K]; [lra|apply A, K].
    - destruct O as [-> | (k & K & Ek)]; [|right; exists k; split; [right; exact K|exact Ek]]. unfold Rmax. destruct Rle_dec; [right; exists i; split; [left; reflexivity|reflexivity]|left; reflexivity]. }
  destruct (G (seq 1 w) (h 0%nat)) as (M & E & L & A & O); [intros i Hi; apply in_seq in Hi; lia|]. exists M. split; [exact E|]. split.
  - destruct O as [-> | (k & K & Ek)]; [exists 0%nat; split; [lia|reflexivity]|]. apply in_seq in K. exists k. split; [lia|exact Ek].
  - intros i Hi. destruct i as [|i]; [exact L|]. apply A, in_seq. lia.
Qed.
Lemma largest_unique h w M M' : largest_over h w M -> largest_over h w M' -> M = M'.
Proof. intros [(i & Hi & <-) A] [(k & Hk & <-) B]. apply Rle_antisym; auto. Qed.
Lemma sum_over_nonneg h w : (forall i, 0 <= h i) -> 0 <= sum_over h w.
Proof. intros H. unfold sum_over. induction (seq 0 w) as [|i l IH]; cbn; [lra|]. pose proof (H i). lra. Qed.
Lemma fstd_over (F : nat -> fl) h w : (2 <= w)%nat -> (forall i, (i < w)%nat -> F i = #(h i)) -> fstd1 (map F (seq 0 w)) = #(std_over h w).
Proof.
  intros P H. unfold fstd1. rewrite (fmean_over F h w) by (lia || exact H). rewrite map_map, map_length, seq_length.
  rewrite (fsum_over _ (fun i => (h i - mean_over h w) ^ 2)) by (intros i Hi; rewrite (H i Hi), fsub_fin, fpown_fin; reflexivity).
  assert (1 < INR w) by (apply (lt_INR 1); lia). rewrite fdiv_fin by lra. apply fsqrt_fin. apply Rmult_le_pos; [apply sum_over_nonneg; intros; apply pow2_ge_0|left; apply Rinv_0_lt_compat; lra].
Qed.

(** ** the statistics of the window starting at [j], read at its centre *)
Lemma half_lt w : (3 <= w)%nat -> (w / 2 < w)%nat. Proof. intros. apply Nat.div_lt; lia. Qed.
Section Window.
Variables (w n j : nat) (data : list fl).
Hypothesis Hn : length data = n.
Hypothesis Hw : (3 <= w)%nat.
Hypothesis Hj : (j + w <= n)%nat.
Lemma at_center g : nth (j + w / 2) (to_centered (length data) w (map g (windows (length data) w))) NaN = g j.
Proof.
  pose proof (half_lt w Hw). unfold windows. rewrite to_centered_at by (rewrite ?map_length, ?seq_length; lia). apply nth_map_seq. lia.
Qed.
Lemma mean_at : nth (j + w / 2) (win_mean w data) NaN = fmean (map (fun i => nth (j + i) data NaN) (seq 0 w)).
Proof. unfold win_mean. rewrite at_center, (window_nth NaN) by lia. reflexivity. Qed.
Lemma max_at : nth (j + w / 2) (win_max w data) NaN = fmaxl (map (fun i => nth (j + i) data NaN) (seq 0 w)).
Proof. unfold win_max. rewrite at_center, (window_nth NaN) by lia. reflexivity. Qed.
Lemma diffs_window : window (w - 1) j (fdiffs data) = map (fun i => fsub (nth (S (j + i)) data NaN) (nth (j + i) data NaN)) (seq 0 (w - 1)).
Proof. rewrite (window_nth NaN) by (rewrite fdiffs_length; lia). apply map_ext_in. intros i Hi. apply in_seq in Hi. apply fdiffs_nth. lia. Qed.
Lemma window_map {A B} (g : A -> B) k l : window k j (map g l) = map g (window k j l).
Proof. unfold window. rewrite skipn_map, firstn_map. reflexivity. Qed.
Lemma slope_at dt : nth (j + w / 2) (win_slope_nstd w dt data) NaN =
  fdiv (fstd1 (map (fun i => fdiv (fsub (nth (S (j + i)) data NaN) (nth (j + i) data NaN)) dt) (seq 0 (w - 1)))) (fmean (map (fun i => nth (j + i) data NaN) (seq 0 w))).
Proof. unfold win_slope_nstd. rewrite at_center, (window_nth NaN w j data), window_map, diffs_window, map_map by lia. reflexivity. Qed.
Lemma diff_at : nth (j + w / 2) (win_max_diff w data) NaN = fmaxl (map (fun i => fabs (fsub (nth (S (j + i)) data NaN) (nth (j + i) data NaN))) (seq 0 (w - 1))).
Proof. unfold win_max_diff. rewrite at_center, diffs_window, map_map. reflexivity. Qed.
Lemma length_at dt : nth (j + w / 2) (win_line_length w dt data) NaN =
  fsum (map (fun i => fsqrt (fadd (fpown (fsub (nth (S (j + i)) data NaN) (nth (j + i) data NaN)) 2) (fpown dt 2))) (seq 0 (w - 1))).
Proof. unfold win_line_length. rewrite at_center, window_map, diffs_window, map_map. reflexivity. Qed.
Variable f : nat -> R.
Hypothesis Hf : forall i, (i < w)%nat -> nth (j + i) data NaN = #(f (j + i)%nat).
Lemma mean_at_fin : nth (j + w / 2) (win_mean w data) NaN = #(mean_over (from f j) w).
Proof. rewrite mean_at. apply fmean_over; [lia|exact Hf]. Qed.
Lemma max_at_fin : exists M, nth (j + w / 2) (win_max w data) NaN = #M /\ largest_over (from f j) w M.
Proof. rewrite max_at. apply fmaxl_over; [lia|exact Hf]. Qed.
Lemma step_fin i : (i < w - 1)%nat -> fsub (nth (S (j + i)) data NaN) (nth (j + i) data NaN) = #(step (from f j) i).
Proof. intros Hi. rewrite plus_n_Sm, !Hf by lia. reflexivity. Qed.
Lemma slope_at_fin dt : 0 < dt -> nth (j + w / 2) (win_slope_nstd w #dt data) NaN = fdiv #(std_over (fun i => step (from f j) i / dt) (w - 1)) #(mean_over (from f j) w).
Proof.
  intros Hd. rewrite slope_at. rewrite (fmean_over _ (from f j)) by (lia || exact Hf). rewrite (fstd_over _ (fun i => step (from f j) i / dt)); [reflexivity|lia|].
  intros i Hi. rewrite step_fin by exact Hi. apply fdiv_fin. lra.
Qed.
Lemma diff_at_fin : exists M, nth (j + w / 2) (win_max_diff w data) NaN = #M /\ largest_over (fun i => Rabs (step (from f j) i)) (w - 1) M.
Proof. rewrite diff_at. apply fmaxl_over; [lia|]. intros i Hi. rewrite step_fin by exact Hi. reflexivity. Qed.
Lemma length_at_fin dt : nth (j + w / 2) (win_line_length w #dt data) NaN = #(line_length (from f j) dt w).
Proof.
  rewrite length_at. apply fsum_over. intros i Hi. rewrite step_fin by exact Hi. rewrite !fpown_fin, fadd_fin. apply fsqrt_fin. pose proof (pow2_ge_0 (step (from f j) i)). pose proof (pow2_ge_0 dt). lra.
Qed.
End Window.
Lemma win_lengths w dt data : length (win_mean w data) = length data /\ length (win_max w data) = length data /\ length (win_slope_nstd w dt data) = length data /\
  length (win_line_length w dt data) = length data /\ length (win_max_diff w data) = length data.
Proof. repeat split; apply to_centered_length. Qed.

(** ** one pass: the flag of a window *)
Section Pass.
Variables (lim : limits) (dt a : R) (w n : nat) (meas clear : list fl).
Hypothesis Hm : length meas = n.
Hypothesis Hc : length clear = n.
Hypothesis Hw : (3 <= w)%nat.
Hypothesis Hd : 0 < dt.
Definition pass_windows : list bool :=
  let meas_mean := win_mean w meas in let clear_mean := win_mean w clear in
  let scaled := map (fun x => fmul #a x) clear in
  let line_diff := zip_with fsub (win_line_length w #dt meas) (win_line_length w #dt scaled) in
  zip6 (zip_with (fun m c => fltb (fabs (fsub m (fmul #a c))) #(l_mean_diff lim)) meas_mean clear_mean)
       (zip_with (fun m c => fltb (fabs (fsub m (fmul #a c))) #(l_max_diff lim)) (win_max w meas) (win_max w clear))
       (map (fun d => fgtb d #(l_lower_line_length lim) && fltb d #(l_upper_line_length lim)) line_diff)
       (map (fun s => fltb s #(l_var_diff lim)) (win_slope_nstd w #dt meas))
       (map (fun s => fltb s #(l_slope_dev lim)) (win_max_diff w (zip_with fsub meas scaled)))
       (map (fun c => fneqb c #0 && negb (isnan c)) clear_mean).
Lemma pass_windows_length : length pass_windows = n.
Proof.
  unfold pass_windows, zip6. cbn zeta. pose proof (win_lengths w #dt meas) as (A1 & A2 & A3 & A4 & A5). pose proof (win_lengths w #dt clear) as (B1 & B2 & B3 & B4 & B5).
  pose proof (win_lengths w #dt (map (fun x => fmul #a x) clear)) as (_ & _ & _ & C4 & _). pose proof (win_lengths w #dt (zip_with fsub meas (map (fun x => fmul #a x) clear))) as (_ & _ & _ & _ & D5).
  rewrite !zip_with_length, !map_length, !zip_with_length, A1, A2, A3, A4, B1, B2, C4, D5, !zip_with_length, map_length. lia.
Qed.
Variable j : nat.
Hypothesis Hj : (j + w <= n)%nat.
Lemma flag_at : nth (j + w / 2) pass_windows false =
  fltb (fabs (fsub (nth (j + w / 2) (win_mean w meas) NaN) (fmul #a (nth (j + w / 2) (win_mean w clear) NaN)))) #(l_mean_diff lim) &&
  fltb (fabs (fsub (nth (j + w / 2) (win_max w meas) NaN) (fmul #a (nth (j + w / 2) (win_max w clear) NaN)))) #(l_max_diff lim) &&
  (let d := fsub (nth (j + w / 2) (win_line_length w #dt meas) NaN) (nth (j + w / 2) (win_line_length w #dt (map (fun x => fmul #a x) clear)) NaN) in
   fgtb d #(l_lower_line_length lim) && fltb d #(l_upper_line_length lim)) &&
  fltb (nth (j + w / 2) (win_slope_nstd w #dt meas) NaN) #(l_var_diff lim) &&
  fltb (nth (j + w / 2) (win_max_diff w (zip_with fsub meas (map (fun x => fmul #a x) clear))) NaN) #(l_slope_dev lim) &&
  (fneqb (nth (j + w / 2) (win_mean w clear) NaN) #0 && negb (isnan (nth (j + w / 2) (win_mean w clear) NaN))).
Proof.
  unfold pass_windows, zip6. cbn zeta. pose proof (half_lt w Hw). pose proof (win_lengths w #dt meas) as (A1 & A2 & A3 & A4 & A5). pose proof (win_lengths w #dt clear) as (B1 & B2 & B3 & B4 & B5).
  pose proof (win_lengths w #dt (map (fun x => fmul #a x) clear)) as (_ & _ & _ & C4 & _). pose proof (win_lengths w #dt (zip_with fsub meas (map (fun x => fmul #a x) clear))) as (_ & _ & _ & _ & D5).
  rewrite map_length in C4. rewrite zip_with_length, map_length in D5.
  repeat (rewrite (zip_with_nth andb false false false) by (rewrite ?zip_with_length, ?map_length, ?zip_with_length, ?A1, ?A2, ?A3, ?A4, ?B1, ?B2, ?C4, ?D5; lia)).
  rewrite !(zip_with_nth _ NaN NaN false) by (rewrite ?A1, ?A2, ?B1, ?B2; lia).
  rewrite !(map_nth' _ NaN false) by (rewrite ?zip_with_length, ?A1, ?A2, ?A3, ?A4, ?B1, ?B2, ?C4, ?D5; lia).
  rewrite (zip_with_nth fsub NaN NaN NaN) by (rewrite ?A4, ?C4; lia). reflexivity.
Qed.
Lemma flag_nan : (exists i, (i < w)%nat /\ (nth (j + i) meas NaN = NaN \/ nth (j + i) clear NaN = NaN)) -> nth (j + w / 2) pass_windows false = false.
Proof.
  intros (i & Hi & H). rewrite flag_at. rewrite (mean_at w n j meas), (mean_at w n j clear) by assumption.
  assert (I : forall data, nth (j + i) data NaN = NaN -> In NaN (map (fun i => nth (j + i) data NaN) (seq 0 w))) by (intros data E; apply in_map_iff; exists i; split; [exact E|apply in_seq; lia]).
  destruct H as [H | H]; rewrite (fmean_nan _ (I _ H)); [reflexivity|].
  replace (fsub (fmean (map (fun i => nth (j + i) meas NaN) (seq 0 w))) (fmul #a NaN)) with NaN by (destruct (fmean _); reflexivity). reflexivity.
Qed.
Variables f g : nat -> R.
Hypothesis Hf : forall i, (i < w)%nat -> nth (j + i) meas NaN = #(f (j + i)%nat).
Hypothesis Hg : forall i, (i < w)%nat -> nth (j + i) clear NaN = #(g (j + i)%nat).
Lemma sum_scal c h k : sum_over (fun i => c * h i) k = c * sum_over h k.
Proof. unfold sum_over. induction (seq 0 k) as [|i l IH]; cbn [map fold_right]; [ring|]. rewrite IH. ring. Qed.
Lemma flag_iff : nth (j + w / 2) pass_windows false = true <->
  window_is_clear (l_mean_diff lim) (l_max_diff lim) (l_lower_line_length lim) (l_upper_line_length lim) (l_var_diff lim) (l_slope_dev lim) dt w f g a j.
Proof.
  assert (Hs : forall i, (i < w)%nat -> nth (j + i) (map (fun x => fmul #a x) clear) NaN = #((fun k => a * g k) (j + i)%nat)).
  { intros i Hi. rewrite (map_nth' _ NaN NaN) by lia. rewrite Hg by exact Hi. reflexivity. }
  assert (Hr : forall i, (i < w)%nat -> nth (j + i) (zip_with fsub meas (map (fun x => fmul #a x) clear)) NaN = #((fun k => f k - a * g k) (j + i)%nat)).
  { intros i Hi. rewrite (zip_with_nth fsub NaN NaN) by (rewrite ?map_length; lia). rewrite Hs, Hf by exact Hi. reflexivity. }
  rewrite flag_at. rewrite (mean_at_fin w n j meas Hm Hw Hj f Hf), (mean_at_fin w n j clear Hc Hw Hj g Hg).
  destruct (max_at_fin w n j meas Hm Hw Hj f Hf) as (M & EM & LM). destruct (max_at_fin w n j clear Hc Hw Hj g Hg) as (C & EC & LC). rewrite EM, EC.
  rewrite (length_at_fin w n j meas Hm Hw Hj f Hf), (length_at_fin w n j (map (fun x => fmul #a x) clear) ltac:(rewrite map_length; exact Hc) Hw Hj (fun k => a * g k) Hs).
  rewrite (slope_at_fin w n j meas Hm Hw Hj f Hf dt Hd).
  destruct (diff_at_fin w n j (zip_with fsub meas (map (fun x => fmul #a x) clear)) ltac:(rewrite zip_with_length, map_length; lia) Hw Hj (fun k => f k - a * g k) Hr) as (D & ED & LD). rewrite ED.
  cbn zeta. rewrite !fmul_fin, !fsub_fin, !fabs_fin, !fgtb_fin, !fltb_fin. unfold window_is_clear. cbn zeta.
  set (mm := mean_over (from f j) w). set (mc := mean_over (from g j) w).
  change (from (fun k => a * g k) j) with (fun i => a * from g j i).
  assert (S5 : forall i, step (from (fun k => f k - a * g k) j) i = step (from f j) i - a * step (from g j) i) by (intros i; unfold step, from; ring).
  assert (Q2 : (exists M C, largest_over (from f j) w M /\ largest_over (from g j) w C /\ Rabs (M - a * C) < l_max_diff lim) <-> Rabs (M - a * C) < l_max_diff lim).
  { split; [|intros; exists M, C; auto]. intros (M' & C' & L1 & L2 & L3). rewrite (largest_unique _ _ _ _ LM L1), (largest_unique _ _ _ _ LC L2). exact L3. }
  assert (Q5 : (forall i, (i < w - 1)%nat -> Rabs (step (from f j) i - a * step (from g j) i) < l_slope_dev lim) <-> D < l_slope_dev lim).
  { destruct LD as [(i0 & Hi0 & E0) LD]. split.
    - intros H. rewrite <- E0, S5. apply H, Hi0.
    - intros H i Hi. specialize (LD i Hi). rewrite S5 in LD. lra. }
  assert (Q4 : fltb (fdiv #(std_over (fun i => step (from f j) i / dt) (w - 1)) #mm) #(l_var_diff lim) = true <-> mm <> 0 /\ slope_variation (from f j) dt w < l_var_diff lim).
  { unfold slope_variation. fold mm. assert (P : 0 <= std_over (fun i => step (from f j) i / dt) (w - 1)) by apply sqrt_pos. set (sd := std_over _ _) in *.
    destruct (Req_dec mm 0) as [E | E].
    - split; [|intros [N _]; contradiction]. rewrite E. intros F. exfalso. revert F. unfold fdiv. rewrite Reqb_t by reflexivity. unfold sinf, Rpos, Rneg. destruct (Req_dec sd 0) as [E' | N]; [rewrite E'; rdec; discriminate|rdec; discriminate].
    - rewrite fdiv_fin by exact E. rewrite fltb_fin, Rltb_true. split; [intros H; split; assumption|intros [_ H]; exact H]. }
  assert (Q6 : (fneqb #mc #0 = true /\ negb (isnan #mc) = true) <-> mc <> 0).
  { unfold fneqb, feqb. cbn [isnan negb]. destruct (Reqb_spec mc 0) as [E | E]; cbn [negb]; split; intros H; try (destruct H; discriminate); try contradiction; auto. }
  rewrite !andb_true_iff. rewrite Q2, Q5, Q4, Q6, !Rltb_true. tauto.
Qed.
End Pass.

(** ** a pass on series with missing values *)
Definition series (p : nat -> bool) (f : nat -> R) (n : nat) : list fl := map (fun i => if p i then #(f i) else NaN) (seq 0 n).
Lemma series_length p f n : length (series p f n) = n.
Proof. unfold series. rewrite map_length, seq_length. reflexivity. Qed.
Lemma series_nth p f n i : (i < n)%nat -> nth i (series p f n) NaN = if p i then #(f i) else NaN.
Proof. intros H. unfold series. apply nth_map_seq, H. Qed.
Lemma clear_mask_length n w c : length (clear_mask n w c) = n.
Proof. unfold clear_mask. rewrite map_length, seq_length. reflexivity. Qed.
Lemma clear_mask_iff n w c i : (w <= n)%nat -> (i < n)%nat -> nth i (clear_mask n w c) false = true <-> exists j, (j <= i < j + w)%nat /\ (j + w <= n)%nat /\ nth (j + w / 2) c false = true.
Proof.
  intros Hw Hi. unfold clear_mask. cbn zeta. rewrite nth_map_seq by exact Hi. rewrite existsb_exists. split.
  - intros (j & Hj & Hb). apply filter_In in Hj. destruct Hj as [Hj Fj]. apply in_seq in Hj. apply andb_true_iff in Hb. destruct Hb as [B1 B2]. apply Nat.leb_le in B1. apply Nat.ltb_lt in B2. exists j. repeat split; try lia. exact Fj.
  - intros (j & Hj & Hn & Fj). exists j. split; [apply filter_In; split; [apply in_seq; lia|exact Fj]|]. apply andb_true_iff. split; [apply Nat.leb_le|apply Nat.ltb_lt]; lia.
Qed.
Lemma pick_filter (mask : list bool) (F : nat -> fl) n : length mask = n -> pick mask (map F (seq 0 n)) = map F (filter (fun i => nth i mask false) (seq 0 n)).
Proof.
  intros L. unfold pick. assert (G : forall mask n k, length mask = n -> map snd (filter fst (combine mask (map F (seq k n)))) = map F (filter (fun i => nth (i - k) mask false) (seq k n))).
  { clear. induction mask as [|b mask IH]; intros n k L; destruct n as [|n]; try discriminate; [reflexivity|]. cbn [seq map combine filter]. injection L as L.
    replace (nth (k - k) (b :: mask) false) with b by (rewrite Nat.sub_diag; reflexivity).
    assert (E : filter (fun i => nth (i - k) (b :: mask) false) (seq (S k) n) = filter (fun i => nth (i - S k) mask false) (seq (S k) n)).
    { apply filter_ext_in. intros i Hi. apply in_seq in Hi. replace (i - k)%nat with (S (i - S k)) by lia. reflexivity. }
    cbn [fst]. destruct b; cbn [map snd]; rewrite E, IH by exact L; reflexivity. }
  rewrite (G mask n 0%nat L). f_equal. apply filter_ext. intros i. rewrite Nat.sub_0_r. reflexivity.
Qed.
Definition rs (h : nat -> R) (l : list nat) : R := fold_right Rplus 0 (map h l).
Lemma nansum_fin (F : nat -> fl) h l : (forall i, In i l -> F i = #(h i)) -> nansum (map F l) = #(rs h l).
Proof.
  intros H. unfold nansum. assert (E : filter (fun x => negb (isnan x)) (map F l) = map F l).
  { induction l as [|i l IH]; [reflexivity|]. cbn [map filter]. rewrite (H i) by (left; reflexivity). cbn [isnan negb]. rewrite IH by (intros; apply H; right; assumption). reflexivity. }
  rewrite E. unfold fsum. assert (G : forall l acc, (forall i, In i l -> F i = #(h i)) -> fold_left fadd (map F l) #acc = #(acc + rs h l)).
  { clear. induction l as [|i l IH]; intros acc HF; cbn [map fold_left]; [unfold rs; cbn; f_equal; ring|]. rewrite (HF i) by (left; reflexivity). rewrite fadd_fin, IH by (intros; apply HF; right; assumption). unfold rs. cbn [map fold_right]. f_equal. ring. }
  rewrite (G l 0 H). f_equal. ring.
Qed.
Lemma rs_sq_nonneg h l : 0 <= rs (fun i => h i ^ 2) l.
Proof. unfold rs. induction l as [|i l IH]; cbn [map fold_right]; [lra|]. pose proof (pow2_ge_0 (h i)). lra. Qed.
Lemma rs_sq_zero h l : rs (fun i => h i ^ 2) l = 0 <-> forall i, In i l -> h i = 0.
Proof.
  induction l as [|i l IH]; [split; [intros _ i []|reflexivity]|]. pose proof (rs_sq_nonneg h l) as P. pose proof (pow2_ge_0 (h i)) as Q.
  change (rs (fun i => h i ^ 2) (i :: l)) with (h i ^ 2 + rs (fun i => h i ^ 2) l). split.
  - intros H k [-> | K]; [|apply IH; [lra|exact K]]. assert (E : h k ^ 2 = 0) by lra. rewrite <- Rsqr_pow2 in E. apply Rsqr_0_uniq, E.
  - intros H. rewrite (H i) by (left; reflexivity). rewrite (proj2 IH) by (intros; apply H; right; assumption). ring.
Qed.
Lemma sd_expand f g l a : rs (fun i => (f i - a * g i) ^ 2) l = rs (fun i => f i ^ 2) l - 2 * a * rs (fun i => f i * g i) l + a ^ 2 * rs (fun i => g i ^ 2) l.
Proof. unfold rs. induction l as [|i l IH]; cbn [map fold_right]; [ring|]. rewrite IH. ring. Qed.
Lemma best_fit f g l b : let S := rs (fun i => g i ^ 2) l in let a := rs (fun i => f i * g i) l / S in 0 < S -> b <> a ->
  rs (fun i => (f i - a * g i) ^ 2) l < rs (fun i => (f i - b * g i) ^ 2) l.
Proof.
  cbn zeta. intros P N. rewrite !sd_expand. set (S := rs _ l) in *. set (T := rs (fun i => f i * g i) l) in *. set (a := T / S) in *. assert (ET : T = a * S) by (unfold a; field; lra). rewrite ET.
  assert (0 < (b - a) ^ 2 * S). { apply Rmult_lt_0_compat; [|exact P]. rewrite <- Rsqr_pow2. apply Rsqr_pos_lt. lra. } lra.
Qed.
Section SeriesPass.
Variables (lim : limits) (dt a : R) (w n : nat) (pm pc : nat -> bool) (f g : nat -> R).
Hypothesis Hw : (3 <= w <= n)%nat.
Hypothesis Hd : 0 < dt.
Let meas := series pm f n.
Let clear := series pc g n.
Definition is_clear := sample_is_clear (l_mean_diff lim) (l_max_diff lim) (l_lower_line_length lim) (l_upper_line_length lim) (l_var_diff lim) (l_slope_dev lim) dt w n pm pc f g.
Lemma flag_series j : (j + w <= n)%nat -> nth (j + w / 2) (pass_windows lim dt a w meas clear) false = true <->
  (forall k, (j <= k < j + w)%nat -> pm k = true /\ pc k = true) /\
  window_is_clear (l_mean_diff lim) (l_max_diff lim) (l_lower_line_length lim) (l_upper_line_length lim) (l_var_diff lim) (l_slope_dev lim) dt w f g a j.
Proof.
  intros Hj.
  destruct (forallb (fun i => pm (j + i)%nat && pc (j + i)%nat) (seq 0 w)) eqn:E.
  - rewrite forallb_forall in E. assert (A : forall k, (j <= k < j + w)%nat -> pm k = true /\ pc k = true).
    { intros k Hk. specialize (E (k - j)%nat). replace (j + (k - j))%nat with k in E by lia. apply andb_true_iff, E, in_seq. lia. }
    rewrite (flag_iff lim dt a w n meas clear (series_length _ _ _) (series_length _ _ _) ltac:(lia) Hd j Hj f g); [tauto| |]; intros i Hi; unfold meas, clear; rewrite series_nth by lia; destruct (A (j + i)%nat ltac:(lia)) as [A1 A2]; rewrite ?A1, ?A2; reflexivity.
  - assert (X : exists i, (i < w)%nat /\ (pm (j + i)%nat = false \/ pc (j + i)%nat = false)).
    { clear -E. assert (G : forall l, forallb (fun i => pm (j + i)%nat && pc (j + i)%nat) l = false -> exists i, In i l /\ (pm (j + i)%nat = false \/ pc (j + i)%nat = false)).
      { induction l as [|i l IH]; intros H; [discriminate|]. cbn in H. destruct (pm (j + i)%nat) eqn:E1; [destruct (pc (j + i)%nat) eqn:E2|].
        - destruct (IH H) as (k & K & Q). exists k. split; [right; exact K|exact Q].
        - exists i. split; [left; reflexivity|right; exact E2].
        - exists i. split; [left; reflexivity|left; exact E1]. }
      destruct (G _ E) as (i & Hi & Q). apply in_seq in Hi. exists i. split; [lia|exact Q]. }
    destruct X as (i & Hi & Q). rewrite (flag_nan lim dt a w n meas clear (series_length _ _ _) (series_length _ _ _) ltac:(lia) j Hj).
    + split; [discriminate|]. intros [A _]. destruct (A (j + i)%nat ltac:(lia)) as [A1 A2]. rewrite A1, A2 in Q. destruct Q; discriminate.
    + exists i. split; [exact Hi|]. unfold meas, clear. rewrite !series_nth by lia. destruct Q as [-> | ->]; [left|right]; reflexivity.
Qed.
Lemma samples_iff i : (i < n)%nat -> nth i (clear_mask n w (pass_windows lim dt a w meas clear)) false = true <-> is_clear a i.
Proof.
  intros Hi. rewrite clear_mask_iff by lia. unfold is_clear, sample_is_clear. split.
  - intros (j & H1 & H2 & H3). apply flag_series in H3; [|exact H2]. exists j. tauto.
  - intros (j & H1 & H2 & H3). exists j. split; [exact H1|]. split; [exact H2|]. apply flag_series; assumption.
Qed.
Lemma pass_spec : exists d a', detect_pass lim #dt w meas clear #a = Ok d /\ length (d_samples d) = n /\
  (forall i, (i < n)%nat -> nth i (d_samples d) false = true <-> is_clear a i) /\
  d_windows d = pass_windows lim dt a w meas clear /\
  d_alpha d = #a' /\ best_scale (fun i => nth i (d_samples d) false) n f g a a' /\
  (d_converged d = true <-> round_even (a' * 10000) = round_even (a * 10000)) /\
  d_mean_diff d = zip_with (fun m c => fabs (fsub m (fmul #a' c))) (win_mean w meas) (win_mean w clear) /\
  d_max_diff d = zip_with (fun m c => fabs (fsub m (fmul #a' c))) (win_max w meas) (win_max w clear).
Proof.
  set (mask := clear_mask n w (pass_windows lim dt a w meas clear)). assert (Lk : length mask = n) by apply clear_mask_length.
  set (sel := fun i => nth i mask false). set (L := filter sel (seq 0 n)).
  assert (PR : forall i, In i L -> (i < n)%nat /\ pm i = true /\ pc i = true).
  { intros i Hi. apply filter_In in Hi. destruct Hi as [Hi Si]. apply in_seq in Hi. split; [lia|]. apply samples_iff in Si; [|lia]. destruct Si as (j & H1 & H2 & H3 & _). apply H3. lia. }
  assert (EC : nansum (map (fun x => fpown x 2) (pick mask clear)) = #(rs (fun i => g i ^ 2) L)).
  { unfold clear, series. rewrite pick_filter by exact Lk. rewrite map_map. apply nansum_fin. intros i Hi. destruct (PR i Hi) as (_ & _ & ->). apply fpown_fin. }
  assert (EX : nansum (zip_with fmul (pick mask meas) (pick mask clear)) = #(rs (fun i => f i * g i) L)).
  { unfold meas, clear, series. rewrite !pick_filter by exact Lk. fold sel. fold L.
    assert (Z : forall l, zip_with fmul (map (fun i => if pm i then #(f i) else NaN) l) (map (fun i => if pc i then #(g i) else NaN) l) = map (fun i => fmul (if pm i then #(f i) else NaN) (if pc i then #(g i) else NaN)) l) by (clear; induction l as [|i l IH]; [reflexivity|cbn [map zip_with]; rewrite IH; reflexivity]).
    rewrite Z. apply nansum_fin. intros i Hi. destruct (PR i Hi) as (_ & -> & ->). reflexivity. }
  set (S2 := rs (fun i => g i ^ 2) L) in *. set (T := rs (fun i => f i * g i) L) in *.
  set (a' := if Req_EM_T S2 0 then a else T / S2).
  assert (EA : (if negb (isnan #S2 || feqb #S2 #0) then fdiv (nansum (zip_with fmul (pick mask meas) (pick mask clear))) #S2 else #a) = #a').
  { rewrite EX. unfold a'. cbn [isnan orb feqb]. destruct (Reqb_spec S2 0) as [E | E]; cbn [negb]; destruct (Req_EM_T S2 0); try contradiction; [reflexivity|]. apply fdiv_fin, E. }
  eexists _, a'. split.
  - unfold detect_pass. cbn zeta. assert (Lm : length meas = n) by apply series_length. rewrite Lm. match goal with |- context [clear_mask n w ?x] => change x with (pass_windows lim dt a w meas clear) end. fold mask. rewrite EC, EA. rewrite !fmul_fin. cbn [py_round bind]. reflexivity.
  - cbn [d_samples d_windows d_alpha d_converged d_mean_diff d_max_diff]. split; [exact Lk|]. split; [intros i Hi; apply samples_iff, Hi|]. split; [reflexivity|]. split; [reflexivity|]. split; [|split; [apply Z.eqb_eq|split; reflexivity]].
    assert (IL : forall i, In i L <-> (i < n)%nat /\ sel i = true) by (intros i; unfold L; rewrite filter_In, in_seq; split; intros [H1 H2]; split; (lia || exact H2)).
    unfold best_scale, a'. destruct (Req_EM_T S2 0) as [E | E].
    + left. split; [|reflexivity]. intros i Hi Si. apply (proj1 (rs_sq_zero g L) E). apply IL. split; assumption.
    + right. split.
      * apply Classical_Pred_Type.not_all_not_ex. intros A. apply E. apply rs_sq_zero. intros i Hi. apply IL in Hi. destruct (Req_dec (g i) 0) as [Z | Z]; [exact Z|]. exfalso. apply (A i). tauto.
      * intros b Hb. apply (best_fit f g L b); [|exact Hb]. pose proof (rs_sq_nonneg g L). unfold S2 in E. lra.
Qed.
End SeriesPass.

(** ** the loop *)
Section Loop.
Variables (lim : limits) (dt : R) (w n : nat) (pm pc : nat -> bool) (f g : nat -> R).
Hypothesis Hw : (3 <= w <= n)%nat.
Hypothesis Hd : 0 < dt.
Let meas := series pm f n.
Let clear := series pc g n.
Lemma loop_spec : forall k a prev, (1 <= k)%nat -> exists K (s : nat -> R) (D : nat -> detection), (1 <= K <= k)%nat /\ s 0%nat = a /\
  (forall i, (i < K)%nat -> detect_pass lim #dt w meas clear #(s i) = Ok (D i) /\ d_alpha (D i) = #(s (S i))) /\
  (forall i, (S i < K)%nat -> d_converged (D i) = false) /\
  detect_loop lim #dt w meas clear #a k prev = Ok (D (K - 1)%nat) /\ (d_converged (D (K - 1)%nat) = true \/ K = k).
Proof.
  induction k as [|k IH]; intros a prev Hk; [lia|]. destruct (pass_spec lim dt a w n pm pc f g Hw Hd) as (d & a' & Ed & _ & _ & _ & Ea & _). cbn [detect_loop]. fold meas in Ed. fold clear in Ed. rewrite Ed. cbn [bind].
  destruct (d_converged d) eqn:C.
  - exists 1%nat, (fun i => match i with O => a | _ => a' end), (fun _ => d). split; [lia|]. split; [reflexivity|]. split; [intros i Hi; destruct i as [|i]; [split; [exact Ed|exact Ea]|lia]|]. split; [intros i Hi; lia|]. split; [reflexivity|left; exact C].
  - destruct (Nat.eq_dec k 0) as [-> | Nk].
    + exists 1%nat, (fun i => match i with O => a | _ => a' end), (fun _ => d). split; [lia|]. split; [reflexivity|]. split; [intros i Hi; destruct i as [|i]; [split; [exact Ed|exact Ea]|lia]|]. split; [intros i Hi; lia|]. split; [reflexivity|right; reflexivity].
    + destruct (IH a' (Some d) ltac:(lia)) as (K & s & D & HK & S0 & P & NC & R & O). exists (S K), (fun i => match i with O => a | S i => s i end), (fun i => match i with O => d | S i => D i end).
      split; [lia|]. split; [reflexivity|]. split; [|split; [|split]].
      * intros i Hi. destruct i as [|i]; [split; [exact Ed|rewrite S0; exact Ea]|]. apply P. lia.
      * intros i Hi. destruct i as [|i]; [exact C|]. apply NC. lia.
      * rewrite Ea. rewrite R. replace (S K - 1)%nat with (S (K - 1)) by lia. reflexivity.
      * replace (S K - 1)%nat with (S (K - 1)) by lia. destruct O as [O | O]; [left; exact O|right; lia].
Qed.
End Loop.
