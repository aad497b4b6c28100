(** Facts about scaling.py. *)
From Verif Require Import Base.Fl Base.FlFacts Base.Py Base.Round Model.Clearsky Model.Scaling Spec.ScalingSpec Proofs.ClearskyD.
From Coq Require Import ZArith Psatz Arith.
Open Scope R_scope.
Open Scope list_scope.

(** ** sums *)
Lemma total_app l m : total (l ++ m) = total l + total m.
Proof. induction l as [|x l IH]; cbn [total fold_right app]; [unfold total; ring|]. fold (total (l ++ m)) (total l). rewrite IH. ring. Qed.
Lemma fsum_total_acc l : forall a, fold_left fadd (map Fin l) #a = #(a + total l).
Proof. induction l as [|x l IH]; intros a; cbn [map fold_left total fold_right]; [unfold total; cbn; f_equal; ring|]. cbn [fadd]. rewrite IH. fold (total l). f_equal. ring. Qed.
Lemma fsum_total l : fsum (map Fin l) = #(total l).
Proof. unfold fsum. rewrite fsum_total_acc. f_equal. ring. Qed.
Lemma fmean_mean l : l <> [] -> fmean (map Fin l) = #(mean l).
Proof.
  intros N. unfold fmean, mean. rewrite fsum_total, map_length, fdiv_fin; [reflexivity|]. destruct l; [congruence|]. cbn [length]. apply not_0_INR. lia.
Qed.
Lemma filter_finite l : filter isfinite (map Fin l) = map Fin l.
Proof. induction l; cbn; [reflexivity|]. rewrite IHl. reflexivity. Qed.
Lemma total_bounds lo hi l : (forall x, In x l -> lo <= x <= hi) -> lo * INR (length l) <= total l <= hi * INR (length l).
Proof.
  induction l as [|x l IH]; intros H; [cbn; lra|]. cbn [total fold_right]. fold (total l). cbn [length]. rewrite S_INR. pose proof (H x (or_introl eq_refl)). assert (lo * INR (length l) <= total l <= hi * INR (length l)) by (apply IH; intros y Y; apply H; right; exact Y). lra.
Qed.
Lemma mean_bounds lo hi l : l <> [] -> (forall x, In x l -> lo <= x <= hi) -> lo <= mean l <= hi.
Proof.
  intros N H. pose proof (total_bounds lo hi l H) as B. unfold mean. assert (P : 0 < INR (length l)) by (apply lt_0_INR; destruct l; [congruence|cbn; lia]).
  split; [apply Rmult_le_reg_r with (INR (length l))|apply Rmult_le_reg_r with (INR (length l))]; try exact P; unfold Rdiv; rewrite Rmult_assoc, Rinv_l by lra; lra.
Qed.

(** ** intervals of rows *)
Lemma filter_interval a b N : filter (fun q => Nat.leb a q && Nat.ltb q b)%bool (seq 0 N) = seq a (Nat.min b N - a).
Proof.
  induction N as [|N IH]; [rewrite Nat.min_0_r; reflexivity|]. rewrite seq_S, filter_app, IH. cbn [filter plus Nat.add].
  destruct (Nat.leb_spec a N) as [A|A]; cbn [andb]; [destruct (Nat.ltb_spec N b) as [B|B]|].
  - replace (Nat.min b (S N) - a)%nat with (S (Nat.min b N - a)) by lia. rewrite seq_S. do 2 f_equal. lia.
  - rewrite app_nil_r. f_equal. lia.
  - rewrite app_nil_r. f_equal. lia.
Qed.
Lemma nth_firstn' {A} (d : A) : forall k l i, (i < k)%nat -> nth i (firstn k l) d = nth i l d.
Proof. induction k as [|k IH]; intros l i H; [lia|]. destruct l; [destruct i; reflexivity|]. destruct i; [reflexivity|]. cbn. apply IH. lia. Qed.
Lemma nth_skipn' {A} (d : A) : forall k l i, nth i (skipn k l) d = nth (k + i) l d.
Proof. induction k as [|k IH]; intros l i; [reflexivity|]. destruct l; [destruct i; reflexivity|]. cbn. apply IH. Qed.
Lemma slice_seq {A} (d : A) l a c : firstn c (skipn a l) = map (fun q => nth q l d) (seq a (Nat.min (a + c) (length l) - a)).
Proof.
  apply (nth_ext _ _ d d).
  - rewrite firstn_length, skipn_length, map_length, seq_length. lia.
  - intros i Hi. rewrite firstn_length, skipn_length in Hi. rewrite nth_firstn' by lia. rewrite nth_skipn'.
    rewrite (map_nth' (fun q => nth q l d) 0%nat) by (rewrite seq_length; lia). rewrite seq_nth by lia. reflexivity.
Qed.
Lemma slice_filter {A} (d : A) l a b : (a <= b)%nat -> firstn (b - a) (skipn a l) = map (fun q => nth q l d) (filter (fun q => Nat.leb a q && Nat.ltb q b)%bool (seq 0 (length l))).
Proof. intros H. rewrite (slice_seq d), filter_interval. do 2 f_equal. lia. Qed.

(** ** moving averages of a complete series *)
Definition row_mean (l : list R) (h t : nat) : R :=
  mean (map (fun q => nth q l 0) (filter (fun q => Nat.leb (t - h) q && Nat.ltb q (t + h))%bool (seq 0 (length l)))).
Lemma window_nonempty l h t : (0 < h)%nat -> (t < length l)%nat -> In t (filter (fun q => Nat.leb (t - h) q && Nat.ltb q (t + h))%bool (seq 0 (length (l : list R)))).
Proof. intros H T. apply filter_In. split; [apply in_seq; lia|]. apply andb_true_iff. rewrite Nat.leb_le, Nat.ltb_lt. lia. Qed.
Lemma rolling_fin l h : (0 < h)%nat -> rolling_mean h (map Fin l) = map Fin (map (row_mean l h) (seq 0 (length l))).
Proof.
  intros H. unfold rolling_mean. rewrite map_length, map_map. apply map_ext_in. intros t T. apply in_seq in T.
  rewrite (slice_filter NaN) by lia. rewrite map_length.
  assert (E : map (fun q => nth q (map Fin l) NaN) (filter (fun q => Nat.leb (t - h) q && Nat.ltb q (t + h))%bool (seq 0 (length l)))
    = map Fin (map (fun q => nth q l 0) (filter (fun q => Nat.leb (t - h) q && Nat.ltb q (t + h))%bool (seq 0 (length l))))).
  { rewrite map_map. apply map_ext_in. intros q Q. apply filter_In in Q. destruct Q as [Q _]. apply in_seq in Q. apply map_nth'. lia. }
  rewrite E, filter_finite. pose proof (window_nonempty l h t H ltac:(lia)) as W.
  set (w := map (fun q => nth q l 0) _). assert (NW : w <> []). { intros N. unfold w in N. apply map_eq_nil in N. rewrite N in W. destruct W. }
  unfold row_mean. fold w. rewrite <- fmean_mean by exact NW. destruct (map Fin w) eqn:M; [destruct w; [congruence|discriminate]|reflexivity].
Qed.
Lemma bfill_fin l : bfill (map Fin l) = map Fin l.
Proof. induction l as [|x l IH]; [reflexivity|]. cbn [map bfill isnan]. rewrite IH. reflexivity. Qed.
Lemma ffill_fin l : forall a, ffill_fl a (map Fin l) = map Fin l.
Proof. induction l as [|x l IH]; intros a; [reflexivity|]. cbn [map ffill_fl isnan]. rewrite IH. reflexivity. Qed.
Lemma shift_length l : length (shift_left l) = length l.
Proof. destruct l; [reflexivity|]. cbn [shift_left]. rewrite app_length. cbn. lia. Qed.
Lemma shift_nth l t : (S t < length l)%nat -> nth t (shift_left l) NaN = nth (S t) l NaN.
Proof. destruct l as [|x l]; cbn [length]; [lia|]. intros H. cbn [shift_left nth]. apply app_nth1. lia. Qed.
Definition padded (x : list R) : list R := rev x ++ x ++ rev x.
Lemma sym_pad_fin x : sym_pad (map Fin x) = map Fin (padded x).
Proof. unfold sym_pad, padded. rewrite !map_app, !map_rev. reflexivity. Qed.
Lemma padded_length x : length (padded x) = (3 * length x)%nat.
Proof. unfold padded. rewrite !app_length, !rev_length. lia. Qed.
Lemma padded_nth x q : (q < 3 * length x)%nat -> nth q (padded x) 0 = mirror x q.
Proof.
  intros Q. unfold mirror, padded. destruct (Nat.ltb_spec q (length x)) as [A|A].
  - rewrite app_nth1 by (rewrite rev_length; exact A). rewrite rev_nth by exact A. f_equal. lia.
  - rewrite app_nth2 by (rewrite rev_length; exact A). rewrite rev_length. destruct (Nat.ltb_spec q (2 * length x)) as [B|B].
    + rewrite app_nth1 by lia. reflexivity.
    + rewrite app_nth2 by lia. rewrite rev_nth by lia. f_equal. lia.
Qed.
Lemma pow2_pos j : (0 < 2 ^ j)%nat.
Proof. induction j; cbn; lia. Qed.
(** the rows of csi_mean on the original window *)
Lemma csi_mean_length l i : length (csi_mean l i) = length l.
Proof.
  destruct i; [reflexivity|]. cbn [csi_mean]. rewrite shift_length.
  assert (F : forall m a, length (ffill_fl a m) = length m) by (induction m; intros a'; cbn; [reflexivity|]; rewrite IHm; reflexivity).
  assert (B : forall m, length (bfill m) = length m) by (induction m; cbn; [reflexivity|]; rewrite IHm; reflexivity).
  rewrite F, B. unfold rolling_mean. rewrite map_length, seq_length. reflexivity.
Qed.
Lemma csi_mean_fin x i t : (t < length x)%nat -> nth (length x + t) (csi_mean (sym_pad (map Fin x)) i) NaN = #(moving_average x i t).
Proof.
  intros T. rewrite sym_pad_fin. pose proof (padded_length x) as PL. destruct i as [|j]; cbn [csi_mean moving_average].
  - rewrite (map_nth' Fin 0) by lia. rewrite padded_nth by lia. unfold mirror. destruct (Nat.ltb_spec (length x + t) (length x)); [lia|].
    destruct (Nat.ltb_spec (length x + t) (2 * length x)); [|lia]. f_equal. f_equal. lia.
  - pose proof (pow2_pos j) as P. rewrite rolling_fin, bfill_fin, ffill_fin by exact P.
    rewrite shift_nth by (rewrite !map_length, seq_length; lia). rewrite (map_nth' Fin 0) by (rewrite map_length, seq_length; lia).
    rewrite nth_map_seq by lia. f_equal. unfold row_mean. rewrite PL. f_equal. cbv zeta.
    assert (FE : filter (fun q => Nat.leb (S (length x + t) - 2 ^ j) q && Nat.ltb q (S (length x + t) + 2 ^ j))%bool (seq 0 (3 * length x)) =
      filter (fun q => Nat.ltb (length x + t) (q + 2 ^ j) && Nat.leb q (length x + t + 2 ^ j))%bool (seq 0 (3 * length x))).
    { apply filter_ext. intros q. f_equal. destruct (Nat.leb_spec (S (length x + t) - 2 ^ j) q), (Nat.ltb_spec (length x + t) (q + 2 ^ j)); lia || reflexivity. }
    rewrite FE. apply map_ext_in. intros q Q. apply filter_In in Q. destruct Q as [Q _]. apply in_seq in Q. apply padded_nth. lia.
Qed.
Lemma zip_sub_nth : forall l m t, (t < length l)%nat -> (t < length m)%nat -> nth t (zip_sub l m) NaN = fsub (nth t l NaN) (nth t m NaN).
Proof. induction l as [|x l IH]; intros [|y m] t H1 H2; cbn in H1, H2; try lia. destruct t; [reflexivity|]. cbn [zip_sub nth]. apply IH; lia. Qed.
Lemma zip_sub_length : forall l m, length (zip_sub l m) = Nat.min (length l) (length m).
Proof. induction l as [|x l IH]; intros [|y m]; try reflexivity. cbn. rewrite IH. reflexivity. Qed.
Lemma sym_pad_length v : length (sym_pad v) = (3 * length v)%nat.
Proof. unfold sym_pad. rewrite !app_length, !rev_length. lia. Qed.
Lemma wavelet_row_nth vals k i t : (t < length vals)%nat -> nth t (wavelet_row vals k i) NaN =
  let m j := nth (length vals + t) (csi_mean (sym_pad vals) j) NaN in if Nat.ltb (S i) k then fsub (m i) (m (S i)) else m i.
Proof.
  intros T. unfold wavelet_row. cbv zeta. rewrite nth_firstn' by exact T. rewrite nth_skipn'. pose proof (sym_pad_length vals) as L.
  destruct (Nat.ltb (S i) k); [|reflexivity]. apply zip_sub_nth; rewrite csi_mean_length; lia.
Qed.
Lemma wavelet_row_length vals k i : length (wavelet_row vals k i) = length vals.
Proof.
  unfold wavelet_row. cbv zeta. rewrite firstn_length, skipn_length. pose proof (sym_pad_length vals) as L.
  destruct (Nat.ltb (S i) k); [rewrite zip_sub_length|]; rewrite ?csi_mean_length, L; lia.
Qed.
Lemma moving_average_bounds x lo hi i t : (forall v, In v x -> lo <= v <= hi) -> (t < length x)%nat -> lo <= moving_average x i t <= hi.
Proof.
  intros H T. destruct i as [|j]; cbn [moving_average]; [apply H, nth_In, T|]. pose proof (pow2_pos j) as P. apply mean_bounds.
  - intros N. apply map_eq_nil in N. assert (I : In (length x + t)%nat (filter (fun q => Nat.ltb (length x + t) (q + 2 ^ j) && Nat.leb q (length x + t + 2 ^ j))%bool (seq 0 (3 * length x)))).
    { apply filter_In. split; [apply in_seq; lia|]. apply andb_true_iff. rewrite Nat.ltb_lt, Nat.leb_le. lia. }
    rewrite N in I. destruct I.
  - intros v V. apply in_map_iff in V. destruct V as (q & <- & Q). apply filter_In in Q. destruct Q as [Q _]. apply in_seq in Q. apply H. unfold mirror. apply nth_In.
    destruct (Nat.ltb_spec q (length x)); [lia|]. destruct (Nat.ltb_spec q (2 * length x)); lia.
Qed.

(** ** the number of scales *)
Lemma ceil_spec x : IZR (ceil x) - 1 < x <= IZR (ceil x).
Proof. unfold ceil. rewrite opp_IZR. pose proof (Int_part_bounds (- x)). lra. Qed.
Lemma ln2_pos : 0 < ln 2. Proof. rewrite <- ln_1. apply ln_increasing; lra. Qed.
Lemma ln_pow2 n : ln (2 ^ n) = INR n * ln 2.
Proof. induction n as [|n IH]; [cbn [pow INR]; rewrite ln_1; ring|]. rewrite S_INR. cbn [pow]. rewrite ln_mult, IH; [ring|lra|apply pow_lt; lra]. Qed.
Lemma scale_count_spec dt : 0 < dt -> exists k, scale_count dt = Ok k /\ ((1 <= k)%Z <-> dt <= 2 ^ 12) /\ ((0 <= k)%Z <-> dt <= 2 ^ 13) /\
  ((1 <= k)%Z -> 2 ^ 11 < 2 ^ (Z.to_nat k - 1) * dt <= 2 ^ 12).
Proof.
  intros D. unfold scale_count. rewrite (proj2 (Rltb_false dt 0)) by lra. rewrite (proj2 (Reqb_false dt 0)) by lra. eexists. split; [reflexivity|].
  set (c := ceil (ln dt / ln 2)). pose proof (ceil_spec (ln dt / ln 2)) as C. fold c in C. pose proof ln2_pos as L.
  assert (LD : ln dt / ln 2 * ln 2 = ln dt) by (field; lra).
  assert (CL : (IZR c - 1) * ln 2 < ln dt <= IZR c * ln 2). { rewrite <- LD. split; [apply Rmult_lt_compat_r | apply Rmult_le_compat_r]; lra. }
  assert (T : forall m : nat, (c <= Z.of_nat m)%Z <-> dt <= 2 ^ m).
  { intros m. pose proof (ln_pow2 m) as E. assert (PM : 0 < 2 ^ m) by (apply pow_lt; lra). split; intros H.
    - apply IZR_le in H. rewrite <- INR_IZR_INZ in H. destruct (Rle_lt_dec dt (2 ^ m)) as [Q|Q]; [exact Q|]. apply ln_increasing in Q; [|exact PM]. rewrite E in Q. assert (IZR c * ln 2 <= INR m * ln 2) by (apply Rmult_le_compat_r; lra). lra.
    - destruct (Z_le_gt_dec c (Z.of_nat m)) as [Q|Q]; [exact Q|]. exfalso. assert (Q' : (Z.of_nat m + 1 <= c)%Z) by lia. apply IZR_le in Q'. rewrite plus_IZR, <- INR_IZR_INZ in Q'.
      assert (ln dt <= ln (2 ^ m)). { destruct H as [H|H]; [left; apply ln_increasing; assumption | rewrite H; lra]. }
      rewrite E in H0. assert (INR m * ln 2 <= (IZR c - 1) * ln 2) by (apply Rmult_le_compat_r; lra). lra. }
  split; [|split].
  - rewrite <- (T 12%nat). change (Z.of_nat 12) with 12%Z. lia.
  - rewrite <- (T 13%nat). change (Z.of_nat 13) with 13%Z. lia.
  - intros K. set (m := (Z.to_nat (13 - c) - 1)%nat). assert (M : INR m = 12 - IZR c). { rewrite INR_IZR_INZ, <- minus_IZR. f_equal. unfold m. lia. }
    assert (PM : 0 < 2 ^ m * dt) by (apply Rmult_lt_0_compat; [apply pow_lt; lra|exact D]).
    assert (LM : ln (2 ^ m * dt) = (12 - IZR c) * ln 2 + ln dt) by (rewrite ln_mult, ln_pow2, M; [reflexivity|apply pow_lt; lra|exact D]).
    pose proof (ln_pow2 11) as E11. pose proof (ln_pow2 12) as E12. cbn [INR] in E11, E12. 
    split.
    + apply ln_lt_inv; [apply pow_lt; lra | exact PM |]. rewrite E11, LM. lra.
    + destruct (Rle_lt_dec (2 ^ m * dt) (2 ^ 12)) as [Q|Q]; [exact Q|]. apply ln_increasing in Q; [|apply pow_lt; lra]. rewrite E12, LM in Q. lra.
Qed.

(** ** variability reduction *)
Definition pairs_sum (c : R -> R) (l : list R) : R := total (map c l).
Lemma pdist_length pos : 2 * INR (length (pdist pos)) = INR (length pos) * (INR (length pos) - 1).
Proof.
  induction pos as [|p pos IH]; [cbn; ring|]. cbn [pdist length]. rewrite app_length, map_length, plus_INR, S_INR. lra.
Qed.
Lemma pdist_nonneg pos d : In d (pdist pos) -> 0 <= d.
Proof.
  induction pos as [|p pos IH]; [intros []|]. cbn [pdist]. intros H. apply in_app_iff in H. destruct H as [H|H]; [|exact (IH H)].
  apply in_map_iff in H. destruct H as (q & <- & _). apply sqrt_pos.
Qed.
Lemma euclid_sym p q : euclid p q = euclid q p.
Proof. unfold euclid. f_equal. ring. Qed.
Lemma total_plus {A} (f g : A -> R) l : total (map (fun x => f x + g x) l) = total (map f l) + total (map g l).
Proof. induction l as [|x l IH]; cbn [map total fold_right]; [unfold total; cbn; ring|]. fold (total (map (fun x => f x + g x) l)) (total (map f l)) (total (map g l)). rewrite IH. ring. Qed.
Lemma corr_of speed scale p q : correlation speed scale p q = exp (- (2 * euclid p q) / (speed * scale)).
Proof. reflexivity. Qed.
Lemma corr_self speed scale p : correlation speed scale p p = 1.
Proof. unfold correlation. replace ((fst p - fst p) ^ 2 + (snd p - snd p) ^ 2) with 0 by ring. rewrite sqrt_0. replace (- (2 * 0) / (speed * scale)) with 0 by (unfold Rdiv; ring). apply exp_0. Qed.
Lemma corr_sym speed scale p q : correlation speed scale p q = correlation speed scale q p.
Proof. rewrite !corr_of, euclid_sym. reflexivity. Qed.
Lemma corr_total speed scale sites :
  total (map (fun p => total (map (correlation speed scale p) sites)) sites) = INR (length sites) + 2 * total (map (fun d => exp (- (2 * d) / (speed * scale))) (pdist sites)).
Proof.
  assert (TC : forall x l, total (x :: l) = x + total l) by reflexivity.
  induction sites as [|p s IH]; [cbn; ring|]. cbn [map pdist length]. rewrite !TC, corr_self.
  assert (E : map (fun q => total (correlation speed scale q p :: map (correlation speed scale q) s)) s = map (fun q => correlation speed scale p q + total (map (correlation speed scale q) s)) s).
  { apply map_ext. intros q. rewrite TC, (corr_sym speed scale q p). reflexivity. }
  rewrite E, total_plus, IH, map_app, total_app, map_map, S_INR.
  change (map (fun x => exp (- (2 * euclid p x) / (speed * scale))) s) with (map (correlation speed scale p) s). ring.
Qed.
(** the number of sites that scipy's minimiser has to find *)
Definition finds_count (fmin : (R -> R) -> R -> R) (n : nat) : Prop :=
  let pairs := INR n * (INR n - 1) / 2 in forall f, (forall x, f x = Rabs ((x ^ 2 - x) / 2 - pairs)) -> Rabs (fmin f (sqrt pairs) - INR n) < 1 / 2.
Lemma n_dist_eq fmin pos : finds_count fmin (length pos) ->
  IZR (round_even (fmin (fun x => Rabs ((x ^ 2 - x) / 2 - INR (length (pdist pos)))) (sqrt (INR (length (pdist pos)))))) = INR (length pos).
Proof.
  intros F. assert (E : INR (length (pdist pos)) = INR (length pos) * (INR (length pos) - 1) / 2) by (pose proof (pdist_length pos); lra). rewrite E.
  unfold finds_count in F. cbv zeta in F. specialize (F _ (fun x => eq_refl)). rewrite INR_IZR_INZ. f_equal. apply round_even_unique. rewrite <- INR_IZR_INZ.
  rewrite Rabs_minus_sym. exact F.
Qed.
Lemma mapM_ok {A B} (f : A -> res B) (g : A -> B) l : (forall x, In x l -> f x = Ok (g x)) -> mapM f l = Ok (map g l).
Proof.
  induction l as [|x l IH]; intros H; [reflexivity|]. cbn [mapM map]. rewrite (H x (or_introl eq_refl)). cbn [bind]. rewrite IH by (intros y Y; apply H; right; exact Y). reflexivity.
Qed.
Lemma total_pos l : (forall x, In x l -> 0 <= x) -> 0 <= total l.
Proof. intros H. induction l as [|x l IH]; [cbn; lra|]. cbn [total fold_right]. fold (total l). pose proof (H x (or_introl eq_refl)). assert (0 <= total l) by (apply IH; intros y Y; apply H; right; exact Y). lra. Qed.
Lemma compute_vr_eq fmin pos speed scales : pos <> [] -> finds_count fmin (length pos) -> speed <> 0 -> (forall s, In s scales -> 0 < s) ->
  compute_vr fmin pos speed scales = Ok (map (fun s => #(variability_reduction speed s pos)) scales).
Proof.
  intros N F S P. unfold compute_vr. destruct pos as [|p0 pos0] eqn:EP; [congruence|]. rewrite <- EP in *. clear EP.
  rewrite (n_dist_eq fmin pos F). apply mapM_ok. intros s I. specialize (P s I).
  rewrite (proj2 (Reqb_false (speed / 2) 0)) by lra. f_equal.
  assert (E : map (fun d => fexp (#(-1 / (speed / 2) * d) / #s)%fl) (pdist pos) = map Fin (map (fun d => exp (- (2 * d) / (speed * s))) (pdist pos))).
  { rewrite map_map. apply map_ext. intros d. rewrite fdiv_fin by lra. cbn [fexp]. f_equal. f_equal. field. split; lra. }
  rewrite E, fsum_total, fmul_fin. cbn [fadd]. unfold variability_reduction. rewrite corr_total.
  assert (Q : 0 < INR (length pos)). { apply lt_0_INR. destruct pos; [congruence|cbn; lia]. }
  assert (0 <= total (map (fun d => exp (- (2 * d) / (speed * s))) (pdist pos))). { apply total_pos. intros y Y. apply in_map_iff in Y. destruct Y as (d & <- & _). left. apply exp_pos. }
  rewrite fdiv_fin by lra. f_equal. f_equal. ring.
Qed.
Lemma pairs_bound speed s pos : 0 < speed -> 0 < s -> 0 <= total (map (fun d => exp (- (2 * d) / (speed * s))) (pdist pos)) <= INR (length (pdist pos)).
Proof.
  intros S P. assert (D : 0 < speed * s) by (apply Rmult_lt_0_compat; assumption).
  pose proof (total_bounds 0 1 (map (fun d => exp (- (2 * d) / (speed * s))) (pdist pos))) as B. rewrite map_length in B.
  assert (0 * INR (length (pdist pos)) <= total (map (fun d => exp (- (2 * d) / (speed * s))) (pdist pos)) <= 1 * INR (length (pdist pos))); [|lra].
  apply B. intros y Y. apply in_map_iff in Y. destruct Y as (d & <- & I). split; [left; apply exp_pos|]. apply pdist_nonneg in I.
  replace 1 with (exp 0) by apply exp_0. assert (- (2 * d) / (speed * s) <= 0). { unfold Rdiv. assert (0 < / (speed * s)) by (apply Rinv_0_lt_compat; exact D). assert (0 <= d * / (speed * s)) by (apply Rmult_le_pos; lra). lra. }
  destruct H as [H|H]; [left; apply exp_increasing; exact H | rewrite H; lra].
Qed.
Lemma vr_range speed s pos : pos <> [] -> 0 < speed -> 0 < s -> 1 <= variability_reduction speed s pos <= INR (length pos).
Proof.
  intros N S P. unfold variability_reduction. rewrite corr_total. pose proof (pairs_bound speed s pos S P) as B. pose proof (pdist_length pos) as L.
  assert (Q : 1 <= INR (length pos)). { change 1 with (INR 1). apply le_INR. destruct pos; [congruence|cbn; lia]. }
  set (n := INR (length pos)) in *. set (t := total _) in *. assert (T : 0 < n + 2 * t) by lra.
  split; apply (Rmult_le_reg_r (n + 2 * t)); try exact T; unfold Rdiv; rewrite ?Rmult_assoc, ?Rinv_l by lra; nra.
Qed.
Lemma total_le {A} (f g : A -> R) l : (forall x, In x l -> f x <= g x) -> total (map f l) <= total (map g l).
Proof. intros H. induction l as [|x l IH]; [cbn; lra|]. cbn [map total fold_right]. fold (total (map f l)) (total (map g l)). pose proof (H x (or_introl eq_refl)). assert (total (map f l) <= total (map g l)) by (apply IH; intros y Y; apply H; right; exact Y). lra. Qed.
Lemma vr_decreasing speed s speed' s' pos : pos <> [] -> 0 < speed -> 0 < s -> 0 < speed' -> 0 < s' -> speed * s <= speed' * s' ->
  variability_reduction speed' s' pos <= variability_reduction speed s pos.
Proof.
  intros N S P S' P' LE. unfold variability_reduction. rewrite !corr_total.
  assert (D : 0 < speed * s) by (apply Rmult_lt_0_compat; assumption).
  assert (T : total (map (fun d => exp (- (2 * d) / (speed * s))) (pdist pos)) <= total (map (fun d => exp (- (2 * d) / (speed' * s'))) (pdist pos))).
  { apply total_le. intros d I. apply pdist_nonneg in I. assert (E : - (2 * d) / (speed * s) <= - (2 * d) / (speed' * s')).
    { assert (/ (speed' * s') <= / (speed * s)) by (apply Rinv_le_contravar; assumption). unfold Rdiv. assert (0 <= d * (/ (speed * s) - / (speed' * s'))) by (apply Rmult_le_pos; lra). lra. }
    destruct E as [E|E]; [left; apply exp_increasing; exact E | rewrite E; lra]. }
  pose proof (pairs_bound speed s pos S P) as B. assert (Q : 1 <= INR (length pos)). { change 1 with (INR 1). apply le_INR. destruct pos; [congruence|cbn; lia]. }
  unfold Rdiv. apply Rmult_le_compat_l; [apply pow_le; lra|]. apply Rinv_le_contravar; lra.
Qed.

(** ** summation by parts *)
Fixpoint detail_sum (a m : nat -> R) (k : nat) : R := match k with O => 0 | S j => detail_sum a m j + a j * (m j - m (S j)) end.
Lemma abel a m lo hi : (forall i, lo <= m i <= hi) -> (forall i, 0 <= a i) -> (forall i, a i <= a (S i)) -> forall k,
  a k * lo <= detail_sum a m (S k) + a k * m (S k) <= a k * hi.
Proof.
  intros M P I. induction k as [|k IH]; cbn [detail_sum] in *.
  - pose proof (M O). pose proof (P O). nra.
  - pose proof (M (S k)) as M1. pose proof (I k). assert (0 <= (a (S k) - a k) * (m (S k) - lo)) by (apply Rmult_le_pos; lra). assert (0 <= (a (S k) - a k) * (hi - m (S k))) by (apply Rmult_le_pos; lra). lra.
Qed.
(** ** gaps *)
Definition gap_or_number (x : fl) : Prop := x = NaN \/ exists r, x = #r.
Lemma isnan_fin x : isnan x = false -> gap_or_number x -> exists r, x = #r.
Proof. intros N [-> | H]; [discriminate|exact H]. Qed.
Lemma bfill_head l : (exists r, In #r l) -> Forall gap_or_number l -> exists r, hd NaN (bfill l) = #r.
Proof.
  induction l as [|x l IH]; intros [r I] F; [destruct I|]. inversion F as [|? ? X F']; subst. cbn [bfill hd]. destruct X as [-> | [s ->]]; [|exists s; reflexivity]. cbn [isnan].
  destruct I as [I|I]; [discriminate|]. apply IH; [exists r; exact I|exact F'].
Qed.
Lemma bfill_gap l : Forall gap_or_number l -> Forall gap_or_number (bfill l).
Proof.
  induction 1 as [|x l X F IH]; [constructor|]. cbn [bfill]. constructor; [|exact IH]. destruct X as [-> | [s ->]]; cbn [isnan]; [|right; exists s; reflexivity].
  destruct IH; cbn [hd]; [left; reflexivity|assumption].
Qed.
Lemma ffill_number l : forall a, (exists r, a = #r) -> Forall gap_or_number l -> Forall (fun y => exists r, y = #r) (ffill_fl a l).
Proof.
  induction l as [|x l IH]; intros a A F; [constructor|]. inversion F as [|? ? X F']; subst. cbn [ffill_fl]. cbv zeta.
  assert (Y : exists r, (if isnan x then a else x) = #r) by (destruct X as [-> | [s ->]]; cbn [isnan]; [exact A|exists s; reflexivity]). constructor; [exact Y|]. apply IH; assumption.
Qed.
Lemma fill_number l : (exists r, In #r l) -> Forall gap_or_number l -> Forall (fun y => exists r, y = #r) (ffill_fl NaN (bfill l)).
Proof.
  intros E F. pose proof (bfill_head l E F) as H. pose proof (bfill_gap l F) as G. destruct (bfill l) as [|y m]; [constructor|]. cbn [hd] in H. inversion G; subst.
  cbn [ffill_fl]. cbv zeta. destruct H as [r ->]. cbn [isnan]. constructor; [exists r; reflexivity|]. apply ffill_number; [exists r; reflexivity|assumption].
Qed.
Lemma finite_list w : (forall x, In x w -> isfinite x = true) -> exists rs, w = map Fin rs.
Proof.
  induction w as [|x w IH]; intros H; [exists []; reflexivity|]. destruct IH as [rs ->]; [intros y Y; apply H; right; exact Y|]. specialize (H x (or_introl eq_refl)). destruct x; try discriminate.
  exists (r :: rs). reflexivity.
Qed.
Lemma rolling_entry h l t : (t < length l)%nat -> let w := filter isfinite (firstn (t + h - (t - h)) (skipn (t - h) l)) in
  (w = [] /\ nth t (rolling_mean h l) NaN = NaN) \/ (w <> [] /\ exists r, nth t (rolling_mean h l) NaN = #r).
Proof.
  intros T w. unfold rolling_mean. rewrite nth_map_seq by exact T. fold w. destruct w as [|x w'] eqn:W; [left; split; reflexivity|]. right. split; [discriminate|].
  destruct (finite_list (x :: w')) as [rs E]. { intros y Y. rewrite <- W in Y. unfold w in Y. apply filter_In in Y. apply Y. }
  rewrite E. exists (mean rs). apply fmean_mean. intros ->. discriminate E.
Qed.
Lemma rolling_gap h l : Forall gap_or_number (rolling_mean h l).
Proof.
  apply Forall_forall. intros x X. apply (In_nth _ _ NaN) in X. destruct X as (t & T & <-). unfold rolling_mean in T. rewrite map_length, seq_length in T.
  destruct (rolling_entry h l t T) as [[_ E] | [_ E]]; [left; exact E|right; exact E].
Qed.
Lemma rolling_some h l r : (0 < h)%nat -> In #r l -> exists s, In #s (rolling_mean h l).
Proof.
  intros P I. apply (In_nth _ _ NaN) in I. destruct I as (t & T & E). destruct (rolling_entry h l t T) as [[W _] | [_ [s S0]]].
  - exfalso. assert (In #r (filter isfinite (firstn (t + h - (t - h)) (skipn (t - h) l)))); [|rewrite W in H; destruct H]. apply filter_In. split; [|reflexivity].
    rewrite (slice_seq NaN). apply in_map_iff. exists t. split; [exact E|]. apply in_seq. lia.
  - exists s. rewrite <- S0. apply nth_In. unfold rolling_mean. rewrite map_length, seq_length. exact T.
Qed.
Lemma shift_number l : Forall (fun y => exists r, y = #r) l -> (2 <= length l)%nat -> Forall (fun y => exists r, y = #r) (shift_left l).
Proof.
  intros F L. destruct l as [|x l]; [constructor|]. cbn [shift_left]. inversion F as [|? ? X F']; subst. apply Forall_app. split; [exact F'|]. constructor; [|constructor].
  rewrite Forall_forall in F'. apply F'. destruct l as [|y l]; [cbn in L; lia|]. destruct (exists_last (l := y :: l)) as (l' & z & E); [discriminate|]. rewrite E, last_last. apply in_or_app. right. left. reflexivity.
Qed.
(** averages over two or more samples have no gaps unless nothing at all is known *)
Lemma csi_mean_number vals j r t : In #r vals -> (t < length (sym_pad vals))%nat -> exists s, nth t (csi_mean (sym_pad vals) (S j)) NaN = #s.
Proof.
  intros I T. assert (I' : In #r (sym_pad vals)) by (unfold sym_pad; apply in_or_app; right; apply in_or_app; left; exact I).
  assert (F : Forall (fun y => exists r, y = #r) (csi_mean (sym_pad vals) (S j))).
  { cbn [csi_mean]. apply shift_number; [apply fill_number; [apply (rolling_some _ _ r (pow2_pos j) I')|apply rolling_gap]|].
    assert (L2 : (2 <= length (sym_pad vals))%nat) by (rewrite sym_pad_length; destruct vals; [destruct I|cbn [length]; lia]).
    pose proof (csi_mean_length (sym_pad vals) (S j)) as L. cbn [csi_mean] in L. rewrite shift_length in L. lia. }
  rewrite Forall_forall in F. apply F, nth_In. rewrite csi_mean_length. exact T.
Qed.
Lemma sym_pad_mid vals t : (t < length vals)%nat -> nth (length vals + t) (sym_pad vals) NaN = nth t vals NaN.
Proof. intros T. unfold sym_pad. rewrite app_nth2 by (rewrite rev_length; lia). rewrite rev_length. replace (length vals + t - length vals)%nat with t by lia. apply app_nth1, T. Qed.
Lemma fsum_number l : (forall x, In x l -> exists r, x = #r) -> exists r, fsum l = #r.
Proof.
  intros H. destruct (finite_list l) as [rs ->]; [intros x X; destruct (H x X) as [r ->]; reflexivity|]. rewrite fsum_total. eexists. reflexivity.
Qed.
