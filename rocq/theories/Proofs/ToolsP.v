(** Proofs about tools.py *)
From Verif Require Import Base.Fl Base.FlFacts Base.Py Base.Round Model.Tools Spec.ToolsSpec.
From Coq Require Import ZArith Lia Lra Psatz.
Open Scope R_scope.

Lemma sqrt5_bounds : 2.236 < sqrt 5 < 2.2361.
Proof.
  split.
  - apply Rsqr_incrst_0; [|lra|apply sqrt_pos]. rewrite Rsqr_sqrt by lra. unfold Rsqr; lra.
  - apply Rsqr_incrst_0; [|apply sqrt_pos|lra]. rewrite Rsqr_sqrt by lra. unfold Rsqr; lra.
Qed.
Lemma sqrt5_sq : sqrt 5 * sqrt 5 = 5. Proof. apply sqrt_sqrt. lra. Qed.
Lemma golden_bounds : 0.618 < golden < 0.6181.
Proof. unfold golden. pose proof sqrt5_bounds. lra. Qed.

(** one finite row *)
Definition frow (lo hi : R) (f : fl -> fl) := GsRow #lo #hi f.
Lemma V1_fin lo hi f : gs_V1 (frow lo hi f) = #(lo + golden * (hi - lo)).
Proof. unfold gs_V1, frow, phim1. cbn [gs_lo gs_hi]. fin. reflexivity. Qed.
Lemma V2_fin lo hi f : gs_V2 (frow lo hi f) = #(hi - golden * (hi - lo)).
Proof. unfold gs_V2, frow, phim1. cbn [gs_lo gs_hi]. fin. reflexivity. Qed.
Lemma next_fin lo hi f : gs_next (frow lo hi f) =
  if gs_flag (frow lo hi f) then frow (hi - golden * (hi - lo)) hi f else frow lo (lo + golden * (hi - lo)) f.
Proof.
  unfold gs_next. rewrite V1_fin, V2_fin. destruct (gs_flag (frow lo hi f)); unfold frow, fbool; cbn [negb gs_lo gs_hi gs_obj]; fin;
  f_equal; f_equal; ring.
Qed.
Lemma err_fin lo hi f : lo <= hi -> gs_err (frow lo hi f) = #((sqrt 5 - 2) * (hi - lo)).
Proof.
  intros H. unfold gs_err. rewrite V1_fin, V2_fin. fin. f_equal. unfold golden. pose proof sqrt5_bounds.
  replace (hi - (sqrt 5 - 1) / 2 * (hi - lo) - (lo + (sqrt 5 - 1) / 2 * (hi - lo))) with (- ((sqrt 5 - 2) * (hi - lo))) by field.
  rewrite Rabs_Ropp. apply Rabs_pos_eq. apply Rmult_le_pos; lra.
Qed.
Fixpoint gs_iter {A} (n : nat) (f : A -> A) (x : A) : A := match n with O => x | S k => gs_iter k f (f x) end.
Lemma gs_iter_S {A} n (f : A -> A) x : gs_iter (S n) f x = f (gs_iter n f x).
Proof. revert x. induction n as [|n IH]; intros x; [reflexivity|]. cbn [gs_iter] in *. apply IH. Qed.
Lemma iter_map {A} n (f : A -> A) l : gs_iter n (map f) l = map (gs_iter n f) l.
Proof.
  revert l. induction n as [|n IH]; intros l; simpl; [symmetry; apply map_id|]. rewrite IH, map_map. reflexivity.
Qed.
(** bracket after n steps *)
Lemma iter_fin n lo hi f : lo <= hi ->
  exists a b, gs_iter n gs_next (frow lo hi f) = frow a b f /\ lo <= a /\ b <= hi /\ b - a = golden ^ n * (hi - lo) /\ a <= b.
Proof.
  intros H. pose proof golden_bounds as G. induction n as [|n IH].
  - exists lo, hi. simpl. repeat split; lra.
  - destruct IH as (a & b & E & H1 & H2 & H3 & H4). rewrite gs_iter_S, E, next_fin.
    assert (H5 : 0 <= golden * (b - a)) by (apply Rmult_le_pos; lra).
    assert (H6 : golden * (b - a) <= b - a) by nra.
    assert (H7 : golden ^ S n * (hi - lo) = golden * (b - a)) by (rewrite H3; simpl; ring).
    destruct (gs_flag (frow a b f)).
    + exists (b - golden * (b - a)), b. repeat split; lra.
    + exists a, (a + golden * (b - a)). repeat split; lra.
Qed.
Lemma iter_unimodal n lo hi f g m : lo <= hi -> (forall x, lo <= x <= hi -> f #x = #(g x)) -> unimodal g lo m hi ->
  exists a b, gs_iter n gs_next (frow lo hi f) = frow a b f /\ lo <= a /\ b <= hi /\ b - a = golden ^ n * (hi - lo) /\ a <= m <= b.
Proof.
  intros H Hf (Hm & Hinc & Hdec). pose proof golden_bounds as G. induction n as [|n IH].
  - exists lo, hi. simpl. repeat split; lra.
  - destruct IH as (a & b & E & H1 & H2 & H3 & H4). rewrite gs_iter_S, E, next_fin.
    assert (H5 : 0 <= golden * (b - a)) by (apply Rmult_le_pos; lra).
    assert (H6 : golden * (b - a) <= b - a) by nra.
    assert (H7 : golden ^ S n * (hi - lo) = golden * (b - a)) by (rewrite H3; simpl; ring).
    assert (H8 : b - golden * (b - a) <= a + golden * (b - a)) by nra.
    assert (EF : gs_flag (frow a b f) = Rltb (g (b - golden * (b - a))) (g (a + golden * (b - a)))).
    { unfold gs_flag. rewrite V1_fin, V2_fin. cbn [frow gs_obj]. rewrite !Hf by lra. reflexivity. }
    rewrite EF. destruct (Rltb_spec (g (b - golden * (b - a))) (g (a + golden * (b - a)))) as [L|L].
    + exists (b - golden * (b - a)), b. repeat split; try lra.
      destruct (Rle_dec (b - golden * (b - a)) m) as [|N]; [assumption|exfalso]. apply Rnot_le_lt in N.
      destruct H8 as [H8|H8]; [|rewrite <- H8 in L; lra].
      specialize (Hdec (b - golden * (b - a)) (a + golden * (b - a))). lra.
    + exists a, (a + golden * (b - a)). repeat split; try lra.
      destruct (Rle_dec m (a + golden * (b - a))) as [|N]; [assumption|exfalso]. apply Rnot_le_lt in N.
      destruct H8 as [H8|H8].
      * specialize (Hinc (b - golden * (b - a)) (a + golden * (b - a))). lra.
      * (* degenerate bracket: width zero *) assert (b - a = 0) by nra. nra.
Qed.
(** nan rows stay nan and never block convergence *)
Definition nanrow (r : gs_row) : Prop := gs_lo r = NaN \/ gs_hi r = NaN.
Lemma nan_V r : nanrow r -> gs_V1 r = NaN /\ gs_V2 r = NaN.
Proof.
  intros [H|H]; unfold gs_V1, gs_V2, phim1; rewrite H.
  - split; [reflexivity|]. destruct (gs_hi r); reflexivity.
  - split; [|reflexivity]. destruct (gs_lo r); reflexivity.
Qed.
Lemma nan_next r : nanrow r -> nanrow (gs_next r).
Proof.
  intros H. destruct (nan_V r H) as [E1 E2]. left. unfold gs_next. cbn [gs_lo]. rewrite E2. reflexivity.
Qed.
Lemma nan_err r : nanrow r -> gs_err r = NaN.
Proof. intros H. destruct (nan_V r H) as [E1 E2]. unfold gs_err. rewrite E1, E2. reflexivity. Qed.
Lemma nan_iter n r : nanrow r -> nanrow (gs_iter n gs_next r).
Proof. intros H. induction n; [exact H|]. rewrite gs_iter_S. apply nan_next, IHn. Qed.

Definition good (r : gs_row) : Prop := nanrow r \/ exists lo hi, r = frow lo hi (gs_obj r) /\ lo <= hi.
(** width of a row, 0 for nan rows *)
Definition width (r : gs_row) : R := match gs_lo r, gs_hi r with Fin a, Fin b => b - a | _, _ => 0 end.

Lemma conv_iter atol n rows : Forall good rows ->
  gs_converged #atol (gs_iter n (map gs_next) rows) = true <->
  Forall (fun r => nanrow r \/ (sqrt 5 - 2) * (golden ^ n * width r) < atol) rows.
Proof.
  intros HG. rewrite iter_map. unfold gs_converged. induction HG as [|r rows Hr HG IH]; [simpl; split; [constructor|reflexivity]|].
  cbn [map filter].
  destruct Hr as [Hn|(lo & hi & E & Hle)].
  - rewrite (nan_err _ (nan_iter n r Hn)). cbn [isnan negb]. rewrite IH. split; intros H.
    + constructor; [left; exact Hn|exact H].
    + inversion H; assumption.
  - destruct (iter_fin n lo hi (gs_obj r) Hle) as (a & b & E2 & _ & _ & H3 & H4). rewrite <- E in E2.
    rewrite E2, err_fin by exact H4. cbn [isnan negb forallb]. rewrite andb_true_iff, IH, fltb_fin, Rltb_true, H3.
    assert (EW : width r = hi - lo) by (rewrite E; reflexivity). rewrite <- EW. split.
    + intros [H1 H2]. constructor; [right; exact H1|exact H2].
    + intros H. inversion H as [|? ? H1 H2]; subst. split; [|exact H2]. destruct H1 as [H1|H1]; [|exact H1].
      rewrite E in H1. destruct H1; discriminate.
Qed.
Lemma loop_run atol k rows :
  (forall j, (j < k)%nat -> gs_converged atol (gs_iter j (map gs_next) rows) = false) ->
  gs_converged atol (gs_iter k (map gs_next) rows) = true ->
  forall fuel, gs_loop fuel atol rows = if Nat.ltb k fuel then Some (gs_iter k (map gs_next) rows) else None.
Proof.
  revert rows. induction k as [|k IH]; intros rows Hno Hyes fuel.
  - destruct fuel; [reflexivity|]. cbn [gs_loop]. cbn [gs_iter] in Hyes. rewrite Hyes. reflexivity.
  - destruct fuel; [reflexivity|]. cbn [gs_loop]. pose proof (Hno 0%nat ltac:(lia)) as H0. cbn [gs_iter] in H0. rewrite H0.
    rewrite IH; [reflexivity| |exact Hyes]. intros j Hj. apply (Hno (S j)). lia.
Qed.
Lemma loop_none atol rows fuel : (forall j, gs_converged atol (gs_iter j (map gs_next) rows) = false) -> gs_loop fuel atol rows = None.
Proof.
  revert rows. induction fuel as [|fuel IH]; intros rows H; [reflexivity|]. cbn [gs_loop].
  pose proof (H 0%nat) as H0. cbn [gs_iter] in H0. rewrite H0. apply IH. intros j. apply (H (S j)).
Qed.
Lemma first_true (p : nat -> bool) n : p n = true -> exists k, p k = true /\ forall j, (j < k)%nat -> p j = false.
Proof.
  revert p. induction n as [|n IH]; intros p H.
  - exists 0%nat. split; [exact H|]. intros j Hj. lia.
  - destruct (p 0%nat) eqn:E0; [exists 0%nat; split; [exact E0|intros j Hj; lia]|].
    destruct (IH (fun i => p (S i)) H) as (k & Hk & Hlt). exists (S k). split; [exact Hk|].
    intros [|j] Hj; [exact E0|]. apply Hlt. lia.
Qed.
Lemma gs_eventually atol rows : 0 < atol -> Forall good rows ->
  exists n, gs_converged #atol (gs_iter n (map gs_next) rows) = true.
Proof.
  intros Ha HG. pose proof golden_bounds as G. pose proof sqrt5_bounds as S5.
  assert (E : exists n, forall m, (n <= m)%nat -> Forall (fun r => nanrow r \/ (sqrt 5 - 2) * (golden ^ m * width r) < atol) rows).
  { clear -Ha G S5. induction rows as [|r rows IH]; [exists 0%nat; constructor|]. destruct IH as [n1 H1].
    set (w := Rabs (width r) + 1). assert (Hw : 0 < w) by (unfold w; pose proof (Rabs_pos (width r)); lra).
    destruct (pow_lt_1_zero golden ltac:(rewrite Rabs_pos_eq; lra) (atol / w)) as [n2 H2]; [apply Rdiv_lt_0_compat; lra|].
    exists (max n1 n2). intros m Hm. constructor; [right|apply H1; lia].
    specialize (H2 m ltac:(lia)). assert (Hp : 0 < golden ^ m) by (apply pow_lt; lra). rewrite Rabs_pos_eq in H2 by lra.
    assert (H3 : golden ^ m * w < atol).
    { apply Rmult_lt_compat_r with (r := w) in H2; [|exact Hw]. unfold Rdiv in H2. rewrite Rmult_assoc, Rinv_l in H2 by lra. lra. }
    assert (Hwr : width r <= w) by (unfold w; pose proof (Rle_abs (width r)); lra).
    assert (H4 : golden ^ m * width r <= golden ^ m * w) by (apply Rmult_le_compat_l; lra).
    destruct (Rle_dec 0 (golden ^ m * width r)); nra. }
  destruct E as [n Hn]. exists n. apply conv_iter; [exact HG|]. apply Hn. lia.
Qed.
Lemma good_not_raised rows : Forall good rows -> existsb (fun r => fltb (gs_hi r - gs_lo r)%fl #0) rows = false.
Proof.
  induction 1 as [|r rows Hr HG IH]; [reflexivity|]. cbn [existsb]. rewrite IH, orb_false_r.
  destruct Hr as [[H|H]|(lo & hi & E & Hle)].
  - rewrite H. destruct (gs_hi r); reflexivity.
  - rewrite H. reflexivity.
  - rewrite E. cbn [frow gs_lo gs_hi]. fin. apply Rltb_f. lra.
Qed.
Lemma out_fin a b f : gs_out (frow a b f) = (f #((a + b) / 2), if isnan (f #((a + b) / 2)) then NaN else #((a + b) / 2)).
Proof.
  unfold gs_out. rewrite V1_fin, V2_fin. cbn [frow gs_obj]. fin.
  replace (0.5 * (a + golden * (b - a) + (b - golden * (b - a)))) with ((a + b) / 2) by lra. reflexivity.
Qed.
Lemma out_nan r : nanrow r -> snd (gs_out r) = NaN.
Proof. intros H. destruct (nan_V r H) as [E1 E2]. unfold gs_out. rewrite E1, E2. cbn. destruct (isnan _); reflexivity. Qed.

(** ** _degrees_to_index *)
Lemma index_case (x om : R) (omax : Z) : om = IZR omax -> 0 <= om ->
  let r := (if fgtb #x #om then if fleb (#x - #om)%fl #0.500001 then Ok omax else Err ValueError
    else if fltb #x #0 then if fleb (- #x)%fl #0.500001 then Ok 0%Z else Err ValueError
    else Ok (round_even x)) in
  (- (1/2) <= x <= om + 1/2 -> exists k, r = Ok k /\ (0 <= k <= omax)%Z /\ Rabs (IZR k - x) <= 1/2) /\
  (x < -0.500001 \/ om + 0.500001 < x -> r = Err ValueError) /\
  (- 0.500001 <= x < 0 -> r = Ok 0%Z) /\ (om < x <= om + 0.500001 -> r = Ok omax).
Proof.
  intros Eo Ho. cbn zeta. fin. repeat split.
  - intros H. destruct (Rltb_spec om x).
    + rdec. exists omax. split; [reflexivity|]. assert (0 <= omax)%Z by (apply le_IZR; lra). split; [lia|].
      rewrite <- Eo. apply Rabs_le. lra.
    + destruct (Rltb_spec x 0).
      * rdec. exists 0%Z. split; [reflexivity|]. assert (0 <= omax)%Z by (apply le_IZR; lra). split; [lia|]. apply Rabs_le. lra.
      * exists (round_even x). split; [reflexivity|]. split; [|apply round_even_near].
        pose proof (round_even_near x) as N. unfold Rabs in N.
        assert (IZR (-1) < IZR (round_even x)) by (destruct (Rcase_abs _); lra).
        assert (IZR (round_even x) < IZR (omax + 1)) by (rewrite plus_IZR; destruct (Rcase_abs _); lra).
        apply lt_IZR in H0. apply lt_IZR in H1. lia.
  - intros H. destruct (Rltb_spec om x).
    + rdec. reflexivity.
    + rdec. reflexivity.
  - intros H. rdec. reflexivity.
  - intros H. rdec. reflexivity.
Qed.
Lemma lat_index d : degrees_to_index #d Latitude =
  (let x := (90 - d) * 12 - 1/2 in
   if fgtb #x #2159 then if fleb (#x - #2159)%fl #0.500001 then Ok 2159%Z else Err ValueError
    else if fltb #x #0 then if fleb (- #x)%fl #0.500001 then Ok 0%Z else Err ValueError
    else Ok (round_even x)).
Proof.
  unfold degrees_to_index. cbn zeta. replace (2160 - 1) with 2159 by lra. fin.
  replace ((d - (90 + 1 / (2160 / (-90 - 90)) / 2)) * (2160 / (-90 - 90))) with ((90 - d) * 12 - 1 / 2) by field. reflexivity.
Qed.
Lemma lon_index d : degrees_to_index #d Longitude =
  (let x := (d + 180) * 12 - 1/2 in
   if fgtb #x #4319 then if fleb (#x - #4319)%fl #0.500001 then Ok 4319%Z else Err ValueError
    else if fltb #x #0 then if fleb (- #x)%fl #0.500001 then Ok 0%Z else Err ValueError
    else Ok (round_even x)).
Proof.
  unfold degrees_to_index. cbn zeta. replace (4320 - 1) with 4319 by lra. fin.
  replace ((d - (-180 + 1 / (4320 / (180 - -180)) / 2)) * (4320 / (180 - -180))) with ((d + 180) * 12 - 1 / 2) by field. reflexivity.
Qed.

(** ** datetimes *)
Lemma djd_day t : datetime_to_djd t * IZR us_per_day = IZR (utc_instant t - djd_start).
Proof. unfold datetime_to_djd, us_per_day. field. Qed.
Lemma djd_roundtrip t z d :
  Rabs (d - datetime_to_djd t) * IZR us_per_day < 1/2 -> utc_instant (djd_to_datetime d z) = utc_instant t.
Proof.
  intros H. unfold djd_to_datetime.
  rewrite (round_even_unique _ (utc_instant t - djd_start)).
  - generalize (utc_instant t) as u. intros u. unfold utc_instant. cbn [offset wall]. lia.
  - rewrite <- djd_day, <- Rmult_minus_distr_r, Rabs_mult, (Rabs_pos_eq (IZR us_per_day)) by (unfold us_per_day; apply IZR_le; lia).
    rewrite Rabs_minus_sym. exact H.
Qed.

(** ** kwargs *)
Lemma kwargs_spec {A} keys (d : list (string * A)) k v :
  In (k, v) (build_kwargs keys d) <-> In k keys /\ lookup k d = Some v.
Proof.
  unfold build_kwargs. rewrite in_flat_map. split.
  - intros (k' & Hk & H). destruct (lookup k' d) eqn:E; [|contradiction].
    destruct H as [H|[]]. injection H as -> ->. auto.
  - intros [Hk H]. exists k. split; [exact Hk|]. rewrite H. left; reflexivity.
Qed.
Lemma mapM_ok {A B} (f : A -> res B) l r : mapM f l = Ok r <-> Forall2 (fun a b => f a = Ok b) l r.
Proof.
  revert r. induction l as [|x l IH]; intros r; simpl.
  - split; [intros [= <-]; constructor|intros H; inversion H; reflexivity].
  - unfold bind. destruct (f x) as [y|e] eqn:E.
    + destruct (mapM f l) as [ys|e] eqn:E2.
      * split.
        -- intros [= <-]. constructor; [exact E|]. apply IH. reflexivity.
        -- intros H. inversion H as [|? b ? r' H1 H2]; subst. apply IH in H2. injection H2 as ->. congruence.
      * split; [discriminate|]. intros H. inversion H as [|? b ? r' H1 H2]; subst. apply IH in H2. discriminate.
    + split; [discriminate|]. intros H. inversion H; subst. congruence.
Qed.

(** ** normalisation *)
Fixpoint lmax (m : R) (l : list R) : R := match l with [] => m | x :: l' => lmax (Rmax m (Rabs x)) l' end.
Lemma fold_fmax_fin l m : fold_left fmax (map fabs (map Fin l)) #m = #(lmax m l).
Proof. revert m. induction l as [|x l IH]; intros m; [reflexivity|]. cbn [map fold_left lmax]. rewrite fabs_fin, fmax_fin. apply IH. Qed.
Lemma lmax_ge m l : m <= lmax m l /\ (forall x, In x l -> Rabs x <= lmax m l) /\ (lmax m l = m \/ exists x, In x l /\ lmax m l = Rabs x).
Proof.
  revert m. induction l as [|y l IH]; intros m; cbn [lmax].
  - split; [lra|]. split; [intros x []|left; reflexivity].
  - destruct (IH (Rmax m (Rabs y))) as (H1 & H2 & H3). pose proof (Rmax_l m (Rabs y)). pose proof (Rmax_r m (Rabs y)).
    split; [lra|]. split.
    + intros x [<-|Hx]; [lra|apply H2, Hx].
    + destruct H3 as [H3|(x & Hx & H3)].
      * rewrite H3. destruct (Rle_dec m (Rabs y)).
        -- right. exists y. split; [left; reflexivity|]. apply Rmax_right. assumption.
        -- left. apply Rmax_left. lra.
      * right. exists x. split; [right; exact Hx|exact H3].
Qed.
Lemma normalize_fin x l : (exists y, In y (x :: l) /\ y <> 0) ->
  exists M, 0 < M /\ normalize_max2one (map Fin (x :: l)) = map Fin (map (fun y => y / M) (x :: l)) /\
    (forall y, In y (x :: l) -> Rabs y <= M) /\ (exists y, In y (x :: l) /\ Rabs y = M).
Proof.
  intros (y & Hy & Hn). exists (lmax (Rabs x) l). destruct (lmax_ge (Rabs x) l) as (H1 & H2 & H3).
  assert (HM : forall z, In z (x :: l) -> Rabs z <= lmax (Rabs x) l) by (intros z [<-|Hz]; [exact H1|apply H2, Hz]).
  assert (HP : 0 < lmax (Rabs x) l) by (specialize (HM y Hy); pose proof (Rabs_pos_lt y Hn); lra).
  split; [exact HP|]. split; [|split; [exact HM|]].
  - unfold normalize_max2one. cbn [map]. rewrite fabs_fin, fold_fmax_fin. rewrite fdiv_fin by lra. f_equal.
    rewrite map_map, map_map. apply map_ext. intros z. apply fdiv_fin. lra.
  - destruct H3 as [H3|(z & Hz & H3)]; [exists x; split; [left; reflexivity|lra]|exists z; split; [right; exact Hz|lra]].
Qed.
Lemma ftrunc_nonneg x : 0 <= x -> IZR (ftrunc x) <= x < IZR (ftrunc x) + 1.
Proof. intros H. unfold ftrunc. rdec. apply Int_part_bounds. Qed.
