(** C120-C123: IV curve utilities. *)
From Verif Require Import Base.Fl Base.FlFacts Base.Py Base.Round Model.IvUtils Spec.IvSpec Proofs.ClearskyD Proofs.IvP.
From Coq Require Import ZArith Psatz Arith Permutation Sorted.
Open Scope R_scope.
Open Scope list_scope.

Lemma Ok_inj {A} (a b : A) : Ok a = Ok b -> a = b. Proof. congruence. Qed.
(** ** C120: rectify_iv_curve *)
Lemma usable_eq points : first_quadrant points = usable points.
Proof.
  unfold usable. induction points as [|[[v|] [i|]] l IH]; cbn [first_quadrant flat_map]; try exact IH; [reflexivity|].
  unfold Rleb. destruct (Rle_dec 0 v), (Rle_dec 0 i); cbn [andb app]; rewrite IH; reflexivity.
Qed.
Lemma group_eq points decimals u : map snd (filter (fun p => Reqb (fst p) u) (kept points decimals)) = map snd (filter (fun p => if Req_EM_T (rounding decimals (fst p)) u then true else false) (usable points)).
Proof.
  unfold kept. rewrite usable_eq. induction (usable points) as [|[v i] l IH]; [reflexivity|]. cbn [map filter fst snd]. unfold Reqb at 1. destruct (Req_EM_T (rounding decimals v) u); cbn [map snd]; rewrite IH; reflexivity.
Qed.
Definition rounded (decimals : option Z) (v : R) : R := match decimals with None => v | Some d => np_round d v end.
(** the points returned are exactly the mean currents at the voltages that occur *)
Theorem C120_points : forall points decimals v i, In (v, i) (rectify_iv_curve points decimals) <->
  (exists w c, In (Some w, Some c) points /\ 0 <= w /\ 0 <= c /\ v = rounded decimals w) /\ i = mean_current (rounded decimals) points v.
Proof.
  intros points decimals v i. rewrite rectify_eq, in_map_iff. change (rounded decimals) with (rounding decimals). split.
  - intros (u & E & I). injection E as -> <-. apply (proj1 (np_unique_in _ _)) in I. rewrite group_eq. split; [|reflexivity]. apply in_map_iff in I. destruct I as ([v' c] & <- & I). unfold kept in I. apply in_map_iff in I.
    destruct I as ([w c'] & E & I). cbn [fst snd] in E. injection E as <- <-. apply first_quadrant_in in I. exists w, c'. cbn [fst]. tauto.
  - intros [(w & c & I & W & C & ->) ->]. exists (rounding decimals w). split; [rewrite group_eq; reflexivity|]. apply (proj2 (np_unique_in _ _)), in_map_iff. exists (rounding decimals w, c). split; [reflexivity|].
    unfold kept. apply in_map_iff. exists (w, c). split; [reflexivity|]. apply first_quadrant_in. tauto.
Qed.
Print Assumptions C120_points.
Lemma nth_sorted l : StronglySorted Rlt l -> forall i j, (i < j < length l)%nat -> nth i l 0 < nth j l 0.
Proof.
  induction 1 as [|x l SL IH F]; intros i j [I J]; [cbn in J; lia|]. destruct j as [|j]; [lia|]. cbn [length] in J. destruct i as [|i]; cbn [nth].
  - rewrite Forall_forall in F. apply F, nth_In. lia.
  - apply IH. lia.
Qed.
Theorem C120_increasing : forall points decimals, increasing (map fst (rectify_iv_curve points decimals)).
Proof. intros points decimals. rewrite rectify_eq, map_map. cbn [fst]. rewrite map_id. intros i j H. apply nth_sorted; [apply np_unique_sorted|exact H]. Qed.
Print Assumptions C120_increasing.
Lemma np_round_nonneg d v : 0 <= v -> 0 <= np_round d v.
Proof.
  intros V. unfold np_round. assert (P : 0 < powerRZ 10 d) by (apply powerRZ_lt; lra). apply Rmult_le_pos; [|left; apply Rinv_0_lt_compat, P]. 
  assert (0 <= v * powerRZ 10 d) by (apply Rmult_le_pos; lra). pose proof (round_even_near (v * powerRZ 10 d)) as H0. apply IZR_le. 
  destruct (Z_lt_le_dec (round_even (v * powerRZ 10 d)) 0) as [L|L]; [|exact L]. exfalso. assert (IZR (round_even (v * powerRZ 10 d)) <= -1) by (apply IZR_le; lia). unfold Rabs in H0. destruct (Rcase_abs _) in H0; lra.
Qed.
Theorem C120_first_quadrant : forall points decimals v i, In (v, i) (rectify_iv_curve points decimals) -> 0 <= v /\ 0 <= i.
Proof.
  intros points decimals v i I. apply C120_points in I. destruct I as [(w & c & _ & W & _ & ->) ->]. split.
  - destruct decimals; cbn [rounded]; [apply np_round_nonneg; exact W|exact W].
  - apply average_nonneg. intros x X. apply in_map_iff in X. destruct X as ([a b] & <- & X). apply filter_In in X. destruct X as [X _]. rewrite <- usable_eq in X. apply first_quadrant_in in X. apply X.
Qed.
Print Assumptions C120_first_quadrant.
(** the order of the measurements does not matter *)
Theorem C120_order : forall points points' decimals, Permutation points points' -> rectify_iv_curve points decimals = rectify_iv_curve points' decimals.
Proof.
  intros points points' decimals P. rewrite !rectify_eq. assert (K : Permutation (kept points decimals) (kept points' decimals)) by (apply Permutation_map, first_quadrant_perm, P).
  replace (np_unique (map fst (kept points' decimals))) with (np_unique (map fst (kept points decimals))).
  - apply map_ext. intros u. f_equal. apply average_perm, Permutation_map, filter_perm, K.
  - apply sorted_R_unique; try apply np_unique_sorted. intros x. rewrite !np_unique_in. split; apply Permutation_in; [|apply Permutation_sym]; apply Permutation_map, K.
Qed.
Print Assumptions C120_order.
(** a clean curve is returned unchanged; in particular rectifying twice is rectifying once *)
Theorem C120_clean_unchanged : forall curve, increasing (map fst curve) -> (forall v i, In (v, i) curve -> 0 <= v /\ 0 <= i) ->
  rectify_iv_curve (map (fun p => (Some (fst p), Some (snd p))) curve) None = curve.
Proof.
  intros curve IN Q. rewrite rectify_eq. unfold kept. cbn [rounding].
  assert (U : first_quadrant (map (fun p => (Some (fst p), Some (snd p))) curve) = curve).
  { clear IN. induction curve as [|[v i] l IH]; [reflexivity|]. cbn [map first_quadrant fst snd]. destruct (Q v i (or_introl eq_refl)) as [V I]. rewrite (proj2 (Rleb_true 0 v)), (proj2 (Rleb_true 0 i)) by assumption. cbn [andb]. f_equal. apply IH. intros; apply Q; right; assumption. }
  rewrite U. rewrite (map_ext _ (fun p => p)) by (intros [a b]; reflexivity). rewrite map_id.
  assert (SS : StronglySorted Rlt (map fst curve)).
  { revert IN. generalize (map fst curve). induction l as [|x l IH]; intros IN; [constructor|]. constructor; [apply IH; intros i j H; apply (IN (S i) (S j)); cbn [length]; lia|]. rewrite Forall_forall. intros y Y. apply (In_nth _ _ 0) in Y. destruct Y as (j & J & <-). apply (IN O (S j)). cbn [length]. lia. }
  replace (np_unique (map fst curve)) with (map fst curve) by (apply sorted_R_unique; [exact SS|apply np_unique_sorted|intros x; rewrite np_unique_in; reflexivity]).
  assert (G : forall pre l, curve = pre ++ l -> map (fun u => (u, average (map snd (filter (fun p => Reqb (fst p) u) curve)))) (map fst l) = l).
  { intros pre l. revert pre. induction l as [|[v i] l IH]; intros pre E; [reflexivity|]. cbn [map fst]. rewrite (IH (pre ++ [(v, i)])) by (rewrite <- app_assoc; exact E). f_equal. f_equal.
    assert (F : filter (fun p => Reqb (fst p) v) curve = [(v, i)]).
    { rewrite E in SS |- *. rewrite map_app in SS. cbn [map fst] in SS.
      assert (Z : forall m, (forall p, In p m -> fst p <> v) -> filter (fun p : R * R => Reqb (fst p) v) m = []).
      { induction m as [|p m IHm]; intros H; [reflexivity|]. cbn [filter]. rewrite (proj2 (Reqb_false (fst p) v)) by (apply H; left; reflexivity). apply IHm. intros; apply H; right; assumption. }
      rewrite filter_app. cbn [filter fst]. rewrite (proj2 (Reqb_true v v)) by reflexivity. rewrite (Z pre), (Z l); [reflexivity| |].
      - intros p I N. clear -SS I N. induction pre as [|q pre IHp]; cbn [app map] in SS.
        + inversion SS as [|? ? _ F]; subst. rewrite Forall_forall in F. specialize (F (fst p) (in_map fst _ _ I)). lra.
        + inversion SS; subst. apply IHp. assumption.
      - intros p I N. clear -SS I N. induction pre as [|q pre IHp]; [destruct I|]. cbn [app map] in SS. inversion SS as [|? ? SS' F]; subst. destruct I as [-> | I]; [|apply IHp; assumption].
        rewrite Forall_forall in F. specialize (F (fst p) ltac:(apply in_or_app; right; left; reflexivity)). lra. }
    rewrite F. unfold average. cbn. field. }
  apply (G [] curve). reflexivity.
Qed.
Print Assumptions C120_clean_unchanged.
Theorem C120_rounding : forall d v, Rabs (rounded (Some d) v - v) <= / 2 * / powerRZ 10 d /\ exists k : Z, rounded (Some d) v = IZR k / powerRZ 10 d.
Proof.
  intros d v. cbn [rounded]. unfold np_round. assert (P : 0 < powerRZ 10 d) by (apply powerRZ_lt; lra). split; [|eexists; reflexivity]. pose proof (round_even_near (v * powerRZ 10 d)) as H.
  replace (IZR (round_even (v * powerRZ 10 d)) / powerRZ 10 d - v) with ((IZR (round_even (v * powerRZ 10 d)) - v * powerRZ 10 d) * / powerRZ 10 d) by (field; lra). rewrite Rabs_mult, (Rabs_right (/ powerRZ 10 d)) by (left; apply Rinv_0_lt_compat, P).
  apply Rmult_le_compat_r; [left; apply Rinv_0_lt_compat, P|]. lra.
Qed.
Print Assumptions C120_rounding.

(** ** C121: numerical differentiation *)
(** the first derivative is that of the polynomial of degree four through the point and its two neighbours on either side *)
Theorem C121_first_derivative : forall x f j p0 p1 p2 p3 p4, length x = length f -> (2 <= j)%nat -> (j + 2 < length f)%nat ->
  (forall k l, (j - 2 <= k < l)%nat -> (l <= j + 2)%nat -> nth k x 0 <> nth l x 0) ->
  (forall k, (j - 2 <= k <= j + 2)%nat -> nth k f 0 = quartic p0 p1 p2 p3 p4 (nth k x 0)) ->
  nth j (fst (numdiff x f)) NaN = #(quartic' p1 p2 p3 p4 (nth j x 0)).
Proof.
  intros x f j p0 p1 p2 p3 p4 L J1 J2 D V. unfold numdiff. cbv zeta. cbn [fst]. rewrite nth_map_seq by lia. replace (Nat.ltb j 2) with false by (symmetry; apply Nat.ltb_ge; exact J1). replace (Nat.leb (length f - 2) j) with false by (symmetry; apply Nat.leb_gt; lia). cbn [orb].
  unfold apply5. cbv zeta. replace (j + 2 - 2)%nat with j by lia. rewrite !V by lia. set (X := nth j x 0).
  assert (SH : forall t, quartic p0 p1 p2 p3 p4 t = quartic (quartic p0 p1 p2 p3 p4 X) (quartic' p1 p2 p3 p4 X) (p2 + 3 * p3 * X + 6 * p4 * X ^ 2) (p3 + 4 * p4 * X) p4 (t - X)) by (intros t; unfold quartic, quartic'; ring).
  rewrite (SH (nth (j + 0 - 2) x 0)), (SH (nth (j + 1 - 2) x 0)), (SH (nth (j + 3 - 2) x 0)), (SH (nth (j + 4 - 2) x 0)). rewrite (SH X) at 3. replace (X - X) with 0 by ring.
  apply diff5_real; unfold X; intros Q; match type of Q with nth ?a x 0 - _ = 0 => apply (D (Nat.min a j) (Nat.max a j)) | nth ?a x 0 - _ = nth ?b x 0 - _ => apply (D a b) end; try lia;
    try (replace (Nat.min (j + 0 - 2) j) with (j + 0 - 2)%nat by lia; replace (Nat.max (j + 0 - 2) j) with j by lia); try (replace (Nat.min (j + 1 - 2) j) with (j + 1 - 2)%nat by lia; replace (Nat.max (j + 1 - 2) j) with j by lia);
    try (replace (Nat.min (j + 3 - 2) j) with j by lia; replace (Nat.max (j + 3 - 2) j) with (j + 3 - 2)%nat by lia); try (replace (Nat.min (j + 4 - 2) j) with j by lia; replace (Nat.max (j + 4 - 2) j) with (j + 4 - 2)%nat by lia); lra.
Qed.
Print Assumptions C121_first_derivative.
(** the two points at either end have no derivative, and there is one entry per point *)
Theorem C121_ends : forall x f, length (fst (numdiff x f)) = length f /\ length (snd (numdiff x f)) = length f /\
  forall j, (j < 2 \/ length f <= j + 2)%nat -> nth j (fst (numdiff x f)) NaN = NaN /\ nth j (snd (numdiff x f)) NaN = NaN.
Proof.
  intros x f. unfold numdiff. cbv zeta. cbn [fst snd]. rewrite !map_length, seq_length. split; [reflexivity|]. split; [reflexivity|]. intros j H.
  destruct (le_lt_dec (length f) j) as [Q|Q]; [split; apply nth_overflow; rewrite map_length, seq_length; exact Q|]. rewrite !nth_map_seq by exact Q.
  replace (Nat.ltb j 2 || Nat.leb (length f - 2) j)%bool with true; [split; reflexivity|]. symmetry. apply orb_true_iff. destruct H as [H|H]; [left; apply Nat.ltb_lt; exact H|right; apply Nat.leb_le; lia].
Qed.
Print Assumptions C121_ends.
(** the second derivative is not one: for x^2 at 0, 1, 2, 3, 4 the result is -176 instead of 2 *)
Theorem C121_second_derivative_refuted : ~ (forall x f j p0 p1 p2 p3 p4, length x = length f -> (2 <= j)%nat -> (j + 2 < length f)%nat ->
  (forall k l, (j - 2 <= k < l)%nat -> (l <= j + 2)%nat -> nth k x 0 <> nth l x 0) ->
  (forall k, (j - 2 <= k <= j + 2)%nat -> nth k f 0 = quartic p0 p1 p2 p3 p4 (nth k x 0)) ->
  nth j (snd (numdiff x f)) NaN = #(quartic'' p2 p3 p4 (nth j x 0))).
Proof.
  intros H. specialize (H [0; 1; 2; 3; 4] [0; 1; 4; 9; 16] 2%nat 0 0 1 0 0 eq_refl ltac:(lia) ltac:(cbn; lia)).
  assert (D : forall k l, (2 - 2 <= k < l)%nat -> (l <= 2 + 2)%nat -> nth k [0; 1; 2; 3; 4] 0 <> nth l [0; 1; 2; 3; 4] 0).
  { intros k l K Lq. destruct k as [|[|[|[|k]]]], l as [|[|[|[|[|l]]]]]; try lia; cbn [nth]; lra. }
  specialize (H D). assert (V : forall k, (2 - 2 <= k <= 2 + 2)%nat -> nth k [0; 1; 4; 9; 16] 0 = quartic 0 0 1 0 0 (nth k [0; 1; 2; 3; 4] 0)).
  { intros k K. destruct k as [|[|[|[|[|k]]]]]; try lia; cbn [nth]; unfold quartic; lra. }
  specialize (H V). unfold numdiff, apply5, diff5_second, fsum in H. cbv zeta in H. cbn [snd length seq map nth Nat.ltb Nat.leb Nat.sub Nat.add orb fold_left fadd fmul] in H. apply Fin_inj in H. unfold quartic'' in H. lra.
Qed.
Print Assumptions C121_second_derivative_refuted.

(** ** C122: Schumaker's spline *)
Definition piece (k : knot) (t : R) : R := k_c k + k_b k * (t - k_x k) + k_a k * (t - k_x k) ^ 2.
Definition piece_slope (k : knot) (t : R) : R := k_b k + 2 * k_a k * (t - k_x k).
(** the knots increase; those not marked as inserted are the data points in order; an inserted knot lies between two neighbouring data points *)
Theorem C122_knots : forall x y, increasing x -> (2 <= length x)%nat -> length y = length x -> exists ks, schumaker_qspline x y = Ok ks /\
  increasing (map k_x ks) /\ map (fun k => (k_x k, k_y k)) (filter (fun k => negb (k_new k)) ks) = combine x y /\
  (forall a b, adjacent ks a b -> k_new a = false \/ k_new b = false) /\ (exists k l, ks = k :: l /\ k_new k = false) /\ (exists l k, ks = l ++ [k] /\ k_new k = false).
Proof.
  intros x y IN L LY. exists (flat_map seg_rows (segments x y) ++ [last_row x y]). split; [apply qspline_eq; assumption|]. pose proof (segments_chain x y IN L) as C. split.
  - apply increasing_sorted. apply (chain_sorted _ _ _ (last_row x y) C). reflexivity.
  - split.
    + rewrite filter_app, data_rows, map_app. cbn [filter last_row k_new negb map k_x k_y]. unfold segments. cbv zeta. rewrite !map_map. cbn [row_data k_x k_y g_x1 g_y1].
      apply (nth_ext _ _ (0, 0) (0, 0)); [rewrite app_length, map_length, seq_length, combine_length; cbn [length]; lia|]. intros i I. rewrite app_length, map_length, seq_length in I. cbn [length] in I.
      rewrite combine_nth by (symmetry; exact LY). destruct (le_lt_dec (length x - 1) i) as [Q|Q].
      * rewrite app_nth2 by (rewrite map_length, seq_length; exact Q). rewrite map_length, seq_length. replace i with (length x - 1)%nat by lia. rewrite Nat.sub_diag. cbn [nth]. rewrite !last_nth by lia. rewrite LY. reflexivity.
      * rewrite app_nth1 by (rewrite map_length, seq_length; exact Q). rewrite nth_map_seq by exact Q. reflexivity.
    + split; [|split].
      * intros a b AD. assert (KY : k_y (last_row x y) = nth (length x - 1) y 0) by (cbn [last_row k_y]; rewrite last_nth by lia; rewrite LY; reflexivity).
        destruct (adjacent_rows _ _ _ (last_row x y) a b C eq_refl KY eq_refl AD) as (g & _ & _ & [(-> & _)|(_ & _ & _ & N & _)]); [left; reflexivity|right; exact N].
      * inversion C as [p E1 E2 E3|g l y2 p H E C' E1 E2 E3]; [exfalso; apply (f_equal (@length seg)) in E2; unfold segments in E2; rewrite map_length, seq_length in E2; cbn in E2; lia|].
        cbn [flat_map]. unfold seg_rows at 1. eexists. eexists. rewrite <- !app_comm_cons. split; reflexivity.
      * eexists. eexists. split; reflexivity.
Qed.
Print Assumptions C122_knots.
(** the pieces start on the curve; they join with equal values and slopes at inserted knots, and between data points without an inserted
    knot with equal slopes and a value that is off by no more than the tolerance *)
Theorem C122_joins : forall x y ks a b, increasing x -> (2 <= length x)%nat -> length y = length x -> schumaker_qspline x y = Ok ks -> adjacent ks a b ->
  piece a (k_x a) = k_y a /\
  (k_new b = true -> piece a (k_x b) = k_y b /\ piece_slope a (k_x b) = k_b b) /\
  (k_new a = false -> k_new b = false -> Rabs (piece a (k_x b) - k_y b) <= (k_x b - k_x a) / 2 * (Rpower (/ 2 ^ 52) (1 / 3) + 1e-5 * Rabs (2 * (k_y b - k_y a) / (k_x b - k_x a)))) /\
  (k_new a = false -> k_new b = false -> k_x b <> last x 0 -> piece_slope a (k_x b) = k_b b).
Proof.
  intros x y ks a b IN L LY E AD. rewrite qspline_eq in E by assumption. apply Ok_inj in E. subst ks. pose proof (segments_chain x y IN L) as C.
  assert (KY : k_y (last_row x y) = nth (length x - 1) y 0) by (cbn [last_row k_y]; rewrite last_nth by lia; rewrite LY; reflexivity).
  destruct (adjacent_rows _ _ _ (last_row x y) a b C eq_refl KY eq_refl AD) as (g & H & _ & [(-> & -> & P)|(EA & BX & BY & BN & BS)]).
  - pose proof (seg_knot_inside g H P) as I. cbn [row_data row_knot k_new]. split; [unfold piece; cbn; ring|]. split; [|split; intros; discriminate]. intros _. unfold piece, piece_slope. cbn [row_data row_knot k_x k_y k_a k_b k_c]. rewrite P. split; [ring|]. unfold seg_eta. replace 0.5 with (1 / 2) by lra. field. lra.
  - split; [|split; [intros Q; congruence|]].
    + destruct (seg_plain g); subst a; unfold piece; cbn; ring.
    + destruct (seg_plain g) eqn:P; subst a; [|split; intros; discriminate].
      assert (NL : k_x b <> last x 0 -> b <> last_row x y) by (intros Q ->; apply Q; reflexivity).
      split; intros _ _; [|intros Q; specialize (BS (NL Q)); unfold piece_slope; cbn [row_data k_x k_b k_a]; rewrite P, BX, BS; replace 0.5 with (1 / 2) by lra; field; lra].
      rewrite BX, BY. unfold piece. cbn [row_data k_x k_y k_a k_b k_c]. rewrite P. unfold seg_plain, isclose in P. apply Rleb_true in P.
      replace (g_y1 g + g_s1 g * (g_x2 g - g_x1 g) + 0.5 * (g_s2 g - g_s1 g) / (g_x2 g - g_x1 g) * (g_x2 g - g_x1 g) ^ 2 - (g_y1 g + g_delta g * (g_x2 g - g_x1 g))) with ((g_x2 g - g_x1 g) / 2 * (g_s1 g + g_s2 g - 2 * g_delta g)) by (replace 0.5 with (1 / 2) by lra; field; lra).
      replace (2 * (g_y1 g + g_delta g * (g_x2 g - g_x1 g) - g_y1 g) / (g_x2 g - g_x1 g)) with (2 * g_delta g) by (field; lra).
      rewrite Rabs_mult, (Rabs_right ((g_x2 g - g_x1 g) / 2)) by lra. apply Rmult_le_compat_l; [lra|]. exact P.
Qed.
Print Assumptions C122_joins.
(** the piece after an inserted knot misses the next data point by this much *)
Theorem C122_gap : forall x y ks z a b u v, increasing x -> (2 <= length x)%nat -> length y = length x -> schumaker_qspline x y = Ok ks -> ks = u ++ z :: a :: b :: v -> k_new a = true -> k_x b <> last x 0 ->
  piece a (k_x b) - k_y b = - (k_b b - k_b a) * (k_x b - k_x a) * (k_x a - k_x z) / (2 * (k_x b - k_x z)).
Proof.
  intros x y ks z a b u v IN L LY E EK N NL. rewrite qspline_eq in E by assumption. apply Ok_inj in E. rewrite <- E in EK. clear E. pose proof (segments_chain x y IN L) as C.
  assert (KY : k_y (last_row x y) = nth (length x - 1) y 0) by (cbn [last_row k_y]; rewrite last_nth by lia; rewrite LY; reflexivity).
  destruct (triple_rows _ _ _ (last_row x y) z a b C eq_refl KY eq_refl N) as (g & H & P & -> & -> & BX & BY & BS); [exists u, v; exact EK|].
  assert (b <> last_row x y) by (intros ->; apply NL; reflexivity). rewrite BX, BY, (BS H0). pose proof (seg_knot_inside g H P) as I. unfold piece. cbn [row_knot row_data k_x k_y k_a k_b k_c]. unfold seg_eta.
  assert (SB : g_delta g = (seg_sbar g + g_s2 g - (g_s2 g - g_s1 g) * (seg_knot g - g_x1 g) / (g_x2 g - g_x1 g)) / 2) by (unfold seg_sbar; lra).
  rewrite SB. replace 0.5 with (1 / 2) by lra. field. split; lra.
Qed.
Print Assumptions C122_gap.
Definition bent : list R * list R := ([0; 1; 2; 3], [0; 1; 3; 4]).
(** so the spline does not pass through its data: 0, 1, 3, 4 at 0, 1, 2, 3 *)
Theorem C122_interpolates_refuted : ~ (forall x y ks a b, increasing x -> (2 <= length x)%nat -> length y = length x -> schumaker_qspline x y = Ok ks -> adjacent ks a b -> k_new b = false -> Rabs (piece a (k_x b) - k_y b) < 1 / 100).
Proof.
  intros H. set (x := [0; 1; 2; 3]). set (y := [0; 1; 3; 4]). assert (IN : increasing x) by (intros i j [I J]; destruct i as [|[|[|i]]], j as [|[|[|[|j]]]]; cbn in J; try lia; cbn; lra).
  assert (CH0 : chord x y 0 = 1) by (unfold chord; cbn [nth x y]; field). assert (CH1 : chord x y 1 = 2) by (unfold chord; cbn [nth x y]; field). assert (CH2 : chord x y 2 = 1) by (unfold chord; cbn [nth x y]; field).
  destruct (slopes_spec x y ltac:(cbn; lia)) as (SI & _ & _). assert (S1 : nth 1 (slopes x y) 0 = 4 / 3). { rewrite SI by (cbn; lia). cbn [Nat.sub]. rewrite CH0, CH1. unfold harmonic_slope. destruct (Rlt_dec _ _) as [q|q]; [field|exfalso; apply q; lra]. }
  assert (S2 : nth 2 (slopes x y) 0 = 4 / 3). { rewrite SI by (cbn; lia). cbn [Nat.sub]. rewrite CH1, CH2. unfold harmonic_slope. destruct (Rlt_dec _ _) as [q|q]; [field|exfalso; apply q; lra]. }
  assert (D1 : nth 1 (deltas x y) 0 = 2) by (rewrite deltas_nth by (cbn; lia); exact CH1).
  set (g := Seg 1 2 1 (4 / 3) (4 / 3) 2). assert (SG : segments x y = map (fun i => Seg (nth i x 0) (nth (S i) x 0) (nth i y 0) (nth i (slopes x y) 0) (nth (S i) (slopes x y) 0) (nth i (deltas x y) 0)) [0; 1; 2]%nat) by reflexivity.
  cbn [map] in SG. rewrite S1, S2, D1 in SG. change (nth 1 x 0) with 1 in SG. change (nth 2 x 0) with 2 in SG. change (nth 1 y 0) with 1 in SG. fold g in SG.
  assert (P : seg_plain g = false). { unfold seg_plain, isclose. cbn [g g_s1 g_s2 g_delta]. apply Rleb_false. rewrite (Rabs_right (2 * 2)) by lra. rewrite Rabs_left by lra. assert (EPS_slope <= 1); [|lra].
    unfold EPS_slope, EPS_val, Rpower. rewrite ln_Rinv by (apply pow_lt; lra). replace 1 with (exp 0) at 2 by apply exp_0. assert (0 <= ln (2 ^ 52)). { replace 0 with (ln 1) by apply ln_1. apply Rlt_le, ln_increasing; [lra|]. apply Rlt_pow_R1; [lra|lia]. }
    destruct (Req_dec (1 / 3 * - ln (2 ^ 52)) 0) as [->|Q]; [lra|]. left. apply exp_increasing. lra. }
  pose proof (qspline_eq x y IN ltac:(cbn; lia)) as E. rewrite SG in E. cbn [flat_map] in E. unfold seg_rows at 2 in E. rewrite P in E.
  set (g0 := Seg (nth 0 x 0) 1 (nth 0 y 0) (nth 0 (slopes x y) 0) (4 / 3) (nth 0 (deltas x y) 0)) in E. set (g2 := Seg 2 (nth 3 x 0) (nth 2 y 0) (4 / 3) (nth 3 (slopes x y) 0) (nth 2 (deltas x y) 0)) in E.
  assert (KS : exists u v, (seg_rows g0 ++ ([row_data g; row_knot g] ++ seg_rows g2 ++ [])) ++ [last_row x y] = u ++ row_data g :: row_knot g :: row_data g2 :: v).
  { exists (seg_rows g0). unfold seg_rows at 2. eexists. rewrite <- !app_assoc. cbn [app]. reflexivity. }
  destruct KS as (u & v & KS). specialize (H x y _ (row_knot g) (row_data g2) IN ltac:(cbn; lia) eq_refl E). assert (AD : adjacent ((seg_rows g0 ++ [row_data g; row_knot g] ++ seg_rows g2 ++ []) ++ [last_row x y]) (row_knot g) (row_data g2)).
  { exists (u ++ [row_data g]), v. rewrite KS, <- app_assoc. reflexivity. }
  specialize (H AD eq_refl). assert (GAP : piece (row_knot g) (k_x (row_data g2)) - k_y (row_data g2) = - (k_b (row_data g2) - k_b (row_knot g)) * (k_x (row_data g2) - k_x (row_knot g)) * (k_x (row_knot g) - k_x (row_data g)) / (2 * (k_x (row_data g2) - k_x (row_data g)))).
  { apply (C122_gap x y _ (row_data g) (row_knot g) (row_data g2) u v IN ltac:(cbn; lia) eq_refl E KS eq_refl). cbn. lra. }
  rewrite GAP in H. cbn [row_data row_knot k_x k_b] in H. unfold seg_sbar in H. cbn [g g2 g_x1 g_x2 g_s1 g_s2 g_delta] in H. fold g in H.
  assert (K : seg_knot g = 3 / 2). { unfold seg_knot. assert (V : seg_v g = true). { unfold seg_v. rewrite P. cbn [negb andb]. apply Rleb_true. unfold seg_aa, seg_b. cbn [g g_s1 g_s2 g_delta]. apply (Rle_0_sqr (snap (4 / 3 - 2))). } rewrite V. cbn [g g_x1 g_x2]. lra. }
  rewrite K in H. rewrite Rabs_right in H by lra. lra.
Qed.
Print Assumptions C122_interpolates_refuted.
(** slopes at the data points: harmonic means of the neighbouring chords, 0 at extrema; one-sided at the ends *)
Theorem C122_slopes : forall x y ks i, increasing x -> (3 <= length x)%nat -> length y = length x -> schumaker_qspline x y = Ok ks -> (i < length x - 1)%nat ->
  k_b (nth i (filter (fun k => negb (k_new k)) ks) (Knot 0 0 0 0 0 true)) =
    if Nat.eqb i 0 then (let e := 2 * chord x y 0 - harmonic_slope (chord x y 0) (chord x y 1) in if Rlt_dec 0 (chord x y 0 * e) then e else 0) else harmonic_slope (chord x y (i - 1)) (chord x y i).
Proof.
  intros x y ks i IN L LY E I. rewrite qspline_eq in E by (assumption || lia). apply Ok_inj in E. subst ks. rewrite filter_app, data_rows. unfold segments. cbv zeta. rewrite app_nth1 by (rewrite !map_length, seq_length; exact I).
  rewrite map_map, nth_map_seq by exact I. cbn [row_data k_b g_s1]. destruct (slopes_spec x y L) as (SI & S0 & _). destruct (Nat.eqb_spec i 0) as [->|N].
  - rewrite S0. rewrite (SI 1%nat) by lia. reflexivity.
  - apply SI; lia.
Qed.
Print Assumptions C122_slopes.

(** ** C123: astm_e1036 *)
Definition in_window (limits : R * R) (centre v : R) : Prop := fst limits * centre <= v <= snd limits * centre.
Lemma existsb_in {A} (f : A -> bool) l : existsb f l = true <-> exists a, In a l /\ f a = true.
Proof. apply existsb_exists. Qed.
(** voc and isc: the measured point nearest the axis if near enough, and the fitted line through the nearest points otherwise *)
Theorem C123_intercepts : forall line_fit mp_fit mp_roots curve il vl nv ni r, astm_e1036 line_fit mp_fit mp_roots curve il vl nv ni = Ok r -> forall k m,
  first_smallest (fun p => Rabs (snd p)) (0, 0) curve k -> first_smallest (fun p => Rabs (fst p)) (0, 0) curve m ->
  let open := nth k curve (0, 0) in let short := nth m curve (0, 0) in
  (Rabs (snd open) <= snd short * 0.001 -> voc r = fst open) /\
  (snd short * 0.001 < Rabs (snd open) -> exists near, n_smallest (fun p => Rabs (fst p)) nv (map (fun p => (snd p, fst p)) curve) near /\ voc r = line_fit near 0) /\
  (Rabs (fst short) <= fst open * 0.005 -> isc r = snd short) /\
  (fst open * 0.005 < Rabs (fst short) -> exists near, n_smallest (fun p => Rabs (fst p)) ni curve near /\ isc r = line_fit near 0).
Proof.
  intros line_fit mp_fit mp_roots curve il vl nv ni r E k m K M. cbv zeta. unfold astm_e1036 in E. rewrite (proj2 (argmin_spec _ (0, 0) curve k) K), (proj2 (argmin_spec _ (0, 0) curve m) M) in E. cbn [bind] in E.
  destruct (argmax (map (fun p => fst p * snd p) curve)) as [j|]; [|discriminate]. cbn [bind] in E. cbv zeta in E. destruct (argmax (map _ (filter _ _))) as [j'|] in E; [|discriminate]. cbn [bind] in E. apply Ok_inj in E. subst r. cbn [voc isc].
  split; [|split; [|split]]; intros H.
  - rewrite (proj2 (Rleb_true _ _)) by exact H. reflexivity.
  - rewrite (proj2 (Rleb_false _ _)) by exact H. eexists. split; [apply nsmallest_spec|reflexivity].
  - rewrite (proj2 (Rleb_true _ _)) by exact H. reflexivity.
  - rewrite (proj2 (Rleb_false _ _)) by exact H. eexists. split; [apply nsmallest_spec|reflexivity].
Qed.
Print Assumptions C123_intercepts.
(** the maximum power point: the best root of the fitted polynomial's derivative strictly inside the window around the best measured point *)
Theorem C123_max_power : forall line_fit mp_fit mp_roots curve il vl nv ni r, astm_e1036 line_fit mp_fit mp_roots curve il vl nv ni = Ok r -> exists best window,
  first_largest (fun p => fst p * snd p) (0, 0) curve best /\
  (forall p, In p window <-> In p curve /\ in_window il (snd (nth best curve (0, 0))) (snd p) /\ in_window vl (fst (nth best curve (0, 0))) (fst p)) /\
  let power := map (fun p => (fst p, fst p * snd p)) window in
  In (vmp r) (mp_roots power) /\ (exists a b, In a window /\ In b window /\ fst a < vmp r < fst b) /\ pmp r = mp_fit power (vmp r) /\
  (forall v a b, In v (mp_roots power) -> In a window -> In b window -> fst a < v < fst b -> mp_fit power v <= pmp r) /\
  (vmp r <> 0 -> exists i, imp r = #i /\ i * vmp r = pmp r) /\ (voc r * isc r <> 0 -> exists f, ff r = #f /\ f * (voc r * isc r) = pmp r).
Proof.
  intros line_fit mp_fit mp_roots curve il vl nv ni r E. unfold astm_e1036 in E. destruct (argmin (map (fun p => Rabs (snd p)) curve)) as [k|]; [|discriminate]. destruct (argmin (map (fun p => Rabs (fst p)) curve)) as [m|]; [|discriminate]. cbn [bind] in E.
  destruct (argmax (map (fun p => fst p * snd p) curve)) as [best|] eqn:B; [|discriminate]. cbn [bind] in E. cbv zeta in E. apply (proj1 (argmax_spec _ (0, 0) curve best)) in B. exists best.
  match type of E with context [filter ?f curve] => set (W := filter f curve) in E end. exists W. split; [exact B|]. split.
  { intros p. unfold W. rewrite filter_In, !andb_true_iff, !Rleb_true. unfold in_window. tauto. }
  cbv zeta. set (power := map (fun p => (fst p, fst p * snd p)) W) in *. match type of E with context [filter ?f (mp_roots power)] => set (G := filter f (mp_roots power)) in E end.
  assert (GI : forall v, In v G <-> In v (mp_roots power) /\ exists a b, In a W /\ In b W /\ fst a < v < fst b).
  { intros v. unfold G. rewrite filter_In, andb_true_iff, !existsb_in. split; intros [H1 H2]; (split; [exact H1|]).
    - destruct H2 as [(b & IB & QB) (a & IA & QA)]. apply Rltb_true in QA, QB. exists a, b. tauto.
    - destruct H2 as (a & b & IA & IB & Q). split; [exists b|exists a]; (split; [assumption|apply Rltb_true; tauto]). }
  destruct (argmax (map (mp_fit power) G)) as [j|] eqn:J; [|discriminate]. cbn [bind] in E. apply Ok_inj in E. subst r. cbn [vmp pmp imp ff voc isc]. apply (proj1 (argmax_spec _ 0 G j)) in J. destruct J as [J1 J2].
  pose proof (nth_In G 0 J1) as JI. apply (proj1 (GI _)) in JI. destruct JI as [JI1 JI2]. split; [exact JI1|]. split; [exact JI2|]. split; [reflexivity|]. split.
  - intros v a b V IA IB Q. assert (VG : In v G) by (apply (proj2 (GI v)); split; [exact V|exists a, b; tauto]). apply (In_nth _ _ 0) in VG. destruct VG as (i & I & <-). apply J2. exact I.
  - split; intros N; rewrite fdiv_fin by exact N; eexists; (split; [reflexivity|field]); try exact N. split; intros Z; apply N; rewrite Z; ring.
Qed.
Print Assumptions C123_max_power.
(** it fails exactly when there is no measured point or no root in the window *)
Theorem C123_accepts : forall line_fit mp_fit mp_roots curve il vl nv ni, (exists r, astm_e1036 line_fit mp_fit mp_roots curve il vl nv ni = Ok r) <->
  exists best window v a b, first_largest (fun p => fst p * snd p) (0, 0) curve best /\
    window = filter (fun p => (Rleb (fst il * snd (nth best curve (0, 0))) (snd p) && Rleb (snd p) (snd il * snd (nth best curve (0, 0))) && Rleb (fst vl * fst (nth best curve (0, 0))) (fst p) && Rleb (fst p) (snd vl * fst (nth best curve (0, 0))))%bool) curve /\
    In v (mp_roots (map (fun p => (fst p, fst p * snd p)) window)) /\ In a window /\ In b window /\ fst a < v < fst b.
Proof.
  intros line_fit mp_fit mp_roots curve il vl nv ni. unfold astm_e1036. split.
  - intros [r E]. destruct (argmin (map (fun p => Rabs (snd p)) curve)) as [k|]; [|discriminate]. destruct (argmin (map (fun p => Rabs (fst p)) curve)) as [m|]; [|discriminate]. cbn [bind] in E.
    destruct (argmax (map (fun p => fst p * snd p) curve)) as [best|] eqn:B; [|discriminate]. cbn [bind] in E. cbv zeta in E. apply (proj1 (argmax_spec _ (0, 0) curve best)) in B. exists best.
    match type of E with context [filter ?f curve] => set (W := filter f curve) in E end. exists W. 
    match type of E with context [filter ?f (mp_roots ?p)] => set (G := filter f (mp_roots p)) in E end. destruct G as [|v G'] eqn:EG; [discriminate E|]. exists v.
    assert (VI : In v G) by (rewrite EG; left; reflexivity). unfold G in VI. apply filter_In in VI. destruct VI as [V1 V2]. apply andb_true_iff in V2. destruct V2 as [Q1 Q2]. apply existsb_in in Q1, Q2. destruct Q1 as (b & IB & QB), Q2 as (a & IA & QA). apply Rltb_true in QA, QB.
    exists a, b. split; [exact B|]. split; [reflexivity|]. split; [exact V1|]. split; [exact IA|]. split; [exact IB|]. lra.
  - intros (best & W & v & a & b & B & EW & V & IA & IB & Q). pose proof B as [BL _].
    destruct (argmin (map (fun p => Rabs (snd p)) curve)) as [k|] eqn:K; [|destruct curve; [cbn in BL; lia|discriminate]]. destruct (argmin (map (fun p => Rabs (fst p)) curve)) as [m|] eqn:M; [|destruct curve; [cbn in BL; lia|discriminate]]. cbn [bind].
    rewrite (proj2 (argmax_spec _ (0, 0) curve best) B). cbn [bind]. cbv zeta. rewrite <- EW.
    match goal with |- context [filter ?f (mp_roots ?p)] => set (G := filter f (mp_roots p)) end. assert (VG : In v G). { unfold G. apply filter_In. split; [exact V|]. apply andb_true_iff. split; apply existsb_in; [exists b|exists a]; (split; [assumption|apply Rltb_true; tauto]). }
    destruct G as [|g G']; [destruct VG|]. cbn [map argmax bind]. eexists. reflexivity.
Qed.
Print Assumptions C123_accepts.
(** and then raises ValueError *)
Theorem C123_refuses : forall line_fit mp_fit mp_roots curve il vl nv ni e, astm_e1036 line_fit mp_fit mp_roots curve il vl nv ni = Err e -> e = ValueError.
Proof.
  intros line_fit mp_fit mp_roots curve il vl nv ni e. assert (A : forall l e', argmax l = Err e' -> e' = ValueError) by (intros [|x l] e'; cbn; congruence).
  unfold astm_e1036, argmin. destruct (argmax (map Ropp (map (fun p => Rabs (snd p)) curve))) as [i|e1] eqn:E1; cbn [bind]; [|intros E; injection E as <-; exact (A _ _ E1)].
  destruct (argmax (map Ropp (map (fun p => Rabs (fst p)) curve))) as [v|e2] eqn:E2; cbn [bind]; [|intros E; injection E as <-; exact (A _ _ E2)]. cbv zeta.
  destruct (argmax (map (fun p => fst p * snd p) curve)) as [m|e3] eqn:E3; cbn [bind]; [|intros E; injection E as <-; exact (A _ _ E3)].
  match goal with |- context [argmax ?l] => destruct (argmax l) as [k|e4] eqn:E4 end; cbn [bind]; [discriminate|intros E; injection E as <-; exact (A _ _ E4)].
Qed.
Print Assumptions C123_refuses.
(** what is returned as second derivative at equally spaced points: a weighted sum of the values times the square of the step *)
Theorem C121_second_equally_spaced : forall x f j h, length x = length f -> (2 <= j)%nat -> (j + 2 < length f)%nat -> (forall k, (k <= 4)%nat -> nth (j + k - 2) x 0 = nth j x 0 + (INR k - 2) * h) ->
  nth j (snd (numdiff x f)) NaN = #(- 2 * h ^ 2 * (nth (j - 2) f 0 + 4 * nth (j - 1) f 0 + 4 * nth j f 0 + 4 * nth (j + 1) f 0 + 2 * nth (j + 2) f 0)).
Proof.
  intros x f j h L J1 J2 S0. unfold numdiff. cbv zeta. cbn [snd]. rewrite nth_map_seq by lia. replace (Nat.ltb j 2) with false by (symmetry; apply Nat.ltb_ge; exact J1). replace (Nat.leb (length f - 2) j) with false by (symmetry; apply Nat.leb_gt; lia). cbn [orb].
  unfold apply5. cbv zeta. rewrite !S0 by lia. replace (j + 0 - 2)%nat with (j - 2)%nat by lia. replace (j + 1 - 2)%nat with (j - 1)%nat by lia. replace (j + 2 - 2)%nat with j by lia. replace (j + 3 - 2)%nat with (j + 1)%nat by lia. replace (j + 4 - 2)%nat with (j + 2)%nat by lia.
  unfold diff5_second, fsum. cbv zeta. cbn [fold_left]. rewrite !fadd_fin, fmul_fin. f_equal. cbn [INR]. ring.
Qed.
Print Assumptions C121_second_equally_spaced.
