(** Proofs about ivtools/utils.py *)
From Verif Require Import Base.Fl Base.FlFacts Base.Py Base.Round Model.IvUtils Spec.IvSpec Proofs.ClearskyD.
From Coq Require Import ZArith Psatz Arith Permutation Sorted.
Open Scope R_scope.
Open Scope list_scope.

Lemma diff5_real d0 d1 d3 d4 q0 q1 q2 q3 q4 : d0 <> 0 -> d1 <> 0 -> d3 <> 0 -> d4 <> 0 -> d0 <> d1 -> d0 <> d3 -> d0 <> d4 -> d1 <> d3 -> d1 <> d4 -> d3 <> d4 ->
  let P := quartic q0 q1 q2 q3 q4 in diff5 d0 d1 0 d3 d4 (P d0) (P d1) (P 0) (P d3) (P d4) = #q1.
Proof.
  intros N0 N1 N3 N4 N01 N03 N04 N13 N14 N34. cbv zeta. unfold diff5, fsum. cbv zeta. cbn [fold_left].
  assert (M : forall a b c d, a <> 0 -> b <> 0 -> c <> 0 -> d <> 0 -> a * b * c * d <> 0) by (intros; repeat apply Rmult_integral_contrapositive_currified; assumption).
  rewrite !fdiv_fin by (apply M; lra). cbn [fneg fmul fadd]. f_equal. unfold quartic. field. repeat split; lra.
Qed.

(** ** sorting *)
Section Sorting.
Context {A : Type} (before : A -> A -> bool).
Lemma insert_perm p l : Permutation (insert_by before p l) (p :: l).
Proof. induction l as [|q l IH]; [reflexivity|]. cbn [insert_by]. destruct (before p q); [reflexivity|]. rewrite IH. apply perm_swap. Qed.
Lemma sort_perm l : Permutation (sort_by before l) l.
Proof. induction l as [|p l IH]; [reflexivity|]. cbn [sort_by fold_right]. fold (sort_by before l). rewrite insert_perm, IH. reflexivity. Qed.
Variable le : A -> A -> Prop.
Hypothesis before_le : forall p q, before p q = true -> le p q.
Hypothesis not_before : forall p q, before p q = false -> le q p.
Hypothesis le_trans : forall p q r, le p q -> le q r -> le p r.
Lemma insert_sorted p l : StronglySorted le l -> StronglySorted le (insert_by before p l).
Proof.
  induction 1 as [|q l SL IH F]; [constructor; constructor|]. cbn [insert_by]. destruct (before p q) eqn:B.
  - constructor; [constructor; assumption|]. constructor; [apply before_le, B|]. rewrite Forall_forall in *. intros r I. apply (le_trans _ q); [apply before_le, B|apply F, I].
  - constructor; [exact IH|]. rewrite Forall_forall in *. intros r I. apply (Permutation_in _ (insert_perm p l)) in I. destruct I as [<- | I]; [apply not_before, B|apply F, I].
Qed.
Lemma sort_sorted l : StronglySorted le (sort_by before l).
Proof. induction l as [|p l IH]; [constructor|]. apply insert_sorted, IH. Qed.
End Sorting.
(** a list sorted strictly by a key is determined by its elements *)
Lemma sorted_unique {A} (key : A -> R) l m : StronglySorted (fun p q => key p < key q) l -> StronglySorted (fun p q => key p <= key q) m -> Permutation l m -> l = m.
Proof.
  intros SL. revert m. induction SL as [|p l SL IH F]; intros m SM P; [apply Permutation_nil in P; congruence|].
  destruct m as [|q m]; [apply Permutation_sym, Permutation_nil in P; discriminate|]. inversion SM as [|? ? SM' FM]; subst. rewrite Forall_forall in F, FM.
  assert (p = q). { assert (I1 : In q (p :: l)) by (apply (Permutation_in _ (Permutation_sym P)); left; reflexivity). assert (I2 : In p (q :: m)) by (apply (Permutation_in _ P); left; reflexivity).
    destruct I1 as [E|I1]; [exact E|]. destruct I2 as [E|I2]; [congruence|]. specialize (F _ I1). specialize (FM _ I2). lra. }
  subst q. f_equal. apply IH; [exact SM'|]. apply Permutation_cons_inv in P. exact P.
Qed.
Lemma sort_key_unique {A} (key : A -> R) l m : StronglySorted (fun p q => key p < key q) l -> Permutation l m -> sort_by (fun p q => Rleb (key p) (key q)) m = l.
Proof.
  intros SL P. symmetry. apply (sorted_unique key); [exact SL| |rewrite sort_perm; exact P].
  apply sort_sorted; [intros p q B; apply Rleb_true, B|intros p q B; apply Rleb_false in B; lra|intros; lra].
Qed.

(** ** unique *)
Lemma drop_repeats_in l x : In x (drop_repeats l) <-> In x l.
Proof.
  induction l as [|a l IH]; [reflexivity|]. destruct l as [|b l]; [reflexivity|]. cbn [drop_repeats] in IH |- *. destruct (Reqb_spec a b) as [->|N].
  - rewrite IH. cbn [In]. tauto.
  - cbn [In] in IH |- *. rewrite IH. tauto.
Qed.
Lemma drop_repeats_sorted l : StronglySorted Rle l -> StronglySorted Rlt (drop_repeats l).
Proof.
  induction 1 as [|a l SL IH F]; [constructor|]. destruct l as [|b l]; [constructor; [constructor|constructor]|]. cbn [drop_repeats] in IH |- *. destruct (Reqb_spec a b) as [->|N]; [exact IH|].
  constructor; [exact IH|]. rewrite Forall_forall. intros r I. apply (drop_repeats_in (b :: l)) in I. inversion SL as [|? ? SL' F']; subst. rewrite Forall_forall in F, F'.
  pose proof (F b (or_introl eq_refl)). destruct I as [<- | I]; [lra|]. specialize (F' r I). lra.
Qed.
Lemma np_unique_in l x : In x (np_unique l) <-> In x l.
Proof. unfold np_unique. rewrite drop_repeats_in. split; apply Permutation_in; [|apply Permutation_sym]; apply sort_perm. Qed.
Lemma np_unique_sorted l : StronglySorted Rlt (np_unique l).
Proof. apply drop_repeats_sorted, sort_sorted; [intros; apply Rleb_true; assumption|intros p q B; apply Rleb_false in B; lra|intros; lra]. Qed.
Lemma sorted_R_unique l m : StronglySorted Rlt l -> StronglySorted Rlt m -> (forall x, In x l <-> In x m) -> l = m.
Proof.
  intros SL. revert m. induction SL as [|p l SL IH F]; intros m SM E.
  - destruct m as [|q m]; [reflexivity|]. exfalso. apply (proj2 (E q)). left. reflexivity.
  - destruct m as [|q m]; [exfalso; apply (proj1 (E p)); left; reflexivity|]. inversion SM as [|? ? SM' FM]; subst. rewrite Forall_forall in F, FM.
    assert (p = q). { destruct (proj1 (E p) (or_introl eq_refl)) as [Q|Q]; [congruence|]. destruct (proj2 (E q) (or_introl eq_refl)) as [Q'|Q']; [congruence|]. specialize (F _ Q'). specialize (FM _ Q). lra. }
    subst q. f_equal. apply IH; [exact SM'|]. intros x. split; intros I.
    + destruct (proj1 (E x) (or_intror I)) as [<- | Q]; [exfalso; specialize (F _ I); lra|exact Q].
    + destruct (proj2 (E x) (or_intror I)) as [<- | Q]; [exfalso; specialize (FM _ I); lra|exact Q].
Qed.

(** ** rectification *)
Lemma first_quadrant_in l v i : In (v, i) (first_quadrant l) <-> In (Some v, Some i) l /\ 0 <= v /\ 0 <= i.
Proof.
  induction l as [|[[a|] [b|]] l IH]; cbn [first_quadrant In]; try (rewrite IH; split; [intros H; split; [right; apply H|apply H]|intros [[H|H] K]; [discriminate|split; assumption]]); [tauto|].
  destruct (Rleb_spec 0 a) as [A0|A0]; [destruct (Rleb_spec 0 b) as [B0|B0]|]; cbn [andb In]; rewrite IH; split.
  - intros [H|H]; [injection H as -> ->; split; [left; reflexivity|split; assumption]|tauto].
  - intros [[H|H] K]; [left; congruence|right; tauto].
  - tauto.
  - intros [[H|H] K]; [exfalso; injection H as -> ->; tauto|tauto].
  - tauto.
  - intros [[H|H] K]; [exfalso; injection H as -> ->; tauto|tauto].
Qed.
Lemma first_quadrant_perm l m : Permutation l m -> Permutation (first_quadrant l) (first_quadrant m).
Proof.
  induction 1 as [|[[a|] [b|]] l m P IH|[[a|] [b|]] [[c|] [d|]] l|l m k P1 IH1 P2 IH2]; try exact IH; try reflexivity.
  - cbn [first_quadrant]. destruct (Rleb 0 a && Rleb 0 b)%bool; [apply perm_skip|]; exact IH.
  - cbn [first_quadrant]. destruct (Rleb 0 a && Rleb 0 b)%bool, (Rleb 0 c && Rleb 0 d)%bool; try reflexivity. apply perm_swap.
  - exact (perm_trans IH1 IH2).
Qed.
Lemma sum_perm l m : Permutation l m -> fold_right Rplus 0 l = fold_right Rplus 0 m.
Proof. induction 1; cbn [fold_right]; lra. Qed.
Lemma average_perm l m : Permutation l m -> average l = average m.
Proof. intros P. unfold average. rewrite (sum_perm l m P), (Permutation_length P). reflexivity. Qed.
Lemma filter_perm {A} (f : A -> bool) l m : Permutation l m -> Permutation (filter f l) (filter f m).
Proof.
  induction 1 as [|x l m P IH|x y l|l m k P1 IH1 P2 IH2]; cbn [filter]; [reflexivity| | |exact (perm_trans IH1 IH2)].
  - destruct (f x); [apply perm_skip|]; exact IH.
  - destruct (f x), (f y); try reflexivity. apply perm_swap.
Qed.
Lemma average_const c l : l <> [] -> (forall x, In x l -> x = c) -> average l = c.
Proof.
  intros N H. assert (E : fold_right Rplus 0 l = INR (length l) * c).
  { clear N. induction l as [|x l IH]; [cbn; ring|]. cbn [fold_right]. rewrite IH by (intros; apply H; right; assumption). rewrite (H x (or_introl eq_refl)). cbn [length]. rewrite S_INR. ring. }
  unfold average. rewrite E. assert (0 < INR (length l)) by (apply lt_0_INR; destruct l; [congruence|cbn; lia]). field. lra.
Qed.
Lemma average_nonneg l : (forall x, In x l -> 0 <= x) -> 0 <= average l.
Proof.
  intros H. assert (0 <= fold_right Rplus 0 l) by (induction l as [|x l IH]; [cbn; lra|]; cbn [fold_right]; pose proof (H x (or_introl eq_refl)); specialize (IH (fun y I => H y (or_intror I))); lra).
  unfold average. destruct l as [|x l]; [cbn; unfold Rdiv; lra|]. apply Rmult_le_pos; [exact H0|]. left. apply Rinv_0_lt_compat, lt_0_INR. cbn; lia.
Qed.
(** the kept points with their rounded voltages *)
Definition rounding (decimals : option Z) (v : R) : R := match decimals with None => v | Some d => np_round d v end.
Definition kept (points : list (option R * option R)) (decimals : option Z) : list (R * R) := map (fun p => (rounding decimals (fst p), snd p)) (first_quadrant points).
Lemma rectify_eq points decimals : rectify_iv_curve points decimals =
  map (fun u => (u, average (map snd (filter (fun p => Reqb (fst p) u) (kept points decimals))))) (np_unique (map fst (kept points decimals))).
Proof.
  unfold rectify_iv_curve. cbv zeta. set (df := sort_by row_before (first_quadrant points)).
  assert (E : (match decimals with None => df | Some d => map (fun p => (np_round d (fst p), snd p)) df end) = map (fun p => (rounding decimals (fst p), snd p)) df).
  { destruct decimals; [reflexivity|]. cbn [rounding]. rewrite (map_ext _ (fun p => p)) by (intros [a b]; reflexivity). symmetry. apply map_id. }
  rewrite E. set (D := map (fun p => (rounding decimals (fst p), snd p)) df). assert (P : Permutation D (kept points decimals)) by (apply Permutation_map, sort_perm).
  assert (U : np_unique (map fst D) = np_unique (map fst (kept points decimals))).
  { apply sorted_R_unique; try apply np_unique_sorted. intros x. rewrite !np_unique_in. split; apply Permutation_in; [|apply Permutation_sym]; apply Permutation_map, P. }
  rewrite U. apply map_ext_in. intros u I. apply (np_unique_in (map fst (kept points decimals))) in I. f_equal.
  - apply average_const.
    + apply (Permutation_in _ (Permutation_sym (Permutation_map fst P))) in I. apply in_map_iff in I. destruct I as (p & <- & I). intros Z. assert (In (fst p) (map fst (filter (fun q => Reqb (fst q) (fst p)) D))); [|rewrite Z in H; destruct H].
      apply in_map, filter_In. split; [exact I|apply Reqb_true; reflexivity].
    + intros x X. apply in_map_iff in X. destruct X as (p & <- & X). apply filter_In in X. apply Reqb_true, X.
  - apply average_perm, Permutation_map, filter_perm, P.
Qed.

(** ** the spline *)
Lemma snap_ne a : snap a <> 0 -> snap a = a.
Proof. unfold snap. destruct (isclose a 0 EPS_val); congruence. Qed.
Lemma seg_kinds g : seg_plain g = false -> (seg_v g = true /\ seg_w g = false /\ seg_z g = false) \/ (seg_v g = false /\ seg_w g = true /\ seg_z g = false) \/ (seg_v g = false /\ seg_w g = false /\ seg_z g = true).
Proof. intros P. unfold seg_z, seg_w. destruct (seg_v g) eqn:V; rewrite ?P; cbn; [left; auto|right]. destruct (Rltb (Rabs (seg_b g)) (Rabs (seg_aa g))); cbn; [left|right]; auto. Qed.
Lemma seg_no_kind g : seg_plain g = true -> seg_v g = false /\ seg_w g = false /\ seg_z g = false.
Proof. intros P. unfold seg_z, seg_w, seg_v. rewrite P. auto. Qed.
Lemma opposite g : seg_plain g = false -> seg_v g = false -> seg_aa g * seg_b g < 0 /\ seg_aa g = g_s1 g - g_delta g /\ seg_b g = g_s2 g - g_delta g.
Proof.
  intros P V. unfold seg_v in V. rewrite P in V. cbn [negb andb] in V. apply Rleb_false in V. split; [exact V|]. split; apply snap_ne; intros Z; unfold seg_aa, seg_b in V; rewrite Z in V; lra.
Qed.
Lemma ratio_between a b : a * b < 0 -> 0 < b / (b - a) < 1.
Proof.
  intros N. destruct (Rtotal_order a 0) as [A|[A|A]]; [|subst; lra|].
  - assert (0 < b). { destruct (Rlt_le_dec 0 b); [assumption|]. assert (0 <= (- a) * (- b)) by (apply Rmult_le_pos; lra). lra. } split; [apply Rdiv_lt_0_compat; lra|]. apply (Rmult_lt_reg_r (b - a)); [lra|]. unfold Rdiv. rewrite Rmult_assoc, Rinv_l by lra. lra.
  - assert (b < 0). { destruct (Rlt_le_dec b 0); [assumption|]. assert (0 <= a * b) by (apply Rmult_le_pos; lra). lra. }
    replace (b / (b - a)) with ((- b) / (a - b)) by (field; lra). split; [apply Rdiv_lt_0_compat; lra|]. apply (Rmult_lt_reg_r (a - b)); [lra|]. unfold Rdiv. rewrite Rmult_assoc, Rinv_l by lra. lra.
Qed.
Lemma seg_knot_inside g : g_x1 g < g_x2 g -> seg_plain g = false -> g_x1 g < seg_knot g < g_x2 g.
Proof.
  intros H P. unfold seg_knot. destruct (seg_v g) eqn:V; [lra|]. destruct (opposite g P V) as (N & A & B). rewrite A, B in *. pose proof (ratio_between _ _ N) as Q. replace (g_s2 g - g_delta g - (g_s1 g - g_delta g)) with (g_s2 g - g_s1 g) in Q by ring.
  assert (D : g_s2 g - g_s1 g <> 0). { intros Z. replace (g_s1 g) with (g_s2 g) in N by lra. pose proof (Rle_0_sqr (g_s2 g - g_delta g)) as S2. unfold Rsqr in S2. lra. }
  set (h := g_x2 g - g_x1 g) in *. assert (HH : 0 < h) by (unfold h; lra). destruct (seg_w g).
  - replace (g_x2 g + (g_s1 g - g_delta g) * h / (g_s2 g - g_s1 g)) with (g_x1 g + (g_s2 g - g_delta g) / (g_s2 g - g_s1 g) * h) by (unfold h; field; exact D).
    assert (0 < (g_s2 g - g_delta g) / (g_s2 g - g_s1 g) * h) by (apply Rmult_lt_0_compat; lra). assert (0 < (1 - (g_s2 g - g_delta g) / (g_s2 g - g_s1 g)) * h) by (apply Rmult_lt_0_compat; lra). unfold h in *. lra.
  - replace (g_x1 g + (g_s2 g - g_delta g) * h / (g_s2 g - g_s1 g)) with (g_x1 g + (g_s2 g - g_delta g) / (g_s2 g - g_s1 g) * h) by (unfold h; field; exact D).
    assert (0 < (g_s2 g - g_delta g) / (g_s2 g - g_s1 g) * h) by (apply Rmult_lt_0_compat; lra). assert (0 < (1 - (g_s2 g - g_delta g) / (g_s2 g - g_s1 g)) * h) by (apply Rmult_lt_0_compat; lra). unfold h in *. lra.
Qed.
Definition seg_rows (g : seg) : list knot := row_data g :: (if seg_plain g then [] else [row_knot g]).
Lemma kinds_perm l : Permutation (filter (fun g => negb (seg_plain g)) l) (filter seg_v l ++ filter seg_w l ++ filter seg_z l).
Proof.
  induction l as [|g l IH]; [reflexivity|]. cbn [filter]. destruct (seg_plain g) eqn:P; cbn [negb].
  - destruct (seg_no_kind g P) as (-> & -> & ->). exact IH.
  - destruct (seg_kinds g P) as [(-> & -> & ->)|[(-> & -> & ->)|(-> & -> & ->)]].
    + cbn [app]. apply perm_skip, IH.
    + rewrite <- app_comm_cons. apply Permutation_cons_app, IH.
    + rewrite app_assoc. apply Permutation_cons_app. rewrite <- app_assoc. exact IH.
Qed.
Lemma rows_perm l : Permutation (flat_map seg_rows l) (map row_data l ++ map row_knot (filter (fun g => negb (seg_plain g)) l)).
Proof.
  induction l as [|g l IH]; [reflexivity|]. cbn [flat_map map filter]. unfold seg_rows at 1. destruct (seg_plain g); cbn [negb app map].
  - apply perm_skip, IH.
  - apply perm_skip. apply Permutation_cons_app, IH.
Qed.
Inductive chain : R * R * R -> list seg -> R * R * R -> Prop :=
| chain_nil p : chain p [] p
| chain_cons g l y2 p : g_x1 g < g_x2 g -> y2 = g_y1 g + g_delta g * (g_x2 g - g_x1 g) -> chain (g_x2 g, y2, g_s2 g) l p -> chain (g_x1 g, g_y1 g, g_s1 g) (g :: l) p.
Lemma chain_sorted p l q K : chain p l q -> k_x K = fst (fst q) -> Forall (fun k => fst (fst p) <= k_x k) (flat_map seg_rows l ++ [K]) /\ StronglySorted (fun a b => k_x a < k_x b) (flat_map seg_rows l ++ [K]).
Proof.
  intros C. revert K. induction C as [p|g l y2 p H E C IH]; intros K EK.
  - cbn [flat_map app]. split; constructor; [rewrite EK; lra|constructor|constructor|constructor].
  - destruct (IH K EK) as [F SS]. cbn [fst] in F |- *. cbn [flat_map]. rewrite <- app_assoc.
    assert (F' : Forall (fun k => g_x1 g < k_x k) (flat_map seg_rows l ++ [K])) by (eapply Forall_impl; [|exact F]; intros k Q; cbn in Q; lra).
    unfold seg_rows at 1 3. destruct (seg_plain g) eqn:P; cbn [app].
    + split; [constructor; [cbn; lra|eapply Forall_impl; [|exact F']; intros k Q; cbn in Q; lra]|]. constructor; [exact SS|exact F'].
    + pose proof (seg_knot_inside g H P) as I. split.
      * constructor; [cbn; lra|]. constructor; [cbn; lra|]. eapply Forall_impl; [|exact F']. intros k Q; cbn in Q; lra.
      * constructor; [constructor; [exact SS|]|].
        -- eapply Forall_impl; [|exact F]. intros k Q. cbn in Q |- *. lra.
        -- constructor; [cbn; lra|exact F'].
Qed.
Lemma segments_chain x y : increasing x -> (2 <= length x)%nat -> chain (nth 0 x 0, nth 0 y 0, nth 0 (slopes x y) 0) (segments x y) (last x 0, nth (length x - 1) y 0, nth (length x - 1) (slopes x y) 0).
Proof.
  intros IN L. assert (LX : last x 0 = nth (length x - 1) x 0). { destruct (exists_last (l := x)) as (l' & z & E); [destruct x; [cbn in L; lia|discriminate]|]. rewrite E, last_last, app_length. cbn [length]. replace (length l' + 1 - 1)%nat with (length l') by lia. rewrite app_nth2, Nat.sub_diag by lia. reflexivity. }
  rewrite LX. unfold segments. cbv zeta.
  assert (G : forall m k, (k + m <= length x - 1)%nat -> chain (nth k x 0, nth k y 0, nth k (slopes x y) 0)
    (map (fun i => Seg (nth i x 0) (nth (S i) x 0) (nth i y 0) (nth i (slopes x y) 0) (nth (S i) (slopes x y) 0) (nth i (deltas x y) 0)) (seq k m)) (nth (k + m) x 0, nth (k + m) y 0, nth (k + m) (slopes x y) 0)).
  { induction m as [|m IH]; intros k K; [rewrite Nat.add_0_r; constructor|]. cbn [seq map]. assert (LT : nth k x 0 < nth (S k) x 0) by (apply IN; lia).
    set (g := Seg (nth k x 0) (nth (S k) x 0) (nth k y 0) (nth k (slopes x y) 0) (nth (S k) (slopes x y) 0) (nth k (deltas x y) 0)).
    change (nth k x 0, nth k y 0, nth k (slopes x y) 0) with (g_x1 g, g_y1 g, g_s1 g). apply (chain_cons g _ (nth (S k) y 0)); [exact LT| |].
    - cbn [g_y1 g_delta g_x2 g_x1 g]. unfold deltas. rewrite nth_map_seq by lia. field. lra.
    - replace (k + S m)%nat with (S k + m)%nat by lia. apply IH. lia. }
  apply (G (length x - 1)%nat O). lia.
Qed.
Definition last_row (x y : list R) : knot := Knot (last x 0) 0 0 0 (last y 0) false.
Lemma qspline_eq x y : increasing x -> (2 <= length x)%nat -> schumaker_qspline x y = Ok (flat_map seg_rows (segments x y) ++ [last_row x y]).
Proof.
  intros IN L. unfold schumaker_qspline. replace (Nat.ltb (length x) 2) with false by (symmetry; apply Nat.ltb_ge; exact L). f_equal. cbv zeta. fold (last_row x y). apply sort_key_unique.
  - apply (chain_sorted _ _ _ (last_row x y) (segments_chain x y IN L)). reflexivity.
  - rewrite rows_perm, kinds_perm, !map_app, <- !app_assoc. reflexivity.
Qed.
(** neighbours in the sorted rows *)
Lemma adjacent_cons {A} (c : A) l a b : adjacent (c :: l) a b -> (exists l', l = b :: l' /\ a = c) \/ adjacent l a b.
Proof. intros (p & q & E). destruct p as [|d p]; cbn [app] in E; injection E as E1 E2; [left; exists q; split; congruence|right; exists p, q; exact E2]. Qed.
Lemma adjacent_rows p l q K a b : chain p l q -> k_x K = fst (fst q) -> k_y K = snd (fst q) -> k_new K = false -> adjacent (flat_map seg_rows l ++ [K]) a b ->
  exists g, g_x1 g < g_x2 g /\ In g l /\
    ((a = row_data g /\ b = row_knot g /\ seg_plain g = false) \/
     (a = (if seg_plain g then row_data g else row_knot g) /\ k_x b = g_x2 g /\ k_y b = g_y1 g + g_delta g * (g_x2 g - g_x1 g) /\ k_new b = false /\ (b <> K -> k_b b = g_s2 g))).
Proof.
  intros C. revert K. induction C as [p|g l y2 p H E C IH]; intros K EK EY EN AD.
  - cbn [flat_map app] in AD. apply adjacent_cons in AD. destruct AD as [(l' & AD & _)|(p' & q' & AD)]; [discriminate|destruct p'; discriminate].
  - assert (HEAD : forall r, exists b0 r', flat_map seg_rows l ++ [K] ++ r = b0 :: r' /\ k_x b0 = g_x2 g /\ k_y b0 = y2 /\ k_new b0 = false /\ (b0 <> K -> k_b b0 = g_s2 g)).
    { intros r. inversion C as [p0 E1 E2 E3|g' l0 y3 p0 H' E' C' E1 E2 E3]; subst.
      - exists K, r. cbn [flat_map app]. split; [reflexivity|]. cbn [fst snd] in *. repeat split; try assumption. congruence.
      - cbn [flat_map]. unfold seg_rows at 1. eexists. eexists. rewrite <- !app_comm_cons. split; [reflexivity|]. cbn. repeat split; auto. }
    specialize (HEAD []). rewrite app_nil_r in HEAD. destruct HEAD as (b0 & r' & HE & B1 & B2 & B3 & B4).
    assert (TAIL : adjacent (flat_map seg_rows l ++ [K]) a b -> exists g0, g_x1 g0 < g_x2 g0 /\ In g0 (g :: l) /\
      ((a = row_data g0 /\ b = row_knot g0 /\ seg_plain g0 = false) \/ (a = (if seg_plain g0 then row_data g0 else row_knot g0) /\ k_x b = g_x2 g0 /\ k_y b = g_y1 g0 + g_delta g0 * (g_x2 g0 - g_x1 g0) /\ k_new b = false /\ (b <> K -> k_b b = g_s2 g0)))).
    { intros AD'. destruct (IH K EK EY EN AD') as (g0 & A1 & A2 & A3). exists g0. split; [exact A1|]. split; [right; exact A2|exact A3]. }
    cbn [flat_map] in AD. rewrite <- app_assoc in AD. unfold seg_rows at 1 in AD. destruct (seg_plain g) eqn:P; cbn [app] in AD.
    + apply adjacent_cons in AD. destruct AD as [(l' & AD & ->)|AD]; [|exact (TAIL AD)]. rewrite HE in AD. injection AD as -> ->. exists g. split; [exact H|]. split; [left; reflexivity|]. right. rewrite P. rewrite B2, E. auto.
    + apply adjacent_cons in AD. destruct AD as [(l' & AD & ->)|AD].
      * injection AD as <- _. exists g. split; [exact H|]. split; [left; reflexivity|]. left. auto.
      * apply adjacent_cons in AD. destruct AD as [(l' & AD & ->)|AD]; [|exact (TAIL AD)]. rewrite HE in AD. injection AD as -> ->. exists g. split; [exact H|]. split; [left; reflexivity|]. right. rewrite P. rewrite B2, E. auto.
Qed.
Lemma deltas_nth x y i : (S i < length x)%nat -> nth i (deltas x y) 0 = chord x y i.
Proof. intros H. unfold deltas. rewrite nth_map_seq by lia. reflexivity. Qed.
Lemma deltas_length x y : length (deltas x y) = (length x - 1)%nat.
Proof. unfold deltas. rewrite map_length, seq_length. reflexivity. Qed.
Lemma harmonic_eq a b : (if Rltb 0 (a * b) then a * b / (0.5 * a + 0.5 * b) else 0) = harmonic_slope a b.
Proof.
  unfold harmonic_slope, Rltb. destruct (Rlt_dec 0 (a * b)) as [P|P]; [|reflexivity]. assert (a + b <> 0). { intros Z. replace b with (- a) in P by lra. pose proof (Rle_0_sqr a). unfold Rsqr in *. lra. }
  replace (0.5 * a + 0.5 * b) with ((a + b) / 2) by lra. field. exact H.
Qed.
Lemma inner_slope_eq x y i : (0 < i)%nat -> (S i < length x)%nat -> inner_slope (deltas x y) i = harmonic_slope (chord x y (i - 1)) (chord x y i).
Proof.
  intros I L. unfold inner_slope. destruct i as [|j]; [lia|]. cbv zeta. rewrite deltas_length. replace (Nat.ltb (S j) (length x - 1)) with true by (symmetry; apply Nat.ltb_lt; lia).
  rewrite !deltas_nth by lia. cbn [Nat.sub]. rewrite Nat.sub_0_r. apply harmonic_eq.
Qed.
Lemma slopes_length x y : (1 <= length x)%nat -> length (slopes x y) = length x.
Proof. intros L. unfold slopes. cbv zeta. rewrite app_length, firstn_length. cbn [length]. destruct (map (inner_slope (deltas x y)) (seq 0 (length x))) eqn:E; [apply (f_equal (@length R)) in E; rewrite map_length, seq_length in E; cbn in E; lia|].
  apply (f_equal (@length R)) in E. rewrite map_length, seq_length in E. cbn [tl length] in *. lia. Qed.
Lemma nth_firstn2 {A} (d : A) : forall k l i, (i < k)%nat -> nth i (firstn k l) d = nth i l d.
Proof. induction k as [|k IH]; intros l i H; [lia|]. destruct l as [|x l]; [destruct i; reflexivity|]. destruct i; [reflexivity|]. cbn. apply IH. lia. Qed.
Lemma slopes_spec x y : (3 <= length x)%nat ->
  (forall i, (0 < i)%nat -> (S i < length x)%nat -> nth i (slopes x y) 0 = harmonic_slope (chord x y (i - 1)) (chord x y i)) /\
  nth 0 (slopes x y) 0 = (let e := 2 * chord x y 0 - nth 1 (slopes x y) 0 in if Rlt_dec 0 (chord x y 0 * e) then e else 0) /\
  nth (length x - 1) (slopes x y) 0 = (let e := 2 * chord x y (length x - 2) - nth (length x - 2) (slopes x y) 0 in if Rlt_dec 0 (chord x y (length x - 2) * e) then e else 0).
Proof.
  intros L. set (s := map (inner_slope (deltas x y)) (seq 0 (length x))). set (s0 := end_slope (nth 0 (deltas x y) 0) (nth 1 s 0) (nth 0 s 0)).
  assert (E : slopes x y = firstn (length x - 1) (s0 :: tl s) ++ [end_slope (nth (length x - 2) (deltas x y) 0) (nth (length x - 2) (s0 :: tl s) 0) (nth (length x - 1) (s0 :: tl s) 0)]) by reflexivity.
  assert (LS : length s = length x) by (unfold s; rewrite map_length, seq_length; reflexivity). assert (LT : length (s0 :: tl s) = length x) by (destruct s; cbn in LS |- *; lia).
  assert (LF : length (firstn (length x - 1) (s0 :: tl s)) = (length x - 1)%nat) by (rewrite firstn_length; lia).
  assert (TL : forall i, nth (S i) (s0 :: tl s) 0 = nth (S i) s 0) by (intros i; destruct s; [cbn in LS; lia|reflexivity]).
  assert (IN : forall i, (0 < i)%nat -> (S i < length x)%nat -> nth i (slopes x y) 0 = nth i s 0) by (intros i I J; rewrite E, app_nth1 by lia; rewrite nth_firstn2 by lia; destruct i; [lia|apply TL]).
  assert (IV : forall i, (i < length x)%nat -> nth i s 0 = inner_slope (deltas x y) i) by (intros i I; unfold s; rewrite nth_map_seq by exact I; reflexivity).
  split; [intros i I J; rewrite IN, IV by lia; apply inner_slope_eq; assumption|]. split.
  - rewrite (IN 1%nat) by lia. rewrite E, app_nth1 by lia. rewrite nth_firstn2 by lia. cbn [nth]. unfold s0, end_slope. cbv zeta. rewrite deltas_nth by lia.
    replace (nth 0 s 0) with 0; [unfold Rltb; destruct (Rlt_dec _ _); reflexivity|]. rewrite IV by lia. unfold inner_slope. cbv zeta. rewrite Rmult_0_l. rewrite (proj2 (Rltb_false 0 0)) by lra. reflexivity.
  - assert (N2 : nth (length x - 2) (slopes x y) 0 = nth (length x - 2) (s0 :: tl s) 0) by (rewrite E, app_nth1 by lia; apply nth_firstn2; lia). rewrite N2, E, app_nth2 by lia. rewrite LF, Nat.sub_diag. cbn [nth]. unfold end_slope. cbv zeta. rewrite deltas_nth by lia.
    assert (Z : nth (length x - 1) (s0 :: tl s) 0 = 0); [|cbn [nth] in Z; rewrite Z; unfold Rltb; destruct (Rlt_dec _ _); reflexivity].
    replace (length x - 1)%nat with (S (length x - 2)) by lia. rewrite TL, IV by lia. unfold inner_slope. cbv zeta. rewrite deltas_length.
    replace (Nat.ltb (S (length x - 2)) (length x - 1)) with false by (symmetry; apply Nat.ltb_ge; lia). rewrite Rmult_0_r. rewrite (proj2 (Rltb_false 0 0)) by lra. reflexivity.
Qed.
Lemma data_rows l : filter (fun k => negb (k_new k)) (flat_map seg_rows l) = map row_data l.
Proof. induction l as [|g l IH]; [reflexivity|]. cbn [flat_map map]. rewrite filter_app, IH. unfold seg_rows. destruct (seg_plain g); reflexivity. Qed.
Lemma last_nth (l : list R) : (1 <= length l)%nat -> last l 0 = nth (length l - 1) l 0.
Proof. intros L. destruct (exists_last (l := l)) as (l' & z & E); [destruct l; [cbn in L; lia|discriminate]|]. rewrite E, last_last, app_length. cbn [length]. replace (length l' + 1 - 1)%nat with (length l') by lia. rewrite app_nth2, Nat.sub_diag by lia. reflexivity. Qed.
Lemma increasing_sorted ks : StronglySorted (fun a b => k_x a < k_x b) ks -> increasing (map k_x ks).
Proof.
  induction 1 as [|k l SL IH F]; intros i j [I J]; [cbn in J; lia|]. cbn [map length] in *. rewrite map_length in J. destruct j as [|j]; [lia|]. destruct i as [|i]; cbn [nth].
  - assert (IN : In (nth j (map k_x l) 0) (map k_x l)) by (apply nth_In; rewrite map_length; lia). apply in_map_iff in IN. destruct IN as (k' & <- & IN). rewrite Forall_forall in F. apply F, IN.
  - apply IH. rewrite map_length. lia.
Qed.
Lemma triple_rows p l q K z a b : chain p l q -> k_x K = fst (fst q) -> k_y K = snd (fst q) -> k_new K = false -> k_new a = true -> (exists u v, flat_map seg_rows l ++ [K] = u ++ z :: a :: b :: v) ->
  exists g, g_x1 g < g_x2 g /\ seg_plain g = false /\ z = row_data g /\ a = row_knot g /\ k_x b = g_x2 g /\ k_y b = g_y1 g + g_delta g * (g_x2 g - g_x1 g) /\ (b <> K -> k_b b = g_s2 g).
Proof.
  intros C. revert K. induction C as [p|g l y2 p H E C IH]; intros K EK EY EN AN (u & v & AD).
  - cbn [flat_map app] in AD. destruct u as [|u0 u]; [discriminate|]. cbn in AD. injection AD as _ AD. destruct u; discriminate.
  - assert (TAIL : (exists u v, flat_map seg_rows l ++ [K] = u ++ z :: a :: b :: v) -> exists g, g_x1 g < g_x2 g /\ seg_plain g = false /\ z = row_data g /\ a = row_knot g /\ k_x b = g_x2 g /\ k_y b = g_y1 g + g_delta g * (g_x2 g - g_x1 g) /\ (b <> K -> k_b b = g_s2 g)) by (apply IH; assumption).
    assert (HEAD : exists b0 r', flat_map seg_rows l ++ [K] = b0 :: r' /\ k_x b0 = g_x2 g /\ k_y b0 = y2 /\ k_new b0 = false /\ (b0 <> K -> k_b b0 = g_s2 g)).
    { inversion C as [p0 E1 E2 E3|g' l0 y3 p0 H' E' C' E1 E2 E3]; subst.
      - exists K, []. cbn [flat_map app]. split; [reflexivity|]. cbn [fst snd] in *. repeat split; try assumption. congruence.
      - cbn [flat_map]. unfold seg_rows at 1. eexists. eexists. rewrite <- !app_comm_cons. split; [reflexivity|]. cbn. repeat split; auto. }
    destruct HEAD as (b0 & r' & HE & B1 & B2 & B3 & B4).
    cbn [flat_map] in AD. rewrite <- app_assoc in AD. unfold seg_rows at 1 in AD. destruct (seg_plain g) eqn:P; cbn [app] in AD.
    + destruct u as [|u0 u]; cbn [app] in AD; injection AD as E1 AD; [|apply TAIL; exists u, v; exact AD]. exfalso. rewrite HE in AD. injection AD as E2 _. subst b0. congruence.
    + destruct u as [|u0 u]; cbn [app] in AD; [injection AD as E1 E2 AD|injection AD as E1 AD].
      * rewrite HE in AD. injection AD as E3 _. subst. exists g. repeat split; auto.
      * destruct u as [|u1 u]; cbn [app] in AD; injection AD as E2 AD; [|apply TAIL; exists u, v; exact AD]. exfalso. rewrite HE in AD. injection AD as E3 _. subst b0. congruence.
Qed.

(** ** arg max *)
Lemma argmax_from_spec : forall l best bv i, (best < i)%nat -> let k := argmax_from best bv i l in
  (k = best \/ (i <= k < i + length l)%nat) /\ let val j := if Nat.ltb j i then bv else nth (j - i) l 0 in
  (forall j, (i <= j < i + length l)%nat -> nth (j - i) l 0 <= val k /\ ((j < k)%nat -> nth (j - i) l 0 < val k)) /\ bv <= val k /\ (k <> best -> bv < val k).
Proof.
  induction l as [|v l IH]; intros best bv i H; cbn [argmax_from length].
  - cbv zeta. split; [left; reflexivity|]. replace (Nat.ltb best i) with true by (symmetry; apply Nat.ltb_lt; exact H). split; [intros; lia|]. split; [lra|congruence].
  - cbv zeta. destruct (Rltb_spec bv v) as [B|B].
    + specialize (IH i v (S i) ltac:(lia)). cbv zeta in IH. set (k := argmax_from i v (S i) l) in *. destruct IH as (R0 & A & B1 & B2).
      assert (VK : (if Nat.ltb k i then bv else nth (k - i) (v :: l) 0) = (if Nat.ltb k (S i) then v else nth (k - S i) l 0)).
      { replace (Nat.ltb k i) with false by (symmetry; apply Nat.ltb_ge; lia). destruct (Nat.ltb_spec k (S i)) as [Q|Q]; [replace (k - i)%nat with O by lia; reflexivity|]. replace (k - i)%nat with (S (k - S i)) by lia. reflexivity. }
      rewrite VK. split; [right; lia|]. split; [|split; [lra|intros _; lra]]. intros j J. destruct (Nat.eq_dec j i) as [->|N].
      * rewrite Nat.sub_diag. cbn [nth]. split; [exact B1|]. intros Q. apply B2. lia.
      * replace (j - i)%nat with (S (j - S i)) by lia. cbn [nth]. apply A. lia.
    + specialize (IH best bv (S i) ltac:(lia)). cbv zeta in IH. set (k := argmax_from best bv (S i) l) in *. destruct IH as (R0 & A & B1 & B2).
      assert (VK : (if Nat.ltb k i then bv else nth (k - i) (v :: l) 0) = (if Nat.ltb k (S i) then bv else nth (k - S i) l 0)).
      { destruct (Nat.ltb_spec k (S i)) as [Q|Q]. - replace (Nat.ltb k i) with true by (symmetry; apply Nat.ltb_lt; lia). reflexivity. - replace (Nat.ltb k i) with false by (symmetry; apply Nat.ltb_ge; lia). replace (k - i)%nat with (S (k - S i)) by lia. reflexivity. }
      rewrite VK. split; [lia|]. split; [|split; assumption]. intros j J. destruct (Nat.eq_dec j i) as [->|N].
      * rewrite Nat.sub_diag. cbn [nth]. split; [lra|]. intros Q. assert (bv < (if Nat.ltb k (S i) then bv else nth (k - S i) l 0)) by (apply B2; lia). lra.
      * replace (j - i)%nat with (S (j - S i)) by lia. cbn [nth]. apply A. lia.
Qed.
Lemma argmax_spec {A} (f : A -> R) d l k : argmax (map f l) = Ok k <-> first_largest f d l k.
Proof.
  assert (F : forall k', argmax (map f l) = Ok k' -> first_largest f d l k').
  { intros k' E. destruct l as [|a l]; [discriminate|]. cbn [map argmax] in E. assert (K : k' = argmax_from 0 (f a) 1 (map f l)) by congruence. pose proof (argmax_from_spec (map f l) 0 (f a) 1 ltac:(lia)) as S0. cbv zeta in S0. rewrite <- K in S0. destruct S0 as (R0 & M & B1 & B2). rewrite map_length in *.
    assert (VK : (if Nat.ltb k' 1 then f a else nth (k' - 1) (map f l) 0) = f (nth k' (a :: l) d)).
    { destruct (Nat.ltb_spec k' 1) as [Q|Q]; [replace k' with O by lia; reflexivity|]. destruct k' as [|k']; [lia|]. cbn [nth Nat.sub]. rewrite Nat.sub_0_r. apply map_nth'. lia. }
    rewrite VK in *. split; [cbn [length]; lia|]. intros j J. cbn [length] in J. destruct j as [|j].
    - cbn [nth]. split; [exact B1|]. intros Q. apply B2. lia.
    - specialize (M (S j) ltac:(lia)). cbn [Nat.sub] in M. rewrite Nat.sub_0_r in M. rewrite (map_nth' f d) in M by lia. exact M. }
  split; [apply F|]. intros H. destruct (argmax (map f l)) as [k'|e] eqn:E; [|destruct l; [destruct H as [H _]; cbn in H; lia|discriminate]]. f_equal. specialize (F k' eq_refl). destruct F as [F1 F2], H as [H1 H2].
  destruct (lt_eq_lt_dec k k') as [[L| -> ]|L]; [|reflexivity|]; exfalso.
  - pose proof (proj2 (F2 k H1) L). pose proof (proj1 (H2 k' F1)). lra.
  - pose proof (proj2 (H2 k' F1) L). pose proof (proj1 (F2 k H1)). lra.
Qed.
Lemma argmin_spec {A} (f : A -> R) d l k : argmin (map f l) = Ok k <-> first_smallest f d l k.
Proof. unfold argmin, first_smallest. rewrite map_map. apply argmax_spec. Qed.
Lemma sorted_app {A} (le : A -> A -> Prop) l m : StronglySorted le (l ++ m) -> forall a b, In a l -> In b m -> le a b.
Proof.
  induction l as [|x l IH]; intros SS a b IA IB; [destruct IA|]. cbn [app] in SS. inversion SS as [|? ? SS' F]; subst. destruct IA as [-> | IA]; [|apply IH; assumption]. rewrite Forall_forall in F. apply F, in_or_app. right. exact IB.
Qed.
Lemma nsmallest_spec n l : n_smallest (fun p => Rabs (fst p)) n l (nsmallest_abs n l).
Proof.
  unfold nsmallest_abs. set (s := sort_by (fun p q => Rleb (Rabs (fst p)) (Rabs (fst q))) l). assert (P : Permutation s l) by apply sort_perm. exists (skipn n s). rewrite firstn_skipn. split; [symmetry; exact P|]. split; [rewrite firstn_length, (Permutation_length P); reflexivity|].
  intros a b IA IB. assert (SS : StronglySorted (fun p q : R * R => Rabs (fst p) <= Rabs (fst q)) s).
  { apply sort_sorted; [intros p q B; apply Rleb_true, B|intros p q B; apply Rleb_false in B; lra|intros; lra]. }
  rewrite <- (firstn_skipn n s) in SS. exact (sorted_app _ _ _ SS a b IA IB).
Qed.
