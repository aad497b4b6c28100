(** Lemmas for ivtools/sde.py *)
From Verif Require Import Base.Fl Base.FlFacts Base.Py Model.IvUtils Model.Sde Spec.IvSpec Proofs.ClearskyD Proofs.IvP.
From Coq Require Import ZArith Psatz Arith.
From Coquelicot Require Import Coquelicot.
Open Scope R_scope.
Open Scope list_scope.

(** ** least squares *)
Lemma squares_zero {A} (f : A -> R) l : fold_right Rplus 0 (map (fun x => f x ^ 2) l) = 0 <-> forall x, In x l -> f x = 0.
Proof.
  assert (P : forall m, 0 <= fold_right Rplus 0 (map (fun x => f x ^ 2) m)) by (induction m as [|y m IH]; cbn [map fold_right]; [lra|]; pose proof (pow2_ge_0 (f y)); lra).
  induction l as [|y l IH]; [cbn; split; [intros _ x []|reflexivity]|]. cbn [map fold_right]. pose proof (pow2_ge_0 (f y)) as Q. specialize (P l). split.
  - intros E x [<- | I]; [|apply IH; [lra|exact I]]. assert (f y ^ 2 = 0) by lra. destruct (Req_dec (f y) 0) as [Z|N]; [exact Z|]. apply (pow_nonzero _ 2) in N. contradiction.
  - intros H. rewrite (H y (or_introl eq_refl)), (proj2 IH) by (intros; apply H; right; assumption). ring.
Qed.
Lemma squares_nonneg {A} (f : A -> R) l : 0 <= fold_right Rplus 0 (map (fun x => f x ^ 2) l).
Proof. induction l as [|y l IH]; cbn [map fold_right]; [lra|]. pose proof (pow2_ge_0 (f y)). lra. Qed.

(** ** searchsorted *)
Lemma searchsorted_spec : forall v x, increasing v -> let k := searchsorted v x in (k <= length v)%nat /\ (forall j, (j < k)%nat -> nth j v 0 < x) /\ (forall j, (k <= j < length v)%nat -> x <= nth j v 0).
Proof.
  induction v as [|a v IH]; intros x IN; cbn [searchsorted]; cbv zeta.
  - cbn. split; [lia|]. split; intros; lia.
  - assert (IN' : increasing v) by (intros i j H; apply (IN (S i) (S j)); cbn; lia). destruct (Rltb_spec a x) as [L|L].
    + destruct (IH x IN') as (K & B & A). cbn [length]. split; [lia|]. split; [intros [|j] H; [exact L|apply B; lia]|intros [|j] H; [lia|apply A; lia]].
    + split; [lia|]. split; [intros; lia|]. intros [|j] H; [cbn; lra|]. pose proof (IN 0%nat (S j) ltac:(lia)) as Q. cbn [nth] in *. lra.
Qed.
Section Loop.
Variable polyfit : list (R * R) -> R * R.
Lemma beta_loop_ok : forall fuel curve idx b, (0 < idx)%nat -> (idx + fuel = length curve)%nat ->
  (beta_loop polyfit curve idx fuel = Ok b <-> exists n, (idx <= n < length curve)%nat /\ fst (polyfit (firstn n curve)) < 0 /\ (forall m, (idx <= m < n)%nat -> 0 <= fst (polyfit (firstn m curve))) /\ b = (snd (polyfit (firstn n curve)), - fst (polyfit (firstn n curve)))).
Proof.
  induction fuel as [|f IH]; intros curve idx b P L; cbn [beta_loop].
  - split; [discriminate|]. intros (n & H & _). lia.
  - destruct (firstn idx curve) as [|p pts] eqn:E; [destruct curve; [cbn in L; lia|destruct idx; [lia|discriminate]]|]. rewrite <- E. cbv zeta. destruct (Rltb_spec (fst (polyfit (firstn idx curve))) 0) as [N|N].
    + split.
      * intros H. exists idx. split; [lia|]. split; [exact N|]. split; [intros; lia|congruence].
      * intros (n & H & S0 & M & ->). destruct (Nat.eq_dec n idx) as [->|D]; [reflexivity|]. specialize (M idx ltac:(lia)). lra.
    + rewrite IH by lia. split.
      * intros (n & H & S0 & M & ->). exists n. split; [lia|]. split; [exact S0|]. split; [|reflexivity]. intros m HM. destruct (Nat.eq_dec m idx) as [->|D]; [lra|]. apply M. lia.
      * intros (n & H & S0 & M & ->). exists n. destruct (Nat.eq_dec n idx) as [->|D]; [lra|]. split; [lia|]. split; [exact S0|]. split; [|reflexivity]. intros m HM. apply M. lia.
Qed.
Lemma beta_loop_total : forall fuel curve idx, (0 < idx)%nat -> (idx + fuel = length curve)%nat -> (exists b, beta_loop polyfit curve idx fuel = Ok b) \/ beta_loop polyfit curve idx fuel = Err RuntimeError.
Proof.
  induction fuel as [|f IH]; intros curve idx P L; cbn [beta_loop]; [right; reflexivity|].
  destruct (firstn idx curve) as [|p pts] eqn:E; [destruct curve; [cbn in L; lia|destruct idx; [lia|discriminate]]|]. cbv zeta. destruct (Rltb _ 0); [left; eexists; reflexivity|]. apply IH; lia.
Qed.
End Loop.

(** ** the co-content integral *)
Definition total (l : list R) : R := fold_right Rplus 0 l.
Lemma total_app l m : total (l ++ m) = total l + total m.
Proof. unfold total. induction l as [|x l IH]; cbn [app fold_right]; lra. Qed.
Lemma firstn_split {A} (l : list A) a b : (a <= b)%nat -> firstn b l = firstn a l ++ firstn (b - a) (skipn a l).
Proof.
  revert a b. induction l as [|x l IH]; intros a b H; [rewrite skipn_nil, !firstn_nil; reflexivity|]. destruct a as [|a]; [cbn [firstn skipn app]; rewrite Nat.sub_0_r; reflexivity|]. destruct b as [|b]; [lia|]. cbn [firstn skipn app Nat.sub]. rewrite (IH a b) by lia. reflexivity.
Qed.
Lemma scc_eq ks isc i : (6 <= length ks)%nat -> (i < length ks)%nat -> scc_at ks isc i = isc * nth i (map k_x ks) 0 - total (firstn (S i) (tmpint ks)).
Proof.
  intros L I. set (t := tmpint ks). set (v j := nth j (map k_x ks) 0).
  assert (TL : length t = length ks) by (unfold t, tmpint; cbn [length]; rewrite map_length, seq_length; lia).
  assert (First : forall j, isc * v j - cumsum_at t j = isc * v j - total (firstn (S j) t)) by reflexivity.
  assert (Second : forall j, (j < length ks)%nat -> (j < 5 \/ j < length ks - 5)%nat -> (if Nat.ltb j 5 then isc * v j - cumsum_at t j else isc * (v j - v 4%nat) - cumsum_at (firstn (length ks - 5 - 5) (skipn 5 t)) (j - 5) + (isc * v 4%nat - cumsum_at t 4)) = isc * v j - total (firstn (S j) t)).
  { intros j J C. destruct (Nat.ltb_spec j 5); [apply First|]. rewrite First. unfold cumsum_at. rewrite firstn_firstn, Nat.min_l by lia.
    rewrite (firstn_split t 5 (S j)) by lia. rewrite total_app. replace (S j - 5)%nat with (S (j - 5)) by lia. fold (total (firstn (S (j - 5)) (skipn 5 t))). ring. }
  unfold scc_at. cbv zeta. fold t. fold (v i) (v 4%nat) (v (length ks - 6)%nat). destruct (Nat.ltb_spec i (length ks - 5)).
  - apply Second; lia.
  - rewrite (Second (length ks - 6)%nat) by lia. unfold cumsum_at. rewrite (firstn_split t (length ks - 5) (S i)) by lia. rewrite total_app. replace (S (length ks - 6)) with (length ks - 5)%nat by lia. replace (S i - (length ks - 5))%nat with (S (i - (length ks - 5))) by lia. fold (total (firstn (S (i - (length ks - 5))) (skipn (length ks - 5) t))). ring.
Qed.
Definition pieces (ks : list knot) : list (R * (R * R * R)) := map (fun k => (k_x k, (k_a k, k_b k, k_c k))) ks.
Lemma piece_is_RInt k x : is_RInt (V := R_NormedModule) (fun u => k_a k * (u - k_x k) ^ 2 + k_b k * (u - k_x k) + k_c k) (k_x k) x (piece_integral k (x - k_x k)).
Proof.
  set (F := fun u => k_a k * (u - k_x k) ^ 3 / 3 + k_b k * (u - k_x k) ^ 2 / 2 + k_c k * (u - k_x k)).
  replace (piece_integral k (x - k_x k)) with (minus (G := R_AbelianGroup) (F x) (F (k_x k))).
  2: { unfold F, piece_integral, minus, plus, opp; cbn. replace 0.5 with (1 / 2) by lra. field. }
  apply (is_RInt_derive (V := R_CompleteNormedModule) F).
  - intros u _. unfold F. auto_derive; [trivial|]. field.
  - intros u _. apply (ex_derive_continuous (V := R_NormedModule)). auto_derive. trivial.
Qed.
(** the integral of the spline from the first knot to knot i *)
Lemma spline_is_RInt : forall ks i, increasing (map k_x ks) -> (i < length ks)%nat ->
  is_RInt (V := R_NormedModule) (piecewise (pieces ks)) (nth 0 (map k_x ks) 0) (nth i (map k_x ks) 0) (total (firstn (S i) (tmpint ks))).
Proof.
  induction ks as [|k ks IH]; intros i IN I; [cbn in I; lia|]. destruct i as [|i].
  - cbn [tmpint firstn]. unfold tmpint. cbn [firstn]. unfold total. cbn [fold_right]. rewrite Rplus_0_r. apply (is_RInt_point (V := R_NormedModule)).
  - destruct ks as [|k2 ks]; [cbn in I; lia|]. assert (IN' : increasing (map k_x (k2 :: ks))) by (intros a b H; apply (IN (S a) (S b)); cbn [map length] in *; lia).
    specialize (IH i IN' ltac:(cbn [length] in *; lia)). 
    assert (E : total (firstn (S (S i)) (tmpint (k :: k2 :: ks))) = piece_integral k (k_x k2 - k_x k) + total (firstn (S i) (tmpint (k2 :: ks)))).
    { unfold tmpint. cbn [length Nat.sub]. rewrite Nat.sub_0_r. cbn [seq map]. rewrite <- seq_shift, map_map. cbn [nth map firstn]. unfold total. cbn [fold_right].
      destruct i as [|i]; cbn [firstn fold_right]; [ring|]. rewrite !Rplus_0_l. f_equal. }
    rewrite E. change (nth (S i) (map k_x (k :: k2 :: ks)) 0) with (nth i (map k_x (k2 :: ks)) 0). change (nth 0 (map k_x (k :: k2 :: ks)) 0) with (k_x k). change (nth 0 (map k_x (k2 :: ks)) 0) with (k_x k2) in IH.
    assert (K12 : k_x k < k_x k2) by (apply (IN 0%nat 1%nat); cbn; lia).
    assert (KI : k_x k2 <= nth i (map k_x (k2 :: ks)) 0). { destruct i as [|i]; [cbn; lra|]. left. apply (IN' 0%nat (S i)). cbn [map length] in *. rewrite map_length. lia. }
    apply (is_RInt_Chasles (V := R_NormedModule) _ _ (k_x k2)).
    + apply (is_RInt_ext (V := R_NormedModule) (fun u => k_a k * (u - k_x k) ^ 2 + k_b k * (u - k_x k) + k_c k)); [|apply piece_is_RInt].
      intros u [U1 U2]. rewrite Rmax_right in U2 by lra. cbn [pieces map piecewise]. destruct (Rle_dec (k_x k2) u); [lra|reflexivity].
    + eapply (is_RInt_ext (V := R_NormedModule)); [|exact IH]. intros u [U1 U2]. rewrite Rmin_left in U1 by lra. cbn [pieces map piecewise]. destruct (Rle_dec (k_x k2) u); [reflexivity|lra].
Qed.
Lemma filter_index {A B} (d : A) (P : A -> bool) (f : A -> B) l : map (fun i => f (nth i l d)) (filter (fun i => P (nth i l d)) (seq 0 (length l))) = map f (filter P l).
Proof.
  assert (G : forall m pre, map (fun i => f (nth i (pre ++ m) d)) (filter (fun i => P (nth i (pre ++ m) d)) (seq (length pre) (length m))) = map f (filter P m)).
  { induction m as [|x m IH]; intros pre; [reflexivity|]. assert (N : nth (length pre) (pre ++ x :: m) d = x) by (rewrite app_nth2, Nat.sub_diag by lia; reflexivity). cbn [length seq filter]. rewrite N. specialize (IH (pre ++ (x :: nil))). rewrite app_length in IH. cbn [length] in IH. rewrite Nat.add_1_r in IH. rewrite <- app_assoc in IH. cbn [app] in IH.
    destruct (P x); cbn [map]; [|exact IH]. rewrite N. f_equal. exact IH. }
  apply (G l nil).
Qed.
