From Verif Require Import Base.Fl Base.FlFacts Base.Py Model.Tools Model.Pvsystem Model.System Spec.PerArraySpec Proofs.PvsystemP.
From Coq Require Import Arith Lia.
Open Scope nat_scope.

Lemma nth_error_combine {A B} (l : list A) (l' : list B) i :
  nth_error (combine l l') i = match nth_error l i, nth_error l' i with Some a, Some b => Some (a, b) | _, _ => None end.
Proof.
  revert l' i. induction l as [|a l IH]; intros l' i; [destruct i; reflexivity|].
  destruct l' as [|b l'].
  - destruct i; cbn; [reflexivity|]. destruct (nth_error l i); reflexivity.
  - destruct i; [reflexivity|]. cbn. apply IH.
Qed.

Lemma validate_fits {A} s (a : pyarg A) w : fits (num_arrays s) w a ->
  exists l, validate_per_array s a w = Ok l /\ length l = num_arrays s /\ forall i, i < num_arrays s -> nth_error l i = value_for a i.
Proof.
  unfold validate_per_array, fits. destruct a as [l|v].
  - intros H. exists l. destruct w; rewrite H, Nat.eqb_refl; auto.
  - intros H. destruct w.
    + exists (repeat v (num_arrays s)). split; [reflexivity|]. split; [apply repeat_length|]. intros i Hi. cbn.
      apply nth_error_repeat, Hi.
    + destruct H as [H|H]; [discriminate|]. exists [v]. cbn [length]. rewrite H. split; [reflexivity|]. split; [reflexivity|].
      intros i Hi. destruct i; [reflexivity|lia].
Qed.
Lemma validate_misfit {A} s (a : pyarg A) w : ~ fits (num_arrays s) w a -> validate_per_array s a w = Err ValueError.
Proof.
  unfold validate_per_array, fits. destruct a as [l|v]; intros H.
  - destruct (Nat.eqb_spec (length l) (num_arrays s)); [contradiction|]. destruct w; reflexivity.
  - destruct w; [exfalso; apply H; auto|]. cbn [length]. destruct (Nat.eqb_spec 1 (num_arrays s)) as [E|E]; [exfalso; apply H; auto|reflexivity].
Qed.
Lemma fits_dec {A} n w (a : pyarg A) : fits n w a \/ ~ fits n w a.
Proof. unfold fits. destruct a; [destruct (Nat.eq_dec (length l) n); auto|]. destruct w; [auto|]. destruct (Nat.eq_dec n 1); [auto|]. right. intros [H|H]; [discriminate|auto]. Qed.

Lemma result_at_unwrap {A} (l : list A) i : result_at (unwrap l) i = nth_error l i.
Proof. destruct l as [|x [|y l]]; try reflexivity. destruct i as [|[|i]]; reflexivity. Qed.
Lemma shape_unwrap {A} (l : list A) : shape (length l) (unwrap l).
Proof. destruct l as [|x [|y l]]; cbn; auto. Qed.
Lemma result_ext {A} n (r r' : pyarg A) : shape n r -> shape n r' -> (forall i, i < n -> result_at r i = result_at r' i) -> r = r'.
Proof.
  destruct r as [l|v], r' as [l'|v']; cbn [shape]; intros H H' E.
  - f_equal. destruct H as [H _], H' as [H' _]. apply nth_error_ext || idtac.
    assert (forall i, nth_error l i = nth_error l' i).
    { intros i. destruct (Nat.lt_ge_cases i n) as [L|L]; [apply E, L|].
      rewrite (proj2 (nth_error_None l i)) by lia. rewrite (proj2 (nth_error_None l' i)) by lia. reflexivity. }
    clear - H0. revert l' H0. induction l as [|x l IH]; intros [|y l'] H; [reflexivity|discriminate (H 0)|discriminate (H 0)|].
    f_equal; [specialize (H 0); cbn in H; congruence|]. apply IH. intros i. exact (H (S i)).
  - destruct H; congruence.
  - destruct H'; congruence.
  - subst n. specialize (E 0 (le_n 1)). cbn in E. congruence.
Qed.

(** the central lemma *)
Lemma per_array_core {T X B} (arrs : list T) (xs : list X) (F : T * X -> res B) r : length xs = length arrs ->
  (rmap unwrap (mapM F (combine arrs xs)) = Ok r <->
   shape (length arrs) r /\ forall i a x, nth_error arrs i = Some a -> nth_error xs i = Some x ->
     exists y, result_at r i = Some y /\ F (a, x) = Ok y).
Proof.
  intros L. assert (LC : length (combine arrs xs) = length arrs) by (rewrite combine_length; lia). split.
  - unfold rmap. destruct (mapM F (combine arrs xs)) as [l|e] eqn:E; cbn [bind]; [|discriminate]. intros [= <-].
    apply mapM_nth in E as [E1 E2]. split; [rewrite <- LC, <- E1; apply shape_unwrap|].
    intros i a x Ha Hx. destruct (E2 i (a, x)) as (y & Y1 & Y2); [rewrite nth_error_combine, Ha, Hx; reflexivity|].
    exists y. rewrite result_at_unwrap. auto.
  - intros [S H]. assert (O : exists l, mapM F (combine arrs xs) = Ok l).
    { apply mapM_ok_iff. apply Forall_forall. intros [a x] HI. apply In_nth_error in HI as [i Hi]. rewrite nth_error_combine in Hi.
      destruct (nth_error arrs i) as [a'|] eqn:Ea; [|discriminate]. destruct (nth_error xs i) as [x'|] eqn:Ex; [|discriminate]. injection Hi as -> ->.
      destruct (H i a x Ea Ex) as (y & _ & Y). eauto. }
    destruct O as [l O]. rewrite O. unfold rmap. cbn [bind]. f_equal. apply mapM_nth in O as [O1 O2].
    apply (result_ext (length arrs)); [rewrite <- LC, <- O1; apply shape_unwrap|exact S|].
    intros i Hi. rewrite result_at_unwrap.
    destruct (nth_error arrs i) as [a|] eqn:Ea; [|apply nth_error_None in Ea; lia].
    destruct (nth_error xs i) as [x|] eqn:Ex; [|apply nth_error_None in Ex; lia].
    destruct (O2 i (a, x)) as (y & Y1 & Y2); [rewrite nth_error_combine, Ea, Ex; reflexivity|].
    destruct (H i a x Ea Ex) as (z & Z1 & Z2). congruence.
Qed.
Lemma per_array_core0 {T B} (arrs : list T) (F : T -> res B) r :
  rmap unwrap (mapM F arrs) = Ok r <-> per_array_0 arrs F r.
Proof.
  split.
  - unfold rmap. destruct (mapM F arrs) as [l|e] eqn:E; cbn [bind]; [|discriminate]. intros [= <-]. apply mapM_nth in E as [E1 E2].
    split; [rewrite <- E1; apply shape_unwrap|]. intros i a Ha. destruct (E2 i a Ha) as (y & Y1 & Y2). exists y. rewrite result_at_unwrap. auto.
  - intros [S H]. assert (O : exists l, mapM F arrs = Ok l).
    { apply mapM_ok_iff. apply Forall_forall. intros a HI. apply In_nth_error in HI as [i Hi]. destruct (H i a Hi) as (y & _ & Y). eauto. }
    destruct O as [l O]. rewrite O. unfold rmap. cbn [bind]. f_equal. apply mapM_nth in O as [O1 O2].
    apply (result_ext (length arrs)); [rewrite <- O1; apply shape_unwrap|exact S|].
    intros i Hi. rewrite result_at_unwrap. destruct (nth_error arrs i) as [a|] eqn:Ea; [|apply nth_error_None in Ea; lia].
    destruct (O2 i a Ea) as (y & Y1 & Y2). destruct (H i a Ea) as (z & Z1 & Z2). congruence.
Qed.

Lemma nth_lt {A} (l : list A) i x : nth_error l i = Some x -> i < length l.
Proof. intros H. apply (proj1 (nth_error_Some l i)). rewrite H. discriminate. Qed.

Section Gen.
Context {B A1 A2 A3 A4 A5 : Type} (s : pvsystem).
Variables (w1 w2 w3 w4 w5 : bool).
Notation n := (num_arrays s).
Notation V a w := (validate_per_array s a w).

Lemma gen1 (a1 : pyarg A1) (f : array -> A1 -> res B) r :
  (let* x1 := V a1 w1 in rmap unwrap (mapM (fun '(a, v1) => f a v1) (combine (arrays s) x1))) = Ok r <->
  fits n w1 a1 /\ per_array_1 (arrays s) a1 f r.
Proof.
  destruct (fits_dec n w1 a1) as [H1|H1]; [|rewrite (validate_misfit _ _ _ H1); cbn [bind]; split; [discriminate|tauto]].
  destruct (validate_fits _ _ _ H1) as (l1 & E1 & L1 & N1). rewrite E1. cbn [bind].
  rewrite per_array_core by exact L1. unfold per_array_1. split.
  - intros [S H]. split; [exact H1|]. split; [exact S|]. intros i a v1 Ha Hv1. pose proof (nth_lt _ _ _ Ha).
    apply (H i a v1 Ha). rewrite N1 by assumption. exact Hv1.
  - intros [_ [S H]]. split; [exact S|]. intros i a v1 Ha Hx. pose proof (nth_lt _ _ _ Ha). apply H; [exact Ha|]. rewrite <- N1 by assumption. exact Hx.
Qed.
Lemma gen2 (a1 : pyarg A1) (a2 : pyarg A2) (f : array -> A1 -> A2 -> res B) r :
  (let* x1 := V a1 w1 in let* x2 := V a2 w2 in
   rmap unwrap (mapM (fun '(a, (v1, v2)) => f a v1 v2) (combine (arrays s) (combine x1 x2)))) = Ok r <->
  (fits n w1 a1 /\ fits n w2 a2) /\ per_array_2 (arrays s) a1 a2 f r.
Proof.
  destruct (fits_dec n w1 a1) as [H1|H1]; [|rewrite (validate_misfit _ _ _ H1); cbn [bind]; split; [discriminate|tauto]].
  destruct (validate_fits _ _ _ H1) as (l1 & E1 & L1 & N1). rewrite E1. cbn [bind].
  destruct (fits_dec n w2 a2) as [H2|H2]; [|rewrite (validate_misfit _ _ _ H2); cbn [bind]; split; [discriminate|tauto]].
  destruct (validate_fits _ _ _ H2) as (l2 & E2 & L2 & N2). rewrite E2. cbn [bind].
  rewrite per_array_core by (rewrite combine_length, L1, L2; apply Nat.min_id). unfold per_array_2. split.
  - intros [S H]. split; [tauto|]. split; [exact S|]. intros i a v1 v2 Ha Hv1 Hv2. pose proof (nth_lt _ _ _ Ha).
    apply (H i a (v1, v2) Ha). rewrite nth_error_combine, N1, N2 by assumption. rewrite Hv1, Hv2. reflexivity.
  - intros [_ [S H]]. split; [exact S|]. intros i a [v1 v2] Ha Hx. pose proof (nth_lt _ _ _ Ha).
    rewrite nth_error_combine, N1, N2 in Hx by assumption. destruct (value_for a1 i) eqn:X1; [|discriminate]. destruct (value_for a2 i) eqn:X2; [|discriminate].
    injection Hx as -> ->. eapply H; eauto.
Qed.
Lemma gen3 (a1 : pyarg A1) (a2 : pyarg A2) (a3 : pyarg A3) (f : array -> A1 -> A2 -> A3 -> res B) r :
  (let* x1 := V a1 w1 in let* x2 := V a2 w2 in let* x3 := V a3 w3 in
   rmap unwrap (mapM (fun '(a, (v1, (v2, v3))) => f a v1 v2 v3) (combine (arrays s) (combine x1 (combine x2 x3))))) = Ok r <->
  (fits n w1 a1 /\ fits n w2 a2 /\ fits n w3 a3) /\ per_array_3 (arrays s) a1 a2 a3 f r.
Proof.
  destruct (fits_dec n w1 a1) as [H1|H1]; [|rewrite (validate_misfit _ _ _ H1); cbn [bind]; split; [discriminate|tauto]].
  destruct (validate_fits _ _ _ H1) as (l1 & E1 & L1 & N1). rewrite E1. cbn [bind].
  destruct (fits_dec n w2 a2) as [H2|H2]; [|rewrite (validate_misfit _ _ _ H2); cbn [bind]; split; [discriminate|tauto]].
  destruct (validate_fits _ _ _ H2) as (l2 & E2 & L2 & N2). rewrite E2. cbn [bind].
  destruct (fits_dec n w3 a3) as [H3|H3]; [|rewrite (validate_misfit _ _ _ H3); cbn [bind]; split; [discriminate|tauto]].
  destruct (validate_fits _ _ _ H3) as (l3 & E3 & L3 & N3). rewrite E3. cbn [bind].
  rewrite per_array_core by (rewrite !combine_length, L1, L2, L3, !Nat.min_id; reflexivity). unfold per_array_3. split.
  - intros [S H]. split; [tauto|]. split; [exact S|]. intros i a v1 v2 v3 Ha Hv1 Hv2 Hv3. pose proof (nth_lt _ _ _ Ha).
    apply (H i a (v1, (v2, v3)) Ha). rewrite !nth_error_combine, N1, N2, N3 by assumption. rewrite Hv1, Hv2, Hv3. reflexivity.
  - intros [_ [S H]]. split; [exact S|]. intros i a [v1 [v2 v3]] Ha Hx. pose proof (nth_lt _ _ _ Ha).
    rewrite !nth_error_combine, N1, N2, N3 in Hx by assumption.
    destruct (value_for a1 i) eqn:X1; [|discriminate]. destruct (value_for a2 i) eqn:X2; [|discriminate]. destruct (value_for a3 i) eqn:X3; [|discriminate].
    injection Hx as -> -> ->. eapply H; eauto.
Qed.
Lemma gen4 (a1 : pyarg A1) (a2 : pyarg A2) (a3 : pyarg A3) (a4 : pyarg A4) (f : array -> A1 -> A2 -> A3 -> A4 -> res B) r :
  (let* x1 := V a1 w1 in let* x2 := V a2 w2 in let* x3 := V a3 w3 in let* x4 := V a4 w4 in
   rmap unwrap (mapM (fun '(a, (v1, (v2, (v3, v4)))) => f a v1 v2 v3 v4) (combine (arrays s) (combine x1 (combine x2 (combine x3 x4)))))) = Ok r <->
  (fits n w1 a1 /\ fits n w2 a2 /\ fits n w3 a3 /\ fits n w4 a4) /\ per_array_4 (arrays s) a1 a2 a3 a4 f r.
Proof.
  destruct (fits_dec n w1 a1) as [H1|H1]; [|rewrite (validate_misfit _ _ _ H1); cbn [bind]; split; [discriminate|tauto]].
  destruct (validate_fits _ _ _ H1) as (l1 & E1 & L1 & N1). rewrite E1. cbn [bind].
  destruct (fits_dec n w2 a2) as [H2|H2]; [|rewrite (validate_misfit _ _ _ H2); cbn [bind]; split; [discriminate|tauto]].
  destruct (validate_fits _ _ _ H2) as (l2 & E2 & L2 & N2). rewrite E2. cbn [bind].
  destruct (fits_dec n w3 a3) as [H3|H3]; [|rewrite (validate_misfit _ _ _ H3); cbn [bind]; split; [discriminate|tauto]].
  destruct (validate_fits _ _ _ H3) as (l3 & E3 & L3 & N3). rewrite E3. cbn [bind].
  destruct (fits_dec n w4 a4) as [H4|H4]; [|rewrite (validate_misfit _ _ _ H4); cbn [bind]; split; [discriminate|tauto]].
  destruct (validate_fits _ _ _ H4) as (l4 & E4 & L4 & N4). rewrite E4. cbn [bind].
  rewrite per_array_core by (rewrite !combine_length, L1, L2, L3, L4, !Nat.min_id; reflexivity). unfold per_array_4. split.
  - intros [S H]. split; [tauto|]. split; [exact S|]. intros i a v1 v2 v3 v4 Ha Hv1 Hv2 Hv3 Hv4. pose proof (nth_lt _ _ _ Ha).
    apply (H i a (v1, (v2, (v3, v4))) Ha). rewrite !nth_error_combine, N1, N2, N3, N4 by assumption. rewrite Hv1, Hv2, Hv3, Hv4. reflexivity.
  - intros [_ [S H]]. split; [exact S|]. intros i a [v1 [v2 [v3 v4]]] Ha Hx. pose proof (nth_lt _ _ _ Ha).
    rewrite !nth_error_combine, N1, N2, N3, N4 in Hx by assumption.
    destruct (value_for a1 i) eqn:X1; [|discriminate]. destruct (value_for a2 i) eqn:X2; [|discriminate]. destruct (value_for a3 i) eqn:X3; [|discriminate].
    destruct (value_for a4 i) eqn:X4; [|discriminate]. injection Hx as -> -> -> ->. eapply H; eauto.
Qed.
Lemma gen5 (a1 : pyarg A1) (a2 : pyarg A2) (a3 : pyarg A3) (a4 : pyarg A4) (a5 : pyarg A5) (f : array -> A1 -> A2 -> A3 -> A4 -> A5 -> res B) r :
  (let* x1 := V a1 w1 in let* x2 := V a2 w2 in let* x3 := V a3 w3 in let* x4 := V a4 w4 in let* x5 := V a5 w5 in
   rmap unwrap (mapM (fun '(a, (v1, (v2, (v3, (v4, v5))))) => f a v1 v2 v3 v4 v5)
     (combine (arrays s) (combine x1 (combine x2 (combine x3 (combine x4 x5))))))) = Ok r <->
  (fits n w1 a1 /\ fits n w2 a2 /\ fits n w3 a3 /\ fits n w4 a4 /\ fits n w5 a5) /\ per_array_5 (arrays s) a1 a2 a3 a4 a5 f r.
Proof.
  destruct (fits_dec n w1 a1) as [H1|H1]; [|rewrite (validate_misfit _ _ _ H1); cbn [bind]; split; [discriminate|tauto]].
  destruct (validate_fits _ _ _ H1) as (l1 & E1 & L1 & N1). rewrite E1. cbn [bind].
  destruct (fits_dec n w2 a2) as [H2|H2]; [|rewrite (validate_misfit _ _ _ H2); cbn [bind]; split; [discriminate|tauto]].
  destruct (validate_fits _ _ _ H2) as (l2 & E2 & L2 & N2). rewrite E2. cbn [bind].
  destruct (fits_dec n w3 a3) as [H3|H3]; [|rewrite (validate_misfit _ _ _ H3); cbn [bind]; split; [discriminate|tauto]].
  destruct (validate_fits _ _ _ H3) as (l3 & E3 & L3 & N3). rewrite E3. cbn [bind].
  destruct (fits_dec n w4 a4) as [H4|H4]; [|rewrite (validate_misfit _ _ _ H4); cbn [bind]; split; [discriminate|tauto]].
  destruct (validate_fits _ _ _ H4) as (l4 & E4 & L4 & N4). rewrite E4. cbn [bind].
  destruct (fits_dec n w5 a5) as [H5|H5]; [|rewrite (validate_misfit _ _ _ H5); cbn [bind]; split; [discriminate|tauto]].
  destruct (validate_fits _ _ _ H5) as (l5 & E5 & L5 & N5). rewrite E5. cbn [bind].
  rewrite per_array_core by (rewrite !combine_length, L1, L2, L3, L4, L5, !Nat.min_id; reflexivity). unfold per_array_5. split.
  - intros [S H]. split; [tauto|]. split; [exact S|]. intros i a v1 v2 v3 v4 v5 Ha Hv1 Hv2 Hv3 Hv4 Hv5. pose proof (nth_lt _ _ _ Ha).
    apply (H i a (v1, (v2, (v3, (v4, v5)))) Ha). rewrite !nth_error_combine, N1, N2, N3, N4, N5 by assumption. rewrite Hv1, Hv2, Hv3, Hv4, Hv5. reflexivity.
  - intros [_ [S H]]. split; [exact S|]. intros i a [v1 [v2 [v3 [v4 v5]]]] Ha Hx. pose proof (nth_lt _ _ _ Ha).
    rewrite !nth_error_combine, N1, N2, N3, N4, N5 in Hx by assumption.
    destruct (value_for a1 i) eqn:X1; [|discriminate]. destruct (value_for a2 i) eqn:X2; [|discriminate]. destruct (value_for a3 i) eqn:X3; [|discriminate].
    destruct (value_for a4 i) eqn:X4; [|discriminate]. destruct (value_for a5 i) eqn:X5; [|discriminate]. injection Hx as -> -> -> -> ->. eapply H; eauto.
Qed.
End Gen.
