(** Properties C194 and C195: shapes and brackets of the arguments of the Bishop solvers.  Model: Model/Shapes.v. *)
From Coq Require Import List Arith Lia.
From Verif Require Import Base.Fl Base.Py Model.Tmy Model.Shapes.
Import ListNotations.
Local Open Scope nat_scope.

(** numpy's rule: [x] broadcasts to [s] if, after [x] is filled up with axes of length 1 in front, every axis has the same length or length 1 *)
Definition stretches (a b : nat) : Prop := a = b \/ a = 1.
Definition broadcasts (x s : list nat) : Prop := exists k, Forall2 stretches (repeat 1 k ++ x) s.
Definition elements (s : list nat) : nat := fold_right Nat.mul 1 s.
Definition no_empty_axis (s : list nat) : Prop := Forall (fun n => 1 <= n) s.

Lemma fits_reversed_spec x : forall s, fits_reversed x s = true <-> exists s1 s2, s = s1 ++ s2 /\ Forall2 stretches x s1.
Proof.
  induction x as [|a x IH]; intros s; cbn [fits_reversed].
  - split; [intros _; exists [], s; split; [reflexivity|constructor]|reflexivity].
  - destruct s as [|b s]; [split; [discriminate|intros (s1 & s2 & E & F); inversion F; subst; discriminate E]|].
    rewrite Bool.andb_true_iff, Bool.orb_true_iff, !Nat.eqb_eq, IH. split.
    + intros (S1 & s1 & s2 & -> & F). exists (b :: s1), s2. split; [reflexivity|]. constructor; assumption.
    + intros (s1 & s2 & E & F). inversion F as [|? b' ? s1' S1 F']; subst. injection E as -> ->. split; [exact S1|]. exists s1', s2. split; [reflexivity|exact F'].
Qed.
Lemma Forall2_rev' {A B} (P : A -> B -> Prop) l m : Forall2 P l m -> Forall2 P (rev l) (rev m).
Proof. induction 1; cbn [rev]; [constructor|]. apply Forall2_app; [assumption|constructor; [assumption|constructor]]. Qed.
Lemma F2_length {A B} (P : A -> B -> Prop) l m : Forall2 P l m -> length l = length m.
Proof. induction 1; cbn [length]; congruence. Qed.
Lemma ones s : Forall2 stretches (repeat 1 (length s)) s.
Proof. induction s; cbn [length repeat]; constructor; [right; reflexivity|assumption]. Qed.
Lemma broadcasts_spec x s : broadcasts x s <-> exists s2 s1, s = s2 ++ s1 /\ Forall2 stretches x s1.
Proof.
  split.
  - intros (k & F). apply Forall2_app_inv_l in F as (s2 & s1 & _ & F & ->). exists s2, s1. auto.
  - intros (s2 & s1 & -> & F). exists (length s2). apply Forall2_app; [apply ones|exact F].
Qed.
Lemma fits_spec x s : fits_reversed (rev x) (rev s) = true <-> broadcasts x s.
Proof.
  rewrite fits_reversed_spec, broadcasts_spec. split.
  - intros (s1 & s2 & E & F). exists (rev s2), (rev s1). split; [rewrite <- rev_app_distr, <- E, rev_involutive; reflexivity|]. rewrite <- (rev_involutive x). apply Forall2_rev', F.
  - intros (s2 & s1 & -> & F). exists (rev s1), (rev s2). split; [apply rev_app_distr|apply Forall2_rev', F].
Qed.
Lemma broadcast_to_spec x s v : broadcast_to x s = Ok v <-> broadcasts x s /\ v = Array s.
Proof.
  unfold broadcast_to. pose proof (fits_spec x s) as F. destruct (fits_reversed _ _).
  - split; [intros H; injection H as <-; split; [apply F; reflexivity|reflexivity]|intros [_ ->]; reflexivity].
  - split; [discriminate|]. intros [B _]. apply F in B. discriminate.
Qed.
Lemma max_from_spec l : forall b, exists pre s post, b :: l = pre ++ s :: post /\ max_from b l = s /\ Forall (fun t => elements t < elements s) pre /\ Forall (fun t => elements t <= elements s) post.
Proof.
  induction l as [|s l IH]; intros b; cbn [max_from]; [exists [], b, []; repeat split; constructor|]. change size with elements. destruct (Nat.ltb_spec (elements b) (elements s)) as [L|L].
  - destruct (IH s) as (pre & m & post & E & EM & F1 & F2). exists (b :: pre), m, post. rewrite E. split; [reflexivity|]. split; [exact EM|]. split; [|exact F2]. constructor; [|exact F1].
    destruct pre as [|p pre]; [injection E as -> ->; exact L|]. injection E as -> E'. inversion F1; lia.
  - destruct (IH b) as (pre & m & post & E & EM & F1 & F2). destruct pre as [|p pre].
    + injection E as -> ->. exists [], m, (s :: post). split; [reflexivity|]. split; [exact EM|]. split; [constructor|constructor; [exact L|exact F2]].
    + injection E as <- ->. exists (b :: s :: pre), m, post. split; [reflexivity|]. split; [exact EM|]. split; [|exact F2]. inversion F1; subst. constructor; [assumption|]. constructor; [lia|assumption].
Qed.
(** ** C194: the initial guess of Newton's method *)
(** scalars stay scalars; otherwise all arguments become arrays of their shapes and the guess is stretched to the first shape with the most elements, which is an error
    exactly if it does not broadcast to it *)
Theorem C194_inputs : forall x0 args out, prepare_newton_inputs x0 args = Ok out <->
  (Forall (eq Scalar) (x0 :: args) /\ out = (x0, args)) \/
  (~ Forall (eq Scalar) (x0 :: args) /\ exists pre s post, map shape (x0 :: args) = pre ++ s :: post /\ Forall (fun t => elements t < elements s) pre /\ Forall (fun t => elements t <= elements s) post /\
     broadcasts (shape x0) s /\ out = (Array s, map (fun a => Array (shape a)) args)).
Proof.
  intros x0 args out. unfold prepare_newton_inputs.
  assert (SC : isscalar x0 && forallb isscalar args = true <-> Forall (eq Scalar) (x0 :: args)).
  { rewrite Bool.andb_true_iff, forallb_forall. split.
    - intros [H1 H2]. constructor; [destruct x0; [reflexivity|discriminate]|]. apply Forall_forall. intros y I. specialize (H2 y I). destruct y; [reflexivity|discriminate].
    - intros H. inversion H as [|? ? E F]; subst. split; [reflexivity|]. intros y I. rewrite Forall_forall in F. rewrite <- (F y I). reflexivity. }
  destruct (isscalar x0 && forallb isscalar args) eqn:E.
  - assert (F : Forall (eq Scalar) (x0 :: args)) by (apply SC; reflexivity). split; [intros H; injection H as <-; left; auto|]. intros [[_ ->]|[N _]]; [reflexivity|contradiction].
  - assert (F : ~ Forall (eq Scalar) (x0 :: args)) by (intros H; apply SC in H; discriminate). unfold shape_of_max_size. cbn [map]. replace (map shape (map (fun a => Array (shape a)) args)) with (map shape args) by (rewrite map_map; reflexivity). cbn [bind].
    destruct (max_from_spec (map shape args) (shape x0)) as (pre & s & post & L & -> & F1 & F2). split.
    + intros H. right. split; [exact F|]. destruct (broadcast_to (shape x0) s) as [v|] eqn:B; cbn [bind] in H; [|discriminate]. injection H as <-. apply broadcast_to_spec in B as [B ->]. exists pre, s, post. auto.
    + intros [[H _]|[_ (pre' & s' & post' & L' & G1 & G2 & B & ->)]]; [contradiction|]. assert (s' = s) as ->.
      { rewrite L in L'. clear -F1 F2 G1 G2 L'. revert pre' G1 L'. induction pre as [|p pre IH]; intros [|p' pre'] G1 L'; cbn [app] in L'.
        - injection L' as -> _. reflexivity.
        - injection L' as -> ->. apply Forall_app in F2 as [_ F2]. inversion F2; subst. inversion G1; subst. lia.
        - injection L' as -> <-. apply Forall_app in G2 as [_ G2]. inversion G2; subst. inversion F1; subst. lia.
        - injection L' as -> L'. inversion F1; subst. inversion G1; subst. eapply IH; eassumption. }
      rewrite (proj2 (broadcast_to_spec (shape x0) s _) (conj B eq_refl)). reflexivity.
Qed.
Print Assumptions C194_inputs.
Lemma elements_pos s : no_empty_axis s -> 1 <= elements s.
Proof. induction 1; cbn; [lia|]. change (1 <= x * elements l). nia. Qed.
Lemma elements_app a b : elements (a ++ b) = elements a * elements b.
Proof. induction a; cbn [app]; [change (elements b = 1 * elements b); lia|]. change (a * elements (a0 ++ b) = a * elements a0 * elements b). rewrite IHa. lia. Qed.
Lemma stretches_axes x s : Forall2 stretches x s -> no_empty_axis s -> no_empty_axis x.
Proof.
  intros F. induction F as [|u v xs vs H F IH]; intros N; [exact N|]. apply Forall_cons_iff in N as [N1 N2]. apply Forall_cons; [destruct H as [->| ->]; [exact N1|apply le_n]|apply IH, N2].
Qed.
Lemma stretches_le x s : Forall2 stretches x s -> no_empty_axis s -> elements x <= elements s /\ (elements x = elements s -> x = s).
Proof.
  induction 1 as [|a b x s S0 F IH]; intros N; [split; [lia|reflexivity]|]. inversion N as [|? ? N1 N2]; subst. destruct (IH N2) as [L E]. pose proof (elements_pos s N2) as P.
  pose proof (stretches_axes _ _ F N2) as Q. pose proof (elements_pos x Q) as P'.
  change (a * elements x <= b * elements s /\ (a * elements x = b * elements s -> a :: x = b :: s)). destruct S0 as [->| ->].
  - split; [nia|]. intros H. rewrite E; [reflexivity|]. nia.
  - split; [nia|]. intros H. assert (b = 1) by nia. subst b. rewrite E by nia. reflexivity.
Qed.
(** when one of the arguments has the shape [B] to which all of them broadcast, the guess gets this shape, up to leading axes of length 1, and stretching it is no error *)
Theorem C194_common_shape : forall x0 args B, no_empty_axis B -> Forall (fun a => broadcasts (shape a) B) (x0 :: args) -> In B (map shape (x0 :: args)) -> ~ Forall (eq Scalar) (x0 :: args) ->
  exists s k, B = repeat 1 k ++ s /\ (broadcasts (shape x0) s -> prepare_newton_inputs x0 args = Ok (Array s, map (fun a => Array (shape a)) args)) /\
    (length (shape x0) <= length s -> broadcasts (shape x0) s).
Proof.
  intros x0 args B N F IN NS. unfold prepare_newton_inputs.
  destruct (isscalar x0 && forallb isscalar args) eqn:E.
  { exfalso. apply NS. apply Bool.andb_true_iff in E as [E1 E2]. constructor; [destruct x0; [reflexivity|discriminate]|]. apply Forall_forall. intros y I. rewrite forallb_forall in E2. specialize (E2 y I). destruct y; [reflexivity|discriminate]. }
  unfold shape_of_max_size. cbn [map]. replace (map shape (map (fun a => Array (shape a)) args)) with (map shape args) by (rewrite map_map; reflexivity). cbn [bind]. destruct (max_from_spec (map shape args) (shape x0)) as (pre & s & post & L & -> & F1 & F2).
  change (map shape (x0 :: args)) with (shape x0 :: map shape args) in IN. rewrite L in IN.
  assert (M : elements B <= elements s). { apply in_app_or in IN as [I|[->|I]]; [rewrite Forall_forall in F1; specialize (F1 _ I); lia|lia|rewrite Forall_forall in F2; exact (F2 _ I)]. }
  assert (Bs : broadcasts s B). { assert (I : In s (map shape (x0 :: args))) by (cbn [map]; rewrite L; apply in_or_app; right; left; reflexivity). apply in_map_iff in I as (a & <- & I). rewrite Forall_forall in F. apply F, I. }
  destruct Bs as (k & Fk). pose proof (stretches_le _ _ Fk N) as [L1 E1]. assert (EQ : elements (repeat 1 k ++ s) = elements s) by (rewrite elements_app; replace (elements (repeat 1 k)) with 1 by (clear; induction k; cbn; [reflexivity|]; change (1 = elements (repeat 1 k) + 0); lia); lia).
  rewrite EQ in L1, E1. assert (EB : repeat 1 k ++ s = B) by (apply E1; lia). exists s, k. split; [symmetry; exact EB|]. split.
  - intros Q. rewrite (proj2 (broadcast_to_spec (shape x0) s _) (conj Q eq_refl)). reflexivity.
  - intros LE. inversion F as [|? ? B0 _]; subst. destruct B0 as (j & Fj). assert (LEN : j + length (shape x0) = k + length s) by (apply F2_length in Fj; rewrite !app_length, !repeat_length in Fj; exact Fj).
    exists (j - k). assert (Z0 : repeat 1 j = repeat 1 k ++ repeat 1 (j - k)) by (rewrite <- repeat_app; f_equal; lia). rewrite Z0, <- app_assoc in Fj. apply Forall2_app_inv_l in Fj as (b1 & b2 & G1 & G2 & E2).
    assert (b2 = s) as <-; [|exact G2]. apply F2_length in G1. rewrite repeat_length in G1. clear -E2 G1. revert b1 E2 G1. induction k as [|k IH]; intros [|b b1] E2 G1; cbn in *; try discriminate; [symmetry; exact E2|]. injection E2 as _ E2. injection G1 as G1. apply (IH b1); assumption.
Qed.
Print Assumptions C194_common_shape.
(** with scalars and arrays of one shape with at least two elements, the guess has this shape *)
Theorem C194_one_shape : forall x0 args s, 2 <= elements s -> Forall (fun a => a = Scalar \/ a = Array s) (x0 :: args) -> In (Array s) (x0 :: args) ->
  prepare_newton_inputs x0 args = Ok (Array s, map (fun a => Array (shape a)) args).
Proof.
  intros x0 args s L F IN. apply C194_inputs. right. split.
  - intros H. rewrite Forall_forall in H. specialize (H _ IN). discriminate.
  - assert (G : exists pre post, map shape (x0 :: args) = pre ++ s :: post /\ Forall (eq []) pre /\ Forall (fun t => t = [] \/ t = s) post).
    { clear -L F IN. induction F as [|a l A F IH]; [destruct IN|]. destruct A as [->| ->].
      - destruct IN as [H|IN]; [discriminate|]. destruct (IH IN) as (pre & post & E & P & Q). exists ([] :: pre), post. cbn [map shape]. rewrite E. split; [reflexivity|]. split; [constructor; auto|exact Q].
      - exists [], (map shape l). split; [reflexivity|]. split; [constructor|]. clear -F. induction F as [|a l [->| ->] F IH]; cbn [map shape]; constructor; auto. }
    destruct G as (pre & post & E & P & Q). exists pre, s, post. split; [exact E|]. split; [|split; [|split; [|reflexivity]]].
    + eapply Forall_impl; [|exact P]. intros t <-. cbn. lia.
    + eapply Forall_impl; [|exact Q]. intros t [->| ->]; [cbn; lia|lia].
    + apply broadcasts_spec. inversion F as [|? ? [->| ->] _]; subst; [exists s, []; rewrite app_nil_r; split; [reflexivity|constructor]|]. exists [], s. split; [reflexivity|]. clear. cbn [shape]. induction s; constructor; [left; reflexivity|assumption].
Qed.
Print Assumptions C194_one_shape.
(** Finding: arguments that numpy would broadcast together, a column and a row, are an error, or give a guess that does not have their common shape *)
Theorem C194_column_and_row_refuted : broadcasts [3; 1] [3; 4] /\ broadcasts [4] [3; 4] /\
  prepare_newton_inputs (Array [3; 1]) [Array [4]] = Err ValueError /\ prepare_newton_inputs Scalar [Array [3; 1]; Array [4]] = Ok (Array [4], [Array [3; 1]; Array [4]]).
Proof. split; [exists 0; repeat (constructor; [first [left; reflexivity|right; reflexivity]|]); constructor|]. split; [exists 1; repeat (constructor; [first [left; reflexivity|right; reflexivity]|]); constructor|]. split; reflexivity. Qed.
Print Assumptions C194_column_and_row_refuted.
(** Finding: with arrays without elements the guess of a scalar is not without elements *)
Theorem C194_empty_refuted : prepare_newton_inputs Scalar [Array [0]] = Ok (Array [], [Array [0]]).
Proof. reflexivity. Qed.
Print Assumptions C194_empty_refuted.
Example C194_nonvacuous : no_empty_axis [3; 4] /\ Forall (fun a => broadcasts (shape a) [3; 4]) [Scalar; Array [3; 1]; Array [3; 4]] /\ 2 <= elements [3; 4].
Proof. split; [repeat constructor|]. split; [|cbn; lia]. repeat constructor; [exists 2|exists 0|exists 0]; cbn [shape repeat app]; repeat (constructor; [first [left; reflexivity|right; reflexivity]|]); constructor. Qed.

(** ** C195: the brackets of the chandrupatla method *)
Theorem C195_bracket : forall v voc lo hi, bracket v voc = Ok (lo, hi) <->
  broadcasts (shape voc) (if elements (shape v) <? elements (shape voc) then shape voc else shape v) /\ lo = Array (if elements (shape v) <? elements (shape voc) then shape voc else shape v) /\ hi = lo.
Proof.
  intros v voc lo hi. unfold bracket, shape_of_max_size. cbn [map max_from bind]. change size with elements. set (s := if elements (shape v) <? elements (shape voc) then shape voc else shape v). clearbody s. split.
  - destruct (broadcast_to (shape voc) s) as [h|] eqn:B; cbn [bind]; [|discriminate]. intros H. injection H as <- <-. apply broadcast_to_spec in B as [B ->]. auto.
  - intros (B & -> & ->). rewrite (proj2 (broadcast_to_spec (shape voc) s _) (conj B eq_refl)). reflexivity.
Qed.
Print Assumptions C195_bracket.
Theorem C195_mpp_bracket : forall photocurrent voc lo hi, mpp_bracket photocurrent voc = Ok (lo, hi) <-> broadcasts (shape voc) (shape photocurrent) /\ lo = Array (shape photocurrent) /\ hi = lo.
Proof.
  intros p voc lo hi. unfold mpp_bracket. split.
  - destruct (broadcast_to _ _) as [h|] eqn:B; cbn [bind]; [|discriminate]. intros H. injection H as <- <-. apply broadcast_to_spec in B as [B ->]. auto.
  - intros (B & -> & ->). rewrite (proj2 (broadcast_to_spec _ _ _) (conj B eq_refl)). reflexivity.
Qed.
Print Assumptions C195_mpp_bracket.
(** the maximum power point is searched between 0 and the estimated open-circuit voltage *)
Theorem C195_mpp_upper : forall voc, mpp_upper false voc = voc.
Proof. reflexivity. Qed.
Print Assumptions C195_mpp_upper.
(** Finding: a photocurrent of an integer type cuts the upper end to whole volts; for a cell (below one volt) nothing is left *)
Theorem C195_integer_photocurrent_refuted : forall voc, (0 <= voc < 1)%R -> mpp_upper true voc = 0%R.
Proof.
  intros voc H. unfold mpp_upper, trunc. destruct (Rle_dec 0 voc); [|lra]. assert (Int_part voc = 0%Z) as ->; [|reflexivity].
  destruct (base_Int_part voc) as [B1 B2]. assert (A : (IZR (Int_part voc) < 1)%R) by lra. assert (B : (-1 < IZR (Int_part voc))%R) by lra. apply lt_IZR in A. apply lt_IZR in B. lia.
Qed.
Print Assumptions C195_integer_photocurrent_refuted.
(** Finding: a scalar photocurrent with other parameters as arrays is an error, although the other methods broadcast it *)
Theorem C195_scalar_photocurrent_refuted : forall n, 1 < n -> mpp_bracket Scalar (Array [n]) = Err ValueError /\ bracket Scalar (Array [n]) = Ok (Array [n], Array [n]).
Proof.
  intros n N. split; [reflexivity|]. apply C195_bracket. cbn [shape elements fold_right]. destruct (Nat.ltb_spec 1 (n * 1)); [|lia]. split; [|split; reflexivity]. exists 0. repeat constructor.
Qed.
Print Assumptions C195_scalar_photocurrent_refuted.
