(** Rounding to integers: round-half-even (np.around, round(), timedelta). *)
From Verif Require Import Base.Fl.
From Coq Require Import ZArith Lia Lra.
Open Scope R_scope.

(** round to nearest, ties to even *)
Definition round_even (x : R) : Z :=
  let f := Int_part x in
  let d := x - IZR f in
  if Rltb d (1/2) then f
  else if Rltb (1/2) d then (f + 1)%Z
  else if Z.even f then f else (f + 1)%Z.

Lemma Int_part_bounds x : IZR (Int_part x) <= x < IZR (Int_part x) + 1.
Proof. pose proof (base_Int_part x). lra. Qed.
Lemma round_even_near x : Rabs (IZR (round_even x) - x) <= 1/2.
Proof.
  unfold round_even. pose proof (Int_part_bounds x) as H.
  destruct (Rltb_spec (x - IZR (Int_part x)) (1/2)); [apply Rabs_le; lra|].
  destruct (Rltb_spec (1/2) (x - IZR (Int_part x))).
  - rewrite plus_IZR. apply Rabs_le. lra.
  - destruct (Z.even _); [|rewrite plus_IZR]; apply Rabs_le; lra.
Qed.
Lemma round_even_unique x n : Rabs (IZR n - x) < 1/2 -> round_even x = n.
Proof.
  intros H. pose proof (round_even_near x) as H2. apply Rabs_def2 in H. apply Rabs_le_inv in H2 || idtac.
  assert (-1 < IZR (round_even x) - IZR n < 1).
  { unfold Rabs in H2. destruct (Rcase_abs (IZR (round_even x) - x)); lra. }
  rewrite <- minus_IZR in H0. destruct H0 as [H0 H1].
  apply (lt_IZR (-1)) in H0. apply (lt_IZR _ 1) in H1. lia.
Qed.
Lemma round_even_IZR n : round_even (IZR n) = n.
Proof. apply round_even_unique. replace (IZR n - IZR n) with 0 by ring. rewrite Rabs_R0. lra. Qed.
(** a tie goes to the even neighbour *)
Lemma round_even_tie n : round_even (IZR n + 1/2) = if Z.even n then n else (n + 1)%Z.
Proof.
  assert (E : Int_part (IZR n + 1/2) = n).
  { pose proof (Int_part_bounds (IZR n + 1/2)) as [H1 H2].
    assert (H3 : IZR (Int_part (IZR n + 1/2)) < IZR (n + 1)) by (rewrite plus_IZR; lra).
    assert (H4 : IZR (n - 1) < IZR (Int_part (IZR n + 1/2))) by (rewrite minus_IZR; lra).
    apply lt_IZR in H3. apply lt_IZR in H4. lia. }
  unfold round_even. rewrite E.
  rewrite (proj2 (Rltb_false _ _)) by lra. rewrite (proj2 (Rltb_false _ _)) by lra. reflexivity.
Qed.
