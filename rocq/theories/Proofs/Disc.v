(** DISC: closed form and darkness. *)
From Verif Require Import Base.Fl Base.FlFacts Base.Py Spec.Decomposition Model.Atmosphere Model.Irradiance Model.IrradDecomp.
From Coq Require Import Psatz.
Open Scope R_scope.
Lemma disc_kn_fin k m mx : disc_kn #k #m #mx = (#(disc_transmittance k (Rmin m mx)), #(Rmin m mx)).
Proof.
  unfold disc_kn, disc_transmittance. rewrite fmin_fin, fleb_fin. set (a := Rmin m mx). unfold Rleb.
  destruct (Rle_dec k 0.6); cbn [where_]; repeat rewrite ?fmul_fin, ?fadd_fin, ?fsub_fin, ?fexp_fin; (f_equal; f_equal;
    match goal with |- _ - (_ + ?b * exp ?c) = _ - (_ + ?b' * exp ?c') => replace c with c' by (cbn [pow]; lra); replace b with b' by (cbn [pow]; lra); set (exp c'); cbn [pow]; lra end).
Qed.
Lemma exp_lower x : x <= 4 -> (1 - x / 4) ^ 4 <= exp (- x).
Proof.
  intros H. replace (- x) with (- x / 4 + - x / 4 + - x / 4 + - x / 4) by field. rewrite !exp_plus.
  assert (A : 0 <= 1 - x / 4 <= exp (- x / 4)). { split; [lra|]. destruct (Req_dec x 0) as [->|N]; [replace (- 0 / 4) with 0 by field; rewrite exp_0; lra|]. left. replace (1 - x / 4) with (1 + - x / 4) by field. apply exp_ineq1. lra. }
  set (y := exp (- x / 4)) in *. set (z := 1 - x / 4) in *. replace (z ^ 4) with (z * z * z * z) by ring. destruct A.
  assert (0 <= z * z) by (apply Rmult_le_pos; lra). assert (0 <= z * z * z) by (apply Rmult_le_pos; lra).
  repeat apply Rmult_le_compat; lra.
Qed.
Lemma disc_dark m : 0 <= m <= 12 -> disc_transmittance 0 m < 0.
Proof.
  intros H. unfold disc_transmittance. destruct Rle_dec as [_|N]; [|lra]. cbv zeta iota beta.
  replace ((-0.280 + 0.932 * 0 - 2.048 * 0 ^ 2) * m) with (- (0.28 * m)) by lra.
  pose proof (exp_lower (0.28 * m) ltac:(lra)) as E. set (y := exp (- (0.28 * m))) in *.
  replace (1 - 0.28 * m / 4) with (1 - 7 / 100 * m) in E by lra.
  assert (P2 : m * m <= 12 * m) by (apply Rmult_le_compat_r; lra).
  assert (P2' : 0 <= m * m) by (apply Rmult_le_pos; lra).
  assert (P3 : 0 <= m * m * m) by (apply Rmult_le_pos; lra).
  assert (P4 : m * m * m * m <= 12 * (m * m * m)). { rewrite (Rmult_comm 12). apply Rmult_le_compat_l; lra. }
  replace ((1 - 7 / 100 * m) ^ 4) with (1 - 28 / 100 * m + 294 / 10000 * (m * m) - 1372 / 1000000 * (m * m * m) + 2401 / 100000000 * (m * m * m * m)) in E by field.
  cbn [pow]. replace (m * (m * 1)) with (m * m) by ring. replace (m * (m * (m * 1))) with (m * m * m) by ring. replace (m * (m * (m * (m * 1)))) with (m * m * m * m) by ring.
  lra.
Qed.
