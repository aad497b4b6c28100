(** Geometric meaning of shaded_fraction1d. *)
From Verif Require Import Base.Fl Base.FlFacts Model.Shading Spec.RowShading Proofs.PvsystemP.
Open Scope R_scope.

Lemma shaded_formula z s A th cw p T off c r w : projected_solar_zenith_angle #z #s #T #A = #w -> w <> 0 ->
  cw <> 0 -> cosD (th - w) <> 0 -> cosD c <> 0 ->
  let th1 := match r with Some x => x | None => th end in
  shaded_fraction1d #z #s #A #th #cw #p #T #off #c (option_map Fin r) =
  #(Rmin (Rmax (0.5 + Rabs (cosD (th1 - w)) / Rabs (cosD (th - w)) / 2
        + side_of w * off / cw / Rabs (cosD (th - w)) * (sinD (th - w) - sinD (th1 - w))
        - p / cw * cosD (w - c) / Rabs (cosD (th - w)) / cosD c) 0) 1).
Proof.
  intros Hw W0 Hcw Hc2 Hcc th1. unfold shaded_fraction1d. rewrite Hw.
  assert (E : match option_map Fin r with Some x => x | None => #th end = #th1) by (destruct r; reflexivity). rewrite E.
  cbv zeta. assert (Rabs (cosD (th - w)) <> 0) by (apply Rabs_no_R0; exact Hc2).
  assert (S : fsign #w = #(side_of w)).
  { unfold fsign, side_of, Rpos, Rneg. destruct (Rlt_dec 0 w); [rewrite Rltb_t by lra; reflexivity|]. rewrite Rltb_f, Rltb_t by lra. reflexivity. }
  rewrite S. rewrite !fsub_fin, !cosd_fin, !sind_fin, !fabs_fin. fsx. rewrite !fdiv_fin by (try assumption; lra). fsx.
  repeat (rewrite fdiv_fin by (try assumption; lra); fsx). rewrite fclip_fin. reflexivity.
Qed.
Lemma line_iff sun p q : (exists k, q = shift p k (facing sun)) <-> (fst q - fst p) * cosD sun = (snd q - snd p) * sinD sun.
Proof.
  pose proof (sc2D sun) as S. destruct p as [px py], q as [qx qy]. unfold shift, facing. cbn [fst snd]. split.
  - intros (k & E). injection E as -> ->. ring.
  - intros E. exists ((qx - px) * sinD sun + (qy - py) * cosD sun). f_equal.
    + assert ((qx - px) * (sinD sun * sinD sun + cosD sun * cosD sun) = qx - px) by (rewrite S; ring).
      assert ((qx - px) * (cosD sun * cosD sun) = (qy - py) * sinD sun * cosD sun) by (rewrite <- E; ring). lra.
    + assert ((qy - py) * (sinD sun * sinD sun + cosD sun * cosD sun) = qy - py) by (rewrite S; ring).
      assert ((qy - py) * (sinD sun * sinD sun) = (qx - px) * cosD sun * sinD sun) by (rewrite E; ring). lra.
Qed.
(** the coordinate of a point of a row perpendicular to the sun *)
Lemma row_coord axis a off wd x w : fst (on_row axis a off wd x) * cosD w - snd (on_row axis a off wd x) * sinD w =
  fst axis * cosD w - snd axis * sinD w + off * sinD (a - w) + x * wd * cosD (a - w).
Proof. unfold on_row, shift, facing, across. cbn [fst snd]. rewrite sinD_minus, cosD_minus. ring. Qed.

Lemma abs_signum x : x <> 0 -> signum x * x = Rabs x /\ signum x * Rabs x = x /\ signum x * signum x = 1.
Proof.
  intros H. unfold signum. destruct (Rlt_dec 0 x); [rewrite Rabs_right by lra|rewrite Rabs_left by lra]; repeat split; ring.
Qed.

Lemma shade_geometry w th th1 off cw p c t :
  let side := side_of w in
  let h := Rabs (cosD (th - w)) in let h1 := Rabs (cosD (th1 - w)) in
  let ts := 0.5 + h1 / h / 2 + side * off / cw / h * (sinD (th - w) - sinD (th1 - w)) - p / cw * cosD (w - c) / h / cosD c in
  0 < cw -> cosD (th - w) <> 0 -> 0 < cosD c ->
  cw / 2 * h <= p / cosD c * cosD (w - c) + side * off * (sinD (th1 - w) - sinD (th - w)) + cw / 2 * h1 ->
  0 <= t <= 1 ->
  in_shadow w (on_row (0, 0) th off cw (side * signum (cosD (th - w)) * (1 / 2 - t))) (neighbour_axis side p c) th1 off cw <-> t <= ts.
Proof.
  intros side h h1 ts Hcw Hc2 Hcc Hfar Ht.
  set (P := on_row (0, 0) th off cw (side * signum (cosD (th - w)) * (1 / 2 - t))).
  set (C1 := cosD (th1 - w)) in *. set (C2 := cosD (th - w)) in *. set (S1 := sinD (th1 - w)) in *. set (S2 := sinD (th - w)) in *.
  set (D := p / cosD c * cosD (w - c)) in *.
  assert (Hh : 0 < h) by (apply Rabs_pos_lt; exact Hc2).
  assert (side2 : side = 1 \/ side = -1) by (unfold side, side_of; destruct (Rlt_dec 0 w); tauto).
  destruct (abs_signum C2 Hc2) as (SG & _ & _). fold h in SG.
  assert (QP : fst P * cosD w - snd P * sinD w = off * S2 + side * (1 / 2 - t) * cw * h).
  { unfold P. rewrite row_coord. cbn [fst snd]. fold C2 S2. rewrite <- SG. ring. }
  assert (QA : fst (neighbour_axis side p c) * cosD w - snd (neighbour_axis side p c) * sinD w = side * D).
  { unfold neighbour_axis, shift, across, D. cbn [fst snd]. rewrite cosD_minus. ring. }
  assert (IFF : in_shadow w P (neighbour_axis side p c) th1 off cw <->
     exists x, -1/2 <= x <= 1/2 /\ side * D + off * S1 + x * cw * C1 = off * S2 + side * (1 / 2 - t) * cw * h).
  { unfold in_shadow. split.
    - intros (x & k & Hx & E). exists x. split; [exact Hx|].
      assert (L := proj1 (line_iff w P _) (ex_intro _ k E)). pose proof (row_coord (neighbour_axis side p c) th1 off cw x w) as RC.
      fold C1 S1 in RC. rewrite QA in RC. rewrite <- RC, <- QP. lra.
    - intros (x & Hx & E). exists x. pose proof (row_coord (neighbour_axis side p c) th1 off cw x w) as RC. fold C1 S1 in RC. rewrite QA in RC.
      destruct (proj2 (line_iff w P (on_row (neighbour_axis side p c) th1 off cw x))) as (k & K); [lra|]. exists k. split; [exact Hx|exact K]. }
  rewrite IFF. clear IFF QP QA P.
  assert (TS : ts * (cw * h) = cw * h / 2 + cw * h1 / 2 + side * off * (S2 - S1) - D).
  { unfold ts, D. replace 0.5 with (1 / 2) by lra. field. repeat split; lra. }
  assert (0 < cw * h) by (apply Rmult_lt_0_compat; assumption).
  assert (CW1 : Rabs C1 = h1) by reflexivity.
  split.
  - intros (x & Hx & E). apply Rmult_le_reg_r with (cw * h); [assumption|]. rewrite TS.
    assert (B : - (h1 / 2) <= side * (x * C1) <= h1 / 2).
    { assert (Rabs (side * (x * C1)) <= h1 / 2).
      { rewrite !Rabs_mult. rewrite CW1. assert (Rabs side = 1) by (destruct side2 as [->| ->]; [apply Rabs_R1|rewrite Rabs_left; lra]).
        assert (Rabs x <= 1 / 2) by (apply Rabs_le; lra). pose proof (Rabs_pos C1). rewrite H0, CW1 in *. rewrite Rmult_1_l.
        apply Rle_trans with (1 / 2 * h1); [apply Rmult_le_compat_r; lra|lra]. }
      pose proof (Rle_abs (side * (x * C1))). pose proof (Rle_abs (- (side * (x * C1)))) as N. rewrite Rabs_Ropp in N. lra. }
    assert (E' : side * (side * D + off * S1 + x * cw * C1) = side * (off * S2 + side * (1 / 2 - t) * cw * h)) by (rewrite E; reflexivity).
    assert (SS : side * side = 1) by (destruct side2 as [->| ->]; ring).
    assert (E2 : D + side * off * (S1 - S2) + cw * (side * (x * C1)) = (1 / 2 - t) * cw * h).
    { transitivity (side * side * D + side * off * (S1 - S2) + cw * (side * (x * C1))); [rewrite SS; ring|].
      transitivity (side * side * ((1 / 2 - t) * cw * h)); [lra|rewrite SS; ring]. }
    assert (cw * - (h1 / 2) <= cw * (side * (x * C1))) by (apply Rmult_le_compat_l; lra). lra.
  - intros L. apply (Rmult_le_compat_r (cw * h)) in L; [|lra]. rewrite TS in L.
    set (q := ((1 / 2 - t) * cw * h - D - side * off * (S1 - S2)) / cw).
    assert (Q : q * cw = (1 / 2 - t) * cw * h - D - side * off * (S1 - S2)) by (unfold q; field; lra).
    assert (0 <= t * (cw * h)) by (apply Rmult_le_pos; lra).
    assert (QB : - (h1 / 2) <= q <= h1 / 2).
    { split; (apply Rmult_le_reg_r with cw; [assumption|]; rewrite Q; lra). }
    destruct (Req_dec C1 0) as [Z|NZ].
    + exists 0. split; [lra|]. assert (h1 = 0) by (unfold h1; rewrite Z; apply Rabs_R0). assert (q = 0) by lra. rewrite H2 in Q. rewrite Z.
      destruct side2 as [E|E]; rewrite E in *; lra.
    + destruct (abs_signum C1 NZ) as (SG1 & SG1' & SG1'').
      exists (side * q / C1). assert (Hh1 : 0 < h1) by (apply Rabs_pos_lt; exact NZ).
      assert (AB : Rabs (side * q / C1) <= 1 / 2).
      { unfold Rdiv. rewrite !Rabs_mult, Rabs_inv. fold h1.
        assert (Rabs side = 1) by (destruct side2 as [->| ->]; [apply Rabs_R1|rewrite Rabs_left; lra]). rewrite H1, Rmult_1_l.
        apply Rmult_le_reg_r with h1; [assumption|]. rewrite Rmult_assoc, Rinv_l by lra. rewrite Rmult_1_r.
        apply Rle_trans with (h1 / 2); [apply Rabs_le; lra|lra]. }
      split. { pose proof (Rle_abs (side * q / C1)). pose proof (Rle_abs (- (side * q / C1))) as N. rewrite Rabs_Ropp in N. lra. }
      replace (side * q / C1 * cw * C1) with (side * (q * cw)) by (field; exact NZ). rewrite Q.
      assert (SS : side * side = 1) by (destruct side2 as [->| ->]; ring).
      replace (side * ((1 / 2 - t) * cw * h - D - side * off * (S1 - S2))) with
        (side * (1 / 2 - t) * cw * h - side * D - side * side * (off * (S1 - S2))) by ring. rewrite SS. ring.
Qed.
