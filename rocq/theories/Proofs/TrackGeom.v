(** Lemmas: tracker geometry (rotation, orientation, projected zenith). *)
From Verif Require Import Base.Fl Base.FlFacts Base.Trig Spec.Geometry Spec.TrackerGeometry
  Model.Shading Model.Tracking Model.Irradiance Proofs.IrradGeom.
From Coq Require Import Psatz.
Open Scope R_scope.

(** collector normal in the orthonormal frame (rest normal, lateral) *)
Lemma collector_normal_eq T A th :
  collector_normal T A th =
  vadd (vscale (cosD th) (rest_normal T A)) (vscale (sinD th) (lateral A)).
Proof.
  unfold collector_normal, rotate, rest_normal, axis_dir, lateral, dirvec, cross, dot, vadd, vscale; simpl.
  pose proof (sc2D T) as H1. pose proof (sc2D A) as H2.
  set (st := sinD T) in *; set (ct := cosD T) in *; set (sa := sinD A) in *; set (ca := cosD A) in *;
  set (s := sinD th); set (c := cosD th).
  assert (D : ct * sa * (st * sa) + ct * ca * (st * ca) + - st * ct = 0).
  { replace (ct * sa * (st * sa) + ct * ca * (st * ca) + - st * ct)
      with (ct * st * (sa * sa + ca * ca - 1)) by ring. rewrite H2. ring. }
  rewrite D. f_equal.
  - replace (ct * ca * ct - - st * (st * ca)) with ((st * st + ct * ct) * ca) by ring. rewrite H1. ring.
  - replace (- st * (st * sa) - ct * sa * ct) with (- (st * st + ct * ct) * sa) by ring. rewrite H1. ring.
  - ring.
Qed.

Lemma norm_collector T A th : norm2 (collector_normal T A th) = 1.
Proof.
  rewrite collector_normal_eq. unfold norm2, dot, vadd, vscale, rest_normal, lateral, dirvec; simpl.
  pose proof (sc2D T) as H1. pose proof (sc2D A) as H2. pose proof (sc2D th) as H3.
  set (st := sinD T) in *; set (ct := cosD T) in *; set (sa := sinD A) in *; set (ca := cosD A) in *;
  set (s := sinD th) in *; set (c := cosD th) in *.
  replace ((c * (st * sa) + s * ca) * (c * (st * sa) + s * ca) +
           (c * (st * ca) + s * - sa) * (c * (st * ca) + s * - sa) + (c * ct + s * 0) * (c * ct + s * 0))
    with (c * c * (st * st * (sa * sa + ca * ca) + ct * ct) + s * s * (sa * sa + ca * ca)) by ring.
  rewrite H2, Rmult_1_r, H1. lra.
Qed.

(** components of a vector in the tracker frame *)
Lemma frame_expand T A v :
  v = vadd (vadd (vscale (dot v (axis_dir T A)) (axis_dir T A))
                 (vscale (dot v (rest_normal T A)) (rest_normal T A)))
           (vscale (dot v (lateral A)) (lateral A)).
Proof.
  destruct v as [x y z]. unfold dot, vadd, vscale, axis_dir, rest_normal, lateral, dirvec; simpl.
  pose proof (sc2D T) as H1. pose proof (sc2D A) as H2.
  set (st := sinD T) in *; set (ct := cosD T) in *; set (sa := sinD A) in *; set (ca := cosD A) in *.
  assert (S1 : st * st = 1 - ct * ct) by lra. assert (S2 : sa * sa = 1 - ca * ca) by lra.
  f_equal.
  - transitivity (x * ((st*st + ct*ct) * (sa*sa) + ca * ca) + y * sa * ca * ((st*st+ct*ct) - 1)).
    + rewrite H1. replace (1 * (sa * sa) + ca * ca) with 1 by lra. ring.
    + ring.
  - transitivity (y * ((st*st + ct*ct) * (ca*ca) + sa * sa) + x * sa * ca * ((st*st+ct*ct) - 1)).
    + rewrite H1. replace (1 * (ca * ca) + sa * sa) with 1 by lra. ring.
    + ring.
  - transitivity (z * (st * st + ct * ct)); [rewrite H1; ring|ring].
Qed.

Lemma frame_norm T A v :
  norm2 v = dot v (axis_dir T A) * dot v (axis_dir T A)
            + dot v (rest_normal T A) * dot v (rest_normal T A)
            + dot v (lateral A) * dot v (lateral A).
Proof.
  unfold norm2 at 1. rewrite (frame_expand T A v) at 2.
  unfold dot, vadd, vscale; destruct v; simpl; ring.
Qed.

(** ** projected solar zenith angle *)
Definition psz (z s T A : R) : R :=
  Rdeg (Ratan2 (dot (dirvec z s) (lateral A)) (dot (dirvec z s) (rest_normal T A))).
Lemma psz_fin z s T A : projected_solar_zenith_angle #z #s #T #A = #(psz z s T A).
Proof.
  unfold projected_solar_zenith_angle. fin. unfold psz. f_equal. f_equal.
  unfold dot, dirvec, lateral, rest_normal; simpl. f_equal; ring.
Qed.
Lemma psz_range z s T A : -180 < psz z s T A <= 180.
Proof.
  unfold psz. pose proof (atan2_range (dot (dirvec z s) (lateral A)) (dot (dirvec z s) (rest_normal T A))) as [H1 H2].
  split.
  - replace (-180) with (- (180)) by lra. rewrite <- Rdeg_PI, <- Rdeg_opp. apply Rdeg_lt, H1.
  - rewrite <- Rdeg_PI. apply Rdeg_le, H2.
Qed.
Lemma psz_polar z s T A :
  let k := dot (dirvec z s) (axis_dir T A) in
  let r := sqrt (1 - k * k) in
  r * cosD (psz z s T A) = dot (dirvec z s) (rest_normal T A) /\
  r * sinD (psz z s T A) = dot (dirvec z s) (lateral A).
Proof.
  intros k r. unfold psz. rewrite cosD_deg, sinD_deg.
  replace r with (sqrt (dot (dirvec z s) (rest_normal T A) * dot (dirvec z s) (rest_normal T A)
                        + dot (dirvec z s) (lateral A) * dot (dirvec z s) (lateral A))).
  - apply atan2_polar.
  - unfold r, k. f_equal. pose proof (frame_norm T A (dirvec z s)) as H. rewrite dirvec_unit in H. lra.
Qed.
Lemma psz_decompose z s T A :
  let k := dot (dirvec z s) (axis_dir T A) in
  dirvec z s = vadd (vscale k (axis_dir T A))
                    (vscale (sqrt (1 - k * k)) (collector_normal T A (psz z s T A))).
Proof.
  intros k. destruct (psz_polar z s T A) as [H1 H2]. fold k in H1, H2.
  rewrite collector_normal_eq. rewrite (frame_expand T A (dirvec z s)) at 1. fold k.
  rewrite <- H1, <- H2. unfold vadd, vscale; simpl. f_equal; ring.
Qed.
(** the angle of incidence as a function of rotation *)
Lemma dot_collector_sun z s T A th :
  let k := dot (dirvec z s) (axis_dir T A) in
  dot (collector_normal T A th) (dirvec z s) = sqrt (1 - k * k) * cosD (th - psz z s T A).
Proof.
  intros k. destruct (psz_polar z s T A) as [H1 H2]. fold k in H1, H2.
  rewrite cosD_minus.
  transitivity (cosD th * dot (dirvec z s) (rest_normal T A) + sinD th * dot (dirvec z s) (lateral A)).
  - rewrite collector_normal_eq. unfold dot, vadd, vscale; simpl. ring.
  - rewrite <- H1, <- H2. ring.
Qed.

(** ** surface orientation *)
Lemma unit_normal_fin A T th :
  unit_normal #A #T #th =
  (#(east (collector_normal T A th)), #(north (collector_normal T A th)), #(up (collector_normal T A th))).
Proof.
  rewrite collector_normal_eq. unfold unit_normal. fin. rewrite !cosD_opp, !sinD_opp.
  unfold vadd, vscale, rest_normal, lateral, dirvec; simpl. repeat apply f_equal2; f_equal; ring.
Qed.
Lemma surface_tilt_up T A th : cosD th * cosD T = up (collector_normal T A th).
Proof. rewrite collector_normal_eq. unfold vadd, vscale, rest_normal, lateral, dirvec; simpl. ring. Qed.
Lemma unit_up_bound v : norm2 v = 1 -> -1 <= up v <= 1.
Proof.
  intros H. unfold norm2, dot in H. pose proof (Rle_0_sqr (east v)) as H1. pose proof (Rle_0_sqr (north v)) as H2.
  unfold Rsqr in *. nra.
Qed.
Definition surf_tilt (T A th : R) := Rdeg (acos (up (collector_normal T A th))).
Definition surf_az (T A th : R) :=
  let n := collector_normal T A th in
  Rmodp (if Reqb (surf_tilt T A th) 0 then A - 90 else Rdeg (Ratan2 (east n) (north n))) 360.
Lemma cso_fin T A th :
  calc_surface_orientation #th #T #A = (#(surf_tilt T A th), #(surf_az T A th)).
Proof.
  pose proof (unit_up_bound _ (norm_collector T A th)) as Hb.
  unfold calc_surface_orientation. rewrite unit_normal_fin. fin.
  rewrite (surface_tilt_up T A th). rewrite acosd_fin by exact Hb.
  fold (surf_tilt T A th). rewrite feqb_fin. unfold where_, surf_az.
  destruct (Reqb (surf_tilt T A th) 0); rewrite fmod_fin by lra; reflexivity.
Qed.
Lemma surf_tilt_range T A th : 0 <= surf_tilt T A th <= 180.
Proof. apply acos_deg_range. apply unit_up_bound, norm_collector. Qed.
Lemma surf_az_range T A th : 0 <= surf_az T A th < 360.
Proof. unfold surf_az. apply Rmodp_spec. lra. Qed.
Lemma surf_dirvec T A th : dirvec (surf_tilt T A th) (surf_az T A th) = collector_normal T A th.
Proof.
  set (n := collector_normal T A th).
  assert (Hn : norm2 n = 1) by apply norm_collector.
  pose proof (unit_up_bound _ Hn) as Hb.
  unfold dirvec, surf_az. rewrite cosD_mod, sinD_mod. fold n.
  assert (Hc : cosD (surf_tilt T A th) = up n) by (apply cosD_acos; exact Hb).
  assert (Hs : sinD (surf_tilt T A th) = sqrt (north n * north n + east n * east n)).
  { unfold surf_tilt. fold n. rewrite sinD_deg, sin_acos_sqrt by exact Hb. f_equal.
    unfold norm2, dot in Hn. lra. }
  destruct (Reqb_spec (surf_tilt T A th) 0) as [E|E].
  - rewrite E in Hc, Hs |- *. rewrite cosD_0 in Hc. rewrite sinD_0 in Hs |- *. rewrite cosD_0.
    unfold norm2, dot in Hn. rewrite <- Hc in Hn.
    pose proof (Rle_0_sqr (east n)) as P1. pose proof (Rle_0_sqr (north n)) as P2. unfold Rsqr in *.
    assert (Z1 : east n * east n = 0) by lra. assert (Z2 : north n * north n = 0) by lra.
    assert (east n = 0) by nra. assert (north n = 0) by nra.
    rewrite !Rmult_0_l. destruct n as [e' n' u']; simpl in *. congruence.
  - rewrite cosD_deg, sinD_deg, Hc, Hs.
    destruct (atan2_polar (east n) (north n)) as [A1 A2].
    rewrite A1, A2. destruct n; reflexivity.
Qed.
