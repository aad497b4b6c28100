(** The sky seen from a point of the ground between the rows. *)
From Coquelicot Require Import Coquelicot.
From Verif Require Import Base.Fl Base.FlFacts Base.Py Base.Trig Model.Bifacial Spec.BifacialSpec Proofs.PvsystemP Proofs.Invert Proofs.BifRow Proofs.BifShade Proofs.BifGround.
From Coq Require Import Psatz ZArith Classical.
Open Scope R_scope.

Lemma atan2_up y x : 0 < y -> 0 < Ratan2 y x < PI.
Proof.
  intros Hy. pose proof (atan2_range y x) as Rg. destruct (atan2_polar y x) as [A B]. pose proof (hyp_pos x y ltac:(right; lra)) as P.
  assert (S : 0 < sin (Ratan2 y x)) by (apply Rmult_lt_reg_l with (sqrt (x * x + y * y)); lra).
  split.
  - destruct (Rlt_dec 0 (Ratan2 y x)) as [K|K]; [exact K|]. destruct (Req_dec (Ratan2 y x) 0) as [Z|Z]; [rewrite Z, sin_0 in S; lra|].
    assert (sin (Ratan2 y x) < 0) by (apply sin_lt_0_var; lra). lra.
  - destruct (Req_dec (Ratan2 y x) PI) as [Z|Z]; [rewrite Z, sin_PI in S; lra|lra].
Qed.
(** above the ground the direction of (x, y) is left of the direction [b] when it is on the left of its ray *)
Lemma dir_le y x b : 0 < y -> 0 < b < PI -> (b <= Ratan2 y x <-> 0 <= y * cos b - x * sin b).
Proof.
  intros Hy Hb. pose proof (atan2_up y x Hy) as Rg. destruct (atan2_polar y x) as [A B]. pose proof (hyp_pos x y ltac:(right; lra)) as P.
  set (r := sqrt (x * x + y * y)) in *. set (a := Ratan2 y x) in *.
  assert (E : y * cos b - x * sin b = r * sin (a - b)) by (rewrite sin_minus, <- A, <- B; ring). rewrite E. split; intros H.
  - apply Rmult_le_pos; [lra|]. apply sin_ge_0; lra.
  - destruct (Rle_dec b a) as [K|K]; [exact K|]. exfalso. assert (sin (a - b) < 0) by (apply sin_lt_0_var; lra).
    assert (r * sin (a - b) < r * 0) by (apply Rmult_lt_compat_l; lra). lra.
Qed.
Lemma dir_ge y x b : 0 < y -> 0 < b < PI -> (Ratan2 y x <= b <-> y * cos b - x * sin b <= 0).
Proof.
  intros Hy Hb. pose proof (atan2_up y x Hy) as Rg. destruct (atan2_polar y x) as [A B]. pose proof (hyp_pos x y ltac:(right; lra)) as P.
  set (r := sqrt (x * x + y * y)) in *. set (a := Ratan2 y x) in *.
  assert (E : y * cos b - x * sin b = r * sin (a - b)) by (rewrite sin_minus, <- A, <- B; ring). rewrite E. split; intros H.
  - assert (0 <= sin (b - a)) by (apply sin_ge_0; lra). replace (a - b) with (- (b - a)) by ring. rewrite sin_neg. assert (0 <= r * sin (b - a)) by (apply Rmult_le_pos; lra). lra.
  - destruct (Rle_dec a b) as [K|K]; [exact K|]. exfalso. assert (0 < sin (a - b)) by (apply sin_gt_0; lra).
    assert (r * 0 < r * sin (a - b)) by (apply Rmult_lt_compat_l; lra). lra.
Qed.
Lemma dir_mono y x x' : 0 < y -> x <= x' -> Ratan2 y x' <= Ratan2 y x.
Proof.
  intros Hy H. pose proof (atan2_up y x' Hy) as Rg. apply dir_le; [exact Hy|exact Rg|].
  destruct (atan2_polar y x') as [A B]. pose proof (hyp_pos x' y ltac:(right; lra)) as P.
  assert (Z : y * cos (Ratan2 y x') - x' * sin (Ratan2 y x') = 0).
  { set (r := sqrt (x' * x' + y * y)) in *. apply Rmult_eq_reg_l with r; [|lra]. replace (r * (y * cos (Ratan2 y x') - x' * sin (Ratan2 y x'))) with (y * (r * cos (Ratan2 y x')) - x' * (r * sin (Ratan2 y x'))) by ring. rewrite A, B. ring. }
  assert (0 <= sin (Ratan2 y x')) by (apply sin_ge_0; lra). assert (0 <= (x' - x) * sin (Ratan2 y x')) by (apply Rmult_le_pos; lra). lra.
Qed.

Lemma sky_gaps_cons x y r : sky_gaps (x :: y :: r) = fmax (fcos (snd y) - fcos (fst x))%fl #0 :: sky_gaps (y :: r).
Proof. reflexivity. Qed.
(** the directions of the two edges of row [k] seen from [s], in order *)
Section Sky.
  Context (th w h p s : R) (Hp : 0 < p) (Hw : 0 <= w) (Hh : w / 2 * Rabs (sinD th) < h).
  Let e1 (k : R) := Ratan2 (h + w / 2 * sinD th) (k * p - s + w / 2 * cosD th).
  Let e2 (k : R) := Ratan2 (h - w / 2 * sinD th) (k * p - s - w / 2 * cosD th).
  Definition lo_dir (k : R) := Rmin (e1 k) (e2 k).
  Definition hi_dir (k : R) := Rmax (e1 k) (e2 k).
  Lemma up1 : 0 < h + w / 2 * sinD th.
  Proof. pose proof (Rle_abs (- sinD th)) as A. rewrite Rabs_Ropp in A. assert (0 <= w / 2 * (Rabs (sinD th) + sinD th)) by (apply Rmult_le_pos; lra). lra. Qed.
  Lemma up2 : 0 < h - w / 2 * sinD th.
  Proof. pose proof (Rle_abs (sinD th)) as A. assert (0 <= w / 2 * (Rabs (sinD th) - sinD th)) by (apply Rmult_le_pos; lra). lra. Qed.
  Lemma lo_dir_range k : 0 < lo_dir k < PI.
  Proof. unfold lo_dir, e1, e2. pose proof (atan2_up _ (k * p - s + w / 2 * cosD th) up1). pose proof (atan2_up _ (k * p - s - w / 2 * cosD th) up2). unfold Rmin. destruct Rle_dec; lra. Qed.
  Lemma hi_dir_range k : 0 < hi_dir k < PI.
  Proof. unfold hi_dir, e1, e2. pose proof (atan2_up _ (k * p - s + w / 2 * cosD th) up1). pose proof (atan2_up _ (k * p - s - w / 2 * cosD th) up2). unfold Rmax. destruct Rle_dec; lra. Qed.
  Lemma lo_hi k : lo_dir k <= hi_dir k. Proof. unfold lo_dir, hi_dir, Rmin, Rmax. repeat destruct Rle_dec; lra. Qed.
  Lemma dirs_mono j k : j <= k -> lo_dir k <= lo_dir j /\ hi_dir k <= hi_dir j.
  Proof.
    intros H. assert (j * p <= k * p) by (apply Rmult_le_compat_r; lra).
    assert (A : e1 k <= e1 j) by (apply dir_mono; [apply up1|lra]). assert (B : e2 k <= e2 j) by (apply dir_mono; [apply up2|lra]).
    unfold lo_dir, hi_dir, Rmin, Rmax. repeat destruct Rle_dec; lra.
  Qed.
  (** row [k] hides exactly the directions between its edges *)
  Lemma hides_iff k a : 0 < a < PI -> (hides th w h p s k a <-> lo_dir (IZR k) <= a <= hi_dir (IZR k)).
  Proof.
    intros Ha. unfold hides, sheds_point. cbn [fst snd]. set (X := IZR k * p - s). set (C := w * cosD th). set (S := w * sinD th).
    (* signed distance of the point t from the ray *)
    set (D := fun t => (h + t * S) * cos a - (X + t * C) * sin a).
    assert (D1 : a <= e1 (IZR k) <-> 0 <= D (/ 2)).
    { unfold e1. rewrite dir_le by (apply up1 || exact Ha). fold X. unfold D, S, C. replace (h + w / 2 * sinD th) with (h + / 2 * (w * sinD th)) by lra. replace (X + w / 2 * cosD th) with (X + / 2 * (w * cosD th)) by lra. tauto. }
    assert (D1' : e1 (IZR k) <= a <-> D (/ 2) <= 0).
    { unfold e1. rewrite dir_ge by (apply up1 || exact Ha). fold X. unfold D, S, C. replace (h + w / 2 * sinD th) with (h + / 2 * (w * sinD th)) by lra. replace (X + w / 2 * cosD th) with (X + / 2 * (w * cosD th)) by lra. tauto. }
    assert (D2 : a <= e2 (IZR k) <-> 0 <= D (- / 2)).
    { unfold e2. rewrite dir_le by (apply up2 || exact Ha). fold X. unfold D, S, C. replace (h - w / 2 * sinD th) with (h + - / 2 * (w * sinD th)) by lra. replace (X - w / 2 * cosD th) with (X + - / 2 * (w * cosD th)) by lra. tauto. }
    assert (D2' : e2 (IZR k) <= a <-> D (- / 2) <= 0).
    { unfold e2. rewrite dir_ge by (apply up2 || exact Ha). fold X. unfold D, S, C. replace (h - w / 2 * sinD th) with (h + - / 2 * (w * sinD th)) by lra. replace (X - w / 2 * cosD th) with (X + - / 2 * (w * cosD th)) by lra. tauto. }
    assert (BT : lo_dir (IZR k) <= a <= hi_dir (IZR k) <-> (D (/ 2) <= 0 <= D (- / 2) \/ D (- / 2) <= 0 <= D (/ 2))).
    { unfold lo_dir, hi_dir. unfold Rmin, Rmax. destruct Rle_dec; lra. }
    rewrite BT. assert (Sa : 0 < sin a) by (apply sin_gt_0; lra). assert (SC := sin2_cos2 a). unfold Rsqr in SC.
    assert (Lin : forall t, D t = (/ 2 - t) * D (- / 2) + (/ 2 + t) * D (/ 2)) by (intros; unfold D; lra || (unfold D; field)).
    split.
    - intros (t & r & Ht & Hr & E1 & E2).
      assert (Z : D t = 0). { unfold D. replace (X + t * C) with (r * cos a) by (unfold X, C; lra). replace (h + t * S) with (r * sin a) by (unfold S; lra). ring. }
      rewrite Lin in Z. destruct (Rle_dec 0 (D (- / 2))) as [K|K].
      + destruct (Rle_dec (D (/ 2)) 0) as [K2|K2]; [left; lra|]. 
        assert (0 <= (/ 2 - t) * D (- / 2)) by (apply Rmult_le_pos; lra). assert (0 <= (/ 2 + t) * D (/ 2)) by (apply Rmult_le_pos; lra).
        assert ((/ 2 + t) = 0) by (apply Rmult_eq_reg_r with (D (/ 2)); lra). assert (t = - / 2) by lra. subst t. right. lra.
      + destruct (Rle_dec 0 (D (/ 2))) as [K2|K2]; [right; lra|].
        assert (0 <= (/ 2 - t) * - D (- / 2)) by (apply Rmult_le_pos; lra). assert (0 <= (/ 2 + t) * - D (/ 2)) by (apply Rmult_le_pos; lra).
        assert ((/ 2 - t) = 0) by (apply Rmult_eq_reg_r with (- D (- / 2)); lra). assert ((/ 2 + t) = 0) by (apply Rmult_eq_reg_r with (- D (/ 2)); lra). lra.
    - intros H.
      assert (exists t, -1/2 <= t <= 1/2 /\ D t = 0) as (t & Ht & Z).
      { destruct (Req_dec (D (- / 2)) (D (/ 2))) as [Q|Q].
        - exists 0. split; [lra|]. rewrite Lin. lra.
        - exists ((D (- / 2) + D (/ 2)) / (2 * (D (- / 2) - D (/ 2)))). split.
          + assert (N : D (- / 2) - D (/ 2) <> 0) by lra. destruct H as [H|H].
            * set (d := D (- / 2) - D (/ 2)). assert (0 < d) by (unfold d in *; lra).
              split; [apply Rmult_le_reg_r with (2 * d)|apply Rmult_le_reg_r with (2 * d)]; try lra;
              (replace ((D (- / 2) + D (/ 2)) / (2 * d) * (2 * d)) with (D (- / 2) + D (/ 2)) by (field; lra)); unfold d; lra.
            * set (d := D (/ 2) - D (- / 2)). replace ((D (- / 2) + D (/ 2)) / (2 * (D (- / 2) - D (/ 2)))) with (- (D (- / 2) + D (/ 2)) / (2 * d)) by (unfold d; field; lra).
              assert (0 < d) by (unfold d; lra).
              split; [apply Rmult_le_reg_r with (2 * d)|apply Rmult_le_reg_r with (2 * d)]; try lra;
              (replace (- (D (- / 2) + D (/ 2)) / (2 * d) * (2 * d)) with (- (D (- / 2) + D (/ 2))) by (field; lra)); unfold d; lra.
          + rewrite Lin. field. lra. }
      exists t, ((h + t * S) / sin a). 
      assert (U : 0 < h + t * S). { pose proof up1. pose proof up2. assert (E : h + t * S = (/ 2 - t) * (h - w / 2 * sinD th) + (/ 2 + t) * (h + w / 2 * sinD th)) by (unfold S; lra). rewrite E.
        destruct (Req_dec t (/ 2)) as [->|Nt]; [lra|]. assert (0 < (/ 2 - t) * (h - w / 2 * sinD th)) by (apply Rmult_lt_0_compat; lra). assert (0 <= (/ 2 + t) * (h + w / 2 * sinD th)) by (apply Rmult_le_pos; lra). lra. }
      split; [exact Ht|]. split; [apply Rdiv_lt_0_compat; assumption|]. split.
      + unfold D in Z. assert (E : (X + t * C) = (h + t * S) * cos a / sin a) by (apply Rmult_eq_reg_r with (sin a); [|lra]; unfold Rdiv; rewrite Rmult_assoc, Rinv_l by lra; lra).
        unfold X, C in E. unfold Rdiv in *. lra.
      + unfold S. field. lra.
  Qed.

  (** half the integral of the sine over the directions that none of the rows hides *)
  Lemma gap_int (f : R -> R) a b m : a <= b -> a <= m -> (forall x, a < x < b -> x <= m -> f x = 0) -> (forall x, a < x < b -> m < x -> f x = / 2 * sin x) ->
    0 < a -> b < PI -> m < PI -> is_RInt f a b (/ 2 * Rmax (cos m - cos b) 0).
  Proof.
    intros Hab Ham F0 F1 Ha Hb Hm. destruct (Rle_dec m b) as [K|K].
    - replace (/ 2 * Rmax (cos m - cos b) 0) with (plus (0 * (m - a)) (/ 2 * (cos m - cos b))).
      2:{ rewrite Rmax_left; [unfold plus; cbn; ring|]. pose proof (cos_decr_1 m b). destruct (Req_dec m b) as [->|]; [lra|]. pose proof (cos_decreasing_1 m b); lra. }
      apply (is_RInt_Chasles (V := R_NormedModule) _ a m b).
      + apply (is_RInt_ext (fun _ => 0)); [|apply const_int]. rewrite Rmin_left, Rmax_right by lra. intros x Hx. symmetry. apply F0; lra.
      + apply (is_RInt_ext (fun x => / 2 * sin x)); [|apply sin_int]. rewrite Rmin_left, Rmax_right by lra. intros x Hx. symmetry. apply F1; lra.
    - replace (/ 2 * Rmax (cos m - cos b) 0) with (0 * (b - a)). 2:{ rewrite Rmax_right; [ring|]. pose proof (cos_decreasing_1 b m). lra. }
      apply (is_RInt_ext (fun _ => 0)); [|apply const_int]. rewrite Rmin_left, Rmax_right by lra. intros x Hx. symmetry. apply F0; lra.
  Qed.
  Lemma sky_rows n : forall k (f : R -> R),
    (forall a, lo_dir (IZR (k + Z.of_nat n)) < a < lo_dir (IZR k) -> (exists j, (k <= j <= k + Z.of_nat n)%Z /\ hides th w h p s j a) -> f a = 0) ->
    (forall a, lo_dir (IZR (k + Z.of_nat n)) < a < lo_dir (IZR k) -> ~ (exists j, (k <= j <= k + Z.of_nat n)%Z /\ hides th w h p s j a) -> f a = / 2 * sin a) ->
    exists v, fsum (sky_gaps (map (fun j => (#(lo_dir (IZR j)), #(hi_dir (IZR j)))) (zrange k (S n)))) = #v /\
      is_RInt f (lo_dir (IZR (k + Z.of_nat n))) (lo_dir (IZR k)) (/ 2 * v).
  Proof.
    induction n as [|n IH]; intros k f F0 F1.
    - exists 0. split; [reflexivity|]. replace (k + Z.of_nat 0)%Z with k by lia. rewrite Rmult_0_r. apply (is_RInt_point (V := R_NormedModule)).
    - rewrite zrange_cons, zrange_cons. cbn [map]. rewrite sky_gaps_cons, Invert.fsum_cons. cbn [fst snd]. rewrite !fcos_fin, fsub_fin, fmax_fin.
      replace (k + Z.of_nat (S n))%Z with (k + 1 + Z.of_nat n)%Z in * by lia.
      assert (M1 := dirs_mono (IZR k) (IZR (k + 1)) (IZR_le k (k + 1) ltac:(lia))). assert (M2 := dirs_mono (IZR (k + 1)) (IZR (k + 1 + Z.of_nat n)) (IZR_le (k + 1) (k + 1 + Z.of_nat n) ltac:(lia))).
      assert (RL := lo_dir_range (IZR (k + 1 + Z.of_nat n))). assert (Rk := lo_dir_range (IZR k)).
      destruct (IH (k + 1)%Z f) as (v & Ev & Iv).
      { intros a Ha (j & Hj & Bj). apply F0; [lra|]. exists j. split; [lia|exact Bj]. }
      { intros a Ha N. apply F1; [lra|]. intros (j & Hj & Bj). apply N. destruct (Z.eq_dec j k) as [->|].
        - exfalso. apply hides_iff in Bj; lra.
        - exists j. split; [lia|exact Bj]. }
      rewrite zrange_cons in Ev. cbn [map] in Ev.
      exists (Rmax (cos (hi_dir (IZR (k + 1))) - cos (lo_dir (IZR k))) 0 + v). split.
      + rewrite Ev, fadd_fin. reflexivity.
      + replace (/ 2 * (Rmax (cos (hi_dir (IZR (k + 1))) - cos (lo_dir (IZR k))) 0 + v)) with (plus (/ 2 * v) (/ 2 * Rmax (cos (hi_dir (IZR (k + 1))) - cos (lo_dir (IZR k))) 0)) by (unfold plus; cbn; ring).
        apply (is_RInt_Chasles (V := R_NormedModule) _ _ (lo_dir (IZR (k + 1))) _); [exact Iv|].
        pose proof (lo_hi (IZR (k + 1))) as LH. pose proof (lo_dir_range (IZR (k + 1))) as R1. pose proof (hi_dir_range (IZR (k + 1))) as R2.
        apply gap_int; try lra.
        * intros a Ha Hm. apply F0; [lra|]. exists (k + 1)%Z. split; [lia|]. apply hides_iff; lra.
        * intros a Ha Hm. apply F1; [lra|]. intros (j & Hj & Bj). apply hides_iff in Bj; [|lra]. destruct (Z.eq_dec j k) as [->|]; [lra|].
          assert (M := dirs_mono (IZR (k + 1)) (IZR j) (IZR_le (k + 1) j ltac:(lia))). lra.
  Qed.
End Sky.

Lemma row_angles_fin th g x p h k : row_angles #th #g #x #p #h #k = (#(lo_dir th (g * p) h p (x * p) k), #(hi_dir th (g * p) h p (x * p) k)).
Proof.
  unfold row_angles, lo_dir, hi_dir. rewrite sind_fin, cosd_fin. rewrite !fmul_fin, !fsub_fin, fdiv_fin by lra. repeat rewrite ?fmul_fin, ?fadd_fin, ?fsub_fin, ?fatan2_fin, ?fmin_fin, ?fmax_fin.
  replace ((k - x) * p) with (k * p - x * p) by ring. reflexivity.
Qed.
Lemma ground_sky_view th g x p h (N : nat) (f : R -> R) : 0 < p -> 0 <= g -> g * p / 2 * Rabs (sinD th) < h ->
  let first := (- Z.of_nat N)%Z in let last := (Z.of_nat N + 1)%Z in
  (forall a, (exists j, (first <= j <= last)%Z /\ hides th (g * p) h p (x * p) j a) -> f a = 0) ->
  (forall a, ~ (exists j, (first <= j <= last)%Z /\ hides th (g * p) h p (x * p) j a) -> f a = / 2 * sin a) ->
  exists v, vf_ground_sky_2d #th #g #x #p #h N = #v /\
    is_RInt f (lo_dir th (g * p) h p (x * p) (IZR last)) (lo_dir th (g * p) h p (x * p) (IZR first)) v.
Proof.
  intros Hp Hg Hh first last F0 F1. unfold vf_ground_sky_2d. rewrite arange_z.
  rewrite (map_ext _ (fun j => (#(lo_dir th (g * p) h p (x * p) (IZR j)), #(hi_dir th (g * p) h p (x * p) (IZR j))))) by (intros; apply row_angles_fin).
  replace (2 * N + 2)%nat with (S (2 * N + 1)) by lia. fold first.
  destruct (sky_rows th (g * p) h p (x * p) Hp ltac:(apply Rmult_le_pos; lra) Hh (2 * N + 1) first f) as (v & Ev & Iv).
  - intros a _ (j & Hj & B). apply F0. exists j. split; [unfold first, last in *; lia|exact B].
  - intros a _ B. apply F1. intros (j & Hj & C). apply B. exists j. split; [unfold first, last in *; lia|exact C].
  - rewrite Ev. rewrite fdiv_fin by lra. exists (/ 2 * v). split; [f_equal; lra|]. replace (first + Z.of_nat (2 * N + 1))%Z with last in Iv by (unfold first, last; lia). exact Iv.
Qed.
