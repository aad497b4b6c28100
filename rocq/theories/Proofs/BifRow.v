(** View factors from a row to the sky and to the ground in front. *)
From Coquelicot Require Import Coquelicot.
From Verif Require Import Base.Fl Base.FlFacts Base.Py Base.Trig Model.Bifacial Spec.BifacialSpec Proofs.PvsystemP.
From Coq Require Import Psatz.
Open Scope R_scope.

(** squared distance from the row's point at depth [y] below the edge to the edge in front *)
Definition sq (a c d y : R) : R := a * a + 2 * d * a * c * y + y * y.
Lemma sc1 t : sinD t * sinD t + cosD t * cosD t = 1.
Proof. pose proof (sin2_cos2 (Rrad t)) as H. unfold Rsqr in H. exact H. Qed.
Lemma sq_pos a c s d y : 0 < a -> s * s + c * c = 1 -> d * d = 1 -> (y < a /\ 0 <= y) \/ s <> 0 -> 0 < sq a c d y.
Proof.
  intros Ha SC Hd H. unfold sq.
  assert (E : a * a + 2 * d * a * c * y + y * y = (a * c * d + y) * (a * c * d + y) + (a * a) * (s * s)).
  { replace (s * s) with (1 - c * c) by lra. replace ((a * c * d + y) * (a * c * d + y)) with (a * a * (c * c) * (d * d) + 2 * d * a * c * y + y * y) by ring. rewrite Hd. ring. }
  pose proof (Rle_0_sqr (a * c * d + y)) as Q. unfold Rsqr in Q. pose proof (Rle_0_sqr s) as S. unfold Rsqr in S.
  assert (A : 0 < a * a) by (apply Rmult_lt_0_compat; lra).
  destruct (Req_dec s 0) as [Z|Z].
  - destruct H as [[H1 H2]|H]; [|contradiction]. subst s.
    assert (C : -1 <= c * d <= 1). { assert ((c * d) * (c * d) = 1) by (replace ((c * d) * (c * d)) with (c * c * (d * d)) by ring; rewrite Hd; lra). nra. }
    rewrite E. assert (Y : a * c * d + y <> 0).
    { intros Z. assert (Ey : y = - (a * (c * d))) by lra. assert ((c * d) * (c * d) = 1) by (replace ((c * d) * (c * d)) with (c * c * (d * d)) by ring; rewrite Hd; lra).
      assert (c * d <> 1) by (intros K; rewrite K in Ey; lra). assert (c * d <> -1) by (intros K; rewrite K in Ey; lra). nra. }
    apply Rsqr_pos_lt in Y. unfold Rsqr in Y. nra.
  - apply Rsqr_pos_lt in Z. unfold Rsqr in Z. rewrite E. assert (0 < a * a * (s * s)) by (apply Rmult_lt_0_compat; lra). lra.
Qed.

Lemma vf_poly_fin t g x d : g <> 0 -> 0 <= sq (1 / g) (cosD t) d x -> vf_poly #t #g #x #d = #(sqrt (sq (1 / g) (cosD t) d x)).
Proof.
  intros Hg H. unfold vf_poly. rewrite fdiv_fin by lra. rewrite cosd_fin. rewrite !fmul_fin, !fadd_fin. rewrite fsqrt_fin; [reflexivity|exact H].
Qed.
Lemma gcr_inv g : 0 < g -> 0 < 1 / g. Proof. intros H. apply Rdiv_lt_0_compat; lra. Qed.
Lemma gcr_inv1 g : 0 < g < 1 -> 1 < 1 / g.
Proof. intros H. apply Rmult_lt_reg_r with g; [lra|]. unfold Rdiv. rewrite Rmult_assoc, Rinv_l by lra. lra. Qed.

(** the rows do not touch *)
Definition apart (t g : R) : Prop := 0 < g < 1 \/ (0 < g /\ sinD t <> 0).
Lemma apart_pos t g : apart t g -> 0 < g. Proof. intros [H|H]; lra. Qed.
Lemma apart_sq t g d y : apart t g -> 0 <= y <= 1 -> d * d = 1 -> 0 < sq (1 / g) (cosD t) d y.
Proof.
  intros H Hy Hd. apply (sq_pos _ _ (sinD t)); [apply gcr_inv, (apart_pos t), H|apply sc1|exact Hd|].
  destruct H as [H|[_ H]]; [left; pose proof (gcr_inv1 g H); lra|right; exact H].
Qed.
Lemma vf_row_sky_fin t g x : apart t g -> 0 <= x <= 1 ->
  vf_row_sky_2d #t #g #x = #(/ 2 * (1 + (1 / g * cosD t - (1 - x)) / sqrt (sq (1 / g) (cosD t) (-1) (1 - x)))).
Proof.
  intros H Hx. pose proof (apart_pos _ _ H) as Hg. assert (P := apart_sq t g (-1) (1 - x) H ltac:(lra) ltac:(lra)).
  unfold vf_row_sky_2d. rewrite fsub_fin, vf_poly_fin by lra. rewrite fdiv_fin by lra. rewrite cosd_fin, fmul_fin, fsub_fin.
  assert (sqrt (sq (1 / g) (cosD t) (-1) (1 - x)) <> 0) by (apply Rgt_not_eq, sqrt_lt_R0, P).
  rewrite fdiv_fin by assumption. rewrite fadd_fin, fmul_fin. f_equal. lra.
Qed.
Lemma vf_row_ground_fin t g x : apart t g -> 0 <= x <= 1 ->
  vf_row_ground_2d #t #g #x = #(/ 2 * (1 - (1 / g * cosD t + x) / sqrt (sq (1 / g) (cosD t) 1 x))).
Proof.
  intros H Hx. pose proof (apart_pos _ _ H) as Hg. assert (P := apart_sq t g 1 x H Hx ltac:(lra)).
  unfold vf_row_ground_2d. rewrite vf_poly_fin by lra. rewrite fdiv_fin by lra. rewrite cosd_fin, fmul_fin, fadd_fin.
  assert (sqrt (sq (1 / g) (cosD t) 1 x) <> 0) by (apply Rgt_not_eq, sqrt_lt_R0, P).
  rewrite fdiv_fin by assumption. rewrite fsub_fin, fmul_fin. f_equal. lra.
Qed.

(** polar coordinates around a point of the row *)
Lemma polar_exists u v : 0 <= v -> (u <> 0 \/ v <> 0) ->
  exists a, 0 <= a <= PI /\ cos a = u / sqrt (u * u + v * v) /\ u = sqrt (u * u + v * v) * cos a /\ v = sqrt (u * u + v * v) * sin a.
Proof.
  intros Hv H. pose proof (hyp_pos u v H) as P. destruct (atan2_polar v u) as [A B]. pose proof (atan2_range v u) as Rg.
  exists (Ratan2 v u). split.
  - split; [|lra]. destruct (Rle_lt_dec 0 (Ratan2 v u)) as [K|K]; [exact K|].
    assert (sin (Ratan2 v u) < 0) by (apply sin_lt_0_var; lra). nra.
  - split; [|split; lra]. rewrite <- A at 2. field. lra.
Qed.
Lemma sin_int a b : is_RInt (fun x => / 2 * sin x) a b (/ 2 * (cos a - cos b)).
Proof.
  replace (/ 2 * (cos a - cos b)) with (minus (- / 2 * cos b) (- / 2 * cos a)) by (unfold minus, plus, opp; cbn; lra).
  apply (is_RInt_derive (fun x => - / 2 * cos x)).
  - intros x _. auto_derive; [exact I|]. lra.
  - intros x _. apply (ex_derive_continuous (V := R_NormedModule)). auto_derive. exact I.
Qed.

Lemma seen_polar t p q a :
  seen_at t p q a <-> exists r, 0 < r /\
    (fst q - fst p) * cosD t + (snd q - snd p) * sinD t = r * cos a /\
    (snd q - snd p) * cosD t - (fst q - fst p) * sinD t = r * sin a.
Proof.
  pose proof (sc1 t) as SC. unfold seen_at, upslope, outward. cbn [fst snd]. split; intros (r & Hr & E1 & E2); exists r; (split; [exact Hr|]).
  - rewrite E1, E2. split.
    + replace (r * cos a) with (r * cos a * (sinD t * sinD t + cosD t * cosD t)) by (rewrite SC; ring). ring.
    + replace (r * sin a) with (r * sin a * (sinD t * sinD t + cosD t * cosD t)) by (rewrite SC; ring). ring.
  - set (X := fst q - fst p) in *. set (Y := snd q - snd p) in *. split.
    + replace (r * (cos a * cosD t + sin a * - sinD t)) with (r * cos a * cosD t - r * sin a * sinD t) by ring. rewrite <- E1, <- E2.
      replace X with (X * (sinD t * sinD t + cosD t * cosD t)) at 1 by (rewrite SC; ring). ring.
    + replace (r * (cos a * sinD t + sin a * cosD t)) with (r * cos a * sinD t + r * sin a * cosD t) by ring. rewrite <- E1, <- E2.
      replace Y with (Y * (sinD t * sinD t + cosD t * cosD t)) at 1 by (rewrite SC; ring). ring.
Qed.

Lemma sky_view t g x : apart t g -> 0 <= sinD t -> 0 <= x <= 1 ->
  exists a v, 0 <= a <= PI /\ seen_at t (row_point t x) (front_row_point t g 1) a /\
    vf_row_sky_2d #t #g #x = #v /\ is_RInt (fun w => / 2 * sin w) 0 a v /\ v = / 2 * (1 - cos a).
Proof.
  intros H Hs Hx. pose proof (apart_pos _ _ H) as Hg. pose proof (gcr_inv g Hg) as Ha. pose proof (sc1 t) as SC. assert (P := apart_sq t g (-1) (1 - x) H ltac:(lra) ltac:(lra)).
  set (a := 1 / g) in *. set (u := (1 - x) - a * cosD t). set (v := a * sinD t).
  assert (E : u * u + v * v = sq a (cosD t) (-1) (1 - x)).
  { unfold u, v, sq. replace (a * a) with (a * a * (sinD t * sinD t + cosD t * cosD t)) at 1 by (rewrite SC; ring). ring. }
  destruct (polar_exists u v) as (al & R & C & U & V).
  { apply Rmult_le_pos; lra. }
  { destruct (Req_dec u 0) as [Z|Z]; [right|left; exact Z]. intros Z2. rewrite Z, Z2 in E. lra. }
  rewrite E in *. set (r := sqrt (sq a (cosD t) (-1) (1 - x))) in *. assert (0 < r) by (apply sqrt_lt_R0, P).
  exists al, (/ 2 * (1 - cos al)). split; [exact R|]. split.
  { apply seen_polar. exists r. split; [assumption|]. unfold row_point, front_row_point. cbn [fst snd]. fold a. rewrite <- U, <- V. unfold u, v. split.
    - replace (1 - x) with ((1 - x) * (sinD t * sinD t + cosD t * cosD t)) at 1 by (rewrite SC; ring). ring.
    - ring. }
  split. { rewrite vf_row_sky_fin by assumption. fold a. fold r. f_equal. rewrite C. unfold u. field. lra. }
  split; [|reflexivity]. pose proof (sin_int 0 al) as I. rewrite cos_0 in I. exact I.
Qed.
Lemma ground_view t g x : apart t g -> 0 <= sinD t -> 0 <= x <= 1 ->
  exists b v, 0 <= b <= PI /\ seen_at t (row_point t x) (front_row_point t g 0) b /\
    vf_row_ground_2d #t #g #x = #v /\ is_RInt (fun w => / 2 * sin w) b PI v /\ v = / 2 * (1 + cos b).
Proof.
  intros H Hs Hx. pose proof (apart_pos _ _ H) as Hg. pose proof (gcr_inv g Hg) as Ha. pose proof (sc1 t) as SC. assert (P := apart_sq t g 1 x H Hx ltac:(lra)).
  set (a := 1 / g) in *. set (u := - x - a * cosD t). set (v := a * sinD t).
  assert (E : u * u + v * v = sq a (cosD t) 1 x).
  { unfold u, v, sq. replace (a * a) with (a * a * (sinD t * sinD t + cosD t * cosD t)) at 1 by (rewrite SC; ring). ring. }
  destruct (polar_exists u v) as (al & R & C & U & V).
  { apply Rmult_le_pos; lra. }
  { destruct (Req_dec u 0) as [Z|Z]; [right|left; exact Z]. intros Z2. rewrite Z, Z2 in E. lra. }
  rewrite E in *. set (r := sqrt (sq a (cosD t) 1 x)) in *. assert (0 < r) by (apply sqrt_lt_R0, P).
  exists al, (/ 2 * (1 + cos al)). split; [exact R|]. split.
  { apply seen_polar. exists r. split; [assumption|]. unfold row_point, front_row_point. cbn [fst snd]. fold a. rewrite <- U, <- V. unfold u, v. split.
    - replace (- x) with (- x * (sinD t * sinD t + cosD t * cosD t)) at 1 by (rewrite SC; ring). ring.
    - ring. }
  split. { rewrite vf_row_ground_fin by assumption. fold a. fold r. f_equal. rewrite C. unfold u. field. lra. }
  split; [|reflexivity]. pose proof (sin_int al PI) as I. rewrite cos_PI in I. replace (/ 2 * (1 + cos al)) with (/ 2 * (cos al - -1)) by lra. exact I.
Qed.

Lemma unit_mono u1 u2 v : u2 <= u1 -> 0 < u1 * u1 + v * v -> 0 < u2 * u2 + v * v ->
  u2 / sqrt (u2 * u2 + v * v) <= u1 / sqrt (u1 * u1 + v * v).
Proof.
  intros H P1 P2. pose proof (sqrt_lt_R0 _ P1) as R1. pose proof (sqrt_lt_R0 _ P2) as R2.
  pose proof (sqrt_sqrt _ (Rlt_le _ _ P1)) as Q1. pose proof (sqrt_sqrt _ (Rlt_le _ _ P2)) as Q2.
  set (r1 := sqrt (u1 * u1 + v * v)) in *. set (r2 := sqrt (u2 * u2 + v * v)) in *. clearbody r1 r2.
  apply Rmult_le_reg_r with (r1 * r2); [apply Rmult_lt_0_compat; assumption|].
  replace (u2 / r2 * (r1 * r2)) with (u2 * r1) by (field; lra). replace (u1 / r1 * (r1 * r2)) with (u1 * r2) by (field; lra).
  assert (V : 0 <= v * v) by (pose proof (Rle_0_sqr v); unfold Rsqr in *; lra).
  destruct (Rle_dec u2 0) as [N|N]; [destruct (Rle_dec 0 u1) as [N1|N1]|].
  - assert (0 <= (- u2) * r1) by (apply Rmult_le_pos; lra). assert (0 <= u1 * r2) by (apply Rmult_le_pos; lra). lra.
  - assert (- u1 * r2 <= - u2 * r1); [|lra].
    apply Rsqr_incr_0; [|apply Rmult_le_pos; lra|apply Rmult_le_pos; lra]. unfold Rsqr.
    replace (- u1 * r2 * (- u1 * r2)) with (u1 * u1 * (r2 * r2)) by ring. replace (- u2 * r1 * (- u2 * r1)) with (u2 * u2 * (r1 * r1)) by ring. rewrite Q1, Q2.
    assert (u1 * u1 <= u2 * u2) by nra. assert (0 <= (u2 * u2 - u1 * u1) * (v * v)) by (apply Rmult_le_pos; lra). lra.
  - apply Rsqr_incr_0; [|apply Rmult_le_pos; lra|apply Rmult_le_pos; lra]. unfold Rsqr.
    replace (u1 * r2 * (u1 * r2)) with (u1 * u1 * (r2 * r2)) by ring. replace (u2 * r1 * (u2 * r1)) with (u2 * u2 * (r1 * r1)) by ring. rewrite Q1, Q2.
    assert (u2 * u2 <= u1 * u1) by nra. assert (0 <= (u1 * u1 - u2 * u2) * (v * v)) by (apply Rmult_le_pos; lra). lra.
Qed.
Lemma sq_split t a y d : sq a (cosD t) d y = (y + d * (a * cosD t)) * (y + d * (a * cosD t)) + a * a * (1 - d * d * (cosD t * cosD t)).
Proof. unfold sq. ring. Qed.
Lemma sq_uv t a y : sq a (cosD t) (-1) y = (a * cosD t - y) * (a * cosD t - y) + a * sinD t * (a * sinD t) /\
                    sq a (cosD t) 1 y = (a * cosD t + y) * (a * cosD t + y) + a * sinD t * (a * sinD t).
Proof.
  pose proof (sc1 t) as SC. unfold sq. split.
  - replace (a * a) with (a * a * (sinD t * sinD t + cosD t * cosD t)) at 1 by (rewrite SC; ring). ring.
  - replace (a * a) with (a * a * (sinD t * sinD t + cosD t * cosD t)) at 1 by (rewrite SC; ring). ring.
Qed.
Lemma sky_mono t g x y : apart t g -> 0 <= x <= y -> y <= 1 -> exists v w,
  vf_row_sky_2d #t #g #x = #v /\ vf_row_sky_2d #t #g #y = #w /\ v <= w.
Proof.
  intros H Hx Hy. rewrite !vf_row_sky_fin by (assumption || lra). do 2 eexists. split; [reflexivity|split; [reflexivity|]].
  set (a := 1 / g). destruct (sq_uv t a (1 - x)) as [Ex _]. destruct (sq_uv t a (1 - y)) as [Ey _].
  assert (Px := apart_sq t g (-1) (1 - x) H ltac:(lra) ltac:(lra)). assert (Py := apart_sq t g (-1) (1 - y) H ltac:(lra) ltac:(lra)).
  fold a in Px, Py. rewrite Ex in *. rewrite Ey in *.
  pose proof (unit_mono (a * cosD t - (1 - y)) (a * cosD t - (1 - x)) (a * sinD t) ltac:(lra) Py Px) as M. lra.
Qed.
Lemma ground_mono t g x y : apart t g -> 0 <= x <= y -> y <= 1 -> exists v w,
  vf_row_ground_2d #t #g #x = #v /\ vf_row_ground_2d #t #g #y = #w /\ w <= v.
Proof.
  intros H Hx Hy. rewrite !vf_row_ground_fin by (assumption || lra). do 2 eexists. split; [reflexivity|split; [reflexivity|]].
  set (a := 1 / g). destruct (sq_uv t a x) as [_ Ex]. destruct (sq_uv t a y) as [_ Ey].
  assert (Px := apart_sq t g 1 x H ltac:(lra) ltac:(lra)). assert (Py := apart_sq t g 1 y H ltac:(lra) ltac:(lra)).
  fold a in Px, Py. rewrite Ex in *. rewrite Ey in *.
  pose proof (unit_mono (a * cosD t + y) (a * cosD t + x) (a * sinD t) ltac:(lra) Py Px) as M. lra.
Qed.
Lemma sky_top t g : apart t g -> vf_row_sky_2d #t #g #1 = #((1 + cosD t) / 2).
Proof.
  intros H. pose proof (apart_pos _ _ H) as Hg. pose proof (gcr_inv g Hg) as Ha. rewrite vf_row_sky_fin by (assumption || lra). f_equal. unfold sq. replace (1 - 1) with 0 by ring.
  replace (1 / g * (1 / g) + 2 * -1 * (1 / g) * cosD t * 0 + 0 * 0) with (1 / g * (1 / g)) by ring. rewrite sqrt_square by lra. field. lra.
Qed.
Lemma ground_bottom t g : apart t g -> vf_row_ground_2d #t #g #0 = #((1 - cosD t) / 2).
Proof.
  intros H. pose proof (apart_pos _ _ H) as Hg. pose proof (gcr_inv g Hg) as Ha. rewrite vf_row_ground_fin by (assumption || lra). f_equal. unfold sq.
  replace (1 / g * (1 / g) + 2 * 1 * (1 / g) * cosD t * 0 + 0 * 0) with (1 / g * (1 / g)) by ring. rewrite sqrt_square by lra. field. lra.
Qed.
Lemma unit_bound u v : 0 < u * u + v * v -> -1 <= u / sqrt (u * u + v * v) <= 1.
Proof.
  intros P. pose proof (sqrt_lt_R0 _ P) as R. assert (Rabs u <= sqrt (u * u + v * v)).
  { rewrite <- (sqrt_Rsqr_abs u). apply sqrt_le_1_alt. unfold Rsqr. pose proof (Rle_0_sqr v) as Q. unfold Rsqr in Q. lra. }
  apply Rabs_le_between in H. split; [apply Rmult_le_reg_r with (sqrt (u * u + v * v))|apply Rmult_le_reg_r with (sqrt (u * u + v * v))]; try exact R;
  unfold Rdiv; rewrite Rmult_assoc, Rinv_l by lra; lra.
Qed.
Lemma row_bounds t g x : apart t g -> 0 <= x <= 1 -> exists s d,
  vf_row_sky_2d #t #g #x = #s /\ vf_row_ground_2d #t #g #x = #d /\ 0 <= s <= (1 + cosD t) / 2 /\ 0 <= d <= (1 - cosD t) / 2.
Proof.
  intros H Hx. destruct (sky_mono t g x 1 H ltac:(lra) ltac:(lra)) as (s & w & Es & Ew & L).
  destruct (ground_mono t g 0 x H ltac:(lra) ltac:(lra)) as (w' & d & Ew' & Ed & L').
  rewrite (sky_top t g H) in Ew. rewrite (ground_bottom t g H) in Ew'. apply Fin_inj in Ew. apply Fin_inj in Ew'.
  exists s, d. split; [exact Es|split; [exact Ed|]]. 
  rewrite vf_row_sky_fin in Es by assumption. rewrite vf_row_ground_fin in Ed by assumption. apply Fin_inj in Es. apply Fin_inj in Ed.
  set (a := 1 / g) in *. destruct (sq_uv t a (1 - x)) as [Ex _]. destruct (sq_uv t a x) as [_ Ey].
  assert (Px := apart_sq t g (-1) (1 - x) H ltac:(lra) ltac:(lra)). assert (Py := apart_sq t g 1 x H ltac:(lra) ltac:(lra)). fold a in Px, Py. rewrite Ex in *. rewrite Ey in *.
  pose proof (unit_bound _ _ Px). pose proof (unit_bound _ _ Py). lra.
Qed.

(** ** averages over a part of the row *)
Definition prim (a c x : R) : R := / 2 * (x + sqrt (sq a c (-1) (1 - x))).
Lemma prim_derive a c x : 0 < sq a c (-1) (1 - x) ->
  is_derive (prim a c) x (/ 2 * (1 + (a * c - (1 - x)) / sqrt (sq a c (-1) (1 - x)))).
Proof.
  intros P. pose proof (sqrt_lt_R0 _ P) as R. unfold prim, sq in *. auto_derive; [lra|].

  match type of R with 0 < ?r => set (q := r) in * end.
  replace (a * a + 2 * -1 * a * c * (1 + - x) + (1 + - x) * (1 + - x)) with (a * a + 2 * -1 * a * c * (1 - x) + (1 - x) * (1 - x)) by ring.
  fold q. field. lra.
Qed.
Lemma sky_int t g x0 x1 (f : R -> R) : apart t g -> 0 <= x0 <= x1 -> x1 <= 1 ->
  (forall x, 0 <= x <= 1 -> vf_row_sky_2d #t #g #x = #(f x)) ->
  is_RInt f x0 x1 (prim (1 / g) (cosD t) x1 - prim (1 / g) (cosD t) x0).
Proof.
  intros H H0 H1 Hf. set (a := 1 / g). set (c := cosD t).
  apply (is_RInt_ext (fun x => / 2 * (1 + (a * c - (1 - x)) / sqrt (sq a c (-1) (1 - x))))).
  { rewrite Rmin_left, Rmax_right by lra. intros x Hx. specialize (Hf x ltac:(lra)). rewrite vf_row_sky_fin in Hf by (assumption || lra). apply Fin_inj in Hf. exact Hf. }
  change (prim a c x1 - prim a c x0) with (minus (prim a c x1) (prim a c x0)).
  apply (is_RInt_derive (prim a c)); rewrite Rmin_left, Rmax_right by lra; intros x Hx; assert (P := apart_sq t g (-1) (1 - x) H ltac:(lra) ltac:(lra)); fold a c in P.
  - apply prim_derive, P.
  - apply (ex_derive_continuous (V := R_NormedModule)). pose proof (sqrt_lt_R0 _ P) as R. unfold sq in *. auto_derive. 
    replace (a * a + 2 * -1 * a * c * (1 + - x) + (1 + - x) * (1 + - x)) with (a * a + 2 * -1 * a * c * (1 - x) + (1 - x) * (1 - x)) by ring.
    repeat split; lra.
Qed.
Lemma sky_integ_fin t g x0 x1 : apart t g -> 0 <= t -> 0 <= x0 -> x1 <= 1 -> 1e-6 <= x1 - x0 ->
  vf_row_sky_2d_integ #t #g #x0 #x1 = #((prim (1 / g) (cosD t) x1 - prim (1 / g) (cosD t) x0) / (x1 - x0)).
Proof.
  intros H Ht H0 H1 Hu. pose proof (apart_pos _ _ H) as Hg. unfold vf_row_sky_2d_integ. rewrite fltb_fin, Rltb_f by lra. unfold where_.
  rewrite !fsub_fin, fabs_fin, Rabs_right by lra. rewrite fltb_fin, Rltb_f by lra.
  assert (P0 := apart_sq t g (-1) (1 - x0) H ltac:(lra) ltac:(lra)). assert (P1 := apart_sq t g (-1) (1 - x1) H ltac:(lra) ltac:(lra)).
  rewrite !vf_poly_fin by lra. rewrite !fsub_fin, !fdiv_fin by lra. rewrite !fmul_fin, !fadd_fin, fmul_fin. f_equal. unfold prim.
  replace 0.5 with (/ 2) by lra. field. lra.
Qed.
Lemma sky_integ_point t g x0 x1 : 0 <= t -> Rabs (x1 - x0) < 1e-6 -> vf_row_sky_2d_integ #t #g #x0 #x1 = vf_row_sky_2d #t #g #x0.
Proof.
  intros Ht H. unfold vf_row_sky_2d_integ. rewrite fltb_fin, Rltb_f by lra. unfold where_. rewrite fsub_fin, fabs_fin, fltb_fin, Rltb_t by exact H. reflexivity.
Qed.
Lemma cosD_opp t : cosD (- t) = cosD t. Proof. unfold cosD. rewrite Rrad_opp. apply cos_neg. Qed.
Lemma vf_poly_opp t g x d : vf_poly #(- t) g x d = vf_poly #t g x d.
Proof. unfold vf_poly. rewrite !cosd_fin, cosD_opp. reflexivity. Qed.
Lemma sky_opp t g x : vf_row_sky_2d #(- t) g x = vf_row_sky_2d #t g x.
Proof. unfold vf_row_sky_2d. rewrite vf_poly_opp, !cosd_fin, cosD_opp. reflexivity. Qed.
(** a negative tilt counts x from the other edge *)
Lemma sky_integ_opp t g x0 x1 : 0 < t -> vf_row_sky_2d_integ #(- t) g #x0 #x1 = vf_row_sky_2d_integ #t g #(1 - x1) #(1 - x0).
Proof.
  intros Ht. unfold vf_row_sky_2d_integ. rewrite (fltb_fin (- t)), Rltb_t by lra. rewrite (fltb_fin t), Rltb_f by lra. unfold where_.
  rewrite !fsub_fin, !vf_poly_opp, sky_opp. reflexivity.
Qed.
