(** Bridges from the specification vocabulary to the lemmas about the view factors. *)
From Verif Require Import Base.Fl Base.FlFacts Base.Py Base.Trig Model.Bifacial Spec.BifacialSpec
  Proofs.BifRow Proofs.BifShade Proofs.BifGround Proofs.BifSky Proofs.BifStrings Proofs.BifMean.
From Coq Require Import Psatz ZArith Lia List.
From Coq Require Import Reals.Machin.
From Coquelicot Require Import Coquelicot.
Open Scope R_scope.

(** ** Row and sky *)
Lemma sky_integ_mean t g x0 x1 f : apart t g -> 0 <= t -> 0 <= x0 -> x1 <= 1 -> 1e-6 <= x1 - x0 ->
  (forall x, 0 <= x <= 1 -> vf_row_sky_2d #t #g #x = #(f x)) ->
  exists v, vf_row_sky_2d_integ #t #g #x0 #x1 = #v /\ is_RInt f x0 x1 ((x1 - x0) * v).
Proof.
  intros A Ht H0 H1 Hd Hf. eexists. split; [apply sky_integ_fin; assumption|].
  replace ((x1 - x0) * _) with (prim (1 / g) (cosD t) x1 - prim (1 / g) (cosD t) x0) by (field; lra).
  apply sky_int; (assumption || lra).
Qed.
Lemma sky_integ_all t g : apart t g -> 0 <= t -> vf_row_sky_2d_integ #t #g #0 #1 = #(prim (1 / g) (cosD t) 1 - prim (1 / g) (cosD t) 0).
Proof. intros A Ht. rewrite sky_integ_fin by (assumption || lra). f_equal. field. Qed.
Lemma telescope (F : nat -> R) n : rsum (map (fun i => F (S i) - F i) (seq 0 n)) = F n - F 0%nat.
Proof.
  induction n as [|n IH]; [cbn; ring|]. rewrite seq_S, map_app. cbn [map].
  assert (A : forall l x, rsum (l ++ (x :: nil)) = rsum l + x) by (induction l as [|y l IHl]; intros x; cbn [app rsum fold_right]; [ring|]; fold (rsum (l ++ (x :: nil))); fold (rsum l); rewrite IHl; ring).
  rewrite A, IH. cbn [Nat.add]. ring.
Qed.
Lemma rsum_scal {A} (f : A -> R) c l : rsum (map (fun i => c * f i) l) = c * rsum (map f l).
Proof. induction l as [|x l IH]; cbn [map rsum fold_right]; [ring|]. fold (rsum (map (fun i => c * f i) l)). fold (rsum (map f l)). rewrite IH. ring. Qed.
Lemma sky_segments_average t g n : apart t g -> 0 <= t -> (0 < n)%nat -> INR n <= 1e6 ->
  exists v, vf_row_sky_2d_integ #t #g #0 #1 = #v /\
    fsum (map (fun i => vf_row_sky_2d_integ #t #g #(INR i / INR n) #(INR (S i) / INR n)) (seq 0 n)) = #(INR n * v).
Proof.
  intros A Ht Hn HN. pose proof (lt_0_INR n Hn) as Pn. eexists. split; [apply sky_integ_all; assumption|].
  set (P := prim (1 / g) (cosD t)).
  rewrite (fsum_fin _ (fun i => INR n * (P (INR (S i) / INR n) - P (INR i / INR n)))).
  - f_equal. rewrite rsum_scal. rewrite (telescope (fun i => P (INR i / INR n))). f_equal. f_equal; f_equal; [field; lra|cbn; field; lra].
  - intros i Hi. apply in_seq in Hi. pose proof (pos_INR i) as Pi. assert (Hs : INR (S i) <= INR n) by (apply le_INR; lia). rewrite S_INR in *.
    assert (D : (INR i + 1) / INR n - INR i / INR n = / INR n) by (field; lra).
    rewrite sky_integ_fin; try assumption.
    + f_equal. rewrite D. unfold P. field. lra.
    + apply Rdiv_le_0_compat; lra.
    + apply Rmult_le_reg_r with (INR n); [lra|]. replace ((INR i + 1) / INR n * INR n) with (INR i + 1) by (field; lra). lra.
    + rewrite D. apply Rmult_le_reg_r with (INR n); [lra|]. rewrite Rinv_l by lra. lra.
Qed.

(** ** Ground and sky *)
Lemma sees_ang s q : 0 < snd q -> sees s q (ang s q).
Proof.
  intros H. unfold sees, ang, rang. cbn [fst snd]. rewrite Rminus_0_r. split; [apply atan2_up, H|].
  exists (sqrt ((fst q - s) * (fst q - s) + snd q * snd q)). destruct (atan2_polar (snd q) (fst q - s)) as [A B].
  split; [apply hyp_pos; right; lra|]. split; lra.
Qed.
Lemma first_hidden_lo th w h p s k a : 0 < p -> 0 <= w -> w / 2 * Rabs (sinD th) < h -> (first_hidden th w h p s k a <-> a = lo_dir th w h p s (IZR k)).
Proof.
  intros Hp Hw Hh. unfold first_hidden. pose proof (lo_dir_range th w h p s Hw Hh (IZR k)) as R.
  assert (LH : lo_dir th w h p s (IZR k) <= hi_dir th w h p s (IZR k)) by (unfold lo_dir, hi_dir; eapply Rle_trans; [apply Rmin_l|apply Rmax_l]).
  split.
  - intros (Ha & B & M). apply hides_iff in B; try assumption. apply Rle_antisym; [|lra]. apply M; [exact R|]. apply hides_iff; try assumption. lra.
  - intros ->. split; [exact R|]. split; [apply hides_iff; try assumption; lra|]. intros b Hb B. apply hides_iff in B; try assumption. lra.
Qed.
Lemma ground_sky_sum th g x p h N : vf_ground_sky_2d #th #g #x #p #h N =
  #(/ 2 * rsum (map (fun k => Rmax (cos (hi_dir th (g * p) h p (x * p) (IZR (k + 1))) - cos (lo_dir th (g * p) h p (x * p) (IZR k))) 0) (zrange (- Z.of_nat N) (2 * N + 1)))).
Proof.
  unfold vf_ground_sky_2d. rewrite arange_z. rewrite (map_ext _ (fun j => (#(lo_dir th (g * p) h p (x * p) (IZR j)), #(hi_dir th (g * p) h p (x * p) (IZR j))))) by (intros; apply row_angles_fin).
  replace (2 * N + 2)%nat with (S (2 * N + 1)) by lia. rewrite (gaps_sum (fun j => lo_dir th (g * p) h p (x * p) (IZR j)) (fun j => hi_dir th (g * p) h p (x * p) (IZR j))).
  rewrite fdiv_fin by lra. f_equal. lra.
Qed.
Lemma cos_mono x y : 0 < x -> x <= y -> y < PI -> cos y <= cos x.
Proof. intros. destruct (Req_dec x y) as [->|]; [lra|]. pose proof (cos_decreasing_1 x y). lra. Qed.
Lemma vf_ground_sky_range th g x p h N : 0 < p -> 0 <= g -> g * p / 2 * Rabs (sinD th) < h ->
  exists v, vf_ground_sky_2d #th #g #x #p #h N = #v /\ 0 <= v <= 1.
Proof.
  intros Hp Hg Hh. rewrite ground_sky_sum. eexists. split; [reflexivity|].
  assert (Hw : 0 <= g * p) by (apply Rmult_le_pos; lra).
  set (L := fun k => lo_dir th (g * p) h p (x * p) (IZR k)). set (H := fun k => hi_dir th (g * p) h p (x * p) (IZR k)).
  assert (B : forall n k, 0 <= rsum (map (fun k => Rmax (cos (H (k + 1)%Z) - cos (L k)) 0) (zrange k n)) <= cos (L (k + Z.of_nat n)%Z) - cos (L k)).
  { induction n as [|n IH]; intros k.
    - replace (k + Z.of_nat 0)%Z with k by lia. cbn. lra.
    - rewrite zrange_cons. cbn [map rsum fold_right]. fold (rsum (map (fun k => Rmax (cos (H (k + 1)%Z) - cos (L k)) 0) (zrange (k + 1) n))).
      specialize (IH (k + 1)%Z). replace (k + 1 + Z.of_nat n)%Z with (k + Z.of_nat (S n))%Z in IH by lia.
      assert (R1 := lo_dir_range th (g * p) h p (x * p) Hw Hh (IZR k)). fold (L k) in R1.
      assert (R2 := lo_dir_range th (g * p) h p (x * p) Hw Hh (IZR (k + 1))). fold (L (k + 1)%Z) in R2.
      assert (R3 := hi_dir_range th (g * p) h p (x * p) Hw Hh (IZR (k + 1))). fold (H (k + 1)%Z) in R3.
      assert (LH : L (k + 1)%Z <= H (k + 1)%Z) by (unfold L, H, lo_dir, hi_dir; eapply Rle_trans; [apply Rmin_l|apply Rmax_l]).
      destruct (dirs_mono th (g * p) h p (x * p) Hp Hw Hh (IZR k) (IZR (k + 1)) (IZR_le k (k + 1) ltac:(lia))) as [M _]. fold (L k) in M. fold (L (k + 1)%Z) in M.
      assert (C1 := cos_mono (L (k + 1)%Z) (H (k + 1)%Z) ltac:(lra) LH ltac:(lra)). assert (C2 := cos_mono (L (k + 1)%Z) (L k) ltac:(lra) M ltac:(lra)).
      pose proof (Rmax_r (cos (H (k + 1)%Z) - cos (L k)) 0). assert (Rmax (cos (H (k + 1)%Z) - cos (L k)) 0 <= cos (L (k + 1)%Z) - cos (L k)) by (apply Rmax_lub; lra). lra. }
  specialize (B (2 * N + 1)%nat (- Z.of_nat N)%Z). unfold L, H in B. pose proof (COS_bound (lo_dir th (g * p) h p (x * p) (IZR (- Z.of_nat N + Z.of_nat (2 * N + 1))))). pose proof (COS_bound (lo_dir th (g * p) h p (x * p) (IZR (- Z.of_nat N)))). lra.
Qed.
Lemma ground_sky_first th g x p h (N : nat) (f : R -> R) A B : 0 < p -> 0 <= g -> g * p / 2 * Rabs (sinD th) < h ->
  first_hidden th (g * p) h p (x * p) (Z.of_nat N + 1) A -> first_hidden th (g * p) h p (x * p) (- Z.of_nat N) B ->
  (forall a, (exists j, (- Z.of_nat N <= j <= Z.of_nat N + 1)%Z /\ hides th (g * p) h p (x * p) j a) -> f a = 0) ->
  (forall a, ~ (exists j, (- Z.of_nat N <= j <= Z.of_nat N + 1)%Z /\ hides th (g * p) h p (x * p) j a) -> f a = / 2 * sin a) ->
  exists v, vf_ground_sky_2d #th #g #x #p #h N = #v /\ is_RInt f A B v.
Proof.
  intros Hp Hg Hh HA HB F0 F1. assert (Hw : 0 <= g * p) by (apply Rmult_le_pos; lra).
  apply first_hidden_lo in HA; try assumption. apply first_hidden_lo in HB; try assumption. subst A B.
  apply ground_sky_view; assumption.
Qed.
(** ** The mean over a ground segment *)
Lemma grazing_clear marks th w h p N s i j t u : no_grazing marks th w h p N s ->
  (- Z.of_nat N <= i <= Z.of_nat N + 1)%Z -> (- Z.of_nat N <= j <= Z.of_nat N + 1)%Z -> (Z.abs (i - j) <= 1)%Z -> In t marks -> In u marks ->
  0 < snd (sheds_point th w h p i t) -> 0 < snd (sheds_point th w h p j u) ->
  clear_of s (sheds_point th w h p i t) (sheds_point th w h p j u).
Proof.
  intros G Hi Hj Hij Ht Hu Ui Uj. unfold clear_of.
  destruct (G i j t u _ _ Hi Hj Hij Ht Hu (sees_ang s _ Ui) (sees_ang s _ Uj)) as [E|E]; [left; lra|].
  unfold Rabs in E. destruct Rcase_abs; [left; lra|right; lra].
Qed.
Lemma no_grazing_unclouded th sg g h p N s : leaning th sg -> 0 < p -> 0 < g -> g * p / 2 * Rabs (sinD th) < h ->
  no_grazing (-1/2 :: 1/2 :: nil) th (g * p) h p N s -> unclouded th sg g h p N s.
Proof.
  intros Hl Hp Hg Hh G k Hk.
  assert (UP : forall j t, In t (-1/2 :: 1/2 :: nil) -> 0 < snd (sheds_point th (g * p) h p j t)).
  { intros j t Ht. unfold sheds_point. cbn [snd]. assert (W : 0 <= g * p) by (apply Rmult_le_pos; lra).
    pose proof (Rle_abs (sinD th)) as B1. pose proof (Rle_abs (- sinD th)) as B2. rewrite Rabs_Ropp in B2.
    assert (K1 : 0 <= g * p / 2 * (Rabs (sinD th) - sinD th)) by (apply Rmult_le_pos; lra).
    assert (K2 : 0 <= g * p / 2 * (Rabs (sinD th) + sinD th)) by (apply Rmult_le_pos; lra).
    destruct Ht as [<-|[<-|[]]]; lra. }
  assert (CL : forall i j t u, (i = k \/ i = k + 1)%Z -> (j = k \/ j = k + 1)%Z -> In t (-1/2 :: 1/2 :: nil) -> In u (-1/2 :: 1/2 :: nil) ->
     clear_of s (sheds_point th (g * p) h p i t) (sheds_point th (g * p) h p j u)).
  { intros i j t u Hi Hj Ht Hu. apply (grazing_clear (-1/2 :: 1/2 :: nil)) with N; try assumption; try lia; apply UP; assumption. }
  unfold clear.
  assert (I1 : In (-1/2) (-1/2 :: 1/2 :: nil)) by (left; reflexivity). assert (I2 : In (1/2) (-1/2 :: 1/2 :: nil)) by (right; left; reflexivity).
  assert (T : exists t u, In t (-1/2 :: 1/2 :: nil) /\ In u (-1/2 :: 1/2 :: nil) /\ t = sg / 2 /\ u = - sg / 2).
  { destruct Hl as [[_ ->]|[_ ->]]; [exists (1/2), (-1/2)|exists (-1/2), (1/2)]; repeat split; try assumption; lra. }
  destruct T as (t & u & It & Iu & Et & Eu).
  assert (E1 : sheds_point th (g * p) h p (k + 1) t = (IZR k * p + p + sg * (p * g) / 2 * cosD th, h + sg * (p * g) / 2 * sinD th))
    by (unfold sheds_point; rewrite plus_IZR, Et; apply f_equal2; field).
  assert (E2 : sheds_point th (g * p) h p k t = (IZR k * p + sg * (p * g) / 2 * cosD th, h + sg * (p * g) / 2 * sinD th))
    by (unfold sheds_point; rewrite Et; apply f_equal2; field).
  assert (E3 : sheds_point th (g * p) h p k u = (IZR k * p - sg * (p * g) / 2 * cosD th, h - sg * (p * g) / 2 * sinD th))
    by (unfold sheds_point; rewrite Eu; apply f_equal2; field).
  assert (E4 : sheds_point th (g * p) h p (k + 1) u = (IZR k * p + p - sg * (p * g) / 2 * cosD th, h - sg * (p * g) / 2 * sinD th))
    by (unfold sheds_point; rewrite plus_IZR, Eu; apply f_equal2; field).
  rewrite <- E1, <- E2, <- E3, <- E4. repeat split; apply CL; (assumption || lia).
Qed.
Lemma no_grazing_flat g h p N s : 0 < p -> 0 < g <= 1 -> 0 < h ->
  no_grazing (-1/2 :: 0 :: 1/2 :: nil) 0 (g * p) h p N s -> flat_clear g h p N s.
Proof.
  intros Hp Hg Hh G k Hk. assert (C1 : cosD 0 = 1) by (unfold cosD; rewrite Rrad_0, cos_0; reflexivity). assert (S1 : sinD 0 = 0) by (unfold sinD; rewrite Rrad_0, sin_0; reflexivity).
  assert (PT : forall j t, sheds_point 0 (g * p) h p j t = (IZR j * p + t * (g * p), h)) by (intros; unfold sheds_point; rewrite C1, S1; apply f_equal2; ring).
  assert (W : 0 < g * p) by (apply Rmult_lt_0_compat; lra).
  assert (CL : forall j t u, (- Z.of_nat N <= j <= Z.of_nat N + 1)%Z -> In t (-1/2 :: 0 :: 1/2 :: nil) -> In u (-1/2 :: 0 :: 1/2 :: nil) ->
    clear_of s (IZR j * p + t * (g * p), h) (IZR j * p + u * (g * p), h)).
  { intros j t u Hj Ht Hu. rewrite <- !PT. apply (grazing_clear (-1/2 :: 0 :: 1/2 :: nil)) with N; try assumption; try lia; rewrite PT; exact Hh. }
  assert (I1 : In (-1/2) (-1/2 :: 0 :: 1/2 :: nil)) by (left; reflexivity). assert (I2 : In 0 (-1/2 :: 0 :: 1/2 :: nil)) by (right; left; reflexivity). assert (I3 : In (1/2) (-1/2 :: 0 :: 1/2 :: nil)) by (do 2 right; left; reflexivity).
  split.
  - pose proof (CL (k + 1)%Z (-1/2) 0 ltac:(lia) I1 I2) as [E|E]; rewrite plus_IZR in E.
    + pose proof (flat_lt h Hh s ((IZR k + 1) * p + -1 / 2 * (g * p)) ((IZR k + 1) * p + 0 * (g * p)) ltac:(lra)). lra.
    + replace ((IZR k + 1) * p - g * p / 2) with ((IZR k + 1) * p + -1 / 2 * (g * p)) by field. replace ((IZR k + 1) * p) with ((IZR k + 1) * p + 0 * (g * p)) at 2 by ring. exact E.
  - pose proof (CL k 0 (1/2) ltac:(lia) I2 I3) as [E|E].
    + pose proof (flat_lt h Hh s (IZR k * p + 0 * (g * p)) (IZR k * p + 1 / 2 * (g * p)) ltac:(lra)). lra.
    + replace (IZR k * p + g * p / 2) with (IZR k * p + 1 / 2 * (g * p)) by field. replace (IZR k * p) with (IZR k * p + 0 * (g * p)) at 1 by ring. exact E.
Qed.
(** whatever the inputs, the averaged view factor is not negative *)
Lemma fsum_atleast l : List.Forall (atleast #0) l -> atleast #0 (fsum l).
Proof.
  assert (A0 : forall x y, atleast #0 x -> atleast #0 y -> atleast #0 (fadd x y)).
  { intros x y [->|Hx] [->|Hy]; try (left; reflexivity). { left. destruct x; reflexivity. }
    destruct x as [x| | |], y as [y| | |]; try discriminate Hx; try discriminate Hy; try (right; reflexivity).
    right. rewrite fadd_fin, fle_fin in *. lra. }
  induction 1 as [|x l Hx Hl IH]; [right; apply fle_fin; lra|]. rewrite Invert.fsum_cons. apply A0; assumption.
Qed.
Lemma integ_atleast r g h p N a b : atleast #0 (vf_ground_sky_2d_integ r g h p N a b).
Proof. unfold vf_ground_sky_2d_integ. apply fsum_atleast. apply List.Forall_forall. intros x Hx. apply in_map_iff in Hx. destruct Hx as (k & <- & _). apply fmax_atleast. Qed.
Lemma row_ground_atleast t g h p x0 x1 N a b v : vf_row_ground_2d_integ t g h p x0 x1 N a b = Ok v -> atleast #0 v.
Proof.
  unfold vf_row_ground_2d_integ. destruct (if (_ : bool) then _ else _) as [[h'|] [p'|]]; intros E; try discriminate. assert (E' : forall A (a b : A), Ok a = Ok b -> a = b) by congruence; apply E' in E; subst v.
  unfold vf_row_ground_segments. apply fsum_atleast. apply List.Forall_forall. intros x Hx. apply in_map_iff in Hx. destruct Hx as (k & <- & _). apply fmax_atleast.
Qed.
Lemma sees_cross s q r a b : sees s q a -> sees s r b ->
  exists l m, 0 < l /\ 0 < m /\ l * l = (fst q - s) * (fst q - s) + snd q * snd q /\ m * m = (fst r - s) * (fst r - s) + snd r * snd r /\
    (fst q - s) * snd r - (fst r - s) * snd q = l * m * sin (b - a).
Proof.
  intros (Ha & l & Hl & E1 & E2) (Hb & m & Hm & E3 & E4). exists l, m. repeat split; try assumption.
  - rewrite E1, E2. pose proof (sin2_cos2 a) as K. unfold Rsqr in K. replace (l * l) with (l * l * (sin a * sin a + cos a * cos a)) by (rewrite K; ring). ring.
  - rewrite E3, E4. pose proof (sin2_cos2 b) as K. unfold Rsqr in K. replace (m * m) with (m * m * (sin b * sin b + cos b * cos b)) by (rewrite K; ring). ring.
  - rewrite E1, E2, E3, E4, sin_minus. ring.
Qed.
Lemma sees_unique s q a b : sees s q a -> sees s q b -> a = b.
Proof.
  intros A B. destruct (sees_cross s q q a b A B) as (l & m & Hl & Hm & _ & _ & E). destruct A as (Ra & _), B as (Rb & _).
  assert (Z : sin (b - a) = 0). { assert (0 < l * m) by (apply Rmult_lt_0_compat; lra). apply Rmult_eq_reg_l with (l * m); lra. }
  destruct (Rtotal_order a b) as [H|[H|H]]; [|assumption|]; exfalso.
  - pose proof (sin_gt_0 (b - a)). lra.
  - pose proof (sin_gt_0 (a - b)). replace (a - b) with (- (b - a)) in H0 by ring. rewrite sin_neg in H0. lra.
Qed.
Lemma sees_far s q r a b : sees s q a -> sees s r b -> (fst q - s) * (fst q - s) + snd q * snd q <= 9 -> (fst r - s) * (fst r - s) + snd r * snd r <= 9 ->
  0.1 <= Rabs ((fst q - s) * snd r - (fst r - s) * snd q) -> 1e-8 < Rabs (a - b).
Proof.
  intros A B Bq Br C. destruct (sees_cross s q r a b A B) as (l & m & Hl & Hm & El & Em & E). rewrite E in C.
  assert (SB : forall x, Rabs (sin x) <= Rabs x).
  { intros x. destruct (Rtotal_order x 0) as [H|[->|H]].
    - pose proof (sin_lt_x (- x)) as K. rewrite sin_neg in K. destruct (Rle_dec x (-1)) as [L|L].
      + rewrite (Rabs_left x) by lra. pose proof (SIN_bound x). unfold Rabs. destruct Rcase_abs; lra.
      + assert (0 < sin (- x)) by (apply sin_gt_0; pose proof PI2_1; lra). rewrite sin_neg in *. rewrite (Rabs_left x), (Rabs_left (sin x)) by lra. lra.
    - rewrite sin_0. lra.
    - pose proof (sin_lt_x x H) as K. destruct (Rle_dec 1 x) as [L|L].
      + rewrite (Rabs_right x) by lra. pose proof (SIN_bound x). unfold Rabs. destruct Rcase_abs; lra.
      + assert (0 < sin x) by (apply sin_gt_0; pose proof PI2_1; lra). rewrite (Rabs_right x), (Rabs_right (sin x)) by lra. lra. }
  assert (L3 : l <= 3) by (apply Rnot_lt_le; intros K; assert (3 * 3 < l * l) by (apply Rmult_le_0_lt_compat; lra); lra).
  assert (M3 : m <= 3) by (apply Rnot_lt_le; intros K; assert (3 * 3 < m * m) by (apply Rmult_le_0_lt_compat; lra); lra).
  assert (LM : 0 <= l * m <= 9) by (split; [apply Rmult_le_pos; lra|replace 9 with (3 * 3) by ring; apply Rmult_le_compat; lra]).
  rewrite Rabs_mult, (Rabs_right (l * m)) in C by lra. specialize (SB (b - a)). rewrite (Rabs_minus_sym a b).
  pose proof (Rabs_pos (sin (b - a))). pose proof (Rabs_pos (b - a)).
  assert (l * m * Rabs (sin (b - a)) <= 9 * Rabs (b - a)) by (apply Rmult_le_compat; lra). lra.
Qed.
Lemma PI_319 : PI <= 3.19.
Proof. pose proof (PI_2_3_7_ineq 1) as [_ B]. unfold PI_2_3_7_tg, tg_alt, Ratan_seq in B. simpl in B. lra. Qed.
