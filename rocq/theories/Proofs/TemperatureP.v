(** Proofs about temperature.py *)
From Verif Require Import Base.Fl Base.FlFacts Base.Py Base.Series Base.Trig Model.Tools Model.Temperature Spec.ThermalSpec.
From Coq Require Import ZArith Lia Lra Psatz.
Open Scope R_scope.

Ltac fs := cbv zeta; repeat first [rewrite !fmul_fin | rewrite !fadd_fin | rewrite !fsub_fin | rewrite !fneg_fin | rewrite !fpown_fin | rewrite !fexp_fin].
(** ** closed forms *)
Lemma sapm_cell_fin p t w a b dT ref : ref <> 0 ->
  sapm_cell #p #t #w #a #b #dT #ref = #(t + p * exp (a + b * w) + p / ref * dT).
Proof.
  intros H. unfold sapm_cell, sapm_cell_from_module, sapm_module. rewrite fdiv_fin by exact H. cbn. f_equal. ring.
Qed.
Lemma pvsyst_cell_fin p t w uc uv e al : uc + uv * w <> 0 ->
  pvsyst_cell #p #t #w #uc #uv #e #al = #(t + p * al * (1 - e) / (uc + uv * w)).
Proof. intros H. unfold pvsyst_cell. fs. rewrite fdiv_fin by exact H. reflexivity. Qed.
Lemma faiman_fin p t w u0 u1 : u0 + u1 * w <> 0 -> faiman #p #t #w #u0 #u1 = #(t + p / (u0 + u1 * w)).
Proof. intros H. unfold faiman. rewrite fmul_fin, fadd_fin, fdiv_fin by exact H. reflexivity. Qed.
Lemma faiman_rad_none_fin p t w u0 u1 sv e : u0 + u1 * w <> 0 ->
  faiman_rad #p #t #w None #u0 #u1 #sv #e = #(t + p / (u0 + u1 * w)).
Proof. intros H. unfold faiman_rad. fs. rewrite fdiv_fin by exact H. fs. rewrite Rminus_0_r. reflexivity. Qed.
Lemma faiman_rad_some_fin p t w ir u0 u1 sv e : u0 + u1 * w <> 0 ->
  faiman_rad #p #t #w (Some #ir) #u0 #u1 #sv #e =
  #(t + (p - e * sv * (stefan_boltzmann * (t + 273.15) ^ 4 - ir)) / (u0 + u1 * w)).
Proof.
  intros H. unfold faiman_rad. fs. rewrite fdiv_fin by exact H. fs. replace (t - -273.15) with (t + 273.15) by lra. reflexivity.
Qed.
Lemma generic_linear_fin p t w uc du e al : uc + du * w <> 0 ->
  generic_linear #p #t #w #uc #du #e #al = #(t + p * (al - e) / (uc + du * w)).
Proof. intros H. unfold generic_linear. fs. rewrite fdiv_fin by exact H. reflexivity. Qed.
Definition standoffR (x : R) : R :=
  if Rle_dec x 0 then 0 else if Rlt_dec x 0.5 then 18 else if Rlt_dec x 1.5 then 11 else if Rlt_dec x 2.5 then 6 else if Rle_dec x 3.5 then 2 else 0.
Lemma standoff_fin x : adj_for_mounting_standoff #x = #(standoffR x).
Proof.
  unfold adj_for_mounting_standoff, standoffR, fgtb, fgeb. rewrite !fltb_fin, !fleb_fin.
  repeat match goal with |- context [Rle_dec ?a ?b] => destruct (Rle_dec a b) | |- context [Rlt_dec ?a ?b] => destruct (Rlt_dec a b) end;
  repeat (rdec; cbn [andb]); first [reflexivity | exfalso; lra].
Qed.
Lemma noct_sam_fin p t w noct e ta h m : ta <> 0 -> h = 1 \/ h = 2 ->
  let f := if Req_EM_T h 1 then 0.51 else 0.61 in 5.7 + 3.8 * (f * w) <> 0 ->
  noct_sam #p #t #w #noct #e None #ta #h #m =
  Ok #(t + p / 800 * (noct + standoffR m - 20) * (1 - e / ta) * (9.5 / (5.7 + 3.8 * (f * w)))).
Proof.
  intros Hta Hh f Hw. unfold noct_sam. rewrite standoff_fin, !feqb_fin.
  assert (Ew : (if Reqb h 1 then Ok (#0.51 * #w)%fl else if Reqb h 2 then Ok (#0.61 * #w)%fl else Err ValueError) = Ok #(f * w)).
  { unfold f. destruct (Req_EM_T h 1) as [E|E].
    - rewrite Reqb_t by exact E. reflexivity.
    - rewrite Reqb_f by exact E. rewrite Reqb_t by lra. reflexivity. }
  rewrite Ew. cbn [bind]. fs. rewrite Rmult_1_r.
  rewrite !fdiv_fin by (try exact Hw; try exact Hta; lra). reflexivity.
Qed.

(** ** monotonicity helpers *)
Lemma div_mono_num a b d : 0 < d -> a <= b -> a / d <= b / d.
Proof. intros Hd H. unfold Rdiv. apply Rmult_le_compat_r; [left; apply Rinv_0_lt_compat, Hd|exact H]. Qed.
Lemma div_anti_den n a b : 0 <= n -> 0 < a -> a <= b -> n / b <= n / a.
Proof. intros Hn Ha H. unfold Rdiv. apply Rmult_le_compat_l; [exact Hn|]. apply Rinv_le_contravar; assumption. Qed.

(** ** prilliman *)
Fixpoint psum (l : list R) : R := match l with [] => 0 | x :: l' => x + psum l' end.
Lemma fsum_fin_acc l acc : fold_left fadd (map Fin l) #acc = #(acc + psum l).
Proof.
  revert acc. induction l as [|x l IH]; intros acc; cbn [map fold_left psum]; [rewrite Rplus_0_r; reflexivity|].
  rewrite fadd_fin, IH. f_equal. ring.
Qed.
Lemma fsum_fin l : fsum (map Fin l) = #(psum l).
Proof. unfold fsum. rewrite fsum_fin_acc, Rplus_0_l. reflexivity. Qed.

(** weighted sums over optional temperatures, positions counted from [i] up to a window of [w] *)
Definition wt (p dt : R) (k : nat) : R := exp (- p * (INR k * dt * 60)).
Fixpoint wnum (p dt : R) (w i : nat) (l : list (option R)) : R :=
  match l with [] => 0 | o :: l' => match o with Some t => t * wt p dt (w - i) | None => 0 end + wnum p dt w (S i) l' end.
Fixpoint wden (p dt : R) (w i : nat) (l : list (option R)) : R :=
  match l with [] => 0 | o :: l' => match o with Some t => wt p dt (w - i) | None => 0 end + wden p dt w (S i) l' end.
Definition of_opt (o : option R) : fl := match o with Some t => #t | None => NaN end.
Lemma zip_map_seq {A B C} (f : A -> B -> C) (g : nat -> B) l i :
  zip_with f l (map g (seq i (length l))) = (fix go l i := match l with [] => [] | x :: l' => f x (g i) :: go l' (S i) end) l i.
Proof. revert i. induction l as [|x l IH]; intros i; cbn [length seq map zip_with]; [reflexivity|]. rewrite IH. reflexivity. Qed.
Lemma row_den p dt w l i acc :
  fold_left fadd (zip_with (fun (x : fl) td => if isnan x then #0 else fexp (fmul (fneg #p) #td)) (map of_opt l)
    (map (fun i => INR (w - i) * dt * 60) (seq i (length l)))) #acc = #(acc + wden p dt w i l).
Proof.
  revert i acc. induction l as [|o l IH]; intros i acc; cbn [map length seq zip_with fold_left wden]; [rewrite Rplus_0_r; reflexivity|].
  destruct o as [t|]; cbn [of_opt isnan].
  - rewrite fneg_fin, fmul_fin, fexp_fin, fadd_fin, IH. f_equal. unfold wt. ring.
  - rewrite fadd_fin, IH. f_equal. ring.
Qed.
Lemma row_num p dt w l i acc :
  fold_left fadd (filter (fun x => negb (isnan x)) (zip_with fmul (map of_opt l)
    (zip_with (fun (x : fl) td => if isnan x then #0 else fexp (fmul (fneg #p) #td)) (map of_opt l)
      (map (fun i => INR (w - i) * dt * 60) (seq i (length l)))))) #acc = #(acc + wnum p dt w i l).
Proof.
  revert i acc. induction l as [|o l IH]; intros i acc; cbn [map length seq zip_with filter fold_left wnum]; [rewrite Rplus_0_r; reflexivity|].
  destruct o as [t|]; cbn [of_opt isnan].
  - rewrite fneg_fin, fmul_fin, fexp_fin, fmul_fin. cbn [isnan negb filter fold_left]. rewrite fadd_fin, IH. f_equal. unfold wt. ring.
  - cbn [fmul isnan negb filter fold_left]. rewrite IH. f_equal. ring.
Qed.
Lemma wden_nonneg p dt w i l : 0 <= wden p dt w i l.
Proof.
  revert i. induction l as [|o l IH]; intros i; cbn [wden]; [lra|]. specialize (IH (S i)).
  destruct o; [|lra]. unfold wt. pose proof (exp_pos (- p * (INR (w - i) * dt * 60))). lra.
Qed.
Lemma wden_pos p dt w i l : (exists t, In (Some t) l) -> 0 < wden p dt w i l.
Proof.
  intros [t H]. revert i. induction l as [|o l IH]; intros i; [destruct H|]. cbn [wden].
  pose proof (wden_nonneg p dt w (S i) l). destruct H as [->|H].
  - unfold wt. pose proof (exp_pos (- p * (INR (w - i) * dt * 60))). lra.
  - specialize (IH H (S i)). destruct o; [|lra]. unfold wt. pose proof (exp_pos (- p * (INR (w - i) * dt * 60))). lra.
Qed.
Lemma wden_none p dt w i l : (forall t, ~ In (Some t) l) -> wden p dt w i l = 0 /\ wnum p dt w i l = 0.
Proof.
  revert i. induction l as [|o l IH]; intros i H; cbn [wden wnum]; [split; reflexivity|].
  destruct o as [t|]; [exfalso; apply (H t); left; reflexivity|].
  destruct (IH (S i)) as [-> ->]; [intros t Ht; apply (H t); right; exact Ht|]. split; ring.
Qed.
Lemma wnum_bounds p dt w i l lo hi : (forall t, In (Some t) l -> lo <= t <= hi) ->
  lo * wden p dt w i l <= wnum p dt w i l <= hi * wden p dt w i l.
Proof.
  revert i. induction l as [|o l IH]; intros i H; cbn [wden wnum]; [lra|].
  destruct (IH (S i)) as [I1 I2]; [intros t Ht; apply H; right; exact Ht|].
  destruct o as [t|]; [|lra]. pose proof (H t (or_introl eq_refl)) as B. set (x := wt p dt (w - i)).
  assert (0 < x) by apply exp_pos. assert (lo * x <= t * x <= hi * x) by (split; apply Rmult_le_compat_r; lra). lra.
Qed.
Lemma prilliman_row_fin p dt l :
  prilliman_row #p dt (map of_opt l) = fdiv #(wnum p dt (length l) 0 l) #(wden p dt (length l) 0 l).
Proof.
  unfold prilliman_row. rewrite map_length. unfold nansum, fsum. rewrite row_den.
  rewrite row_num. rewrite !Rplus_0_l. reflexivity.
Qed.

Definition win (temps : list (option R)) (w j : nat) (i : nat) : option R := nth (i + j) (repeat None w ++ temps) None.
Lemma nth_repeat_none {A} w k : nth k (repeat (@None A) w) None = None.
Proof. revert k. induction w as [|w IH]; intros [|k]; cbn [repeat nth]; auto. Qed.
Lemma win_lag temps w j m : (S m <= w)%nat ->
  win temps w j (w - S m) = if Nat.leb (S m) j then nth (j - S m) temps None else None.
Proof.
  intros H. unfold win. destruct (Nat.leb_spec (S m) j) as [L|L].
  - rewrite app_nth2 by (rewrite repeat_length; lia). rewrite repeat_length. f_equal. lia.
  - rewrite app_nth1 by (rewrite repeat_length; lia). apply nth_repeat_none.
Qed.
Lemma wnum_lag p dt temps w j m : (m <= w)%nat ->
  wnum p dt w (w - m) (map (win temps w j) (seq (w - m) m)) = lag_sum (fun k t => t * wt p dt k) temps j m /\
  wden p dt w (w - m) (map (win temps w j) (seq (w - m) m)) = lag_sum (fun k _ => wt p dt k) temps j m.
Proof.
  induction m as [|m IH]; intros H; [split; reflexivity|].
  destruct IH as [I1 I2]; [lia|]. cbn [seq map wnum wden lag_sum]. rewrite win_lag by exact H.
  replace (S (w - S m)) with (w - m)%nat by lia. rewrite I1, I2. replace (w - (w - S m))%nat with (S m) by lia.
  destruct (Nat.leb (S m) j); [destruct (nth (j - S m) temps None)|]; split; ring.
Qed.
Lemma lag_sum_trunc F temps j w W : (j <= w)%nat -> (w <= W)%nat -> lag_sum F temps j W = lag_sum F temps j w.
Proof.
  intros H1 H2. induction H2 as [|W H2 IH]; [reflexivity|]. cbn [lag_sum]. rewrite IH.
  destruct (Nat.leb_spec (S W) j); [lia|]. ring.
Qed.
Lemma nth_error_zip {A B C} (f : A -> B -> C) l m i a b :
  nth_error l i = Some a -> nth_error m i = Some b -> nth_error (zip_with f l m) i = Some (f a b).
Proof.
  revert m i. induction l as [|x l IH]; intros [|y m] [|i]; cbn; try discriminate; [congruence|]. apply IH.
Qed.
Lemma set_first_nth {A} (v : A) l i : (0 < i)%nat -> nth_error (set_first v l) i = nth_error l i.
Proof. destruct l, i; cbn; intros; try lia; reflexivity. Qed.
Lemma nth_error_seq0 n i : (i < n)%nat -> nth_error (seq 0 n) i = Some i.
Proof.
  intros H. assert (G : forall s n i, (i < n)%nat -> nth_error (seq s n) i = Some (s + i)%nat).
  { intros s n0. revert s. induction n0 as [|n0 IH]; intros s [|k] Hk; cbn; try lia; [f_equal; lia|]. rewrite IH by lia. f_equal. lia. }
  apply (G 0%nat). exact H.
Qed.
Lemma map_of_opt_prefix temps w : repeat NaN w ++ map of_opt temps = map of_opt (repeat None w ++ temps).
Proof. rewrite map_app. f_equal. induction w as [|w IH]; cbn; [reflexivity|]. f_equal. exact IH. Qed.
Definition pcoef (a0 a1 a2 a3 m u : R) : R := a0 + a1 * u + a2 * m + a3 * u * m.
Lemma prilliman_at fi deltas temps winds um a0 a1 a2 a3 dt wz j u :
  get_sample_intervals fi deltas 20 = Ok (dt, wz) -> dt < 20 -> (0 < j < length temps)%nat -> nth_error winds j = Some #u ->
  exists out, prilliman fi deltas (map of_opt temps) winds #um (Some (#a0, #a1, #a2, #a3)) = Ok out /\
    nth_error out j =
      Some (fdiv #(lag_sum (fun k t => t * wt (pcoef a0 a1 a2 a3 um u) dt k) temps j (Z.to_nat wz))
                 #(lag_sum (fun k _ => wt (pcoef a0 a1 a2 a3 um u) dt k) temps j (Z.to_nat wz))).
Proof.
  intros E Hdt Hj Hu. unfold prilliman. rewrite E. cbn [bind fst snd]. rewrite Rleb_f by exact Hdt.
  destruct temps as [|t0 temps']; [cbn in Hj; lia|]. set (temps := t0 :: temps') in *.
  cbn [map]. change (of_opt t0 :: map of_opt temps') with (map of_opt temps). rewrite map_length.
  set (w := Nat.min (Z.to_nat wz) (length temps)). rewrite map_of_opt_prefix. eexists. split; [reflexivity|].
  rewrite set_first_nth by lia. erewrite nth_error_zip; [|apply nth_error_seq0; lia|exact Hu]. cbv beta. f_equal.
  rewrite !fmul_fin, !fadd_fin. fold (pcoef a0 a1 a2 a3 um u). set (p := pcoef a0 a1 a2 a3 um u).
  replace (map (fun i => nth (i + j) (map of_opt (repeat None w ++ temps)) NaN) (seq 0 w)) with (map of_opt (map (win temps w j) (seq 0 w))).
  2:{ rewrite map_map. apply map_ext. intros i. unfold win. rewrite <- (map_nth of_opt). reflexivity. }
  rewrite prilliman_row_fin. rewrite map_length, seq_length.
  destruct (wnum_lag p dt temps w j w (le_n w)) as [I1 I2]. rewrite Nat.sub_diag in I1, I2. rewrite I1, I2.
  assert (EQ : forall F, lag_sum F temps j (Z.to_nat wz) = lag_sum F temps j w).
  { intros F. destruct (le_lt_dec (Z.to_nat wz) (length temps)) as [L|L].
    - replace w with (Z.to_nat wz) by (unfold w; lia). reflexivity.
    - apply lag_sum_trunc; unfold w; lia. }
  rewrite !EQ. reflexivity.
Qed.
Lemma lag_sum_bounds p dt temps j W lo hi :
  (forall k t, (k < j)%nat -> (j <= k + W)%nat -> nth k temps None = Some t -> lo <= t <= hi) ->
  0 <= lag_sum (fun k _ => wt p dt k) temps j W /\
  lo * lag_sum (fun k _ => wt p dt k) temps j W <= lag_sum (fun k t => t * wt p dt k) temps j W <= hi * lag_sum (fun k _ => wt p dt k) temps j W.
Proof.
  induction W as [|W IH]; intros H; cbn [lag_sum]; [lra|].
  destruct IH as (I0 & I1 & I2); [intros k t H1 H2; apply H; lia|].
  destruct (Nat.leb_spec (S W) j) as [L|L]; [|lra].
  destruct (nth (j - S W) temps None) as [t|] eqn:Et; [|lra].
  specialize (H (j - S W)%nat t ltac:(lia) ltac:(lia) Et). set (x := wt p dt (S W)). assert (0 < x) by apply exp_pos.
  assert (lo * x <= t * x <= hi * x) by (split; apply Rmult_le_compat_r; lra). lra.
Qed.
Lemma wt_pos p dt k : 0 < wt p dt k. Proof. apply exp_pos. Qed.
Lemma lag_den_pos p dt temps j W k t : (k < j)%nat -> (j <= k + W)%nat -> nth k temps None = Some t ->
  0 < lag_sum (fun k _ => wt p dt k) temps j W.
Proof.
  intros H1 H2 E. assert (G : forall W, 0 <= lag_sum (fun k _ => wt p dt k) temps j W).
  { clear. intros W. induction W as [|W IH]; cbn [lag_sum]; [lra|]. destruct (Nat.leb (S W) j); [|lra].
    destruct (nth (j - S W) temps None); [|lra]. pose proof (wt_pos p dt (S W)). lra. }
  induction W as [|W IH]; [lia|]. cbn [lag_sum]. pose proof (G W).
  destruct (Nat.eq_dec (S W) (j - k)) as [D|D].
  - destruct (Nat.leb_spec (S W) j); [|lia]. replace (j - S W)%nat with k by lia. rewrite E.
    pose proof (wt_pos p dt (S W)). lra.
  - specialize (IH ltac:(lia)). destruct (Nat.leb (S W) j); [|lra].
    destruct (nth (j - S W) temps None); [|lra]. pose proof (wt_pos p dt (S W)). lra.
Qed.
Lemma lag_sum_none F temps j W : (forall k, (k < j)%nat -> (j <= k + W)%nat -> nth k temps None = None) -> lag_sum F temps j W = 0.
Proof.
  induction W as [|W IH]; intros H; cbn [lag_sum]; [reflexivity|]. rewrite IH by (intros; apply H; lia).
  destruct (Nat.leb_spec (S W) j); [|ring]. rewrite H by lia. ring.
Qed.
Lemma lag_sum_ext F temps temps' j W : (forall k, (k < j)%nat -> (j <= k + W)%nat -> nth k temps None = nth k temps' None) ->
  lag_sum F temps j W = lag_sum F temps' j W.
Proof.
  induction W as [|W IH]; intros H; cbn [lag_sum]; [reflexivity|]. rewrite IH by (intros; apply H; lia).
  destruct (Nat.leb_spec (S W) j); [|ring]. rewrite H by lia. reflexivity.
Qed.

(** ** fuentes *)
Definition posf (x : fl) : Prop := exists r, x = #r /\ 0 < r.
Definition nonnegf (x : fl) : Prop := exists r, x = #r /\ 0 <= r.
Lemma posf_c r : 0 < r -> posf #r. Proof. intros; exists r; auto. Qed.
Lemma nonnegf_c r : 0 <= r -> nonnegf #r. Proof. intros; exists r; auto. Qed.
Lemma posf_mul x y : posf x -> posf y -> posf (fmul x y).
Proof. intros (a & -> & Ha) (b & -> & Hb). exists (a * b). split; [reflexivity|]. apply Rmult_lt_0_compat; assumption. Qed.
Lemma posf_div x y : posf x -> posf y -> posf (fdiv x y).
Proof. intros (a & -> & Ha) (b & -> & Hb). exists (a / b). split; [apply fdiv_fin; lra|]. apply Rdiv_lt_0_compat; assumption. Qed.
Lemma posf_pow x c : posf x -> posf (fpow x #c).
Proof.
  intros (a & -> & Ha). exists (Rpower a c). split; [apply fpow_fin; exact Ha|]. apply exp_pos.
Qed.
Lemma posf_pown x n : posf x -> posf (fpown x n).
Proof. intros (a & -> & Ha). exists (a ^ n). split; [apply fpown_fin|apply pow_lt; exact Ha]. Qed.
Lemma nonnegf_pown x n : nonnegf x -> nonnegf (fpown x n).
Proof. intros (a & -> & Ha). exists (a ^ n). split; [apply fpown_fin|apply pow_le; exact Ha]. Qed.
Lemma posf_nonneg x : posf x -> nonnegf x. Proof. intros (a & -> & Ha). exists a. split; [reflexivity|lra]. Qed.
Lemma nonnegf_mul x y : nonnegf x -> nonnegf y -> nonnegf (fmul x y).
Proof. intros (a & -> & Ha) (b & -> & Hb). exists (a * b). split; [reflexivity|]. apply Rmult_le_pos; assumption. Qed.
Lemma nonnegf_div x y : nonnegf x -> posf y -> nonnegf (fdiv x y).
Proof.
  intros (a & -> & Ha) (b & -> & Hb). exists (a / b). split; [apply fdiv_fin; lra|].
  apply Rmult_le_pos; [exact Ha|left; apply Rinv_0_lt_compat, Hb].
Qed.
Lemma nonnegf_pow x c : 0 < c -> nonnegf x -> nonnegf (fpow x #c).
Proof.
  intros Hc (a & -> & [Ha| <-]).
  - apply posf_nonneg, posf_pow, posf_c, Ha.
  - exists 0. split; [apply fpow_zero; exact Hc|lra].
Qed.
Lemma posf_add_nn x y : nonnegf x -> posf y -> posf (fadd x y).
Proof. intros (a & -> & Ha) (b & -> & Hb). exists (a + b). split; [reflexivity|lra]. Qed.

Lemma hconv_pos tave wm td xlen tilt chk : 0 < tave -> 0 < wm -> 0 <= td -> 0 < xlen -> 0 <= sinD tilt ->
  posf (fuentes_hconv #tave #wm #td #xlen #tilt chk).
Proof.
  intros H1 H2 H3 H4 H5. unfold fuentes_hconv.
  assert (D : posf (#0.003484 * #101325 / #tave)%fl) by (apply posf_div; [apply posf_mul|]; apply posf_c; lra).
  set (dens := (#0.003484 * #101325 / #tave)%fl) in *.
  assert (V : posf (#(0.24237 / 10 ^ 6) * fpow #tave #0.76 / dens)%fl).
  { apply posf_div; [apply posf_mul; [apply posf_c; simpl; lra|apply posf_pow, posf_c; lra]|exact D]. }
  set (vis := (#(0.24237 / 10 ^ 6) * fpow #tave #0.76 / dens)%fl) in *.
  assert (C : posf (#(2.1695 / 10 ^ 4) * fpow #tave #0.84)%fl) by (apply posf_mul; [apply posf_c; simpl; lra|apply posf_pow, posf_c; lra]).
  set (cond := (#(2.1695 / 10 ^ 4) * fpow #tave #0.84)%fl) in *.
  assert (RE : posf (#wm * #xlen / vis)%fl) by (apply posf_div; [apply posf_mul; apply posf_c; assumption|exact V]).
  set (re := (#wm * #xlen / vis)%fl) in *.
  cbv zeta. apply posf_pow. apply posf_add_nn.
  - apply nonnegf_pown. apply nonnegf_div; [|apply posf_c; exact H4]. apply nonnegf_mul; [|apply posf_nonneg, C].
    apply nonnegf_mul; [apply nonnegf_c; lra|]. apply nonnegf_pow; [lra|]. apply nonnegf_mul; [|apply nonnegf_c; lra].
    apply nonnegf_mul; [|rewrite sind_fin; apply nonnegf_c; exact H5].
    apply nonnegf_div; [|apply posf_pown; exact V]. apply nonnegf_mul; [|apply nonnegf_pown, nonnegf_c; lra].
    apply nonnegf_mul; [|apply nonnegf_c; exact H3]. apply posf_nonneg, posf_div; apply posf_c; lra.
  - apply posf_pown. destruct (chk && fgtb re #120000);
      (apply posf_div; [|apply posf_pow, posf_c; lra]; apply posf_mul; [|apply posf_c; lra]; apply posf_mul; [|apply posf_c; exact H2];
       apply posf_mul; [|exact D]; apply posf_div; [apply posf_c; lra|apply posf_pow, RE]).
Qed.

Lemma exp_ge_1px x : 1 + x <= exp x.
Proof. destruct (Req_dec x 0) as [->|N]; [rewrite exp_0; lra|]. left. apply exp_ineq1. exact N. Qed.
(** decay factor and sun weights for x = -eigen > 0 *)
Lemma lag_weights x : 0 < x -> let ex := if Rltb (-10) (- x) then exp (- x) else 0 in
  0 <= ex <= 1 /\ 0 <= 1 - (1 - ex) / x /\ 0 <= (1 - ex) / x - ex.
Proof.
  intros Hx ex. assert (E1 : 0 <= ex <= 1 /\ 1 - ex <= x /\ x * ex <= 1 - ex).
  { unfold ex. destruct (Rltb_spec (-10) (- x)) as [L|L].
    - pose proof (exp_pos (- x)). pose proof (exp_ge_1px (- x)). pose proof (exp_ge_1px x).
      assert (P : exp (- x) * exp x = 1) by (rewrite <- exp_plus; replace (- x + x) with 0 by ring; apply exp_0).
      split; [split; [lra|]|split; [lra|nra]]. nra.
    - lra. }
  destruct E1 as (E1 & E2 & E3). split; [exact E1|].
  assert (Q : (1 - ex) / x <= 1) by (apply Rmult_le_reg_r with x; [exact Hx|]; unfold Rdiv; rewrite Rmult_assoc, Rinv_l by lra; lra).
  assert (Q2 : ex <= (1 - ex) / x) by (apply Rmult_le_reg_r with x; [exact Hx|]; unfold Rdiv; rewrite Rmult_assoc, Rinv_l by lra; lra).
  lra.
Qed.
Record fu_params := FuP { fp_emiss : R; fp_xlen : R; fp_tgrat : R; fp_convrat : R; fp_cap : R; fp_tilt : R }.
Definition fu_ok (q : fu_params) : Prop :=
  0 <= fp_emiss q /\ 0 < fp_xlen q /\ 0 <= fp_tgrat q <= 1 /\ 0 < fp_convrat q /\ 0 < fp_cap q /\ 0 <= sinD (fp_tilt q).
Lemma fuentes_inner_bounds q tamb sun wm tsky dt tmod0 sun0 tmod lo :
  fu_ok q -> 0 < lo -> lo <= tamb -> lo <= tsky -> lo <= tmod0 -> lo <= tmod -> 0 <= sun -> 0 <= sun0 -> 0 < wm -> 0 < dt ->
  exists y, fuentes_inner #(fp_emiss q) #(fp_xlen q) #(fp_tgrat q) #(fp_convrat q) #(fp_cap q) #(fp_tilt q)
      #tamb #sun #wm #tsky #dt #tmod0 #sun0 #tmod = #y /\ lo <= y /\
    (forall hi, sun = 0 -> sun0 = 0 -> tamb <= hi -> tsky <= hi -> tmod0 <= hi -> tmod <= hi -> y <= hi).
Proof.
  intros (Q1 & Q2 & Q3 & Q4 & Q5 & Q6) Hlo Ha Hs H0 Hm Hsun Hsun0 Hw Hd. unfold fuentes_inner. cbv zeta.
  assert (TA : (#tmod + #tamb)%fl = #(tmod + tamb)) by reflexivity. rewrite TA. rewrite (fdiv_fin (tmod + tamb)) by lra.
  rewrite (fsub_fin tmod tamb), (fabs_fin (tmod - tamb)).
  destruct (hconv_pos ((tmod + tamb) / 2) wm (Rabs (tmod - tamb)) (fp_xlen q) (fp_tilt q) true) as (hc & -> & Hhc); try lra; [apply Rabs_pos|].
  repeat first [rewrite !fmul_fin | rewrite !fadd_fin | rewrite !fsub_fin | rewrite !fneg_fin | rewrite !fpown_fin].
  set (tg := tamb + fp_tgrat q * (tmod - tamb)).
  assert (TG : lo <= tg).
  { unfold tg. replace (tamb + fp_tgrat q * (tmod - tamb)) with ((1 - fp_tgrat q) * tamb + fp_tgrat q * tmod) by ring. nra. }
  assert (TGU : forall hi, tamb <= hi -> tmod <= hi -> tg <= hi).
  { intros hi U1 U2. unfold tg. replace (tamb + fp_tgrat q * (tmod - tamb)) with ((1 - fp_tgrat q) * tamb + fp_tgrat q * tmod) by ring. nra. }
  assert (HB : 0 < boltz) by (unfold boltz; simpl; lra).
  set (hsky := fp_emiss q * boltz * (tmod ^ 2 + tsky ^ 2) * (tmod + tsky)).
  set (hgr := fp_emiss q * boltz * (tmod ^ 2 + tg ^ 2) * (tmod + tg)).
  assert (EB : 0 <= fp_emiss q * boltz) by (apply Rmult_le_pos; lra).
  assert (HS : 0 <= hsky) by (unfold hsky; apply Rmult_le_pos; [apply Rmult_le_pos; [exact EB|]|lra]; pose proof (pow2_ge_0 tmod); pose proof (pow2_ge_0 tsky); lra).
  assert (HG : 0 <= hgr) by (unfold hgr; apply Rmult_le_pos; [apply Rmult_le_pos; [exact EB|]|lra]; pose proof (pow2_ge_0 tmod); pose proof (pow2_ge_0 tg); lra).
  set (hcv := fp_convrat q * hc). assert (HC : 0 < hcv) by (unfold hcv; apply Rmult_lt_0_compat; assumption).
  set (H := hcv + hsky + hgr). assert (HH : 0 < H) by (unfold H; lra).
  rewrite (fdiv_fin (- H)) by lra. rewrite !fmul_fin.
  set (x := H / fp_cap q * dt * 3600). assert (Hx : 0 < x).
  { unfold x. apply Rmult_lt_0_compat; [|lra]. apply Rmult_lt_0_compat; [|exact Hd]. apply Rdiv_lt_0_compat; assumption. }
  replace (- H / fp_cap q * dt * 3600) with (- x) by (unfold x, Rdiv; ring).
  unfold fgtb. rewrite fltb_fin, fexp_fin.
  set (ex := if Rltb (-10) (- x) then exp (- x) else 0).
  assert (EX : (if Rltb (-10) (- x) then #(exp (- x)) else #0) = #ex) by (unfold ex; destruct (Rltb (-10) (- x)); reflexivity). rewrite EX.
  destruct (lag_weights x Hx) as (W1 & W2 & W3). fold ex in W1, W2, W3.
  rewrite (fdiv_fin (sun - sun0)) by lra.
  repeat first [rewrite !fmul_fin | rewrite !fadd_fin | rewrite !fsub_fin]. rewrite (fdiv_fin _ H) by lra. rewrite fadd_fin.
  eexists. split; [reflexivity|].
  set (A := hcv * tamb + hsky * tsky + hgr * tg).
  assert (AL : lo * H <= A) by (unfold A, H; nra).
  assert (EN : (1 - ex) * (A + sun0 + (sun - sun0) / - x) + sun - sun0
             = (1 - ex) * A + (sun * (1 - (1 - ex) / x) + sun0 * ((1 - ex) / x - ex))) by (field; lra).
  unfold A in EN. unfold A. rewrite EN. fold A.
  set (S := sun * (1 - (1 - ex) / x) + sun0 * ((1 - ex) / x - ex)).
  assert (SN : 0 <= S) by (unfold S; apply Rplus_le_le_0_compat; apply Rmult_le_pos; assumption).
  split.
  - assert (G : lo * (1 - ex) <= ((1 - ex) * A + S) / H).
    { apply Rmult_le_reg_r with H; [exact HH|]. replace (((1 - ex) * A + S) / H * H) with ((1 - ex) * A + S) by (field; lra). nra. }
    nra.
  - intros hi E1 E2 U1 U2 U3 U4. assert (S0 : S = 0) by (unfold S; rewrite E1, E2; ring). rewrite S0.
    assert (AU : A <= hi * H) by (pose proof (TGU hi U1 U4); unfold A, H; nra).
    assert (G : ((1 - ex) * A + 0) / H <= hi * (1 - ex)).
    { apply Rmult_le_reg_r with H; [exact HH|]. replace (((1 - ex) * A + 0) / H * H) with ((1 - ex) * A) by (field; lra). nra. }
    nra.
Qed.
Lemma fuentes_ten q tamb sun wm tsky dt tmod0 sun0 lo n tmod :
  fu_ok q -> 0 < lo -> lo <= tamb -> lo <= tsky -> lo <= tmod0 -> lo <= tmod -> 0 <= sun -> 0 <= sun0 -> 0 < wm -> 0 < dt ->
  exists y, repeat_fun n (fuentes_inner #(fp_emiss q) #(fp_xlen q) #(fp_tgrat q) #(fp_convrat q) #(fp_cap q) #(fp_tilt q)
      #tamb #sun #wm #tsky #dt #tmod0 #sun0) #tmod = #y /\ lo <= y /\
    (forall hi, sun = 0 -> sun0 = 0 -> tamb <= hi -> tsky <= hi -> tmod0 <= hi -> tmod <= hi -> y <= hi).
Proof.
  intros OK Hlo Ha Hs H0 Hm Hsun Hsun0 Hw Hd. revert tmod Hm. induction n as [|n IH]; intros tmod Hm; cbn [repeat_fun].
  - exists tmod. split; [reflexivity|]. split; [exact Hm|]. intros; assumption.
  - destruct (fuentes_inner_bounds q tamb sun wm tsky dt tmod0 sun0 tmod lo OK Hlo Ha Hs H0 Hm Hsun Hsun0 Hw Hd) as (y & -> & B & U).
    destruct (IH y B) as (z & -> & B' & U'). exists z. split; [reflexivity|]. split; [exact B'|].
    intros hi E1 E2 U1 U2 U3 U4. apply U'; auto.
Qed.

Definition skyR (tamb : R) : R := 0.68 * (0.0552 * Rpower tamb 1.5) + 0.32 * tamb.
(** one weather record in physical units *)
Record weather := Weather { w_temp : R; w_poa : R; w_wind : R; w_dt : R }.
Definition to_row (w : weather) : frow_in := FRow #(w_temp w) #(w_poa w) #(w_wind w) #(w_dt w).
Definition weather_ok (lo : R) (w : weather) : Prop :=
  lo <= w_temp w + 273.15 /\ lo <= skyR (w_temp w + 273.15) /\ 0 <= w_poa w /\ 0 <= w_wind w /\ 0 < w_dt w.
Lemma fuentes_loop_bounds q absorp wf lo rows tmod0 sun0 :
  fu_ok q -> 0 <= absorp -> 0 <= wf -> 0 < lo -> Forall (weather_ok lo) rows -> lo <= tmod0 -> 0 <= sun0 ->
  exists ys, fuentes_loop #(fp_emiss q) #absorp #(fp_xlen q) #(fp_tgrat q) #(fp_convrat q) #(fp_cap q) #(fp_tilt q) #wf #tmod0 #sun0 (map to_row rows)
      = map Fin ys /\ length ys = length rows /\ Forall (fun y => lo <= y) ys /\
   (forall hi, tmod0 <= hi -> sun0 = 0 -> Forall (fun w => w_poa w = 0 /\ w_temp w + 273.15 <= hi /\ skyR (w_temp w + 273.15) <= hi) rows ->
      Forall (fun y => y <= hi) ys).
Proof.
  intros OK Hab Hwf Hlo HF. revert tmod0 sun0. induction HF as [|w rows Hw HF IH]; intros tmod0 sun0 H0 Hs0.
  - exists []. repeat split; constructor.
  - destruct Hw as (W1 & W2 & W3 & W4 & W5). cbn [map fuentes_loop to_row fr_temp fr_poa fr_wind fr_dt].
    rewrite (fadd_fin (w_temp w)), (fmul_fin (w_poa w)), (fmul_fin (w_wind w)), (fadd_fin _ 0.0001).
    assert (TA : 0 < w_temp w + 273.15) by lra. set (ta := w_temp w + 273.15) in *.
    rewrite (fpow_fin ta) by exact TA. rewrite !fmul_fin, fadd_fin. fold (skyR ta).
    destruct (fuentes_ten q ta (w_poa w * absorp) (w_wind w * wf + 0.0001) (skyR ta) (w_dt w) tmod0 sun0 lo 10 tmod0) as (y & -> & B & U); auto.
    { apply Rmult_le_pos; assumption. }
    { assert (0 <= w_wind w * wf) by (apply Rmult_le_pos; assumption). lra. }
    destruct (IH y (w_poa w * absorp) B) as (ys & -> & L & BL & BU); [apply Rmult_le_pos; assumption|].
    exists (y :: ys). split; [reflexivity|]. split; [cbn; congruence|]. split; [constructor; assumption|].
    intros hi U1 U2 UF. inversion UF as [|? ? (V1 & V2 & V3) VF]; subst. 
    assert (P0 : w_poa w * absorp = 0) by (rewrite V1; ring).
    constructor; [apply U; auto|apply BU; auto].
Qed.
(** the derived constants are physical when the reference conditions are *)
Lemma fuentes_setup_ok noct emiss absorp tilt mw ml :
  let T := noct + 273.15 in let eb := emiss * boltz in
  293.15 < T -> 0 < emiss -> 0 <= sinD tilt -> 0 < mw -> 0 < ml ->
  eb * (2 * T ^ 4 - 282.21 ^ 4 - 293.15 ^ 4) < absorp * 800 <= eb * (2 * T ^ 4 - 282.21 ^ 4) ->
  exists q, fuentes_setup #noct #emiss #absorp #tilt #mw #ml = (#(fp_xlen q), #(fp_tgrat q), #(fp_convrat q), #(fp_cap q)) /\
    fu_ok q /\ fp_emiss q = emiss /\ fp_tilt q = tilt /\ 11000 <= fp_cap q.
Proof.
  intros T eb HT He Ht Hmw Hml HQ. unfold fuentes_setup, hydraulic_diameter. cbv zeta.
  rewrite (fadd_fin noct). fold T. rewrite !(fmul_fin mw ml), !(fadd_fin mw ml), !(fmul_fin 2 (mw * ml)).
  rewrite !(fdiv_fin (2 * (mw * ml))) by lra. set (xlen := 2 * (mw * ml) / (mw + ml)).
  assert (HX : 0 < xlen) by (unfold xlen; apply Rdiv_lt_0_compat; [apply Rmult_lt_0_compat; [lra|apply Rmult_lt_0_compat; assumption]|lra]).
  rewrite !(fadd_fin T), !(fsub_fin T). rewrite !(fdiv_fin (T + 293.15)) by lra.
  destruct (hconv_pos ((T + 293.15) / 2) 1 (T - 293.15) xlen tilt false) as (hc & -> & Hhc); try lra.
  repeat first [rewrite !fmul_fin | rewrite !fadd_fin | rewrite !fsub_fin | rewrite !fpown_fin]. fold eb.
  assert (HB : 0 < boltz) by (unfold boltz; simpl; lra).
  assert (Heb : 0 < eb) by (unfold eb; apply Rmult_lt_0_compat; assumption).
  set (D := T - 293.15) in *. assert (HD : 0 < D) by (unfold D; lra).
  set (P := T ^ 4 - 293.15 ^ 4). 
  assert (EP : (T ^ 2 + 293.15 ^ 2) * (T + 293.15) * D = P) by (unfold D, P; ring).
  assert (HS : 0 < (T ^ 2 + 293.15 ^ 2) * (T + 293.15)).
  { apply Rmult_lt_0_compat; [|lra]. pose proof (pow2_ge_0 T). assert (0 < 293.15 ^ 2) by (apply pow_lt; lra). lra. }
  assert (HP : 0 < P) by (rewrite <- EP; apply Rmult_lt_0_compat; assumption).
  set (hg := eb * (T ^ 2 + 293.15 ^ 2) * (T + 293.15)).
  assert (Ehg : hg * D = eb * P) by (unfold hg; rewrite <- EP; ring).
  assert (Hhg : 0 < hg) by (unfold hg; rewrite Rmult_assoc; apply Rmult_lt_0_compat; assumption).
  assert (Hden : 0 < (hg + hc) * D) by (apply Rmult_lt_0_compat; lra).
  rewrite (fdiv_fin _ ((hg + hc) * D)) by lra. rewrite fmul_fin, fsub_fin.
  set (N := absorp * 800 - eb * (T ^ 4 - 282.21 ^ 4) - hc * D).
  assert (HN : N < eb * T ^ 4) by (unfold N; assert (0 < hc * D) by (apply Rmult_lt_0_compat; lra); lra).
  assert (HT4 : 0 < T ^ 4) by (apply pow_lt; lra).
  assert (Hbase : 0 < T ^ 4 - N / ((hg + hc) * D) * P).
  { assert (N / ((hg + hc) * D) * P < T ^ 4); [|lra]. apply Rmult_lt_reg_r with ((hg + hc) * D); [exact Hden|].
    replace (N / ((hg + hc) * D) * P * ((hg + hc) * D)) with (N * P) by (field; split; lra).
    replace (T ^ 4 * ((hg + hc) * D)) with (T ^ 4 * (hg * D) + T ^ 4 * (hc * D)) by ring. rewrite Ehg.
    assert (0 < T ^ 4 * (hc * D)) by (apply Rmult_lt_0_compat; [exact HT4|apply Rmult_lt_0_compat; lra]).
    assert (N * P < eb * T ^ 4 * P) by (apply Rmult_lt_compat_r; assumption). lra. }
  rewrite (fpow_fin _ 0.25 Hbase). set (g0 := Rpower _ 0.25). rewrite (fclip_fin g0).
  set (g := Rmin (Rmax g0 293.15) T). assert (Hg : 293.15 <= g <= T) by (unfold g; rmm; lra).
  repeat first [rewrite !fmul_fin | rewrite !fadd_fin | rewrite !fsub_fin | rewrite !fpown_fin].
  rewrite !fdiv_fin by (try (apply Rgt_not_eq, Rlt_gt; apply Rmult_lt_0_compat; lra); lra).
  unfold fgtb. rewrite fltb_fin.
  set (M := absorp * 800 - eb * (2 * T ^ 4 - 282.21 ^ 4 - g ^ 4)).
  assert (HM : 0 < M).
  { unfold M. assert (293.15 ^ 4 <= g ^ 4) by (apply pow_incr; lra).
    assert (eb * (2 * T ^ 4 - 282.21 ^ 4 - g ^ 4) <= eb * (2 * T ^ 4 - 282.21 ^ 4 - 293.15 ^ 4)) by (apply Rmult_le_compat_l; lra). lra. }
  repeat first [rewrite !fmul_fin | rewrite !fadd_fin].
  set (cap := if Rltb 321.15 T then 11000 * (1 + (T - 321.15) / 12) else 11000).
  assert (EC : (if Rltb 321.15 T then #(11000 * (1 + (T - 321.15) / 12)) else #11000) = #cap) by (unfold cap; destruct (Rltb 321.15 T); reflexivity).
  rewrite EC. assert (HCap : 11000 <= cap) by (unfold cap; destruct (Rltb_spec 321.15 T); lra).
  exists (FuP emiss xlen ((g - 293.15) / D) (M / (hc * D)) cap tilt). cbn [fp_emiss fp_xlen fp_tgrat fp_convrat fp_cap fp_tilt].
  split; [reflexivity|]. split; [|repeat split; lra]. unfold fu_ok. cbn [fp_emiss fp_xlen fp_tgrat fp_convrat fp_cap fp_tilt].
  split; [lra|]. split; [exact HX|]. split; [|split; [|split; [lra|exact Ht]]].
  - split; [apply Rmult_le_pos; [lra|left; apply Rinv_0_lt_compat; exact HD]|].
    apply Rmult_le_reg_r with D; [exact HD|]. unfold Rdiv. rewrite Rmult_assoc, Rinv_l by lra. unfold D. lra.
  - apply Rdiv_lt_0_compat; [exact HM|]. apply Rmult_lt_0_compat; lra.
Qed.
(** causality of the loop *)
Lemma fuentes_loop_app em ab xl tg cr cp ti wf rows1 rows2 : forall t s, exists tail,
  fuentes_loop em ab xl tg cr cp ti wf t s (rows1 ++ rows2) = fuentes_loop em ab xl tg cr cp ti wf t s rows1 ++ tail /\ length tail = length rows2.
Proof.
  induction rows1 as [|r rows1 IH]; intros t s; cbn [app fuentes_loop].
  - exists (fuentes_loop em ab xl tg cr cp ti wf t s rows2). split; [reflexivity|].
    revert t s. induction rows2 as [|r rows2 IH]; intros t s; cbn [fuentes_loop length]; [reflexivity|]. f_equal. apply IH.
  - destruct (IH (repeat_fun 10 (fuentes_inner em xl tg cr cp ti (fr_temp r + #273.15)%fl (fr_poa r * ab)%fl (fr_wind r * wf + #0.0001)%fl
         (#0.68 * (#0.0552 * fpow (fr_temp r + #273.15)%fl #1.5) + #0.32 * (fr_temp r + #273.15))%fl (fr_dt r) t s) t) (fr_poa r * ab)%fl) as (tail & E & L).
    exists tail. split; [|exact L]. cbv zeta. rewrite E. reflexivity.
Qed.
