(** Lemmas: inverters and transformer. *)
From Verif Require Import Base.Fl Base.FlFacts Base.Py Model.Inverter Spec.InverterSpec.
From Coq Require Import Psatz Permutation Morphisms.
Open Scope R_scope.

(** ** fadd is a commutative monoid on fl *)
Lemma fadd_assoc x y z : fadd x (fadd y z) = fadd (fadd x y) z.
Proof. destruct x, y, z; simpl; auto. f_equal; ring. Qed.
Lemma fadd_0_l x : fadd #0 x = x.
Proof. destruct x; simpl; auto. f_equal; ring. Qed.
Lemma fsum_acc l a : fold_left fadd l a = fadd a (fsum l).
Proof.
  revert a. induction l as [|x l IH]; intros a; cbn [fold_left].
  - unfold fsum; cbn [fold_left]. rewrite fadd_comm, fadd_0_l. reflexivity.
  - rewrite IH. unfold fsum at 2; cbn [fold_left]. rewrite (IH (fadd #0 x)), fadd_0_l, fadd_assoc. reflexivity.
Qed.
Lemma fsum_cons x l : fsum (x :: l) = fadd x (fsum l).
Proof. unfold fsum at 1. cbn [fold_left]. rewrite fsum_acc, fadd_0_l. reflexivity. Qed.
Lemma fsum_perm l l' : Permutation l l' -> fsum l = fsum l'.
Proof.
  induction 1; auto.
  - rewrite !fsum_cons, IHPermutation. reflexivity.
  - rewrite !fsum_cons, !fadd_assoc. f_equal. apply fadd_comm.
  - congruence.
Qed.
Lemma fold_add_map {A} (f : A -> fl) l a : fold_left (fun acc x => fadd acc (f x)) l a = fadd a (fsum (map f l)).
Proof.
  revert a. induction l as [|x l IH]; intros a; cbn [fold_left map].
  - unfold fsum; cbn [fold_left]. rewrite fadd_comm, fadd_0_l. reflexivity.
  - rewrite IH, fsum_cons, fadd_assoc. reflexivity.
Qed.
Lemma fsum_fin l : fsum (map Fin l) = #(Rsum l).
Proof. induction l; [reflexivity|]. cbn [map Rsum]. rewrite fsum_cons, IHl. reflexivity. Qed.

(** ** sandia *)
Lemma sandia_cases v p inv :
  (fltb p (Pso inv) = true -> sandia v p inv = fmul #(-1) (fabs (Pnt inv))) /\
  (fltb p (Pso inv) = false -> sandia v p inv = fmin (Paco inv) (sandia_eff v p inv)).
Proof. unfold sandia, sandia_limits. destruct (fltb p (Pso inv)); split; intros; congruence. Qed.

Lemma fmin_comm x y : fmin x y = fmin y x.
Proof. destruct x, y; simpl; auto. f_equal. apply Rmin_comm. Qed.
Lemma sandia_atmost v p inv a : Paco inv = #a -> 0 <= a ->
  atmost #a (sandia v p inv).
Proof.
  intros Ha Ha0. unfold sandia, sandia_limits. rewrite Ha. destruct (fltb p (Pso inv)).
  - destruct (Pnt inv) as [x| | |]; simpl.
    + apply atmost_fin. pose proof (Rabs_pos x). lra.
    + right. unfold fle, sinf, Rpos, Rneg. rewrite Rltb_f by lra. rewrite Rltb_t by lra. reflexivity.
    + right. unfold fle, sinf, Rpos, Rneg. rewrite Rltb_f by lra. rewrite Rltb_t by lra. reflexivity.
    + left; reflexivity.
  - rewrite fmin_comm. apply fmin_atmost.
Qed.

Definition fp (pa pd vd c0 c1 c2 c3 ps pn : R) : sandia_params :=
  SandiaParams #pa #pd #vd #c0 #c1 #c2 #c3 #ps #pn.
Lemma sandia_eff_fin pa pd vd c0 c1 c2 c3 ps pn v p :
  let A := pd * (1 + c1 * (v - vd)) in let B := ps * (1 + c2 * (v - vd)) in
  let C := c0 * (1 + c3 * (v - vd)) in
  A - B <> 0 ->
  sandia_eff #v #p (fp pa pd vd c0 c1 c2 c3 ps pn) = #(curve pa A B C p).
Proof.
  intros A B C H. unfold sandia_eff, fp; cbn [Paco Pdco Vdco C0 C1 C2 C3 Pso]. fin.
  fold A B C. try rewrite fdiv_fin by exact H. fin. reflexivity.
Qed.
Lemma curve_A pa A B C : A - B <> 0 -> curve pa A B C A = pa.
Proof. intros H. unfold curve. field. exact H. Qed.
Lemma curve_B pa A B C : curve pa A B C B = 0.
Proof. unfold curve. ring. Qed.
Lemma curve_form pa A B C p : A - B <> 0 ->
  curve pa A B C p = pa * ((p - B) / (A - B)) + C * (p - B) * (p - A).
Proof. intros H. unfold curve. field. exact H. Qed.
Lemma curve_mono pa A B C p q : B < A -> Rabs C * (A - B) * (A - B) <= pa -> B <= p -> p <= q -> q <= A ->
  curve pa A B C p <= curve pa A B C q.
Proof.
  intros HAB HC H1 H2 H3. rewrite !curve_form by lra.
  assert (Hd : 0 <= pa / (A - B) - Rabs C * (A - B)).
  { assert (E : pa / (A - B) - Rabs C * (A - B) = (pa - Rabs C * (A - B) * (A - B)) / (A - B)) by (field; lra).
    rewrite E. apply Rmult_le_pos; [lra|]. left. apply Rinv_0_lt_compat. lra. }
  assert (E : pa * ((q - B) / (A - B)) + C * (q - B) * (q - A) - (pa * ((p - B) / (A - B)) + C * (p - B) * (p - A))
     = (q - p) * (pa / (A - B) + C * ((q - B) + (p - A)))) by (field; lra).
  assert (K : 0 <= pa / (A - B) + C * ((q - B) + (p - A))).
  { assert (HR : - (A - B) <= (q - B) + (p - A) <= A - B) by lra.
    set (m := (q - B) + (p - A)) in *. pose proof (Rabs_pos C) as HP.
    assert (- (Rabs C * (A - B)) <= C * m).
    { destruct (Rle_dec 0 C) as [HC0|HC0].
      - rewrite Rabs_right in * by lra. nra.
      - rewrite Rabs_left in * by lra. nra. }
    lra. }
  assert (0 <= (q - p) * (pa / (A - B) + C * ((q - B) + (p - A)))) by (apply Rmult_le_pos; lra). lra.
Qed.

(** ** sandia_multi *)
Lemma sandia_multi_err v p inv : length p <> length v <-> sandia_multi v p inv = Err ValueError.
Proof.
  unfold sandia_multi. destruct (Nat.eqb_spec (length p) (length v)); simpl; split; intros; congruence.
Qed.
Definition share (P : fl) (inv : sandia_params) (vp : fl * fl) : fl :=
  fmul (fdiv (snd vp) P) (sandia_eff (fst vp) P inv).
Lemma sandia_multi_eq v p inv : length p = length v ->
  sandia_multi v p inv =
  Ok (sandia_limits (fadd (fmul #0 (fsum p)) (fsum (map (share (fsum p) inv) (combine v p)))) (fsum p)
        (Paco inv) (Pnt inv) (Pso inv)).
Proof.
  intros H. unfold sandia_multi. rewrite H, Nat.eqb_refl. simpl negb. cbv iota zeta.
  rewrite (fold_add_map (share (fsum p) inv)). reflexivity.
Qed.
Lemma combine_snd {A B} (l : list A) (m : list B) : length m = length l -> map snd (combine l m) = m.
Proof.
  revert m. induction l; intros [|y m]; simpl; try discriminate; intros; auto.
  f_equal. apply IHl. congruence.
Qed.
Lemma sandia_multi_perm v p v' p' inv : length p = length v -> length p' = length v' ->
  Permutation (combine v p) (combine v' p') -> sandia_multi v p inv = sandia_multi v' p' inv.
Proof.
  intros H H' HP. rewrite !sandia_multi_eq by assumption.
  assert (E : fsum p = fsum p').
  { rewrite <- (combine_snd v p H), <- (combine_snd v' p' H'). apply fsum_perm, Permutation_map, HP. }
  rewrite E. do 3 f_equal. apply fsum_perm, Permutation_map, HP.
Qed.
Lemma share_sum (P e : R) (l : list R) inv v :
  P <> 0 -> sandia_eff #v #P inv = #e ->
  fsum (map (share #P inv) (combine (repeat #v (length l)) (map Fin l))) = #(Rsum l / P * e).
Proof.
  intros HP He. induction l as [|x l IH].
  - simpl. unfold fsum; simpl. f_equal. field. exact HP.
  - cbn [length repeat map combine]. rewrite fsum_cons, IH. unfold share; cbn [fst snd]. rewrite He. fin.
    cbn [Rsum]. f_equal. field. exact HP.
Qed.
Lemma sandia_multi_same_voltage v l inv e : l <> [] -> Rsum l <> 0 -> sandia_eff #v #(Rsum l) inv = #e ->
  sandia_multi (repeat #v (length l)) (map Fin l) inv = Ok (sandia #v #(Rsum l) inv).
Proof.
  intros _ HP He. rewrite sandia_multi_eq by (rewrite map_length, repeat_length; reflexivity).
  rewrite fsum_fin, (share_sum _ e) by assumption. fin. unfold sandia. rewrite He.
  do 3 f_equal. field. exact HP.
Qed.
(** a single input below the start-up power sleeps as in sandia, whatever the other values are *)
Lemma sandia_multi_sleep v p inv : length p = length v -> fltb (fsum p) (Pso inv) = true ->
  sandia_multi v p inv = Ok (fmul #(-1) (fabs (Pnt inv))).
Proof. intros H Hl. rewrite sandia_multi_eq by exact H. unfold sandia_limits. rewrite Hl. reflexivity. Qed.
Lemma sandia_multi_single v p inv : p <> 0 -> (exists e, sandia_eff #v #p inv = #e) ->
  sandia_multi [#v] [#p] inv = Ok (sandia #v #p inv).
Proof.
  intros Hp [e He]. pose proof (sandia_multi_same_voltage v [p] inv e) as H. simpl in H.
  rewrite Rplus_0_r in H. apply H; [discriminate|exact Hp|exact He].
Qed.

(** ** adr *)
Lemma adr_bounds v p inv vtol nt mx : a_Pnt inv = #nt -> a_Pacmax inv = #mx -> - Rabs nt <= mx ->
  within #(- Rabs nt) #mx (adr v p inv vtol).
Proof.
  intros Hn Hm H. unfold adr. rewrite Hn, Hm. cbv zeta.
  set (x := where_ _ _ (where_ _ _ _)). clearbody x.
  destruct x as [x| | |]; simpl.
  - apply within_fin. rmm; lra.
  - apply within_fin. lra.
  - apply within_fin. rmm; lra.
  - left; reflexivity.
Qed.
Definition adr_of (r : adr_fin) : adr_params :=
  AdrParams #(r_pnom r) #(r_vnom r) #(r_pacmax r) #(r_pnt r)
    [#(k0 r); #(k1 r); #(k2 r); #(k3 r); #(k4 r); #(k5 r); #(k6 r); #(k7 r); #(k8 r)]
    #(r_vmax r) #(r_vmin r) #(r_vdcmax r) #(r_hi r) #(r_low r).
Lemma adr_value r v p vtol : 0 < r_pnom r -> 0 < r_vnom r ->
  adr #v #p (adr_of r) #vtol =
  if Reqb v 0 then #(Rmin (- Rabs (r_pnt r)) (r_pacmax r))
  else if Rltb (adr_upper r vtol) v || Rltb v (adr_lower r vtol) then NaN
  else #(Rmin (Rmax (r_pnom r * (p / r_pnom r - adr_loss r (p / r_pnom r) (v / r_vnom r))) (- Rabs (r_pnt r))) (r_pacmax r)).
Proof.
  intros Hp Hv. unfold adr, adr_of; cbn [a_Pnom a_Vnom a_Pacmax a_Pnt a_coef a_Vmax a_Vmin a_Vdcmax a_MPPTHi a_MPPTLow].
  unfold nanmax. cbn [fold_left nfmax fmax]. fin. cbn [nfmax]. fin.
  fold (adr_upper r vtol). fold (adr_lower r vtol).
  replace (-1 * Rabs (r_pnt r)) with (- Rabs (r_pnt r)) by ring.
  destruct (Reqb_spec v 0) as [->|Hv0].
  - replace (0 / r_vnom r) with 0 by (field; lra). rewrite Reqb_t by reflexivity.
    match goal with |- context [where_ (?a || ?b) _ _] => destruct (a || b) end; cbn [where_]; fin; f_equal; f_equal; rmm; lra.
  - assert (Hq : v / r_vnom r <> 0).
    { unfold Rdiv. apply Rmult_integral_contrapositive. split; [exact Hv0|]. apply Rinv_neq_0_compat. lra. }
    rewrite (Reqb_f _ 0) by exact Hq. cbn [where_].
    match goal with |- context [where_ (?a || ?b) _ _] => destruct (a || b) end; cbn [where_]; [reflexivity|].
    fin. unfold fdot. cbn [combine map fst snd]. unfold fsum. cbn [fold_left]. fin.
    unfold adr_loss. do 4 f_equal. ring.
Qed.

(** ** pvwatts *)
Lemma pvwatts_within pdc pdc0 n r a : fmul n pdc0 = #a -> 0 <= a -> within #0 #a (pvwatts pdc pdc0 n r).
Proof.
  intros E Ha. unfold pvwatts. cbv zeta. rewrite E.
  set (x := fmul (fmul _ _) pdc). clearbody x. destruct x as [x| | |]; simpl.
  - apply within_fin. rmm; lra.
  - apply within_fin. rmm; lra.
  - apply within_fin. lra.
  - left; reflexivity.
Qed.
Lemma pvwatts_fin pdc pdc0 n r : 0 < pdc0 -> r <> 0 -> pdc <> 0 ->
  pvwatts #pdc #pdc0 #n #r = #(Rmax 0 (Rmin (n * pdc0) (n / r * pdc0 * pw (pdc / pdc0)))).
Proof.
  intros H0 Hr Hp. unfold pvwatts. fin. rewrite (Reqb_f pdc 0) by exact Hp. simpl negb. cbn [where_].
  assert (Hz : pdc / pdc0 <> 0).
  { unfold Rdiv. apply Rmult_integral_contrapositive. split; [exact Hp|]. apply Rinv_neq_0_compat. lra. }
  fin. try rewrite fdiv_fin by exact Hz. fin. do 3 f_equal. unfold pw. 
  assert (E : 0.0059 / (pdc / pdc0) * pdc = 0.0059 * pdc0) by (field; lra).
  replace (n / r * (-0.0162 * (pdc / pdc0) - 0.0059 / (pdc / pdc0) + 0.9858) * pdc)
    with (n / r * (-0.0162 * (pdc / pdc0) * pdc - 0.0059 / (pdc / pdc0) * pdc + 0.9858 * pdc)) by ring.
  rewrite E. field. lra.
Qed.
Lemma pvwatts_zero pdc0 n r : 0 < pdc0 -> r <> 0 -> 0 <= n -> pvwatts #0 #pdc0 #n #r = #0.
Proof.
  intros H0 Hr Hn. unfold pvwatts. fin. rewrite Reqb_t by reflexivity. simpl negb. cbn [where_]. fin.
  f_equal. rewrite Rmult_0_r. assert (0 <= n * pdc0) by nra. rmm; lra.
Qed.
Lemma pw_mono x y : 0 <= x -> x <= y -> y <= 30 -> pw x <= pw y.
Proof.
  intros H1 H2 H3. unfold pw.
  assert (E : -0.0162 * y * y - 0.0059 + 0.9858 * y - (-0.0162 * x * x - 0.0059 + 0.9858 * x) = (y - x) * (0.9858 - 0.0162 * (x + y))) by lra.
  assert (0 <= (y - x) * (0.9858 - 0.0162 * (x + y))) by (apply Rmult_le_pos; lra). lra.
Qed.
Lemma pw_neg x : x <= 0 -> pw x <= 0.
Proof. intros. unfold pw. nra. Qed.
Lemma div_le a b c : 0 < c -> a <= b -> a / c <= b / c.
Proof. intros. apply Rmult_le_compat_r; [left; apply Rinv_0_lt_compat|]; assumption. Qed.
Lemma pvwatts_fin_all pdc pdc0 n r : 0 < pdc0 -> 0 < r -> 0 <= n ->
  pvwatts #pdc #pdc0 #n #r = #(Rmax 0 (Rmin (n * pdc0) (n / r * pdc0 * pw (pdc / pdc0)))).
Proof.
  intros H0 Hr Hn. destruct (Req_dec pdc 0) as [->|Hp]; [|apply pvwatts_fin; lra].
  rewrite pvwatts_zero by lra. f_equal. unfold pw. replace (0 / pdc0) with 0 by (field; lra).
  assert (0 <= n / r * pdc0).
  { apply Rmult_le_pos; [|lra]. apply Rmult_le_pos; [lra|]. left. apply Rinv_0_lt_compat. lra. }
  assert (0 <= n * pdc0) by nra. set (k := n / r * pdc0) in *.
  assert (k * (-0.0162 * 0 * 0 - 0.0059 + 0.9858 * 0) <= 0) by nra. rmm; lra.
Qed.
Lemma pvwatts_mono p q pdc0 n r : 0 < pdc0 -> 0 < r -> 0 <= n -> p <= q -> q <= 30 * pdc0 ->
  exists a b, pvwatts #p #pdc0 #n #r = #a /\ pvwatts #q #pdc0 #n #r = #b /\ a <= b.
Proof.
  intros H0 Hr Hn Hpq Hq. rewrite !pvwatts_fin_all by assumption.
  do 2 eexists. split; [reflexivity|]. split; [reflexivity|].
  assert (Hk : 0 <= n / r * pdc0).
  { apply Rmult_le_pos; [|lra]. apply Rmult_le_pos; [lra|]. left. apply Rinv_0_lt_compat. lra. }
  assert (Hn0 : 0 <= n * pdc0) by nra.
  set (k := n / r * pdc0) in *.
  assert (Hz : p / pdc0 <= q / pdc0) by (apply div_le; assumption).
  assert (Hz30 : q / pdc0 <= 30). { replace 30 with (30 * pdc0 / pdc0) by (field; lra). apply div_le; assumption. }
  destruct (Rle_dec 0 (p / pdc0)) as [Hp|Hp].
  - assert (k * pw (p / pdc0) <= k * pw (q / pdc0)) by (apply Rmult_le_compat_l; [exact Hk|apply pw_mono; lra]).
    rmm; lra.
  - assert (k * pw (p / pdc0) <= 0). { pose proof (pw_neg (p / pdc0)). nra. }
    rmm; lra.
Qed.
Lemma pvwatts_no_creation p pdc0 n r : 0 < pdc0 -> 0 < r -> 0 <= n <= r -> 0 <= p ->
  exists a, pvwatts #p #pdc0 #n #r = #a /\ a <= p.
Proof.
  intros H0 Hr Hn Hp. rewrite pvwatts_fin_all by lra. eexists. split; [reflexivity|].
  assert (Hk : 0 <= n / r <= 1).
  { split.
    - apply Rmult_le_pos; [lra|]. left. apply Rinv_0_lt_compat. lra.
    - apply Rmult_le_reg_r with r; [lra|]. unfold Rdiv. rewrite Rmult_assoc, Rinv_l by lra. lra. }
  set (k := n / r) in *. 
  assert (Hz : 0 <= p / pdc0). { apply Rmult_le_pos; [lra|]. left. apply Rinv_0_lt_compat. lra. }
  assert (E : p = p / pdc0 * pdc0) by (field; lra).
  set (z := p / pdc0) in *. clearbody z k. 
  assert (pw z <= z). { unfold pw. nra. }
  assert (k * pdc0 * pw z <= p).
  { rewrite E. replace (k * pdc0 * pw z) with (pdc0 * (k * pw z)) by ring. 
    assert (k * pw z <= z). { destruct (Rle_dec 0 (pw z)); nra. }
    rewrite (Rmult_comm z). apply Rmult_le_compat_l; lra. }
  rmm; lra.
Qed.
Lemma pvwatts_rated pdc0 n : 0 < pdc0 -> 0 <= n -> pvwatts #pdc0 #pdc0 #n #0.9637 = #(n * pdc0).
Proof.
  intros H0 Hn. rewrite pvwatts_fin_all by lra. f_equal.
  replace (pdc0 / pdc0) with 1 by (field; lra). unfold pw.
  assert (0 <= n * pdc0) by nra.
  replace (n / 0.9637 * pdc0 * (-0.0162 * 1 * 1 - 0.0059 + 0.9858 * 1)) with (n * pdc0).
  - rmm; lra.
  - replace (-0.0162 * 1 * 1 - 0.0059 + 0.9858 * 1) with 0.9637 by lra. field. lra.
Qed.
(** clipped from rated power up to 59 times rated power *)
Lemma pvwatts_clipped p pdc0 n : 0 < pdc0 -> 0 <= n -> pdc0 <= p <= 59 * pdc0 ->
  pvwatts #p #pdc0 #n #0.9637 = #(n * pdc0).
Proof.
  intros H0 Hn Hp. rewrite pvwatts_fin_all by lra. f_equal.
  assert (Hz : 1 <= p / pdc0 <= 59).
  { split; [replace 1 with (pdc0 / pdc0) by (field; lra)|replace 59 with (59 * pdc0 / pdc0) by (field; lra)];
    apply div_le; lra. }
  set (z := p / pdc0) in *. clearbody z.
  assert (Hw : 0.9637 <= pw z).
  { unfold pw. assert (0 <= (z - 1) * (59 - z)) by (apply Rmult_le_pos; lra). lra. }
  assert (0 <= n * pdc0) by nra.
  assert (E : n * pdc0 = n * pdc0 / 0.9637 * 0.9637) by (field; lra).
  assert (n * pdc0 <= n / 0.9637 * pdc0 * pw z).
  { rewrite E at 1. replace (n / 0.9637 * pdc0) with (n * pdc0 / 0.9637) by (field; lra).
    apply Rmult_le_compat_l; [|exact Hw]. apply Rmult_le_pos; [lra|]. left. apply Rinv_0_lt_compat. lra. }
  rmm; lra.
Qed.
(** ... but collapses to zero far above it *)
Lemma pvwatts_collapse pdc0 n : 0 < pdc0 -> 0 < n -> pvwatts #(61 * pdc0) #pdc0 #n #0.9637 = #0.
Proof.
  intros H0 Hn. rewrite pvwatts_fin_all by lra. f_equal. replace (61 * pdc0 / pdc0) with 61 by (field; lra).
  assert (pw 61 < 0) by (unfold pw; lra).
  assert (0 < n / 0.9637 * pdc0). { apply Rmult_lt_0_compat; [|lra]. apply Rmult_lt_0_compat; [lra|]. apply Rinv_0_lt_compat. lra. }
  assert (n / 0.9637 * pdc0 * pw 61 < 0) by nra.
  assert (0 < n * pdc0) by nra. rmm; lra.
Qed.

(** ** transformer *)
Definition tr_out (i n a : R) : R := 2 * (i - n) / (1 + sqrt (1 + 4 * a * (i - n))).
Lemma simple_efficiency_fin p n a S : 0 < S -> 0 <= 1 + 4 * a * (p / S - n) ->
  simple_efficiency #p #n #a #S = #(tr_out (p / S) n a * S).
Proof.
  intros HS Hd. unfold simple_efficiency. fin.
  replace (1 * 1 - 4 * a * (n - p / S)) with (1 + 4 * a * (p / S - n)) by ring.
  try rewrite fsqrt_fin by exact Hd. pose proof (sqrt_pos (1 + 4 * a * (p / S - n))) as Hs.
  fin. f_equal. unfold tr_out. field. lra.
Qed.
Lemma tr_out_root i n a : 0 <= 1 + 4 * a * (i - n) ->
  i = tr_out i n a + n + a * tr_out i n a ^ 2.
Proof.
  intros H. unfold tr_out. pose proof (sqrt_sqrt _ H) as E. pose proof (sqrt_pos (1 + 4 * a * (i - n))) as Hs.
  set (s := sqrt (1 + 4 * a * (i - n))) in *. set (d := i - n) in *.
  assert (K : 4 * a * d = s * s - 1) by lra.
  assert (d = 2 * d / (1 + s) + a * (2 * d / (1 + s)) ^ 2).
  { apply Rmult_eq_reg_r with ((1 + s) * (1 + s)); [|nra].
    transitivity (2 * d * (1 + s) + 4 * a * d * d); [rewrite K; ring|field; lra]. }
  unfold d in *. lra.
Qed.
Lemma tr_out_nonneg i n a : n <= i -> 0 <= tr_out i n a.
Proof.
  intros H. unfold tr_out. pose proof (sqrt_pos (1 + 4 * a * (i - n))).
  apply Rmult_le_pos; [lra|]. left. apply Rinv_0_lt_compat. lra.
Qed.
Lemma tr_unique i n a x y : 0 <= a -> 0 <= x -> 0 <= y -> i = x + n + a * x ^ 2 -> i = y + n + a * y ^ 2 -> x = y.
Proof.
  intros Ha Hx Hy E1 E2. assert (K : (x - y) * (1 + a * (x + y)) = 0) by (simpl in *; lra).
  apply Rmult_integral in K. destruct K as [K|K]; [lra|]. assert (0 <= a * (x + y)) by (apply Rmult_le_pos; lra). lra.
Qed.
Lemma tr_out_mono i j n a : 0 <= a -> n <= i -> i < j -> tr_out i n a < tr_out j n a.
Proof.
  intros Ha Hi Hij.
  assert (D1 : 0 <= 1 + 4 * a * (i - n)). { assert (0 <= a * (i - n)) by (apply Rmult_le_pos; lra). lra. }
  assert (D2 : 0 <= 1 + 4 * a * (j - n)). { assert (0 <= a * (j - n)) by (apply Rmult_le_pos; lra). lra. }
  pose proof (tr_out_root i n a D1) as R1. pose proof (tr_out_root j n a D2) as R2.
  pose proof (tr_out_nonneg i n a Hi) as N1. pose proof (tr_out_nonneg j n a) as N2.
  assert (N2' : 0 <= tr_out j n a) by (apply N2; lra).
  set (x := tr_out i n a) in *. set (y := tr_out j n a) in *. clearbody x y.
  destruct (Rlt_le_dec x y) as [H|H]; [exact H|exfalso].
  assert (y ^ 2 <= x ^ 2) by (simpl; nra). assert (a * y ^ 2 <= a * x ^ 2) by (apply Rmult_le_compat_l; assumption). lra.
Qed.
