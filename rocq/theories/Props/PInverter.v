(** C24-C28: inverters and transformer. *)
From Verif Require Import Base.Fl Base.FlFacts Base.Py Model.Inverter Spec.InverterSpec Proofs.Invert.
From Coq Require Import Permutation.
Open Scope R_scope.

(** C24: asleep exactly below the start-up power; otherwise the curve clipped at Paco *)
Theorem C24_sandia_sleeps_and_clips : forall v p inv,
  (fltb p (Pso inv) = true -> sandia v p inv = fmul #(-1) (fabs (Pnt inv))) /\
  (fltb p (Pso inv) = false -> sandia v p inv = fmin (Paco inv) (sandia_eff v p inv)).
Proof. exact sandia_cases. Qed.
Print Assumptions C24_sandia_sleeps_and_clips.
Theorem C24_sandia_never_above_rating : forall v p inv a, Paco inv = #a -> 0 <= a -> atmost #a (sandia v p inv).
Proof. exact sandia_atmost. Qed.
Print Assumptions C24_sandia_never_above_rating.
(** the published curve; [fp ..] is an inverter with finite parameters *)
Theorem C24_sandia_published_curve : forall pa pd vd c0 c1 c2 c3 ps pn v p,
  let A := pd * (1 + c1 * (v - vd)) in let B := ps * (1 + c2 * (v - vd)) in
  let C := c0 * (1 + c3 * (v - vd)) in
  A - B <> 0 ->
  sandia #v #p (fp pa pd vd c0 c1 c2 c3 ps pn) =
  (if Rlt_dec p ps then #(- Rabs pn) else #(Rmin pa (curve pa A B C p))).
Proof.
  intros pa pd vd c0 c1 c2 c3 ps pn v p A B C H. unfold sandia, sandia_limits.
  rewrite sandia_eff_fin by exact H. cbn [fp Paco Pnt Pso]. fin.
  unfold Rltb. destruct (Rlt_dec p ps); [f_equal; ring|reflexivity].
Qed.
Print Assumptions C24_sandia_published_curve.
Theorem C24_sandia_reference_points : forall pa pd vd c0 c1 c2 c3 ps pn,
  0 <= pa -> ps < pd ->
  sandia #vd #pd (fp pa pd vd c0 c1 c2 c3 ps pn) = #pa /\
  sandia #vd #ps (fp pa pd vd c0 c1 c2 c3 ps pn) = #0.
Proof.
  intros pa pd vd c0 c1 c2 c3 ps pn Hpa Hps.
  assert (E1 : pd * (1 + c1 * (vd - vd)) = pd) by ring.
  assert (E2 : ps * (1 + c2 * (vd - vd)) = ps) by ring.
  split; rewrite C24_sandia_published_curve by (rewrite E1, E2; lra).
  - destruct (Rlt_dec pd ps); [lra|]. rewrite E1, E2, curve_A by lra. f_equal. rmm; lra.
  - destruct (Rlt_dec ps ps); [lra|]. rewrite E1, E2, curve_B. f_equal. rmm; lra.
Qed.
Print Assumptions C24_sandia_reference_points.
(** between start-up and rated power the output is non-decreasing when the curvature is moderate *)
Theorem C24_sandia_monotone : forall pa pd vd c0 c1 c2 c3 ps pn v p q,
  let A := pd * (1 + c1 * (v - vd)) in let B := ps * (1 + c2 * (v - vd)) in
  let C := c0 * (1 + c3 * (v - vd)) in
  B < A -> Rabs C * (A - B) * (A - B) <= pa -> B <= p -> ps <= p -> p <= q -> q <= A ->
  exists x y, sandia #v #p (fp pa pd vd c0 c1 c2 c3 ps pn) = #x /\
              sandia #v #q (fp pa pd vd c0 c1 c2 c3 ps pn) = #y /\ 0 <= x <= y /\ y <= pa.
Proof.
  intros pa pd vd c0 c1 c2 c3 ps pn v p q A B C H1 H2 H3 H4 H5 H6.
  rewrite !C24_sandia_published_curve by (fold A B; lra).
  destruct (Rlt_dec p ps); [lra|]. destruct (Rlt_dec q ps); [lra|]. fold A B C.
  do 2 eexists. split; [reflexivity|]. split; [reflexivity|].
  pose proof (curve_mono pa A B C p q H1 H2 H3 H5 H6) as M.
  pose proof (curve_mono pa A B C B p H1 H2) as M0. rewrite curve_B in M0.
  assert (M0' : 0 <= curve pa A B C p) by (apply M0; lra).
  pose proof (curve_mono pa A B C q A H1 H2) as M1. rewrite curve_A in M1 by lra.
  assert (M1' : curve pa A B C q <= pa) by (apply M1; lra). rmm; lra.
Qed.
Print Assumptions C24_sandia_monotone.
(** a realistic parameter set (4 kW class) meets all hypotheses *)
Example C24_nonvacuous :
  let A := 4200 * (1 + 0 * (310 - 310)) in let B := 30 * (1 + 0 * (310 - 310)) in
  let C := -0.000005 * (1 + 0 * (310 - 310)) in
  B < A /\ Rabs C * (A - B) * (A - B) <= 4000 /\ B <= 1000 /\ 30 <= 1000 /\ 1000 <= 2000 /\ 2000 <= A.
Proof.
  intros A B C. unfold A, B, C.
  replace (-0.000005 * (1 + 0 * (310 - 310))) with (-0.000005) by lra.
  rewrite Rabs_left by lra. lra.
Qed.

(** C25 *)
Theorem C25_multi_length_mismatch : forall v p inv,
  length p <> length v <-> sandia_multi v p inv = Err ValueError.
Proof. exact sandia_multi_err. Qed.
Print Assumptions C25_multi_length_mismatch.
Theorem C25_multi_order_irrelevant : forall v p v' p' inv, length p = length v -> length p' = length v' ->
  Permutation (combine v p) (combine v' p') -> sandia_multi v p inv = sandia_multi v' p' inv.
Proof. exact sandia_multi_perm. Qed.
Print Assumptions C25_multi_order_irrelevant.
Theorem C25_multi_same_voltage : forall v l inv e,
  l <> [] -> Rsum l <> 0 -> sandia_eff #v #(Rsum l) inv = #e ->
  sandia_multi (repeat #v (length l)) (map Fin l) inv = Ok (sandia #v #(Rsum l) inv).
Proof. exact sandia_multi_same_voltage. Qed.
Print Assumptions C25_multi_same_voltage.
Theorem C25_multi_single_input : forall v p inv, p <> 0 -> (exists e, sandia_eff #v #p inv = #e) ->
  sandia_multi [#v] [#p] inv = Ok (sandia #v #p inv).
Proof. exact sandia_multi_single. Qed.
Print Assumptions C25_multi_single_input.
(** also at zero or tiny total power: asleep, like sandia *)
Theorem C25_multi_sleep : forall v p inv, length p = length v -> fltb (fsum p) (Pso inv) = true ->
  sandia_multi v p inv = Ok (fmul #(-1) (fabs (Pnt inv))).
Proof. exact sandia_multi_sleep. Qed.
Print Assumptions C25_multi_sleep.
(** the general weighting: each input contributes its share of the DC power times the curve at its own voltage
    and the total power *)
Theorem C25_multi_weighting : forall v p inv, length p = length v -> exists P,
  P = fsum p /\
  sandia_multi v p inv =
  Ok (if fltb P (Pso inv) then fmul #(-1) (fabs (Pnt inv))
      else fmin (Paco inv)
        (fadd (fmul #0 P)
          (fsum (map (fun vp => fmul (fdiv (snd vp) P) (sandia_eff (fst vp) P inv)) (combine v p))))).
Proof. intros v p inv H. exists (fsum p). split; [reflexivity|]. exact (sandia_multi_eq v p inv H). Qed.
Print Assumptions C25_multi_weighting.
Example C25_nonvacuous :
  Permutation (combine [#300; #400] [#1000; #2000]) (combine [#400; #300] [#2000; #1000]) /\
  Rsum [1000; 2000] <> 0 /\
  exists e, sandia_eff #310 #(Rsum [1000; 2000]) (fp 4000 4200 310 0 0 0 0 30 1) = #e.
Proof.
  split; [simpl; apply perm_swap|]. split; [simpl; lra|]. eexists. apply sandia_eff_fin. lra.
Qed.

(** C26 *)
Theorem C26_adr_range : forall v p inv vtol nt mx, a_Pnt inv = #nt -> a_Pacmax inv = #mx -> - Rabs nt <= mx ->
  within #(- Rabs nt) #mx (adr v p inv vtol).
Proof. exact adr_bounds. Qed.
Print Assumptions C26_adr_range.
(** [adr_of r] is the parameter dict with the finite values r: night value at zero voltage, NaN outside the
    extended window, otherwise the published loss formula clipped to [-|Pnt|, Pacmax] *)
Theorem C26_adr_value : forall r v p vtol, 0 < r_pnom r -> 0 < r_vnom r ->
  adr #v #p (adr_of r) #vtol =
  if Reqb v 0 then #(Rmin (- Rabs (r_pnt r)) (r_pacmax r))
  else if Rltb (adr_upper r vtol) v || Rltb v (adr_lower r vtol) then NaN
  else #(Rmin (Rmax (r_pnom r * (p / r_pnom r - adr_loss r (p / r_pnom r) (v / r_vnom r))) (- Rabs (r_pnt r))) (r_pacmax r)).
Proof. exact adr_value. Qed.
Print Assumptions C26_adr_value.
Theorem C26_adr_nan_exactly_outside_window : forall r v p vtol, 0 < r_pnom r -> 0 < r_vnom r ->
  (adr #v #p (adr_of r) #vtol = NaN <-> v <> 0 /\ (adr_upper r vtol < v \/ v < adr_lower r vtol)).
Proof.
  intros r v p vtol Hp Hv. rewrite adr_value by assumption.
  destruct (Reqb_spec v 0) as [H|H]; [split; [discriminate|intros [K _]; contradiction]|].
  destruct (Rltb_spec (adr_upper r vtol) v) as [H1|H1]; simpl.
  { split; [intros _; auto|auto]. }
  destruct (Rltb_spec v (adr_lower r vtol)) as [H2|H2]; split; try discriminate; auto; intros [_ [K|K]]; contradiction.
Qed.
Print Assumptions C26_adr_nan_exactly_outside_window.
Theorem C26_adr_nan_input : forall v p inv vtol, feqb (fdiv v (a_Vnom inv)) #0 = false ->
  v = NaN \/ p = NaN -> length (a_coef inv) = 9%nat -> Forall (fun c => exists x, c = #x) (a_coef inv) ->
  (exists x, a_Pnom inv = #x) ->
  adr v p inv vtol = NaN.
Proof.
  intros v p inv vtol Hz Hn Hl Hc [pn Hpn].
  destruct (a_coef inv) as [|c0 l] eqn:El; [discriminate|].
  unfold adr. rewrite Hz. cbn [where_]. rewrite El.
  match goal with |- context [where_ ?c NaN _] => destruct c end; cbn [where_]; [reflexivity|].
  match goal with |- fmin (fmax ?x _) _ = _ => assert (E : x = NaN); [|rewrite E; reflexivity] end.
  destruct Hn as [-> | ->].
  - match goal with |- fmul _ (fsub _ ?d) = _ => assert (E : d = NaN) end.
    { unfold fdot. cbn [length] in Hl. do 8 (destruct l as [|? l]; [discriminate|]). destruct l; [|discriminate].
      cbn [combine map fst snd]. rewrite !fsum_cons. change (fdiv NaN (a_Vnom inv)) with NaN.
      change (fsub NaN #1) with NaN. rewrite fmul_nan_r, fadd_nan_l, !fadd_nan_r. reflexivity. }
    rewrite E. destruct (fdiv p (a_Pnom inv)); rewrite Hpn; reflexivity.
  - change (fdiv NaN (a_Pnom inv)) with NaN. rewrite Hpn. reflexivity.
Qed.
Print Assumptions C26_adr_nan_input.
Example C26_nonvacuous :
  let r := AdrFin 2000 400 2100 0.25 0.01 0.015 0.001 0 0.01 0 0 0 0 500 200 500 480 220 in
  0 < r_pnom r /\ 0 < r_vnom r /\ - Rabs (r_pnt r) <= r_pacmax r /\ adr_lower r 0.1 < 300 < adr_upper r 0.1.
Proof.
  intros r. unfold adr_lower, adr_upper, r; simpl. pose proof (Rabs_pos 0.25).
  repeat split; try lra; rmm; lra.
Qed.

(** C27 *)
Theorem C27_pvwatts_range : forall pdc pdc0 n r a, fmul n pdc0 = #a -> 0 <= a -> within #0 #a (pvwatts pdc pdc0 n r).
Proof. exact pvwatts_within. Qed.
Print Assumptions C27_pvwatts_range.
Theorem C27_pvwatts_formula : forall pdc pdc0 n r, 0 < pdc0 -> 0 < r -> 0 <= n ->
  pvwatts #pdc #pdc0 #n #r = #(Rmax 0 (Rmin (n * pdc0) (n / r * pdc0 * pw (pdc / pdc0)))).
Proof. exact pvwatts_fin_all. Qed.
Print Assumptions C27_pvwatts_formula.
Theorem C27_pvwatts_zero : forall pdc0 n r, 0 < pdc0 -> r <> 0 -> 0 <= n -> pvwatts #0 #pdc0 #n #r = #0.
Proof. exact pvwatts_zero. Qed.
Print Assumptions C27_pvwatts_zero.
Theorem C27_pvwatts_rated : forall pdc0 n, 0 < pdc0 -> 0 <= n ->
  pvwatts #pdc0 #pdc0 #n pvwatts_default_ref = #(n * pdc0).
Proof. exact pvwatts_rated. Qed.
Print Assumptions C27_pvwatts_rated.
Theorem C27_pvwatts_clipped : forall p pdc0 n, 0 < pdc0 -> 0 <= n -> pdc0 <= p <= 59 * pdc0 ->
  pvwatts #p #pdc0 #n pvwatts_default_ref = #(n * pdc0).
Proof. exact pvwatts_clipped. Qed.
Print Assumptions C27_pvwatts_clipped.
Theorem C27_pvwatts_monotone : forall p q pdc0 n r,
  0 < pdc0 -> 0 < r -> 0 <= n -> p <= q -> q <= 30 * pdc0 ->
  exists a b, pvwatts #p #pdc0 #n #r = #a /\ pvwatts #q #pdc0 #n #r = #b /\ a <= b.
Proof. exact pvwatts_mono. Qed.
Print Assumptions C27_pvwatts_monotone.
(** the range restriction is needed: at 61 times the rating the modelled output collapses to 0 *)
Theorem C27_pvwatts_monotone_everywhere_refuted : forall pdc0 n, 0 < pdc0 -> 0 < n ->
  pvwatts #(61 * pdc0) #pdc0 #n pvwatts_default_ref = #0 /\
  pvwatts #pdc0 #pdc0 #n pvwatts_default_ref = #(n * pdc0) /\ 0 < n * pdc0.
Proof.
  intros pdc0 n H Hn. split; [apply pvwatts_collapse; assumption|]. split; [apply pvwatts_rated; lra|].
  apply Rmult_lt_0_compat; assumption.
Qed.
Print Assumptions C27_pvwatts_monotone_everywhere_refuted.
Theorem C27_pvwatts_creates_no_energy : forall p pdc0 n r, 0 < pdc0 -> 0 < r -> 0 <= n <= r -> 0 <= p ->
  exists a, pvwatts #p #pdc0 #n #r = #a /\ a <= p.
Proof. exact pvwatts_no_creation. Qed.
Print Assumptions C27_pvwatts_creates_no_energy.
Theorem C27_pvwatts_multi_is_sum : forall l l' pdc0 n r, fsum l = fsum l' ->
  pvwatts_multi l pdc0 n r = pvwatts_multi l' pdc0 n r /\ pvwatts_multi l pdc0 n r = pvwatts (fsum l) pdc0 n r.
Proof. intros l l' pdc0 n r H. unfold pvwatts_multi. rewrite H. split; reflexivity. Qed.
Print Assumptions C27_pvwatts_multi_is_sum.
Example C27_nonvacuous : 0 < 5000 /\ 0 < 0.9637 /\ 0 <= 0.96 <= 0.9637 /\ 100 <= 4000 /\ 4000 <= 30 * 5000.
Proof. lra. Qed.

(** C28: the output solves input = output + no-load loss + load loss; losses are fractions of the rating S *)
Theorem C28_transformer_power_balance : forall p n a S, 0 < S -> 0 <= 1 + 4 * a * (p / S - n) ->
  exists o, simple_efficiency #p #n #a #S = #o /\ p = o + n * S + a * (o / S) ^ 2 * S.
Proof.
  intros p n a S HS H. eexists. split; [apply simple_efficiency_fin; assumption|].
  pose proof (tr_out_root (p / S) n a H) as E. set (x := tr_out (p / S) n a) in *.
  replace (x * S / S) with x by (field; lra).
  transitivity (p / S * S); [field; lra|]. rewrite E at 1. ring.
Qed.
Print Assumptions C28_transformer_power_balance.
(** it is the only non-negative solution *)
Theorem C28_transformer_unique : forall p n a S o, 0 < S -> 0 <= a -> n * S <= p -> 0 <= o ->
  p = o + n * S + a * (o / S) ^ 2 * S -> simple_efficiency #p #n #a #S = #o.
Proof.
  intros p n a S o HS Ha Hn Ho E.
  assert (Hi : n <= p / S). { replace n with (n * S / S) by (field; lra). apply div_le; assumption. }
  assert (D : 0 <= 1 + 4 * a * (p / S - n)). { assert (0 <= a * (p / S - n)) by (apply Rmult_le_pos; lra). lra. }
  rewrite simple_efficiency_fin by assumption. f_equal.
  assert (K : tr_out (p / S) n a = o / S).
  { apply (tr_unique (p / S) n a); auto.
    - apply tr_out_nonneg, Hi.
    - apply Rmult_le_pos; [lra|]. left. apply Rinv_0_lt_compat, HS.
    - apply tr_out_root, D.
    - rewrite E at 1. field. lra. }
  rewrite K. field. lra.
Qed.
Print Assumptions C28_transformer_unique.
Theorem C28_transformer_output_below_input : forall p n a S, 0 < S -> 0 <= a -> 0 < n -> n * S <= p ->
  exists o, simple_efficiency #p #n #a #S = #o /\ 0 <= o < p.
Proof.
  intros p n a S HS Ha Hn Hp.
  assert (Hi : n <= p / S). { replace n with (n * S / S) by (field; lra). apply div_le; assumption. }
  assert (D : 0 <= 1 + 4 * a * (p / S - n)). { assert (0 <= a * (p / S - n)) by (apply Rmult_le_pos; lra). lra. }
  eexists. split; [apply simple_efficiency_fin; assumption|].
  pose proof (tr_out_root (p / S) n a D) as E. pose proof (tr_out_nonneg (p / S) n a Hi) as N.
  set (x := tr_out (p / S) n a) in *. assert (0 <= a * x ^ 2) by (apply Rmult_le_pos; [lra|apply pow_le; lra]).
  assert (x < p / S) by lra. split; [apply Rmult_le_pos; lra|].
  replace p with (p / S * S) by (field; lra). apply Rmult_lt_compat_r; assumption.
Qed.
Print Assumptions C28_transformer_output_below_input.
Theorem C28_transformer_strictly_increasing : forall p q n a S, 0 < S -> 0 <= a -> n * S <= p -> p < q ->
  exists x y, simple_efficiency #p #n #a #S = #x /\ simple_efficiency #q #n #a #S = #y /\ x < y.
Proof.
  intros p q n a S HS Ha Hp Hq.
  assert (Hi : n <= p / S). { replace n with (n * S / S) by (field; lra). apply div_le; assumption. }
  assert (Hij : p / S < q / S). { apply Rmult_lt_compat_r; [apply Rinv_0_lt_compat|]; assumption. }
  assert (D : 0 <= 1 + 4 * a * (p / S - n)). { assert (0 <= a * (p / S - n)) by (apply Rmult_le_pos; lra). lra. }
  assert (D2 : 0 <= 1 + 4 * a * (q / S - n)). { assert (0 <= a * (q / S - n)) by (apply Rmult_le_pos; lra). lra. }
  do 2 eexists. split; [apply simple_efficiency_fin; assumption|]. split; [apply simple_efficiency_fin; assumption|].
  apply Rmult_lt_compat_r; [exact HS|]. apply tr_out_mono; assumption.
Qed.
Print Assumptions C28_transformer_strictly_increasing.
Example C28_nonvacuous : 0 < 1000 /\ 0 <= 0.01 /\ 0 < 0.002 /\ 0.002 * 1000 <= 500 /\ 500 < 600. Proof. lra. Qed.
