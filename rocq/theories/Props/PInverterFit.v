(** C140: parameter extraction for the Sandia inverter model *)
From Verif Require Import Base.Fl Base.FlFacts Base.Py Model.Inverter Model.InverterFit Model.Clearsky Spec.InverterSpec Spec.InverterFitSpec Spec.IvSpec Proofs.Invert Props.PSdmExtract.
From Coq Require Import Reals List String Lra Lia.
Import ListNotations.
Open Scope R_scope.

(** the data point of inverter I measured at the level d, whose voltage is [volt d], with DC power p *)
Definition measured (I : inverter) (volt : string -> R) (x : string * R) : test_point :=
  TestPoint #(ac_power I (volt (fst x)) (snd x)) #(snd x) #(volt (fst x)) (fst x).
Definition powers_at (d : string) (l : list (string * R)) : list R := map snd (filter (fun x => String.eqb (fst x) d) l).
Definition model_of (I : inverter) : sandia_params :=
  SandiaParams #(i_pa I) #(i_pd I) #(i_vd I) #(i_c0 I) #(i_c1 I) #(i_c2 I) #(i_c3 I) #(i_ps I) #(i_pn I).
(** the same inverter with its quantities referred to another voltage *)
Definition referred (I : inverter) (v : R) : inverter :=
  Inverter (i_pa I) (dc_rated I v) v (curvature I v) (i_pd I * i_c1 I / dc_rated I v) (i_ps I * i_c2 I / dc_start I v) (i_c0 I * i_c3 I / curvature I v) (dc_start I v) (i_pn I).

Lemma at_level_measured I volt d l : at_level d (map (measured I volt) l) = map (measured I volt) (filter (fun x => String.eqb (fst x) d) l).
Proof. unfold at_level. induction l as [|x l IH]; [reflexivity|]. cbn [map filter measured t_level]. destruct (String.eqb (fst x) d); [cbn [map]; f_equal|]; exact IH. Qed.
Lemma quad_at_start pa A B C : A - B <> 0 -> C <> 0 -> 0 <= pa / (A - B) - C * (A - B) ->
  let K := pa / (A - B) - C * (A - B) in solve_quad #C #(K - 2 * C * B) #(C * B ^ 2 - K * B) = #B.
Proof.
  intros L HC HK K. unfold solve_quad. rewrite fpown_fin. rewrite !fmul_fin, fneg_fin, fsub_fin.
  replace ((K - 2 * C * B) ^ 2 - 4 * C * (C * B ^ 2 - K * B)) with (K * K) by ring. rewrite fsqrt_fin by (apply Rmult_le_pos; exact HK).
  rewrite sqrt_square by exact HK. rewrite fadd_fin, fdiv_fin by lra. f_equal. field. exact HC.
Qed.
Lemma quad_at_rated pa A B C : A - B <> 0 -> C <> 0 -> 0 <= pa / (A - B) + C * (A - B) ->
  let K := pa / (A - B) - C * (A - B) in solve_quad #C #(K - 2 * C * B) (#(C * B ^ 2 - K * B) - #pa)%fl = #A.
Proof.
  intros L HC HK K. unfold solve_quad. rewrite fpown_fin. rewrite !fsub_fin, !fmul_fin, fneg_fin, fsub_fin.
  replace ((K - 2 * C * B) ^ 2 - 4 * C * (C * B ^ 2 - K * B - pa)) with ((pa / (A - B) + C * (A - B)) * (pa / (A - B) + C * (A - B))) by (unfold K; field; exact L).
  rewrite fsqrt_fin by (apply Rmult_le_pos; exact HK). rewrite sqrt_square by exact HK. rewrite fadd_fin, fdiv_fin by lra. f_equal. unfold K. field. split; assumption.
Qed.
Lemma level_ok quadfit I volt d l : exact_parabola quadfit -> three_values (powers_at d l) -> regular I (volt d) ->
  level_coeffs quadfit (map (measured I volt) l) #(i_pa I) d = Ok (#(curvature I (volt d)), #(dc_rated I (volt d)), #(dc_start I (volt d))).
Proof.
  intros Q T (H1 & H2 & H3 & H4). unfold level_coeffs. rewrite at_level_measured. set (sel := filter _ l).
  assert (N : sel <> []). { unfold powers_at in T. fold sel in T. intros E. rewrite E in T. destruct T as (x & y & z & [] & _). }
  set (A := dc_rated I (volt d)) in *. set (B := dc_start I (volt d)) in *. set (C := curvature I (volt d)) in *. set (pa := i_pa I).
  set (K := pa / (A - B) - C * (A - B)).
  destruct (map (measured I volt) sel) as [|r0 rs] eqn:E; [destruct sel; [contradiction|discriminate]|].
  rewrite <- E, map_map.
  assert (G : quadfit (map (fun x => (t_dc (measured I volt x), t_ac (measured I volt x))) sel) = (#(C * B ^ 2 - K * B), #(K - 2 * C * B), #C)).
  { rewrite <- (Q (map (fun x => (snd x, ac_power I (volt (fst x)) (snd x))) sel) (C * B ^ 2 - K * B) (K - 2 * C * B) C).
    - rewrite map_map. reflexivity.
    - destruct T as (x & y & z & Hx & Hy & Hz & D). unfold powers_at in Hx, Hy, Hz. fold sel in Hx, Hy, Hz. apply in_map_iff in Hx, Hy, Hz.
      destruct Hx as (x' & <- & Hx), Hy as (y' & <- & Hy), Hz as (z' & <- & Hz).
      exists (snd x', ac_power I (volt (fst x')) (snd x')), (snd y', ac_power I (volt (fst y')) (snd y')), (snd z', ac_power I (volt (fst z')) (snd z')).
      cbn [fst]. rewrite !in_map_iff. repeat split; try tauto; eexists; (split; [reflexivity|assumption]).
    - apply Forall_forall. intros p Hp. apply in_map_iff in Hp. destruct Hp as (x & <- & Hx). cbn [fst snd]. apply filter_In in Hx. destruct Hx as [_ Hx]. apply String.eqb_eq in Hx. rewrite Hx.
      unfold ac_power, curve. fold A B C pa. fold K. ring. }
  rewrite G. cbv beta iota. assert (L : A - B <> 0) by lra.
  pose proof (quad_at_start pa A B C L H2 H3) as X1. cbv zeta in X1. fold K in X1. pose proof (quad_at_rated pa A B C L H2 H4) as X2. cbv zeta in X2. fold K in X2.
  rewrite X1, X2. reflexivity.
Qed.

(** C140: the parameters extracted from noise-free measurements of a Sandia-model inverter are those of the inverter, referred to the voltage of the level Vnom;
    measurements at other levels are ignored *)
Theorem C140_parameters : forall quadfit linefit I volt l, exact_parabola quadfit -> exact_line linefit ->
  (forall d, In d ["Vmin"; "Vnom"; "Vmax"]%string -> three_values (powers_at d l) /\ regular I (volt d)) ->
  (volt "Vmin"%string <> volt "Vnom"%string \/ volt "Vmax"%string <> volt "Vnom"%string) -> dc_rated I (volt "Vnom"%string) <> 0 -> dc_start I (volt "Vnom"%string) <> 0 ->
  fit_sandia quadfit linefit (map (measured I volt) l) #(i_pa I) #(i_pn I) = Ok (model_of (referred I (volt "Vnom"%string))).
Proof.
  intros quadfit linefit I volt l Q Lf H D N1 N2. unfold fit_sandia, voltage_levels. cbn [map mapM].
  assert (V : forall d, In d ["Vmin"; "Vnom"; "Vmax"]%string -> level_voltage (map (measured I volt) l) d = #(volt d)).
  { intros d Hd. destruct (H d Hd) as [(x & y & z & Hx & _) _]. unfold level_voltage. rewrite at_level_measured, map_map. apply mean_const.
    - intros E. unfold powers_at in Hx. rewrite E in Hx. destruct Hx.
    - intros r Hr. apply filter_In in Hr. destruct Hr as [_ Hr]. apply String.eqb_eq in Hr. cbn [measured t_v]. rewrite Hr. reflexivity. }
  rewrite !V by (cbn [In]; tauto). cbn [nth].
  assert (M1 : In "Vmin"%string ["Vmin"; "Vnom"; "Vmax"]%string) by (cbn [In]; tauto).
  assert (M2 : In "Vnom"%string ["Vmin"; "Vnom"; "Vmax"]%string) by (cbn [In]; tauto).
  assert (M3 : In "Vmax"%string ["Vmin"; "Vnom"; "Vmax"]%string) by (cbn [In]; tauto).
  rewrite (level_ok quadfit I volt "Vmin" l Q (proj1 (H _ M1)) (proj2 (H _ M1))).
  rewrite (level_ok quadfit I volt "Vnom" l Q (proj1 (H _ M2)) (proj2 (H _ M2))).
  rewrite (level_ok quadfit I volt "Vmax" l Q (proj1 (H _ M3)) (proj2 (H _ M3))).
  cbn [bind map fst snd]. pose proof (proj1 (proj2 (proj2 (H _ M2)))) as N3.
  set (v0 := volt "Vmin"%string) in *. set (v1 := volt "Vnom"%string) in *. set (v2 := volt "Vmax"%string) in *.
  rewrite !fsub_fin.
  assert (X : forall f g b0 b1, (forall v, f v = b0 + b1 * (v - v1)) -> b0 <> 0 -> g = b1 / b0 -> extract_c linefit [#(v0 - v1); #(v1 - v1); #(v2 - v1)] [#(f v0); #(f v1); #(f v2)] = (#b0, #g)).
  { intros f g b0 b1 Hf Hb ->. unfold extract_c. cbn [combine].
    change (linefit _) with (linefit (map (fun p : R * R => (#(fst p), #(snd p))) [(v0 - v1, f v0); (v1 - v1, f v1); (v2 - v1, f v2)])).
    rewrite (Lf [(v0 - v1, f v0); (v1 - v1, f v1); (v2 - v1, f v2)] b0 b1).
    - rewrite fdiv_fin by exact Hb. reflexivity.
    - destruct D as [D|D]; [exists (v0 - v1, f v0), (v1 - v1, f v1)|exists (v2 - v1, f v2), (v1 - v1, f v1)]; cbn [In fst]; (split; [tauto|split; [tauto|intros E; apply D; lra]]).
    - repeat constructor; cbn [fst snd]; rewrite Hf; ring. }
  rewrite (X (dc_rated I) (i_pd I * i_c1 I / dc_rated I v1) (dc_rated I v1) (i_pd I * i_c1 I)); [|intros v; unfold dc_rated; ring|exact N1|reflexivity].
  rewrite (X (dc_start I) (i_ps I * i_c2 I / dc_start I v1) (dc_start I v1) (i_ps I * i_c2 I)); [|intros v; unfold dc_start; ring|exact N2|reflexivity].
  rewrite (X (curvature I) (i_c0 I * i_c3 I / curvature I v1) (curvature I v1) (i_c0 I * i_c3 I)); [|intros v; unfold curvature; ring|exact N3|reflexivity].
  reflexivity.
Qed.
Print Assumptions C140_parameters.

Lemma refer D k x : D <> 0 -> D * (1 + k / D * x) = D + k * x. Proof. intros H. field. exact H. Qed.
(** referring an inverter to another voltage changes neither its AC power at any voltage and DC power, nor, when it is its own reference voltage, any parameter *)
Theorem C140_same_inverter : forall I v0, dc_rated I v0 <> 0 -> dc_start I v0 <> 0 -> curvature I v0 <> 0 ->
  (forall v p, sandia_eff #v #p (model_of (referred I v0)) = sandia_eff #v #p (model_of I)) /\
  (i_vd I = v0 -> referred I v0 = I).
Proof.
  intros I v0 H1 H2 H3. split.
  - intros v p. unfold sandia_eff, model_of, referred. cbn [Paco Pdco Vdco Pso C0 Inverter.C1 C2 C3 i_pa i_pd i_vd i_c0 i_c1 i_c2 i_c3 i_ps i_pn]. repeat first [rewrite fsub_fin | rewrite fmul_fin | rewrite fadd_fin].
    replace (dc_rated I v0 * (1 + i_pd I * i_c1 I / dc_rated I v0 * (v - v0))) with (i_pd I * (1 + i_c1 I * (v - i_vd I))) by (rewrite refer by assumption; unfold dc_rated; ring).
    replace (dc_start I v0 * (1 + i_ps I * i_c2 I / dc_start I v0 * (v - v0))) with (i_ps I * (1 + i_c2 I * (v - i_vd I))) by (rewrite refer by assumption; unfold dc_start; ring).
    replace (curvature I v0 * (1 + i_c0 I * i_c3 I / curvature I v0 * (v - v0))) with (i_c0 I * (1 + i_c3 I * (v - i_vd I))) by (rewrite refer by assumption; unfold curvature; ring).
    reflexivity.
  - intros E. destruct I as [pa pd vd c0 c1 c2 c3 ps pn]. unfold referred, dc_rated, dc_start, curvature in *. cbn [i_pa i_pd i_vd i_c0 i_c1 i_c2 i_c3 i_ps i_pn] in *. subst v0.
    replace (vd - vd) with 0 in * by ring. f_equal; try ring; field; (intros Z; rewrite Z in *; lra).
Qed.
Print Assumptions C140_same_inverter.

(** a level without measurements raises TypeError *)
Theorem C140_missing_level : forall quadfit linefit rows pa pn,
  (exists d, In d ["Vmin"; "Vnom"; "Vmax"]%string /\ ~ In d (map t_level rows)) <-> fit_sandia quadfit linefit rows pa pn = Err TypeError.
Proof.
  intros quadfit linefit rows pa pn.
  assert (G : forall d, (~ In d (map t_level rows) /\ level_coeffs quadfit rows pa d = Err TypeError) \/ (In d (map t_level rows) /\ exists k, level_coeffs quadfit rows pa d = Ok k)).
  { intros d. unfold level_coeffs. destruct (at_level d rows) as [|r sel] eqn:E.
    - left. split; [|reflexivity]. intros H. apply in_map_iff in H. destruct H as (r & <- & H). assert (X : In r (at_level (t_level r) rows)). { unfold at_level. apply filter_In. split; [exact H|apply String.eqb_refl]. } rewrite E in X. destruct X.
    - right. split.
      + assert (X : In r (at_level d rows)) by (rewrite E; left; reflexivity). unfold at_level in X. apply filter_In in X. destruct X as [X Y]. apply String.eqb_eq in Y. rewrite <- Y. apply in_map. exact X.
      + destruct (quadfit _) as [[c b] a]. eexists. reflexivity. }
  unfold fit_sandia, voltage_levels. cbn [map mapM].
  destruct (G "Vmin"%string) as [[N0 ->]|[P0 [k0 ->]]]; cbn [bind].
  { split; [reflexivity|]. intros _. exists "Vmin"%string. cbn [In]. tauto. }
  destruct (G "Vnom"%string) as [[N1 ->]|[P1 [k1 ->]]]; cbn [bind].
  { split; [reflexivity|]. intros _. exists "Vnom"%string. cbn [In]. tauto. }
  destruct (G "Vmax"%string) as [[N2 ->]|[P2 [k2 ->]]]; cbn [bind].
  { split; [reflexivity|]. intros _. exists "Vmax"%string. cbn [In]. tauto. }
  split.
  - intros (d & [<-|[<-|[<-|[]]]] & N); contradiction.
  - destruct (extract_c _ _ _) as [a1 a2], (extract_c _ _ _) as [a3 a4], (extract_c _ _ _) as [a5 a6]. discriminate.
Qed.
Print Assumptions C140_missing_level.

(** the result depends on each level's data alone: measurements may be interleaved, and other levels be present, at will *)
Theorem C140_levels_separate : forall quadfit linefit rows rows' pa pn, (forall d, In d ["Vmin"; "Vnom"; "Vmax"]%string ->
    filter (fun r => String.eqb (t_level r) d) rows = filter (fun r => String.eqb (t_level r) d) rows') ->
  fit_sandia quadfit linefit rows pa pn = fit_sandia quadfit linefit rows' pa pn.
Proof.
  intros quadfit linefit rows rows' pa pn H. unfold fit_sandia, voltage_levels, level_voltage, level_coeffs, at_level. cbn [map mapM].
  rewrite !H by (cbn [In]; tauto). reflexivity.
Qed.
Print Assumptions C140_levels_separate.

(** an inverter whose AC power is linear in DC power at some level cannot be fitted: the formula for the root divides zero by zero, and the fits of nan are nan *)
Theorem C140_linear_inverter_refuted : forall quadfit linefit I volt l, exact_parabola quadfit -> (forall pts, In NaN (map snd pts) -> linefit pts = (NaN, NaN)) ->
  (forall d, In d ["Vmin"; "Vnom"; "Vmax"]%string -> three_values (powers_at d l) /\ dc_start I (volt d) < dc_rated I (volt d)) -> 0 < i_pa I -> i_c0 I = 0 ->
  exists q, fit_sandia quadfit linefit (map (measured I volt) l) #(i_pa I) #(i_pn I) = Ok q /\ Pdco q = NaN /\ Pso q = NaN /\ forall v p, sandia_eff v p q = NaN.
Proof.
  intros quadfit linefit I volt l Q LN H Pa C0.
  assert (G : forall d, In d ["Vmin"; "Vnom"; "Vmax"]%string -> level_coeffs quadfit (map (measured I volt) l) #(i_pa I) d = Ok (#0, NaN, NaN)).
  { intros d Hd. destruct (H d Hd) as [T L]. unfold level_coeffs. rewrite at_level_measured. set (sel := filter _ l).
    assert (N : sel <> []). { unfold powers_at in T. fold sel in T. intros E. rewrite E in T. destruct T as (x & y & z & [] & _). }
    set (A := dc_rated I (volt d)) in *. set (B := dc_start I (volt d)) in *. set (pa := i_pa I) in *.
    destruct (map (measured I volt) sel) as [|r0 rs] eqn:E; [destruct sel; [contradiction|discriminate]|].
    rewrite <- E, map_map.
    assert (K : 0 < pa / (A - B)) by (apply Rdiv_lt_0_compat; lra).
    assert (GG : quadfit (map (fun x => (t_dc (measured I volt x), t_ac (measured I volt x))) sel) = (#(- (pa / (A - B)) * B), #(pa / (A - B)), #0)).
    { rewrite <- (Q (map (fun x => (snd x, ac_power I (volt (fst x)) (snd x))) sel) (- (pa / (A - B)) * B) (pa / (A - B)) 0).
      - rewrite map_map. reflexivity.
      - destruct T as (x & y & z & Hx & Hy & Hz & D). unfold powers_at in Hx, Hy, Hz. fold sel in Hx, Hy, Hz. apply in_map_iff in Hx, Hy, Hz.
        destruct Hx as (x' & <- & Hx), Hy as (y' & <- & Hy), Hz as (z' & <- & Hz).
        exists (snd x', ac_power I (volt (fst x')) (snd x')), (snd y', ac_power I (volt (fst y')) (snd y')), (snd z', ac_power I (volt (fst z')) (snd z')).
        cbn [fst]. rewrite !in_map_iff. repeat split; try tauto; eexists; (split; [reflexivity|assumption]).
      - apply Forall_forall. intros p Hp. apply in_map_iff in Hp. destruct Hp as (x & <- & Hx). cbn [fst snd]. apply filter_In in Hx. destruct Hx as [_ Hx]. apply String.eqb_eq in Hx. rewrite Hx.
        unfold ac_power, curve, curvature. fold A B pa. rewrite C0. ring. }
    rewrite GG.
    assert (S1 : forall b c, 0 < b -> solve_quad #0 #b #c = NaN).
    { intros b c Hb. unfold solve_quad. rewrite fpown_fin. rewrite !fmul_fin, fneg_fin, fsub_fin. replace (b ^ 2 - 4 * 0 * c) with (b * b) by ring.
      rewrite fsqrt_fin by (apply Rmult_le_pos; lra). rewrite sqrt_square by lra. rewrite fadd_fin. replace (- b + b) with 0 by ring. replace (2 * 0) with 0 by ring. rewrite fdiv_zero.
      unfold sinf, Rpos, Rneg. rewrite !Rltb_f by lra. reflexivity. }
    rewrite fsub_fin, !S1 by exact K. reflexivity. }
  unfold fit_sandia, voltage_levels. cbn [map mapM]. rewrite !G by (cbn [In]; tauto). cbn [bind map fst snd].
  unfold extract_c at 1 2. cbn [combine]. rewrite !LN by (cbn [map snd In]; tauto). destruct (extract_c _ _ _) as [a1 a2]. eexists. split; [reflexivity|].
  split; [reflexivity|]. split; [reflexivity|]. intros v p. unfold sandia_eff. cbn [Paco Pdco Pso Inverter.C1 C2 Vdco]. 
  rewrite !fmul_nan_l. change (NaN - NaN)%fl with NaN. rewrite fdiv_nan_r. reflexivity.
Qed.
Print Assumptions C140_linear_inverter_refuted.

(** an inverter without self-consumption gets C2 = nan (zero divided by zero), and with it nan power *)
Theorem C140_no_selfconsumption_refuted : forall quadfit linefit I volt l, exact_parabola quadfit -> exact_line linefit ->
  (forall d, In d ["Vmin"; "Vnom"; "Vmax"]%string -> three_values (powers_at d l) /\ regular I (volt d)) ->
  (volt "Vmin"%string <> volt "Vnom"%string \/ volt "Vmax"%string <> volt "Vnom"%string) -> i_ps I = 0 ->
  exists q, fit_sandia quadfit linefit (map (measured I volt) l) #(i_pa I) #(i_pn I) = Ok q /\ Pso q = #0 /\ C2 q = NaN /\ forall v p, sandia_eff v p q = NaN.
Proof.
  intros quadfit linefit I volt l Q Lf H D Z. unfold fit_sandia, voltage_levels. cbn [map mapM].
  assert (V : forall d, In d ["Vmin"; "Vnom"; "Vmax"]%string -> level_voltage (map (measured I volt) l) d = #(volt d)).
  { intros d Hd. destruct (H d Hd) as [(x & y & z & Hx & _) _]. unfold level_voltage. rewrite at_level_measured, map_map. apply mean_const.
    - intros E. unfold powers_at in Hx. rewrite E in Hx. destruct Hx.
    - intros r Hr. apply filter_In in Hr. destruct Hr as [_ Hr]. apply String.eqb_eq in Hr. cbn [measured t_v]. rewrite Hr. reflexivity. }
  rewrite !V by (cbn [In]; tauto). cbn [nth].
  assert (M1 : In "Vmin"%string ["Vmin"; "Vnom"; "Vmax"]%string) by (cbn [In]; tauto).
  assert (M2 : In "Vnom"%string ["Vmin"; "Vnom"; "Vmax"]%string) by (cbn [In]; tauto).
  assert (M3 : In "Vmax"%string ["Vmin"; "Vnom"; "Vmax"]%string) by (cbn [In]; tauto).
  rewrite (level_ok quadfit I volt "Vmin" l Q (proj1 (H _ M1)) (proj2 (H _ M1))).
  rewrite (level_ok quadfit I volt "Vnom" l Q (proj1 (H _ M2)) (proj2 (H _ M2))).
  rewrite (level_ok quadfit I volt "Vmax" l Q (proj1 (H _ M3)) (proj2 (H _ M3))).
  cbn [bind map fst snd]. rewrite !fsub_fin.
  set (v0 := volt "Vmin"%string) in *. set (v1 := volt "Vnom"%string) in *. set (v2 := volt "Vmax"%string) in *.
  destruct (extract_c linefit _ [#(dc_rated I v0); _; _]) as [a1 a2].
  assert (X : extract_c linefit [#(v0 - v1); #(v1 - v1); #(v2 - v1)] [#(dc_start I v0); #(dc_start I v1); #(dc_start I v2)] = (#0, NaN)).
  { unfold extract_c. cbn [combine]. unfold dc_start. rewrite Z, !Rmult_0_l.
    change (linefit _) with (linefit (map (fun p : R * R => (#(fst p), #(snd p))) [(v0 - v1, 0); (v1 - v1, 0); (v2 - v1, 0)])).
    rewrite (Lf _ 0 0).
    - rewrite fdiv_zero. unfold sinf, Rpos, Rneg. rewrite !Rltb_f by lra. reflexivity.
    - destruct D as [D|D]; [exists (v0 - v1, 0), (v1 - v1, 0)|exists (v2 - v1, 0), (v1 - v1, 0)]; cbn [In fst]; (split; [tauto|split; [tauto|intros E; apply D; lra]]).
    - repeat constructor; cbn [fst snd]; ring. }
  rewrite X. destruct (extract_c linefit _ [#(curvature I v0); _; _]) as [a3 a4]. eexists. split; [reflexivity|]. split; [reflexivity|]. split; [reflexivity|].
  intros v p. unfold sandia_eff. cbn [Paco Pdco Pso Inverter.C1 C2 Vdco]. rewrite fmul_nan_l, fadd_nan_r, fmul_nan_r. change (fsub p NaN) with (fadd p NaN). rewrite fadd_nan_r, fmul_nan_r. reflexivity.
Qed.
Print Assumptions C140_no_selfconsumption_refuted.

(** polynomial fits with the required property exist: interpolation through the first points with different abscissas *)
Definition other (x : fl) (l : list (fl * fl)) : list (fl * fl) := filter (fun p => negb (feqb (fst p) x)) l.
Definition line_through (l : list (fl * fl)) : fl * fl :=
  match l with
  | [] => (NaN, NaN)
  | p :: _ => match other (fst p) l with
              | [] => (NaN, NaN)
              | q :: _ => let m := ((snd q - snd p) / (fst q - fst p))%fl in ((snd p - m * fst p)%fl, m)
              end
  end.
Definition parabola_through (l : list (fl * fl)) : fl * fl * fl :=
  match l with
  | [] => (NaN, NaN, NaN)
  | p :: _ => match other (fst p) l with
              | [] => (NaN, NaN, NaN)
              | q :: _ => match other (fst q) (other (fst p) l) with
                          | [] => (NaN, NaN, NaN)
                          | r :: _ => let m := ((snd q - snd p) / (fst q - fst p))%fl in let k := ((snd r - snd p) / (fst r - fst p))%fl in
                                      let a := ((k - m) / (fst r - fst q))%fl in let b := (m - a * (fst p + fst q))%fl in
                                      ((snd p - b * fst p - a * (fst p) ^ 2)%fl, b, a)
                          end
              end
  end.
Lemma other_fin x (pts : list (R * R)) : other #x (map (fun p => (Fin (fst p), Fin (snd p))) pts) = map (fun p => (Fin (fst p), Fin (snd p))) (filter (fun p => negb (Reqb (fst p) x)) pts).
Proof. unfold other. induction pts as [|p l IH]; [reflexivity|]. cbn [map filter fst feqb]. destruct (Reqb (fst p) x); cbn [negb map]; [exact IH|f_equal; exact IH]. Qed.
Lemma line_through_exact : exact_line line_through.
Proof.
  intros pts b0 b1 (p & p' & Hp & Hp' & D) F. destruct pts as [|x l]; [destruct Hp|]. unfold line_through. cbn [map fst].
  change ((#(fst x), #(snd x)) :: map _ l) with (map (fun p : R * R => (#(fst p), #(snd p))) (x :: l)). rewrite other_fin.
  destruct (filter _ (x :: l)) as [|q s] eqn:E.
  - exfalso. assert (Z : forall r, In r (x :: l) -> fst r = fst x). { intros r Hr. destruct (Reqb_spec (fst r) (fst x)) as [e|n]; [exact e|]. assert (Y : In r (filter (fun p => negb (Reqb (fst p) (fst x))) (x :: l))). { apply filter_In. split; [exact Hr|]. destruct (Reqb_spec (fst r) (fst x)); [contradiction|reflexivity]. } rewrite E in Y. destruct Y. }
    apply D. rewrite (Z p Hp), (Z p' Hp'). reflexivity.
  - assert (Y : In q (filter (fun p => negb (Reqb (fst p) (fst x))) (x :: l))) by (rewrite E; left; reflexivity). apply filter_In in Y. destruct Y as [Y1 Y2].
    destruct (Reqb_spec (fst q) (fst x)) as [e|n]; [discriminate|]. rewrite Forall_forall in F. pose proof (F q Y1) as Fq. pose proof (F x (or_introl eq_refl)) as Fx. cbv beta in Fq, Fx.
    cbn [map fst snd]. rewrite !fsub_fin, fdiv_fin by (intros Z; apply n; lra). rewrite Fq, Fx.
    replace ((b0 + b1 * fst q - (b0 + b1 * fst x)) / (fst q - fst x)) with b1 by (field; intros Z; apply n; lra). rewrite fmul_fin, fsub_fin. f_equal. f_equal. ring.
Qed.
Lemma parabola_through_exact : exact_parabola parabola_through.
Proof.
  intros pts c b a (p & p' & p'' & Hp & Hp' & Hp'' & D1 & D2 & D3) F. destruct pts as [|x l]; [destruct Hp|]. unfold parabola_through. cbn [map fst].
  change ((#(fst x), #(snd x)) :: map _ l) with (map (fun p : R * R => (#(fst p), #(snd p))) (x :: l)). rewrite other_fin. set (L1 := filter _ (x :: l)).
  assert (I1 : forall r, In r L1 <-> In r (x :: l) /\ fst r <> fst x). { intros r. unfold L1. rewrite filter_In. destruct (Reqb_spec (fst r) (fst x)); cbn [negb]; intuition congruence. }
  assert (E1 : exists u, In u L1). { destruct (Req_EM_T (fst p) (fst x)) as [e|n]; [exists p'|exists p]; apply I1; (split; [assumption|congruence]). }
  destruct L1 as [|q s] eqn:E; [destruct E1 as [u []]|]. cbn [map fst].
  change ((#(fst q), #(snd q)) :: map _ s) with (map (fun p : R * R => (#(fst p), #(snd p))) (q :: s)). rewrite other_fin. set (L2 := filter _ (q :: s)).
  assert (I2 : forall r, In r L2 <-> In r (q :: s) /\ fst r <> fst q). { intros r. unfold L2. rewrite filter_In. destruct (Reqb_spec (fst r) (fst q)); cbn [negb]; intuition congruence. }
  assert (E2 : exists u, In u L2).
  { assert (W : forall u, In u (x :: l) -> fst u <> fst x -> fst u <> fst q -> In u L2) by (intros u U1 U2 U3; apply I2; split; [apply I1; tauto|exact U3]).
    destruct (Req_EM_T (fst p) (fst x)) as [e|n1]; [|destruct (Req_EM_T (fst p) (fst q)) as [e'|n2]; [|exists p; apply W; assumption]].
    - destruct (Req_EM_T (fst p') (fst q)); [exists p''|exists p']; apply W; congruence.
    - destruct (Req_EM_T (fst p') (fst x)); [exists p''|exists p']; apply W; congruence. }
  destruct L2 as [|r t] eqn:E'; [destruct E2 as [u []]|]. cbn [map fst snd].
  destruct (proj1 (I1 q) (or_introl eq_refl)) as [Q1 Q2]. destruct (proj1 (I2 r) (or_introl eq_refl)) as [R0 R2]. destruct (proj1 (I1 r) R0) as [R1 R3].
  rewrite Forall_forall in F. pose proof (F q Q1) as Fq. pose proof (F x (or_introl eq_refl)) as Fx. pose proof (F r R1) as Fr. cbv beta in Fq, Fx, Fr. rewrite Fq, Fx, Fr.
  rewrite !fsub_fin. rewrite (fdiv_fin _ (fst q - fst x)) by (intros Z; apply Q2; lra). rewrite (fdiv_fin _ (fst r - fst x)) by (intros Z; apply R3; lra). rewrite fsub_fin, fdiv_fin by (intros Z; apply R2; lra).
  replace (c + b * fst q + a * fst q ^ 2 - (c + b * fst x + a * fst x ^ 2)) with ((fst q - fst x) * (b + a * (fst q + fst x))) by ring.
  replace (c + b * fst r + a * fst r ^ 2 - (c + b * fst x + a * fst x ^ 2)) with ((fst r - fst x) * (b + a * (fst r + fst x))) by ring.
  replace ((fst q - fst x) * (b + a * (fst q + fst x)) / (fst q - fst x)) with (b + a * (fst q + fst x)) by (field; intros Z; apply Q2; lra).
  replace ((fst r - fst x) * (b + a * (fst r + fst x)) / (fst r - fst x)) with (b + a * (fst r + fst x)) by (field; intros Z; apply R3; lra).
  replace ((b + a * (fst r + fst x) - (b + a * (fst q + fst x))) / (fst r - fst q)) with a by (field; intros Z; apply R2; lra).
  rewrite fpown_fin, fadd_fin, fmul_fin, fsub_fin. replace (b + a * (fst q + fst x) - a * (fst x + fst q)) with b by ring. rewrite !fmul_fin, !fsub_fin. f_equal. f_equal. f_equal. ring.
Qed.

(** a 4 kW inverter measured at three voltages *)
Example C140_nonvacuous :
  let I := Inverter 4000 4200 310 (-1/100000) (1/10000) (1/1000) (-1/1000) 30 1 in
  let volt d := if String.eqb d "Vmin" then 280 else if String.eqb d "Vmax" then 480 else 310 in
  let l := flat_map (fun p => [("Vmin"%string, p); ("Vnom"%string, p); ("Vmax"%string, p)]) [500; 1000; 2000; 4000] in
  exact_parabola parabola_through /\ exact_line line_through /\
  (forall d, In d ["Vmin"; "Vnom"; "Vmax"]%string -> three_values (powers_at d l) /\ regular I (volt d)) /\
  volt "Vmin"%string <> volt "Vnom"%string /\ dc_rated I (volt "Vnom"%string) <> 0 /\ dc_start I (volt "Vnom"%string) <> 0.
Proof.
  intros I volt l. split; [exact parabola_through_exact|]. split; [exact line_through_exact|].
  split.
  - intros d Hd. assert (Y : three_values (powers_at d l)).
    { destruct Hd as [<-|[<-|[<-|[]]]]; exists 500, 1000, 2000; cbv [l flat_map app powers_at filter fst snd map String.eqb Ascii.eqb Bool.eqb In]; repeat split; try tauto; lra. }
    split; [exact Y|]. unfold regular, slope_start, slope_rated.
    destruct Hd as [<-|[<-|[<-|[]]]]; cbv [volt String.eqb Ascii.eqb Bool.eqb I dc_rated dc_start curvature i_pa i_pd i_vd i_c0 i_c1 i_c2 i_c3 i_ps i_pn].
    + split; [lra|]. split; [lra|]. split; (match goal with |- 0 <= ?p / ?d + ?e => idtac | |- 0 <= ?p / ?d - ?e => idtac end); lra.
    + split; [lra|]. split; [lra|]. split; lra.
    + split; [lra|]. split; [lra|]. split; lra.
  - cbv [volt String.eqb Ascii.eqb Bool.eqb I dc_rated dc_start curvature i_pa i_pd i_vd i_c0 i_c1 i_c2 i_c3 i_ps i_pn]. repeat split; lra.
Qed.
