(** C76-C84: single diode equation, bishop88, Lambert W, batzelis. *)
From Verif Require Import Base.Fl Base.FlFacts Base.Py Model.Tools Model.SingleDiode Spec.DiodeSpec
  Proofs.Diode Proofs.LambertP Proofs.DiodeLW Proofs.DiodeSolve.
From Coq Require Import Psatz.
From Coquelicot Require Import Coquelicot.
Open Scope R_scope.

(** ** C76 *)
Theorem C76_point_solves_single_diode_equation : forall g p x, denotes g p -> valid_vd p x ->
  exists i v, bishop88 #x g = (#i, #v, #(i * v)) /\ on_curve p v i /\ x = v + i * dRs p.
Proof.
  intros g p x H Hv. exists (terminal_current p x), (x - terminal_current p x * dRs p).
  split; [apply (bishop88_den g p x H Hv)|]. split; [apply curve_at|ring].
Qed.
Print Assumptions C76_point_solves_single_diode_equation.
Theorem C76_every_point_is_reached : forall g p v i, denotes g p -> on_curve p v i -> valid_vd p (v + i * dRs p) ->
  bishop88 #(v + i * dRs p) g = (#i, #v, #(i * v)).
Proof.
  intros g p v i H C Hv. rewrite (bishop88_den g p _ H Hv). cbv zeta. unfold on_curve in C. rewrite <- C.
  replace (v + i * dRs p - i * dRs p) with v by ring. reflexivity.
Qed.
Print Assumptions C76_every_point_is_reached.
(** with the default arguments, breakdown_factor = 0 does not switch the breakdown term off: 0 * nan *)
Theorem C76_nan_from_breakdown_voltage_down : forall IL I0 Rs rsh G a x,
  shunt_of rsh G -> a <> 0 -> x <= -5.5 ->
  bishop88 #x (plain_args #IL #I0 #Rs rsh #a) = (NaN, NaN, NaN).
Proof.
  intros IL I0 Rs rsh G a x HS Ha Hx. destruct (shunt_gsh rsh G HS) as [EG _].
  assert (E : b_current (plain_args #IL #I0 #Rs rsh #a) #x = NaN).
  { unfold b_current. cbv zeta. unfold b_brk_pwr, b_brk_term. cbn [b_rsh b_bf b_bv b_be b_a b_iph b_isat plain_args].
    rewrite EG, (fdiv_fin x (-5.5)) by lra. rewrite fsub_fin, fneg_fin, !fmul_fin.
    assert (K : 1 - x / -5.5 <= 0) by lra.
    assert (P : fpow #(1 - x / -5.5) #(- (3.28)) = PInf \/ fpow #(1 - x / -5.5) #(- (3.28)) = NaN).
    { unfold fpow, Rpos. destruct (Reqb_spec (- (3.28)) 0); [lra|]. destruct (Rltb_spec 0 (1 - x / -5.5)); [lra|].
      destruct (Reqb_spec (1 - x / -5.5) 0); [left|right; reflexivity].
      destruct (Rltb_spec 0 (- (3.28))); [lra|reflexivity]. }
    destruct P as [-> | ->].
    - assert (Z : (#(0 * x * G) * PInf)%fl = NaN).
      { unfold fmul, sinf, Rpos, Rneg. replace (0 * x * G) with 0 by ring. rdec. reflexivity. }
      rewrite Z. unfold fsub. simpl fneg. rewrite fadd_nan_r. reflexivity.
    - rewrite fmul_nan_r. unfold fsub. simpl fneg. rewrite fadd_nan_r. reflexivity. }
  unfold bishop88. cbv zeta. unfold b_voltage. rewrite E. reflexivity.
Qed.
Print Assumptions C76_nan_from_breakdown_voltage_down.
(** a CdTe-like module with shunt, series resistance, recombination and breakdown *)
Example C76_example : exists g p x, denotes g p /\ physical p /\ valid_vd p x /\ 0 < recombination p x /\ avalanche p x < 0.
Proof.
  exists (BA #5 #(1/1000) #(1/2) #300 #3 #(1/10) #50 #(1/10) #(-5) #3),
    (Diode 5 (1/1000) (1/2) (1/300) 3 (1/10) (Some 50) (1/10) (-5) 3), (-1).
  unfold denotes, physical, valid_vd, below_builtin, above_breakdown, recombination, avalanche. simpl.
  split; [|split; [|split; [|split]]].
  - repeat split; try lra.
    + left. exists 300. repeat split; lra.
    + right. split; [reflexivity|]. split; [lra|]. left. exists 50. split; reflexivity.
  - repeat split; lra.
  - lra.
  - lra.
  - pose proof (exp_pos (- (3) * ln (1 - -1 / -5))). unfold Rpower.
    set (e := exp _) in *. lra.
Qed.

(** ** C77 *)
Theorem C77_gradients_are_derivatives : forall g p x (I V P D : R -> R),
  denotes g p -> physical p -> dB p = 0 -> valid_vd p x ->
  (forall y, valid_vd p y -> bishop88 #y g = (#(I y), #(V y), #(P y)) /\ g_p (bishop88_grads #y g) = #(D y)) ->
  exists gi gv giv gp g2p,
    bishop88_grads #x g = BG #gi #gv #giv #gp #g2p /\
    is_derive I x gi /\ is_derive V x gv /\ 1 <= gv /\ giv * gv = gi /\
    is_derive P x (gp * gv) /\ is_derive D x g2p.
Proof.
  intros g p x I V P D HD HP HB Hv HF. pose proof (grad_v_pos p x HP (proj1 Hv)) as Hgv.
  assert (Ha : da p <> 0) by (destruct HP as (_ & _ & _ & _ & Ha & _); lra).
  assert (HVb : dVbr p <> 0) by apply HD.
  assert (FI : forall y, valid_vd p y -> I y = terminal_current p y /\ V y = volt p y /\
            P y = terminal_current p y * volt p y /\ D y = gpR p y).
  { intros y Hy. destruct (HF y Hy) as [E1 E2]. rewrite (bishop88_den g p y HD Hy) in E1. cbv zeta in E1.
    injection E1 as E1a E1b E1c. pose proof (grad_v_pos p y HP (proj1 Hy)).
    rewrite (grads_den g p y HD HB Hy) in E2 by lra. cbv zeta in E2. cbn [g_p] in E2. injection E2 as E2.
    unfold volt, gpR. auto. }
  pose proof (valid_locally p x HVb Hv) as HL.
  eexists _, _, _, _, _. split; [apply (grads_den g p x HD HB Hv); lra|].
  pose proof (dterm_deriv p x HB Ha (proj1 Hv)) as D1. pose proof (volt_deriv p x HB Ha (proj1 Hv)) as DV.
  split; [|split; [|split; [exact Hgv|split; [|split]]]].
  - apply (is_derive_ext_loc (terminal_current p)); [|exact D1].
    apply (filter_imp _ _ (fun y Hy => eq_sym (proj1 (FI y Hy))) HL).
  - apply (is_derive_ext_loc (volt p)); [|exact DV].
    apply (filter_imp _ _ (fun y Hy => eq_sym (proj1 (proj2 (FI y Hy)))) HL).
  - field. lra.
  - apply (is_derive_ext_loc (fun y => terminal_current p y * volt p y)).
    + apply (filter_imp _ _ (fun y Hy => eq_sym (proj1 (proj2 (proj2 (FI y Hy))))) HL).
    + auto_derive; [split; [eexists; exact D1|split; [eexists; exact DV|exact Logic.I]]|].
      der DV. der D1. unfold volt. field. lra.
  - apply (is_derive_ext_loc (gpR p)).
    + apply (filter_imp _ _ (fun y Hy => eq_sym (proj2 (proj2 (proj2 (FI y Hy))))) HL).
    + apply (gp_deriv p x HB Ha (proj1 Hv)). lra.
Qed.
Print Assumptions C77_gradients_are_derivatives.
(** with a breakdown term the first gradient is not the derivative of the current (the factor -1/breakdown_voltage of the
    chain rule is missing), unless breakdown_voltage = -1 *)
Theorem C77_breakdown_gradient_refuted : forall g p x (I : R -> R) gi,
  denotes g p -> physical p -> valid_vd p x ->
  dB p <> 0 -> 0 < dG p -> dm p <> 0 -> x <> 0 -> dVbr p <> -1 ->
  (forall y, valid_vd p y -> b_current g #y = #(I y)) ->
  g_i (bishop88_grads #x g) = #gi -> ~ is_derive I x gi.
Proof.
  intros g p x I gi HD HP Hv HB HG Hm Hx HVn HF Hg HI.
  assert (Ha : da p <> 0) by (destruct HP as (_ & _ & _ & _ & Ha & _); lra).
  assert (HVb : dVbr p <> 0) by apply HD.
  pose proof (dterm_bd_deriv p x Ha HVb Hv) as DT.
  assert (DI : is_derive I x (dterm_bd p x)).
  { apply (is_derive_ext_loc (terminal_current p)); [|exact DT].
    refine (filter_imp _ _ _ (valid_locally p x HVb Hv)). intros y Hy.
    pose proof (HF y Hy) as E. rewrite (current_den g p y HD Hy) in E. injection E as E. exact E. }
  assert (EQ : gi = dterm_bd p x).
  { rewrite <- (is_derive_unique _ _ _ HI). apply is_derive_unique, DI. }
  assert (EG : gi = dterm p x - dB p * dG p * (Rpower (1 - x / dVbr p) (- dm p)
                             + x * (- dm p) * Rpower (1 - x / dVbr p) (- dm p - 1))).
  { apply Fin_inj. rewrite <- Hg. apply (grad_i_bd g p x HD Hv). }
  rewrite EQ in EG. unfold dterm_bd in EG.
  assert (PR : 0 < Rpower (1 - x / dVbr p) (- dm p - 1)) by (unfold Rpower; apply exp_pos).
  assert (Z : dB p * dG p * (x * dm p * Rpower (1 - x / dVbr p) (- dm p - 1)) * (1 + / dVbr p) = 0).
  { set (r := Rpower _ (- dm p - 1)) in *. unfold Rdiv in EG. lra. }
  assert (1 + / dVbr p <> 0).
  { intros K. apply HVn. apply Rmult_eq_reg_r with (/ dVbr p); [|apply Rinv_neq_0_compat; exact HVb].
    rewrite Rinv_r by exact HVb. lra. }
  apply Rmult_integral in Z. destruct Z as [Z|Z]; [|contradiction].
  apply Rmult_integral in Z. destruct Z as [Z|Z]; [apply Rmult_integral in Z; lra|].
  apply Rmult_integral in Z. destruct Z as [Z|Z]; [apply Rmult_integral in Z|]; lra.
Qed.
Print Assumptions C77_breakdown_gradient_refuted.

(** ** C78 *)
Theorem C78_current_falls_voltage_rises : forall g p x y i1 v1 p1 i2 v2 p2,
  denotes g p -> physical p -> dB p = 0 -> valid_vd p x -> valid_vd p y -> x < y ->
  bishop88 #x g = (#i1, #v1, #p1) -> bishop88 #y g = (#i2, #v2, #p2) -> i2 < i1 /\ v1 < v2.
Proof.
  intros g p x y i1 v1 p1 i2 v2 p2 HD HP HB Hx Hy L E1 E2.
  rewrite (bishop88_den g p x HD Hx) in E1. rewrite (bishop88_den g p y HD Hy) in E2.
  injection E1 as <- <- _. injection E2 as <- <- _.
  split; [apply current_decreasing|apply voltage_increasing]; auto; apply Hy.
Qed.
Print Assumptions C78_current_falls_voltage_rises.
Theorem C78_one_current_per_voltage : forall p v i1 i2, physical p -> dB p = 0 ->
  on_curve p v i1 -> on_curve p v i2 -> below_builtin p (v + i1 * dRs p) -> below_builtin p (v + i2 * dRs p) -> i1 = i2.
Proof.
  intros p v i1 i2 HP HB C1 C2 B1 B2. unfold on_curve in *. rewrite C1, C2. f_equal.
  apply (unique_vd_v p _ _ HP HB B1 B2). rewrite <- C1, <- C2. ring.
Qed.
Print Assumptions C78_one_current_per_voltage.
Theorem C78_one_voltage_per_current : forall p v1 v2 i, physical p -> dB p = 0 ->
  on_curve p v1 i -> on_curve p v2 i -> below_builtin p (v1 + i * dRs p) -> below_builtin p (v2 + i * dRs p) -> v1 = v2.
Proof.
  intros p v1 v2 i HP HB C1 C2 B1 B2. unfold on_curve in *.
  assert (v1 + i * dRs p = v2 + i * dRs p); [|lra]. apply (unique_vd_i p _ _ HP HB B1 B2). congruence.
Qed.
Print Assumptions C78_one_voltage_per_current.
(** more voltage, less current *)
Theorem C78_curve_decreasing : forall p v1 i1 v2 i2, physical p -> dB p = 0 ->
  on_curve p v1 i1 -> on_curve p v2 i2 -> below_builtin p (v1 + i1 * dRs p) -> below_builtin p (v2 + i2 * dRs p) ->
  v1 < v2 -> i2 < i1.
Proof.
  intros p v1 i1 v2 i2 HP HB C1 C2 B1 B2 L.
  pose proof (curve_tangent p v1 i1 v2 i2 HP HB C1 C2 B1 B2) as T. cbv zeta in T.
  pose proof (dterm_neg p _ HP B1). pose proof (grad_v_pos p _ HP B1). set (d := dterm p _) in *.
  assert (0 < (- d) / (1 - d * dRs p)) by (apply Rdiv_lt_0_compat; lra).
  assert (0 < (- d) / (1 - d * dRs p) * (v2 - v1)) by (apply Rmult_lt_0_compat; lra).
  replace (d / (1 - d * dRs p)) with (- ((- d) / (1 - d * dRs p))) in T by (field; lra). lra.
Qed.
Print Assumptions C78_curve_decreasing.

(** ** C79 *)
Theorem C79_stationary_point_is_global_maximum : forall g p x i v pw,
  denotes g p -> physical p -> dB p = 0 -> valid_vd p x -> 0 <= terminal_current p 0 ->
  bishop88 #x g = (#i, #v, #pw) -> g_p (bishop88_grads #x g) = #0 -> 0 <= v ->
  pw = v * i /\ max_power_at p v i.
Proof.
  intros g p x i v pw HD HP HB Hv H0 E EG V0. rewrite (bishop88_den g p x HD Hv) in E.
  injection E as <- <- <-. split; [ring|]. split; [apply curve_at|].
  intros v' i' C B. pose proof (grad_v_pos p x HP (proj1 Hv)).
  rewrite (grads_den g p x HD HB Hv) in EG by lra. cbn [g_p] in EG. apply Fin_inj in EG.
  assert (EX : x - terminal_current p x * dRs p + terminal_current p x * dRs p = x) by ring.
  apply (power_max p (x - terminal_current p x * dRs p) (terminal_current p x) HP HB (curve_at p x)); rewrite ?EX; auto.
  apply Hv.
Qed.
Print Assumptions C79_stationary_point_is_global_maximum.
(** bishop88_mpp with a bracketing solver of accuracy [tol] on the junction voltage *)
Theorem C79_mpp_with_bracketing_solver : forall tol sp m solver kw g p,
  bracket_method sp m solver -> bracketing tol solver ->
  denotes g p -> physical p -> dB p = 0 -> dVbr p < 0 -> 0 <= terminal_current p 0 ->
  fltb #(ideal_voc p) (b_NsVbi g) = true ->
  exists i v im vm, bishop88_mpp sp g m kw = Ok (#i, #v, #(i * v)) /\ on_curve p v i /\
    max_power_at p vm im /\ Rabs ((v + i * dRs p) - (vm + im * dRs p)) <= tol.
Proof.
  intros tol sp m solver kw g p HM HS HD HP HB HV H0 HX.
  destruct (solve_mpp tol sp m solver HM HS g p HD HP HB HV HX kw H0) as (x & r & E & Bx & Br & R0 & T).
  exists (terminal_current p x), (volt p x), (terminal_current p r), (volt p r).
  split; [exact E|]. split; [apply curve_at|]. split.
  - apply root_is_mpp; auto; [|lra]. apply (below_le p r (ideal_voc p)); [|lra].
    apply (voc_start_den g p HD HP HX).
  - replace (volt p x + terminal_current p x * dRs p) with x by (unfold volt; ring).
    replace (volt p r + terminal_current p r * dRs p) with r by (unfold volt; ring). exact T.
Qed.
Print Assumptions C79_mpp_with_bracketing_solver.
Theorem C79_exact_solver_gives_maximum : forall sp m solver kw g p,
  bracket_method sp m solver -> bracketing 0 solver ->
  denotes g p -> physical p -> dB p = 0 -> dVbr p < 0 -> 0 <= terminal_current p 0 ->
  fltb #(ideal_voc p) (b_NsVbi g) = true ->
  exists i v, bishop88_mpp sp g m kw = Ok (#i, #v, #(i * v)) /\ max_power_at p v i.
Proof.
  intros sp m solver kw g p HM HS HD HP HB HV H0 HX.
  destruct (solve_mpp 0 sp m solver HM HS g p HD HP HB HV HX kw H0) as (x & r & E & Bx & Br & R0 & T).
  assert (x = r).
  { pose proof (Rabs_pos (x - r)). assert (Rabs (x - r) = 0) by lra. destruct (Req_dec (x - r) 0); [lra|].
    pose proof (Rabs_pos_lt _ H2). lra. }
  subst x. exists (terminal_current p r), (volt p r). split; [exact E|].
  apply root_is_mpp; auto; [|lra]. apply (below_le p r (ideal_voc p)); [|lra].
  apply (voc_start_den g p HD HP HX).
Qed.
Print Assumptions C79_exact_solver_gives_maximum.

(** ** C80 *)
Theorem C80_estimate_voc : forall p, physical p ->
  estimate_voc #(dIL p) #(dI0 p) #(da p) = #(ideal_voc p) /\ 0 <= ideal_voc p /\
  on_curve (simple_diode (dIL p) (dI0 p) (dRs p) 0 (da p)) (ideal_voc p) 0.
Proof.
  intros p HP. split; [apply estimate_voc_den, HP|]. split; [apply voc_estR_nonneg, HP|].
  destruct HP as (HL & H0 & _ & _ & Ha & _). unfold on_curve. rewrite simple_terminal.
  replace ((ideal_voc p + 0 * dRs (simple_diode (dIL p) (dI0 p) (dRs p) 0 (da p))) / da p)
    with (ln (dIL p / dI0 p + 1)) by (unfold ideal_voc; field; lra).
  assert (0 <= dIL p / dI0 p) by (apply Rdiv_le_0_compat; assumption).
  rewrite exp_ln by lra. field. lra.
Qed.
Print Assumptions C80_estimate_voc.
Theorem C80_voltage_from_current : forall tol sp m solver kw g p i,
  bracket_method sp m solver -> bracketing tol solver ->
  denotes g p -> physical p -> dB p = 0 -> dVbr p < 0 -> fltb #(ideal_voc p) (b_NsVbi g) = true ->
  0 <= i <= terminal_current p 0 ->
  exists v i' v0, bishop88_v_from_i sp #i g m kw = Ok #v /\ on_curve p v i' /\
    on_curve p v0 i /\ Rabs ((v + i' * dRs p) - (v0 + i * dRs p)) <= tol.
Proof.
  intros tol sp m solver kw g p i HM HS HD HP HB HV HX Hi.
  destruct (solve_v_from_i tol sp m solver HM HS g p HD HP HB HV HX i kw Hi) as (x & r & E & Bx & Br & R0 & T).
  exists (volt p x), (terminal_current p x), (volt p r). split; [exact E|]. split; [apply curve_at|].
  rewrite <- R0. split; [apply curve_at|].
  replace (volt p x + terminal_current p x * dRs p) with x by (unfold volt; ring).
  replace (volt p r + terminal_current p r * dRs p) with r by (unfold volt; ring). exact T.
Qed.
Print Assumptions C80_voltage_from_current.
Theorem C80_current_from_voltage : forall tol sp m solver kw g p v,
  bracket_method sp m solver -> bracketing tol solver ->
  denotes g p -> physical p -> dB p = 0 -> dVbr p < 0 -> fltb #(ideal_voc p) (b_NsVbi g) = true ->
  0 <= terminal_current p 0 -> - dRs p * terminal_current p 0 <= v <= ideal_voc p ->
  exists i v' i0, bishop88_i_from_v sp #v g m kw = Ok #i /\ on_curve p v' i /\
    on_curve p v i0 /\ Rabs ((v' + i * dRs p) - (v + i0 * dRs p)) <= tol.
Proof.
  intros tol sp m solver kw g p v HM HS HD HP HB HV HX H0 Hv.
  destruct (solve_i_from_v tol sp m solver HM HS g p HD HP HB HV HX v kw Hv H0) as (x & r & E & Bx & Br & R0 & T).
  exists (terminal_current p x), (volt p x), (terminal_current p r). split; [exact E|]. split; [apply curve_at|].
  rewrite <- R0. split; [apply curve_at|].
  replace (volt p x + terminal_current p x * dRs p) with x by (unfold volt; ring).
  replace (volt p r + terminal_current p r * dRs p) with r by (unfold volt; ring). exact T.
Qed.
Print Assumptions C80_current_from_voltage.
(** Newton's method has no bracket: whenever it returns a root, the result is on the curve.  It is given the residual and its
    derivative, voc_start or the voltage as starting point, and tol=1e-6, maxiter=100 unless the caller set them. *)
Theorem C80_newton_root_is_a_solution : forall sp m g p i v kw,
  denotes g p -> lower m = "newton"%string ->
  (forall f x0 f' k vd, newton sp f x0 f' k = Ok vd -> exists x, vd = #x /\ valid_vd p x /\ f #x = #0) ->
  (forall r, bishop88_v_from_i sp #i g m kw = Ok r -> exists u, r = #u /\ on_curve p u i) /\
  (forall r, bishop88_i_from_v sp #v g m kw = Ok r -> exists c, r = #c /\ on_curve p v c).
Proof.
  intros sp m g p i v kw HD Hm HN. split; intros r E.
  - unfold bishop88_v_from_i, solve_vd in E. rewrite Hm in E. simpl String.eqb in E. cbv iota in E.
    destruct (newton sp _ _ _ _) as [vd|] eqn:EN in E; [|discriminate E].
    destruct (HN _ _ _ _ _ EN) as (x & -> & Hv & F). unfold bind in E. assert (E' : r = b_voltage g #x) by congruence. rewrite E'.
    rewrite (voltage_den g p x HD Hv). rewrite (current_den g p x HD Hv), fsub_fin in F. apply Fin_inj in F.
    exists (x - terminal_current p x * dRs p). split; [reflexivity|].
    replace i with (terminal_current p x) by lra. apply curve_at.
  - unfold bishop88_i_from_v, solve_vd in E. rewrite Hm in E. simpl String.eqb in E. cbv iota in E.
    destruct (newton sp _ _ _ _) as [vd|] eqn:EN in E; [|discriminate E].
    destruct (HN _ _ _ _ _ EN) as (x & -> & Hv & F). unfold bind in E. assert (E' : r = b_current g #x) by congruence. rewrite E'.
    rewrite (current_den g p x HD Hv). rewrite (voltage_den g p x HD Hv), fsub_fin in F. apply Fin_inj in F.
    exists (terminal_current p x). split; [reflexivity|].
    replace v with (x - terminal_current p x * dRs p) by lra. apply curve_at.
Qed.
Print Assumptions C80_newton_root_is_a_solution.
Theorem C80_newton_call : forall sp m g i v kw, lower m = "newton"%string ->
  exists k, (forall key x, lookup key kw = Some x -> lookup key k = Some x) /\
    (lookup "tol" kw = None -> lookup "tol" k = Some #1e-6) /\
    (lookup "maxiter" kw = None -> lookup "maxiter" k = Some #100) /\
    bishop88_v_from_i sp i g m kw =
      (let* vd := newton sp (fun x => b_current g x - i)%fl (voc_start g) (fun x => g_i (bishop88_grads x g)) k in
       Ok (b_voltage g vd)) /\
    bishop88_i_from_v sp v g m kw =
      (let* vd := newton sp (fun x => b_voltage g x - v)%fl v (fun x => g_v (bishop88_grads x g)) k in
       Ok (b_current g vd)) /\
    bishop88_mpp sp g m kw =
      (let* vd := newton sp (fun x => g_p (bishop88_grads x g)) (voc_start g) (fun x => g_2p (bishop88_grads x g)) k in
       Ok (bishop88 vd g)).
Proof.
  intros sp m g i v kw Hm. exists (newton_kwargs kw). unfold newton_kwargs.
  assert (LA : forall key (a b : kwargs), lookup key (a ++ b)%list = match lookup key a with Some y => Some y | None => lookup key b end).
  { intros key a b. induction a as [|[k y] a IH]; [reflexivity|]. simpl. destruct (String.eqb key k); auto. }
  split; [intros key x H; rewrite LA, H; reflexivity|].
  split; [intros H; rewrite LA, H; reflexivity|]. split; [intros H; rewrite LA, H; reflexivity|].
  unfold bishop88_v_from_i, bishop88_i_from_v, bishop88_mpp, solve_vd, newton_kwargs. rewrite Hm. auto.
Qed.
Print Assumptions C80_newton_call.
(** method names: case does not matter; anything else is refused *)
Theorem C80_unknown_method : forall sp m g i kw,
  ~ In (lower m) ["brentq"; "newton"; "chandrupatla"]%string ->
  bishop88_v_from_i sp i g m kw = Err NotImplementedError /\ bishop88_i_from_v sp i g m kw = Err NotImplementedError /\
  bishop88_mpp sp g m kw = Err NotImplementedError.
Proof.
  intros sp m g i kw H. unfold bishop88_v_from_i, bishop88_i_from_v, bishop88_mpp, solve_vd.
  destruct (String.eqb_spec (lower m) "brentq"); [exfalso; apply H; rewrite e; simpl; auto|].
  destruct (String.eqb_spec (lower m) "newton"); [exfalso; apply H; rewrite e; simpl; auto|].
  destruct (String.eqb_spec (lower m) "chandrupatla"); [exfalso; apply H; rewrite e; simpl; auto|]. auto.
Qed.
Print Assumptions C80_unknown_method.
Theorem C80_chandrupatla_needs_scipy_1_15 : forall sp m g i kw, lower m = "chandrupatla"%string -> find_root sp = None ->
  bishop88_v_from_i sp i g m kw = Err ImportError /\ bishop88_i_from_v sp i g m kw = Err ImportError /\
  bishop88_mpp sp g m kw = Err ImportError.
Proof.
  intros sp m g i kw Hm HN. unfold bishop88_v_from_i, bishop88_i_from_v, bishop88_mpp, solve_vd. rewrite Hm, HN. auto.
Qed.
Print Assumptions C80_chandrupatla_needs_scipy_1_15.
(** built-in voltage below the ideal voc: brentq's bracket ends at 0.9999 NsVbi and still holds the open-circuit point when
    d2mutau >= 1e-4 NsVbi *)
Theorem C80_brentq_bracket_below_builtin : forall g p b, denotes g p -> physical p -> dB p = 0 ->
  dVbi p = Some b -> b <= ideal_voc p -> b <= 10000 * dD p -> 0 < dIL p ->
  voc_start g = #(0.9999 * b) /\ terminal_current p (0.9999 * b) <= 0.
Proof.
  intros g p b HD HP HB EB HV Hd HL. split.
  - unfold voc_start. cbv zeta.
    assert (E : estimate_voc (b_iph g) (b_isat g) (b_a g) = #(ideal_voc p)).
    { destruct HD as (-> & -> & _ & -> & _). apply estimate_voc_den, HP. }
    rewrite E. destruct HD as (_ & _ & _ & _ & _ & _ & HR & _).
    destruct HR as [(d & _ & _ & EN & _)|(_ & _ & [(b' & -> & EN)|(_ & EN)])]; try congruence.
    rewrite EB in EN. injection EN as <-. rewrite fltb_fin, Rltb_f by exact HV. reflexivity.
  - rewrite terminal_no_breakdown by exact HB. unfold recombination. rewrite EB.
    destruct HP as (_ & H0 & _ & HG & Ha & _ & Hb). rewrite EB in Hb.
    assert (1 <= exp (0.9999 * b / da p)).
    { assert (0 <= 0.9999 * b / da p) by (apply Rdiv_le_0_compat; lra).
      pose proof (exp_ineq1_le (0.9999 * b / da p)). lra. }
    assert (0 <= dI0 p * (exp (0.9999 * b / da p) - 1)) by (apply Rmult_le_pos; lra).
    assert (0 <= 0.9999 * b * dG p) by (apply Rmult_le_pos; lra).
    assert (dIL p <= dIL p * dD p / (b - 0.9999 * b)); [|lra].
    replace (dIL p * dD p / (b - 0.9999 * b)) with (dIL p * (10000 * dD p / b)).
    2:{ replace (b - 0.9999 * b) with (b / 10000) by lra. field. lra. }
    assert (1 <= 10000 * dD p / b).
    { apply Rmult_le_reg_r with b; [exact Hb|]. replace (10000 * dD p / b * b) with (10000 * dD p) by (field; lra). lra. }
    rewrite <- (Rmult_1_r (dIL p)) at 1. apply Rmult_le_compat_l; lra.
Qed.
Print Assumptions C80_brentq_bracket_below_builtin.
(** finding: 'chandrupatla' searches [0, voc_est] without looking at NsVbi; past NsVbi the recombination current changes sign
    and the bracket has no sign change even for the open-circuit voltage *)
Theorem C80_chandrupatla_bracket_refuted : forall p b, physical p -> dB p = 0 -> dG p = 0 ->
  dVbi p = Some b -> b < ideal_voc p -> 0 < dIL p -> 0 < dD p < b ->
  0 < terminal_current p 0 /\ 0 < terminal_current p (ideal_voc p).
Proof.
  intros p b HP HB HG EB HV HL HD. rewrite current_at_0 by exact HB. rewrite terminal_no_breakdown by exact HB.
  unfold recombination. rewrite EB. destruct HP as (_ & H0 & _ & _ & Ha & _ & Hb). rewrite EB in Hb. split.
  - replace (b - 0) with b by ring. assert (dIL p * dD p / b < dIL p); [|lra].
    apply Rmult_lt_reg_r with b; [exact Hb|]. replace (dIL p * dD p / b * b) with (dIL p * dD p) by (field; lra).
    apply Rmult_lt_compat_l; lra.
  - replace (ideal_voc p / da p) with (ln (dIL p / dI0 p + 1)) by (unfold ideal_voc; field; lra).
    assert (0 < dIL p / dI0 p) by (apply Rdiv_lt_0_compat; assumption).
    rewrite exp_ln by lra. replace (dI0 p * (dIL p / dI0 p + 1 - 1)) with (dIL p) by (field; lra).
    rewrite HG. assert (0 < dIL p * dD p / (ideal_voc p - b)).
    { apply Rdiv_lt_0_compat; [apply Rmult_lt_0_compat; lra|lra]. }
    replace (dIL p * dD p / (b - ideal_voc p)) with (- (dIL p * dD p / (ideal_voc p - b))) by (field; lra). lra.
Qed.
Print Assumptions C80_chandrupatla_bracket_refuted.
(** a crystalline module: 8 A, 72 cells; brentq and chandrupatla as an exact solver *)
Example C80_example : exists g p, denotes g p /\ physical p /\ dB p = 0 /\ dVbr p < 0 /\
  fltb #(ideal_voc p) (b_NsVbi g) = true /\ 0 <= 5 <= terminal_current p 0.
Proof.
  exists (plain_args #8 #(1/1000000) #(1/3) #200 #2), (simple_diode 8 (1/1000000) (1/3) (1/200) 2).
  split; [|split; [|split; [|split; [|split]]]].
  - unfold denotes. simpl. repeat split; try lra.
    + left. exists 200. repeat split; lra.
    + left. exists 0. repeat split; lra.
  - apply simple_physical; lra.
  - reflexivity.
  - simpl. lra.
  - reflexivity.
  - rewrite simple_terminal. unfold Rdiv at 2. rewrite Rmult_0_l, exp_0. lra.
Qed.

(** ** C81: the Lambert W routine *)
Theorem C81_lambertw_accuracy : forall x, 0 <= x ->
  exists w w', is_W x w /\ (forall u, is_W x u -> u = w) /\ lambertw_pvlib #x = #w' /\
    0 <= w - w' <= 1.3e-10 /\ w - w' <= 2.2e-10 * w.
Proof.
  intros x Hx. destruct (lambertw_acc x Hx) as (w & w' & Hw & E & A). exists w, w'. split; [exact Hw|].
  split; [intros u Hu; exact (W_unique x u w Hu Hw)|]. split; [exact E|exact A].
Qed.
Print Assumptions C81_lambertw_accuracy.
Theorem C81_log_lambertw_accuracy : forall x w, 100 < x -> is_W x w ->
  exists w', log_lambertw #(ln x) = #w' /\ 0 <= w - w' <= 2e-12.
Proof.
  intros x w Hx Hw. destruct (W_log x w ltac:(lra) Hw) as [Pw Ew].
  exact (log_lambertw_acc (ln x) w (ln_gt_100 x Hx) Pw Ew).
Qed.
Print Assumptions C81_log_lambertw_accuracy.
Theorem C81_zero_and_special_values :
  lambertw_pvlib #0 = #0 /\ lambertw_pvlib NaN = NaN /\ lambertw_pvlib PInf = NaN /\
  (forall x, x < -1 -> lambertw_pvlib #x = NaN).
Proof.
  split; [|split; [reflexivity|split; [reflexivity|]]].
  - assert (HW : is_W 0 0) by (split; lra).
    destruct (lambertw_small_acc 0 0 ltac:(lra) HW) as (w' & E & A & B & C). rewrite E. f_equal. lra.
  - intros x Hx. unfold lambertw_pvlib. rewrite fleb_fin. rdec. unfold flog1p. rewrite fadd_fin.
    unfold fln at 1, Rpos. rdec. reflexivity.
Qed.
Print Assumptions C81_zero_and_special_values.
Example C81_example : exists w', lambertw_pvlib #(exp 1) = #w' /\ 0 <= 1 - w' <= 1.3e-10.
Proof.
  assert (HW : is_W (exp 1) 1) by (split; [lra|ring]).
  destruct (C81_lambertw_accuracy (exp 1) (Rlt_le _ _ (exp_pos 1))) as (w & w' & H1 & H2 & E & A & _).
  exists w'. split; [exact E|]. rewrite (H2 1 HW). exact A.
Qed.

(** ** C82: i_from_v and v_from_i with method='lambertw' *)
Theorem C82_v_from_i : forall big sp m I IL I0 Rs rsh G a,
  lower m = "lambertw"%string -> 100 <= big -> 0 <= IL -> 0 < I0 -> 0 <= Rs -> 0 < a -> shunt_of rsh G -> (G = 0 -> I < IL + I0) ->
  exists v v', on_curve (simple_diode IL I0 Rs G a) v I /\
    (forall u, on_curve (simple_diode IL I0 Rs G a) u I -> u = v) /\
    v_from_i big sp #I #IL #I0 #Rs rsh #a m = Ok #v' /\ 0 <= v' - v <= 1.3e-10 * a.
Proof.
  intros big sp m I IL I0 Rs rsh G a Hm Hb HL H0 Hs Ha HS HG.
  destruct (v_from_i_acc big I IL I0 Rs rsh G a Hb H0 Ha HS HG) as (v & v' & C & E & A).
  exists v, v'. split; [exact C|]. split.
  - intros u Hu. apply (simple_unique_v IL I0 Rs G a u v I); auto. apply (shunt_gsh rsh G HS).
  - split; [|exact A]. unfold v_from_i. rewrite Hm, E. reflexivity.
Qed.
Print Assumptions C82_v_from_i.
Theorem C82_v_from_i_beyond_saturation_is_nan : forall big sp m I IL I0 Rs a,
  lower m = "lambertw"%string -> 0 < I0 -> IL + I0 < I -> v_from_i big sp #I #IL #I0 #Rs PInf #a m = Ok NaN.
Proof. intros. unfold v_from_i. rewrite H, v_from_i_none by assumption. reflexivity. Qed.
Print Assumptions C82_v_from_i_beyond_saturation_is_nan.
Theorem C82_negative_shunt_is_nan : forall big I IL I0 Rs r a, r < 0 -> lambertw_v_from_i big I IL I0 Rs #r a = NaN.
Proof.
  intros. unfold lambertw_v_from_i. cbv zeta. rewrite fdiv_fin by lra. rewrite feqb_fin, fltb_fin.
  assert (1 / r < 0). { assert (0 < 1 / - r) by (apply Rdiv_lt_0_compat; lra). replace (1 / r) with (- (1 / - r)) by (field; lra). lra. }
  rdec. reflexivity.
Qed.
Print Assumptions C82_negative_shunt_is_nan.
Theorem C82_i_from_v : forall big sp m V IL I0 Rs rsh G a,
  lower m = "lambertw"%string -> 0 <= IL -> 0 < I0 -> 0 <= Rs -> 0 < a -> shunt_of rsh G ->
  (0 < Rs -> Rs * I0 / (a * (Rs * G + 1)) * exp ((Rs * (IL + I0) + V) / (a * (Rs * G + 1))) <= big) ->
  exists i i', on_curve (simple_diode IL I0 Rs G a) V i /\
    (forall j, on_curve (simple_diode IL I0 Rs G a) V j -> j = i) /\
    i_from_v big sp #V #IL #I0 #Rs rsh #a m = Ok #i' /\
    (Rs = 0 -> i' = i) /\ (0 < Rs -> 0 <= i' - i <= 1.3e-10 * (a / Rs)).
Proof.
  intros big sp m V IL I0 Rs rsh G a Hm HL H0 Hs Ha HS HO.
  destruct (i_from_v_acc big V IL I0 Rs rsh G a H0 Ha Hs HS HO) as (i & i' & C & E & A1 & A2).
  exists i, i'. split; [exact C|]. split.
  - intros j Hj. apply (simple_unique_i IL I0 Rs G a V j i); auto. apply (shunt_gsh rsh G HS).
  - split; [|split; assumption]. unfold i_from_v. rewrite Hm, E. reflexivity.
Qed.
Print Assumptions C82_i_from_v.
(** finding (issue 298 in the source): when the argument of W overflows, i_from_v gives nan while v_from_i switches to logs *)
Theorem C82_i_from_v_overflow_is_nan : forall big sp m V IL I0 Rs rsh G a,
  lower m = "lambertw"%string -> 0 < I0 -> 0 < a -> 0 < Rs -> shunt_of rsh G ->
  big < Rs * I0 / (a * (Rs * G + 1)) * exp ((Rs * (IL + I0) + V) / (a * (Rs * G + 1))) ->
  i_from_v big sp #V #IL #I0 #Rs rsh #a m = Ok NaN.
Proof.
  intros big sp m V IL I0 Rs rsh G a Hm H0 Ha Hs HS HO. unfold i_from_v. rewrite Hm, (i_from_v_overflow big V IL I0 Rs rsh G a); auto.
Qed.
Print Assumptions C82_i_from_v_overflow_is_nan.
Example C82_example : exists v', v_from_i 1e300 (Scipy (fun _ _ _ _ => Err ValueError) (fun _ _ _ _ => Err ValueError) None None)
   #0 #0 #1 #1 #1 #1 "LambertW" = Ok #v' /\ 0 <= v' <= 1.3e-10.
Proof.
  destruct (C82_v_from_i 1e300 (Scipy (fun _ _ _ _ => Err ValueError) (fun _ _ _ _ => Err ValueError) None None)
     "LambertW" 0 0 1 1 #1 1 1) as (v & v' & C & U & E & A); try lra; auto.
  - left. exists 1. repeat split; lra.
  - exists v'. split; [exact E|]. assert (v = 0); [|lra]. symmetry. apply U. unfold on_curve. rewrite simple_terminal. simpl.
    replace (0 + 0 * 1) with 0 by ring. unfold Rdiv. rewrite Rmult_0_l, exp_0. ring.
Qed.

(** ** C83: singlediode *)
(** with an iterative method the seven points are the results of the other public functions with the same method *)
Theorem C83_iterative_points : forall big sp fuel IL I0 Rs Rsh a m d, lower m <> "lambertw"%string ->
  singlediode big sp fuel IL I0 Rs Rsh a m = Ok (Some d) ->
  exists isc voc imp vmp pmp ix ixx,
    d = [("i_sc", isc); ("v_oc", voc); ("i_mp", imp); ("v_mp", vmp); ("p_mp", pmp); ("i_x", ix); ("i_xx", ixx)]%string /\
    i_from_v big sp #0 IL I0 Rs Rsh a m = Ok isc /\
    v_from_i big sp #0 IL I0 Rs Rsh a m = Ok voc /\
    max_power_point sp IL I0 Rs Rsh a #0 PInf m = Ok [("i_mp", imp); ("v_mp", vmp); ("p_mp", pmp)]%string /\
    i_from_v big sp (voc / #2)%fl IL I0 Rs Rsh a m = Ok ix /\
    i_from_v big sp ((voc + vmp) / #2)%fl IL I0 Rs Rsh a m = Ok ixx.
Proof.
  intros big sp fuel IL I0 Rs Rsh a m d Hm E. unfold singlediode, i_from_v, v_from_i, max_power_point in *.
  destruct (String.eqb_spec (lower m) "lambertw") as [K|_]; [contradiction|].
  change (BA IL I0 Rs Rsh a #0 PInf #0 #(-5.5) #3.28) with (plain_args IL I0 Rs Rsh a).
  set (g := plain_args IL I0 Rs Rsh a) in *.
  destruct (bishop88_v_from_i sp #0 g (lower m) []) as [voc|] eqn:E1; [|discriminate E]. unfold bind at 1 in E.
  destruct (bishop88_mpp sp g (lower m) []) as [[[imp vmp] pmp]|] eqn:E2; [|discriminate E]. unfold bind at 1 in E.
  destruct (bishop88_i_from_v sp #0 g (lower m) []) as [isc|] eqn:E3; [|discriminate E]. unfold bind at 1 in E.
  destruct (bishop88_i_from_v sp (voc / #2)%fl g (lower m) []) as [ix|] eqn:E4; [|discriminate E]. unfold bind at 1 in E.
  destruct (bishop88_i_from_v sp ((voc + vmp) / #2)%fl g (lower m) []) as [ixx|] eqn:E5; [|discriminate E]. unfold bind in E.
  injection E as <-. exists isc, voc, imp, vmp, pmp, ix, ixx. unfold sd_dict. cbn [p_i_sc p_v_oc p_i_mp p_v_mp p_p_mp p_i_x p_i_xx].
  unfold bind. auto 10.
Qed.
Print Assumptions C83_iterative_points.
Theorem C83_iterative_errors : forall big sp fuel IL I0 Rs Rsh a m,
  ~ In (lower m) ["lambertw"; "brentq"; "newton"; "chandrupatla"]%string ->
  singlediode big sp fuel IL I0 Rs Rsh a m = Err NotImplementedError /\
  max_power_point sp IL I0 Rs Rsh a #0 PInf m = Err NotImplementedError.
Proof.
  intros big sp fuel IL I0 Rs Rsh a m H.
  assert (L : lower (lower m) = lower m) by apply lower_idem.
  assert (H' : ~ In (lower (lower m)) ["brentq"; "newton"; "chandrupatla"]%string).
  { rewrite L. intros K. apply H. right. exact K. }
  unfold singlediode, max_power_point. destruct (String.eqb_spec (lower m) "lambertw") as [K|_]; [exfalso; apply H; left; congruence|].
  destruct (C80_unknown_method sp (lower m) (plain_args IL I0 Rs Rsh a) #0 [] H') as (E1 & _ & E3). rewrite E1. split; [reflexivity|].
  change (BA IL I0 Rs Rsh a #0 PInf #0 #(-5.5) #3.28) with (plain_args IL I0 Rs Rsh a). rewrite E3. reflexivity.
Qed.
Print Assumptions C83_iterative_errors.
(** with 'lambertw': the short-circuit, open-circuit and half-way points come from i_from_v and v_from_i; an open-circuit voltage
    between -1e-12 and 0 is replaced by 0 *)
Theorem C83_lambertw_points : forall big sp fuel IL I0 Rs Rsh a m d, lower m = "lambertw"%string ->
  singlediode big sp fuel IL I0 Rs Rsh a m = Ok (Some d) ->
  exists isc voc0 voc imp vmp pmp ix ixx,
    d = [("i_sc", isc); ("v_oc", voc); ("i_mp", imp); ("v_mp", vmp); ("p_mp", pmp); ("i_x", ix); ("i_xx", ixx)]%string /\
    i_from_v big sp #0 IL I0 Rs Rsh a m = Ok isc /\
    v_from_i big sp #0 IL I0 Rs Rsh a m = Ok voc0 /\
    voc = (if fltb #(-1e-12) voc0 && fltb voc0 #0 then #0 else voc0) /\
    i_from_v big sp vmp IL I0 Rs Rsh a m = Ok imp /\
    i_from_v big sp (#0.5 * voc)%fl IL I0 Rs Rsh a m = Ok ix /\
    i_from_v big sp (#0.5 * (voc + vmp))%fl IL I0 Rs Rsh a m = Ok ixx /\
    match find_minimum sp with
    | Some fm => forall f, (forall v, i_from_v big sp v IL I0 Rs Rsh a m = Ok (f v)) ->
        exists fx, fm (fun v => (- v) * f v)%fl #(-1) (#0.8 * voc)%fl voc = (vmp, fx) /\ pmp = (#(-1) * fx)%fl
    | None => pmp = (imp * vmp)%fl \/ pmp = NaN
    end.
Proof.
  intros big sp fuel IL I0 Rs Rsh a m d Hm E. unfold singlediode, i_from_v, v_from_i in *. rewrite Hm in *.
  cbv [String.eqb Ascii.eqb Bool.eqb] in E. cbv iota in E. simpl String.eqb. cbv iota.
  unfold lambertw_points in E. cbv zeta in E.
  set (i_of := fun v => lambertw_i_from_v big v IL I0 Rs Rsh a) in *.
  set (voc0 := lambertw_v_from_i big #0 IL I0 Rs Rsh a) in *.
  replace (fltb voc0 #0 && fgtb voc0 #(-1e-12)) with (fltb #(-1e-12) voc0 && fltb voc0 #0) in E
    by (unfold fgtb; apply andb_comm).
  set (voc := if fltb #(-1e-12) voc0 && fltb voc0 #0 then #0 else voc0) in *.
  destruct (find_minimum sp) as [fm|].
  - destruct (fm _ _ _ _) as [vmp fx] eqn:EF in E. unfold bind, option_map in E. injection E as <-.
    exists (i_of #0), voc0, voc, (i_of vmp), vmp, (#(-1) * fx)%fl, (i_of (#0.5 * voc)%fl), (i_of (#0.5 * (voc + vmp))%fl).
    repeat (split; [reflexivity|]). intros f Hf. exists fx. split; [|reflexivity].
    rewrite <- EF. f_equal. apply FunctionalExtensionality.functional_extensionality. intros v.
    specialize (Hf v). injection Hf as <-. reflexivity.
  - unfold golden_sect in E. destruct (existsb _ _) in E; [discriminate E|]. unfold bind at 2 in E.
    destruct (gs_loop fuel #1e-8 _) as [rows|] eqn:EG in E; [|discriminate E].
    unfold option_map at 2 in E. destruct rows as [|r [|r2 rows]]; try discriminate E. unfold map in E. unfold bind, option_map in E.
    assert (OBJ : gs_obj r = (fun v => lambertw_i_from_v big v IL I0 Rs Rsh a * v)%fl).
    { assert (G : forall n R rows', gs_loop n #1e-8 (R :: nil) = Some rows' -> exists R', rows' = (R' :: nil) /\ gs_obj R' = gs_obj R).
      { induction n as [|n IH]; intros R rows' H; [discriminate H|]. cbn [gs_loop] in H.
        destruct (gs_converged _ _); [injection H as <-; exists R; auto|].
        destruct (IH (gs_next R) rows' H) as (R' & -> & E2). exists R'. split; [reflexivity|]. exact E2. }
      destruct (G _ _ _ EG) as (R' & E1 & E2). injection E1 as <-. exact E2. }
    unfold gs_out in E. cbv zeta in E. set (mm := (#0.5 * (gs_V1 r + gs_V2 r))%fl) in *. rewrite OBJ in E.
    cbv beta in E. change (lambertw_i_from_v big mm IL I0 Rs Rsh a) with (i_of mm) in E.
    assert (E' := f_equal (fun r => match r with Ok (Some y) => y | _ => d end) E). cbv beta iota in E'. rewrite <- E'.
    set (vmp := if isnan (i_of mm * mm)%fl then NaN else mm) in *.
    exists (i_of #0), voc0, voc, (i_of vmp), vmp, (i_of mm * mm)%fl, (i_of (#0.5 * voc)%fl), (i_of (#0.5 * (voc + vmp))%fl).
    repeat (split; [reflexivity|]). unfold vmp. destruct (i_of mm * mm)%fl eqn:EM; simpl isnan; cbv iota; auto.
Qed.
Print Assumptions C83_lambertw_points.
Theorem C83_method_case_does_not_matter : forall big sp fuel IL I0 Rs Rsh a V m m', lower m = lower m' ->
  singlediode big sp fuel IL I0 Rs Rsh a m = singlediode big sp fuel IL I0 Rs Rsh a m' /\
  i_from_v big sp V IL I0 Rs Rsh a m = i_from_v big sp V IL I0 Rs Rsh a m' /\
  v_from_i big sp V IL I0 Rs Rsh a m = v_from_i big sp V IL I0 Rs Rsh a m' /\
  max_power_point sp IL I0 Rs Rsh a #0 PInf m = max_power_point sp IL I0 Rs Rsh a #0 PInf m'.
Proof. intros. unfold singlediode, i_from_v, v_from_i, max_power_point. rewrite H. auto. Qed.
Print Assumptions C83_method_case_does_not_matter.

(** ** C84: batzelis *)
Theorem C84_dark_is_zero : forall Iph Is Rs Rsh a k, Iph <= 0 -> In k ["p_mp"; "i_mp"; "v_mp"; "i_sc"; "v_oc"]%string ->
  lookup k (batzelis #Iph Is Rs Rsh a) = Some #0.
Proof.
  intros Iph Is Rs Rsh a k H HK. rewrite batzelis_dark by exact H. simpl in HK.
  repeat (destruct HK as [<-|HK]; [reflexivity|]). contradiction.
Qed.
Print Assumptions C84_dark_is_zero.
(** no series resistance, no shunt: within the accuracy of W, the maximum of V (Iph - Is e^(V/a)) and its intercepts *)
Theorem C84_ideal_device : forall Iph Is a, 0 < Is -> Is <= Iph -> 0 < a ->
  exists vmp vm im, lookup "v_mp" (batzelis #Iph #Is #0 PInf #a) = Some #vmp /\
    0 <= vm - vmp <= 1.3e-10 * a /\ im = Iph - Is * exp (vm / a) /\
    (forall V, V * (Iph - Is * exp (V / a)) <= vm * im) /\
    exists imp, lookup "i_mp" (batzelis #Iph #Is #0 PInf #a) = Some #imp /\ 0 <= im - imp <= 1.4e-10 * Iph /\
    lookup "p_mp" (batzelis #Iph #Is #0 PInf #a) = Some #(imp * vmp) /\
    lookup "i_sc" (batzelis #Iph #Is #0 PInf #a) = Some #Iph /\
    exists voc, lookup "v_oc" (batzelis #Iph #Is #0 PInf #a) = Some #voc /\ Iph - Is * exp (voc / a) = 0.
Proof.
  intros Iph Is a Hs H Ha.
  destruct (batzelis_lit Iph Is 0 PInf 0 a ltac:(lra) Hs ltac:(lra) ltac:(right; auto)) as (w & w' & Hw & Pw & A & E).
  cbv zeta in E. rewrite E. clear E.
  assert (Hr : 1 <= Iph / Is).
  { apply Rmult_le_reg_r with Is; [exact Hs|]. replace (Iph / Is * Is) with Iph by (field; lra). lra. }
  assert (W1 : 1 <= w).
  { apply Rnot_lt_le. intros K. pose proof (exp_pos 1). destruct Hw as [Hw0 E]. pose proof (W_mono w 1 Hw0 K) as M.
    assert (exp 1 * 1 <= exp 1 * (Iph / Is)) by (apply Rmult_le_compat_l; lra). lra. }
  exists (a * (w' - 1)), (a * (w - 1)), (Iph * (1 - 1 / w)).
  split; [cbn [lookup String.eqb]; simpl; f_equal; f_equal; ring|].
  split; [replace (a * (w - 1) - a * (w' - 1)) with (a * (w - w')) by ring;
    split; [apply Rmult_le_pos; lra|rewrite (Rmult_comm _ a); apply Rmult_le_compat_l; lra]|].
  split; [|split; [intros V; apply batzelis_max; assumption|]].
  - replace (a * (w - 1) / a) with (w - 1) by (field; lra).
    assert (N : exp 1 * exp (- (1)) = 1) by (rewrite <- exp_plus, Rplus_opp_r; apply exp_0).
    unfold Rminus at 3. rewrite exp_plus. destruct Hw as [_ E].
    assert (Is * (exp w * exp (- (1))) = Iph / w); [|rewrite H0; field; lra].
    apply Rmult_eq_reg_l with w; [|lra].
    replace (w * (Is * (exp w * exp (- (1))))) with (Is * (w * exp w) * exp (- (1))) by ring. rewrite E.
    replace (Is * (exp 1 * (Iph / Is)) * exp (- (1))) with (Iph * (exp 1 * exp (- (1)))) by (field; lra). rewrite N. field. lra.
  - exists (Iph * (1 - 1 / w')). split; [simpl; f_equal; f_equal; ring|]. split.
    + replace (Iph * (1 - 1 / w) - Iph * (1 - 1 / w')) with (Iph * ((w - w') / (w * w'))) by (field; lra).
      assert (P : 0.99 <= w * w') by (apply Rle_trans with (1 * 0.99); [lra|apply Rmult_le_compat; lra]).
      assert (0 <= (w - w') / (w * w') <= 1.4e-10).
      { split; [apply Rdiv_le_0_compat; lra|]. apply Rmult_le_reg_r with (w * w'); [lra|].
        replace ((w - w') / (w * w') * (w * w')) with (w - w') by (field; lra).
        assert (1.4e-10 * 0.99 <= 1.4e-10 * (w * w')) by (apply Rmult_le_compat_l; lra). lra. }
      split; [apply Rmult_le_pos; lra|rewrite (Rmult_comm _ Iph); apply Rmult_le_compat_l; lra].
    + split; [simpl; f_equal; f_equal; ring|]. split; [simpl; f_equal; f_equal; field|].
      exists (a * ln (Iph / Is)). split; [reflexivity|].
      replace (a * ln (Iph / Is) / a) with (ln (Iph / Is)) by (field; lra). rewrite exp_ln by lra. field. lra.
Qed.
Print Assumptions C84_ideal_device.
(** with resistances: the published closed forms, w within 1.3e-10 of W(e Iph/Is) *)
Theorem C84_closed_form : forall Iph Is Rs rsh G a, 0 < Iph -> 0 < Is -> 0 <= Rs -> shunt_of rsh G ->
  exists w' w imp vmp, is_W (exp 1 * (Iph / Is)) w /\ 0 <= w - w' <= 1.3e-10 /\
    imp = Iph * (1 - 1 / w') - a * (w' - 1) * G /\ vmp + Rs * imp = a * (w' - 1) /\
    lookup "i_mp" (batzelis #Iph #Is #Rs rsh #a) = Some #imp /\
    lookup "v_mp" (batzelis #Iph #Is #Rs rsh #a) = Some #vmp /\
    lookup "p_mp" (batzelis #Iph #Is #Rs rsh #a) = Some #(imp * vmp) /\
    lookup "i_sc" (batzelis #Iph #Is #Rs rsh #a) = Some #(Iph / (Rs * G + 1)) /\
    lookup "v_oc" (batzelis #Iph #Is #Rs rsh #a) = Some #(a * ln (Iph / Is)).
Proof.
  intros Iph Is Rs rsh G a HL Hs HR HS.
  destruct (batzelis_lit Iph Is Rs rsh G a HL Hs HR HS) as (w & w' & Hw & Pw & A & E). cbv zeta in E. rewrite E.
  eexists w', w, _, _. split; [exact Hw|]. split; [exact A|]. split; [reflexivity|]. split; [|repeat split; reflexivity]. ring.
Qed.
Print Assumptions C84_closed_form.
