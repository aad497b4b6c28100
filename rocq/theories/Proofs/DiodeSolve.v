(** Gradients and the solver front ends of the bishop88 functions. *)
From Verif Require Import Base.Fl Base.FlFacts Base.Py Model.SingleDiode Spec.DiodeSpec Proofs.Diode Proofs.DiodeLW.
From Coq Require Import Psatz.
From Coquelicot Require Import Coquelicot.
Open Scope R_scope.

Lemma valid_locally p x : dVbr p <> 0 -> valid_vd p x -> locally x (valid_vd p).
Proof.
  intros HV [Hb Hk]. apply filter_and.
  - unfold below_builtin in *. destruct (dVbi p) as [b|]; [|apply filter_forall; auto].
    apply (open_lt b). exact Hb.
  - unfold above_breakdown in *.
    assert (C : continuous (fun y => 1 - y / dVbr p) x).
    { apply (ex_derive_continuous (V := R_NormedModule)). auto_derive. lra. }
    apply (C (fun y => 0 < y)). apply (open_gt 0). exact Hk.
Qed.

Definition volt (p : diode) (x : R) : R := x - terminal_current p x * dRs p.
Definition gpR (p : diode) (x : R) : R :=
  volt p x * (dterm p x / (1 - dterm p x * dRs p)) + terminal_current p x.
Definition g2pR (p : diode) (x : R) : R :=
  let gi := dterm p x in let gv := 1 - gi * dRs p in let gg := d2term p x in
  gv * (gi / gv) + volt p x * (gg / gv - gi * (- gg * dRs p) / gv ^ 2) + gi.
Ltac der D := let H := fresh in pose proof (is_derive_unique _ _ _ D) as H;
  match type of H with Derive ?f ?x = ?l => change (Derive (fun y => f y) x = l) in H end;
  cbv beta in H; first [rewrite H | match type of H with ?d = _ => match goal with |- context [Derive ?g ?z] =>
    change (Derive g z) with d; rewrite H end end]; clear H.
Lemma volt_deriv p x : dB p = 0 -> da p <> 0 -> below_builtin p x ->
  is_derive (volt p) x (1 - dterm p x * dRs p).
Proof.
  intros HB Ha Hb. pose proof (dterm_deriv p x HB Ha Hb) as D. unfold volt.
  auto_derive; [exists (dterm p x); exact D|]. der D. ring.
Qed.
Lemma gp_deriv p x : dB p = 0 -> da p <> 0 -> below_builtin p x -> 1 - dterm p x * dRs p <> 0 ->
  is_derive (gpR p) x (g2pR p x).
Proof.
  intros HB Ha Hb Hgv. pose proof (dterm_deriv p x HB Ha Hb) as D1. pose proof (d2term_deriv p x Ha Hb) as D2.
  pose proof (volt_deriv p x HB Ha Hb) as DV. unfold gpR, g2pR.
  auto_derive.
  - repeat split; try (eexists; eassumption). lra.
  - der DV. der D2. der D1. field. lra.
Qed.

(** ** the breakdown gradient *)
Definition dterm_bd (p : diode) (x : R) : R :=
  dterm p x - dB p * dG p * (Rpower (1 - x / dVbr p) (- dm p)
                             + x * (- dm p) * Rpower (1 - x / dVbr p) (- dm p - 1) * (- 1 / dVbr p)).
Lemma dterm_bd_deriv p x : da p <> 0 -> dVbr p <> 0 -> valid_vd p x ->
  is_derive (terminal_current p) x (dterm_bd p x).
Proof.
  intros Ha HV [Hb Hk]. set (q := Diode (dIL p) (dI0 p) (dRs p) (dG p) (da p) (dD p) (dVbi p) 0 (dVbr p) (dm p)).
  pose proof (dterm_deriv q x eq_refl Ha Hb) as D.
  assert (E : forall y, terminal_current q y - dB p * (y * dG p) * exp (- dm p * ln (1 - y / dVbr p)) = terminal_current p y).
  { intros y. unfold terminal_current, avalanche, Rpower. simpl. unfold recombination. simpl. ring. }
  apply (is_derive_ext _ _ _ _ E). unfold above_breakdown in Hk.
  auto_derive.
  - repeat split; try (exists (dterm q x); exact D); lra.
  - der D. unfold dterm_bd, Rpower.
    replace (dterm q x) with (dterm p x) by reflexivity.
    replace ((- dm p - 1) * ln (1 - x / dVbr p)) with (- dm p * ln (1 - x / dVbr p) + - ln (1 - x / dVbr p)) by ring.
    rewrite exp_plus, (exp_Ropp (ln (1 - x / dVbr p))), exp_ln by exact Hk.
    change (x * / dVbr p) with (x / dVbr p). unfold Rminus in *. 
    set (T := 1 + - (x / dVbr p)) in *. set (E0 := exp _). field. split; lra.
Qed.

(** ** continuity *)
Lemma current_continuous p x : dB p = 0 -> da p <> 0 -> below_builtin p x -> continuity_pt (terminal_current p) x.
Proof.
  intros HB Ha Hb. apply continuity_pt_filterlim. apply (ex_derive_continuous (V := R_NormedModule)).
  eexists. apply dterm_deriv; assumption.
Qed.
Lemma volt_continuous p x : dB p = 0 -> da p <> 0 -> below_builtin p x -> continuity_pt (volt p) x.
Proof.
  intros HB Ha Hb. apply continuity_pt_filterlim. apply (ex_derive_continuous (V := R_NormedModule)).
  eexists. apply volt_deriv; assumption.
Qed.
Lemma gp_continuous p x : dB p = 0 -> physical p -> below_builtin p x -> continuity_pt (gpR p) x.
Proof.
  intros HB H Hb. apply continuity_pt_filterlim. apply (ex_derive_continuous (V := R_NormedModule)).
  pose proof (grad_v_pos p x H Hb). eexists. apply gp_deriv; try assumption; [|lra].
  destruct H as (_ & _ & _ & _ & Ha & _). lra.
Qed.
Lemma below_le p x y : below_builtin p y -> x <= y -> below_builtin p x.
Proof. unfold below_builtin. destruct (dVbi p); [lra|auto]. Qed.
Lemma forward_valid p x : dVbr p < 0 -> 0 <= x -> below_builtin p x -> valid_vd p x.
Proof.
  intros HV Hx Hb. split; [exact Hb|]. unfold above_breakdown.
  assert (0 <= x / - dVbr p) by (apply Rdiv_le_0_compat; lra).
  replace (x / dVbr p) with (- (x / - dVbr p)) by (field; lra). lra.
Qed.
(** the starting bracket *)
Lemma voc_start_den g p : denotes g p -> physical p -> fltb #(voc_estR p) (b_NsVbi g) = true ->
  voc_start g = #(voc_estR p) /\ (0 < dD p -> below_builtin p (voc_estR p)) /\ below_builtin p (voc_estR p).
Proof.
  intros H Hp Hv. unfold voc_start. cbv zeta.
  assert (E : estimate_voc (b_iph g) (b_isat g) (b_a g) = #(voc_estR p)).
  { destruct H as (-> & -> & _ & -> & _). apply estimate_voc_den, Hp. }
  rewrite E, Hv. unfold where_. split; [reflexivity|].
  assert (B : below_builtin p (voc_estR p)).
  { destruct H as (_ & _ & _ & _ & _ & _ & HD & _). unfold below_builtin.
    destruct HD as [(d & _ & _ & -> & _)|(_ & _ & [(b & EN & ->)|(_ & ->)])]; [exact Logic.I| |exact Logic.I].
    rewrite EN, fltb_fin in Hv. apply Rltb_true in Hv. exact Hv. }
  split; [intros _; exact B|exact B].
Qed.
Lemma gp_at_0 p : physical p -> dB p = 0 -> below_builtin p 0 -> 0 <= terminal_current p 0 -> 0 <= gpR p 0.
Proof.
  intros H HB Hb H0. unfold gpR, volt. pose proof (dterm_neg p 0 H Hb). pose proof (grad_v_pos p 0 H Hb).
  destruct H as (_ & _ & Hs & _). set (d := dterm p 0) in *. set (i := terminal_current p 0) in *.
  assert (0 <= (- d) / (1 - d * dRs p)) by (apply Rdiv_le_0_compat; lra).
  replace (d / (1 - d * dRs p)) with (- ((- d) / (1 - d * dRs p))) by (field; lra).
  assert (0 <= i * dRs p) by (apply Rmult_le_pos; assumption).
  assert (0 <= i * dRs p * ((- d) / (1 - d * dRs p))) by (apply Rmult_le_pos; assumption). lra.
Qed.
Lemma gp_at_voc p x : physical p -> dB p = 0 -> below_builtin p x -> 0 <= x -> terminal_current p x <= 0 -> gpR p x <= 0.
Proof.
  intros H HB Hb Hx H0. unfold gpR, volt. pose proof (dterm_neg p x H Hb). pose proof (grad_v_pos p x H Hb).
  destruct H as (_ & _ & Hs & _). set (d := dterm p x) in *. set (i := terminal_current p x) in *.
  assert (0 <= (- d) / (1 - d * dRs p)) by (apply Rdiv_le_0_compat; lra).
  replace (d / (1 - d * dRs p)) with (- ((- d) / (1 - d * dRs p))) by (field; lra).
  assert (0 <= (- i) * dRs p) by (apply Rmult_le_pos; lra).
  assert (0 <= (x + (- i) * dRs p) * ((- d) / (1 - d * dRs p))) by (apply Rmult_le_pos; lra). lra.
Qed.

(** the three solvers with a bracketing method *)
Lemma solve_bracket sp m solver g kw f f' x0 X : bracket_method sp m solver ->
  voc_start g = X -> estimate_voc (b_iph g) (b_isat g) (b_a g) = X ->
  solve_vd sp g m kw f f' x0 = solver f #0 X kw.
Proof.
  intros HM EX EX2. unfold solve_vd. destruct HM as [[-> ->]|[-> E]]; simpl; [rewrite EX|rewrite E, EX2]; reflexivity.
Qed.
Section S.
  Context (tol : R) (sp : scipy) (m : string) (solver : (fl -> fl) -> fl -> fl -> kwargs -> res fl)
    (HM : bracket_method sp m solver) (HS : bracketing tol solver) (g : bargs) (p : diode)
    (HD : denotes g p) (HP : physical p) (HB : dB p = 0) (HV : dVbr p < 0)
    (HX : fltb #(voc_estR p) (b_NsVbi g) = true).
  Let X := voc_estR p.
  Let bX : below_builtin p X. Proof. apply (voc_start_den g p HD HP HX). Qed.
  Let eX : voc_start g = #X. Proof. apply (voc_start_den g p HD HP HX). Qed.
  Let eX2 : estimate_voc (b_iph g) (b_isat g) (b_a g) = #X.
  Proof. destruct HD as (-> & -> & _ & -> & _). apply estimate_voc_den, HP. Qed.
  Let Xn : 0 <= X. Proof. apply voc_estR_nonneg, HP. Qed.
  Let ha : da p <> 0. Proof. destruct HP as (_ & _ & _ & _ & Ha & _). lra. Qed.
  Let val x : 0 <= x <= X -> valid_vd p x.
  Proof. intros H. apply forward_valid; [exact HV|lra|]. apply (below_le p x X bX). lra. Qed.
  Let bel x : 0 <= x <= X -> below_builtin p x. Proof. intros H. apply (val x H). Qed.

  Lemma solve_v_from_i i kw : 0 <= i <= terminal_current p 0 ->
    exists x r, bishop88_v_from_i sp #i g m kw = Ok #(volt p x) /\ 0 <= x <= X /\ 0 <= r <= X /\
      terminal_current p r = i /\ Rabs (x - r) <= tol.
  Proof.
    intros Hi. unfold bishop88_v_from_i.
    rewrite (solve_bracket sp m solver g kw _ _ _ #X HM eX eX2).
    destruct (HS (fun x => b_current g x - #i)%fl (fun x => terminal_current p x - i) 0 X kw Xn) as (x & r & E & B1 & B2 & R0 & T).
    - intros x Hx. rewrite (current_den g p x HD (val x Hx)). reflexivity.
    - intros x Hx. apply continuity_pt_minus; [apply current_continuous; auto|].
      apply continuity_pt_const. intros ? ?. reflexivity.
    - pose proof (current_at_voc_est p HP HB bX). fold X in H.
      assert (0 <= (terminal_current p 0 - i) * (i - terminal_current p X)) by (apply Rmult_le_pos; lra). lra.
    - rewrite E. exists x, r. unfold bind. rewrite (voltage_den g p x HD (val x B1)).
      repeat split; try lra; exact T.
  Qed.
  Lemma solve_i_from_v v kw : - dRs p * terminal_current p 0 <= v <= X ->
    0 <= terminal_current p 0 ->
    exists x r, bishop88_i_from_v sp #v g m kw = Ok #(terminal_current p x) /\ 0 <= x <= X /\ 0 <= r <= X /\
      volt p r = v /\ Rabs (x - r) <= tol.
  Proof.
    intros Hv H0. unfold bishop88_i_from_v.
    rewrite (solve_bracket sp m solver g kw _ _ _ #X HM eX eX2).
    destruct (HS (fun x => b_voltage g x - #v)%fl (fun x => volt p x - v) 0 X kw Xn) as (x & r & E & B1 & B2 & R0 & T).
    - intros x Hx. rewrite (voltage_den g p x HD (val x Hx)). reflexivity.
    - intros x Hx. apply continuity_pt_minus; [apply volt_continuous; auto|].
      apply continuity_pt_const. intros ? ?. reflexivity.
    - pose proof (current_at_voc_est p HP HB bX). fold X in H. unfold volt.
      destruct HP as (_ & _ & Hs & _).
      assert (0 <= (- terminal_current p X) * dRs p) by (apply Rmult_le_pos; lra).
      assert (0 <= (v - (0 - terminal_current p 0 * dRs p)) * (X - terminal_current p X * dRs p - v)) by (apply Rmult_le_pos; lra). lra.
    - rewrite E. exists x, r. unfold bind. rewrite (current_den g p x HD (val x B1)).
      repeat split; try lra; exact T.
  Qed.
  Lemma solve_mpp kw : 0 <= terminal_current p 0 ->
    exists x r, bishop88_mpp sp g m kw = Ok (#(terminal_current p x), #(volt p x), #(terminal_current p x * volt p x)) /\
      0 <= x <= X /\ 0 <= r <= X /\ gpR p r = 0 /\ Rabs (x - r) <= tol.
  Proof.
    intros H0. unfold bishop88_mpp.
    rewrite (solve_bracket sp m solver g kw _ _ _ #X HM eX eX2).
    destruct (HS (fun x => g_p (bishop88_grads x g)) (gpR p) 0 X kw Xn) as (x & r & E & B1 & B2 & R0 & T).
    - intros x Hx. pose proof (grad_v_pos p x HP (bel x Hx)).
      rewrite (grads_den g p x HD HB (val x Hx)) by lra. reflexivity.
    - intros x Hx. apply gp_continuous; auto.
    - pose proof (current_at_voc_est p HP HB bX). fold X in H.
      pose proof (gp_at_0 p HP HB (bel 0 ltac:(lra)) H0). pose proof (gp_at_voc p X HP HB bX Xn H).
      assert (0 <= gpR p 0 * - gpR p X) by (apply Rmult_le_pos; lra). lra.
    - rewrite E. exists x, r. unfold bind. unfold volt. rewrite <- (bishop88_den g p x HD (val x B1)).
      repeat split; try lra; exact T.
  Qed.
End S.
(** a root of dp/dv on [0, voc] is the maximum power point *)
Lemma root_is_mpp p r : physical p -> dB p = 0 -> below_builtin p r -> 0 <= r -> 0 <= terminal_current p 0 -> gpR p r = 0 ->
  max_power_at p (volt p r) (terminal_current p r).
Proof.
  intros HP HB Hb Hr H0 HR. split; [apply curve_at|]. intros v' i' C B.
  assert (EX : volt p r + terminal_current p r * dRs p = r) by (unfold volt; ring).
  apply (power_max p (volt p r) (terminal_current p r) HP HB (curve_at p r)); rewrite ?EX; auto.
  apply Rnot_lt_le. intros K. unfold gpR in HR.
  pose proof (dterm_neg p r HP Hb). pose proof (grad_v_pos p r HP Hb). set (d := dterm p r) in *.
  assert (0 < (- d) / (1 - d * dRs p)) by (apply Rdiv_lt_0_compat; lra).
  assert (0 < (- volt p r) * ((- d) / (1 - d * dRs p))) by (apply Rmult_lt_0_compat; lra).
  replace ((- volt p r) * ((- d) / (1 - d * dRs p))) with (volt p r * (d / (1 - d * dRs p))) in H2 by (field; lra).
  assert (terminal_current p r < 0) by lra. destruct HP as (_ & _ & Hs & _).
  assert (0 <= (- terminal_current p r) * dRs p) by (apply Rmult_le_pos; lra). lra.
Qed.
Lemma grad_i_bd g p x : denotes g p -> valid_vd p x ->
  g_i (bishop88_grads #x g) = #(dterm p x - dB p * dG p * (Rpower (1 - x / dVbr p) (- dm p)
                             + x * (- dm p) * Rpower (1 - x / dVbr p) (- dm p - 1))).
Proof.
  intros H [Hb Hk]. unfold bishop88_grads. cbv zeta. cbn [g_i].
  pose proof (g_sh_den g p H) as HG.
  pose proof (recomb_den g p x H Hb) as HR. unfold b_brk_pwr, b_brk_term.
  assert (Hr1 : where_ (b_is_recomb g) (b_i_recomb g #x / b_v_recomb g #x)%fl #0 =
    #(match dVbi p with Some b => dIL p * dD p / (b - x) / (b - x) | None => 0 end)).
  { rewrite HR. unfold b_v_recomb, b_is_recomb, recombination, below_builtin in *.
    destruct H as (_ & _ & _ & _ & _ & _ & HD & _).
    destruct HD as [(d & -> & Hd & -> & _)|(-> & HDp & [(b & -> & E)|(-> & ->)])].
    - rewrite fgtb_fin. rdec. reflexivity.
    - rewrite E in *. rewrite fgtb_fin. rdec. unfold where_. rewrite fsub_fin, fdiv_fin by lra; reflexivity.
    - rewrite fgtb_fin. rdec. reflexivity. }
  destruct H as (Hi & H0 & Hs & Ha & Ha0 & _ & _ & HBf & HV & HV0 & HM).
  rewrite Hr1, HG, H0, Ha, HBf, HV, HM. unfold above_breakdown in Hk.
  rewrite !(fdiv_fin x) by assumption. rewrite fsub_fin, !fneg_fin, !fsub_fin, !fpow_fin by exact Hk.
  rewrite !fexp_fin, !fmul_fin, !(fdiv_fin _ (da p)), !fadd_fin, !fmul_fin, !fneg_fin, !fsub_fin by exact Ha0.
  reflexivity.
Qed.
