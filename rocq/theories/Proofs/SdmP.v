(** Lemmas for ivtools/sdm: fit_desoto and fit_desoto_batzelis. *)
From Verif Require Import Base.Fl Base.FlFacts Base.Py Model.SingleDiode Model.Sdm Spec.DiodeSpec Spec.IvSpec Proofs.Diode Proofs.DiodeLW Proofs.DiodeSolve Proofs.LambertP.
From Coq Require Import Psatz.
From Coquelicot Require Import Coquelicot.
Open Scope R_scope.
Open Scope list_scope.

Lemma sde_simple IL Io Rs Rsh a v i : on_sde_curve IL Io Rs Rsh a v i <-> on_curve (simple_diode IL Io Rs (1 / Rsh) a) v i.
Proof.
  unfold on_sde_curve, on_curve. rewrite simple_terminal. cbn [simple_diode dRs]. rewrite (Rmult_comm Rs i).
  replace ((v + i * Rs) * (1 / Rsh)) with ((v + i * Rs) / Rsh) by (unfold Rdiv; ring). reflexivity.
Qed.
Lemma simple_dterm IL Io Rs G a x : dterm (simple_diode IL Io Rs G a) x = - (Io / a * exp (x / a) + G).
Proof. unfold dterm. cbn. unfold Rdiv. ring. Qed.
(** at a maximum the power is stationary *)
Lemma max_stationary p v i : physical p -> dB p = 0 -> dVbi p = None -> max_power_at p v i ->
  let d := dterm p (v + i * dRs p) in v * (d / (1 - d * dRs p)) + i = 0.
Proof.
  intros P B N [C M] d. set (x0 := v + i * dRs p) in *.
  assert (Bl : forall x, below_builtin p x) by (intros x; unfold below_builtin; rewrite N; exact I).
  assert (Ei : terminal_current p x0 = i) by (symmetry; exact C).
  assert (Ev : volt p x0 = v) by (unfold volt; rewrite Ei; unfold x0; ring).
  pose proof (grad_v_pos p x0 P (Bl x0)) as G. fold d in G.
  assert (D : is_derive (fun x => volt p x * terminal_current p x) x0 ((1 - d * dRs p) * i + v * d)).
  { assert (DT : is_derive (terminal_current p) x0 d). { apply dterm_deriv; [exact B| |apply Bl]. destruct P as (_ & _ & _ & _ & A & _). lra. }
    unfold volt. evar_last.
    - apply (is_derive_mult (fun x => x - terminal_current p x * dRs p) (terminal_current p) x0 (1 - d * dRs p) d); [|exact DT|intros; apply Rmult_comm].
      apply (is_derive_minus (fun x => x) (fun x => terminal_current p x * dRs p)); [apply (@is_derive_id R_AbsRing)|].
      apply (is_derive_ext (fun x => dRs p * terminal_current p x)); [intros; apply Rmult_comm|]. rewrite Rmult_comm. apply is_derive_scal. exact DT.
    - unfold plus, mult. simpl. rewrite Ei. replace (x0 - i * dRs p) with v by (unfold x0; ring). ring. }
  apply is_derive_Reals in D. set (f := fun x => volt p x * terminal_current p x) in *.
  assert (pr : derivable_pt f x0) by (exists ((1 - d * dRs p) * i + v * d); exact D).
  assert (Z : derive_pt f x0 pr = 0).
  { apply (deriv_maximum f (x0 - 1) (x0 + 1) x0 pr); [lra|lra|]. intros x _ _. unfold f. rewrite Ei, Ev.
    apply (M (volt p x) (terminal_current p x)); [apply curve_at|apply Bl]. }
  assert (Z2 : (1 - d * dRs p) * i + v * d = 0). { rewrite <- Z. symmetry. apply derive_pt_eq_0. exact D. }
  apply (Rmult_eq_reg_l (1 - d * dRs p)); [|lra]. rewrite Rmult_0_r. rewrite <- Z2. field. lra.
Qed.
Lemma mpp_equation IL Io Rs Rsh a v i : 0 <= IL -> 0 < Io -> 0 <= Rs -> 0 < Rsh -> 0 < a -> 0 <= v -> on_sde_curve IL Io Rs Rsh a v i ->
  0 < 1 + Io * Rs / a * exp ((v + i * Rs) / a) + Rs / Rsh /\
  (max_power_at (simple_diode IL Io Rs (1 / Rsh) a) v i <->
   i - v * (Io / a * exp ((v + i * Rs) / a) + 1 / Rsh) / (1 + Io * Rs / a * exp ((v + i * Rs) / a) + Rs / Rsh) = 0).
Proof.
  intros H1 H2 H3 H4 H5 Hv C. set (p := simple_diode IL Io Rs (1 / Rsh) a). apply sde_simple in C. fold p in C.
  assert (P : physical p). { apply simple_physical; try assumption. apply Rlt_le, Rdiv_lt_0_compat; lra. }
  set (e := exp ((v + i * Rs) / a)). set (d := dterm p (v + i * dRs p)).
  assert (Ed : d = - (Io / a * e + 1 / Rsh)) by (unfold d, p; rewrite simple_dterm; reflexivity).
  pose proof (grad_v_pos p (v + i * dRs p) P I) as G. fold d in G. change (dRs p) with Rs in G.
  assert (ED : 1 + Io * Rs / a * e + Rs / Rsh = 1 - d * Rs) by (rewrite Ed; field; lra).
  split; [rewrite ED; lra|]. rewrite ED. replace (Io / a * e + 1 / Rsh) with (- d) by (rewrite Ed; ring).
  replace (i - v * - d / (1 - d * Rs)) with (v * (d / (1 - d * Rs)) + i) by (field; lra). split.
  - intros M. exact (max_stationary p v i P eq_refl eq_refl M).
  - intros E. split; [exact C|]. apply (power_max p v i P eq_refl C I); [|exact E|exact Hv].
    unfold p. rewrite simple_terminal. unfold Rdiv. rewrite Rmult_0_l, exp_0. lra.
Qed.
Lemma inv_affine_derive a b T0 : a <> 0 -> derivable_pt_lim (fun T => 1 / (a - b * (T - T0))) T0 (b / a ^ 2).
Proof.
  intros N. apply is_derive_Reals. auto_derive; [replace (a + - (b * (T0 + - T0))) with a by ring; exact N|]. field_simplify; [reflexivity|exact N|]. replace (a + - (b * (T0 + - T0))) with a by ring. exact N.
Qed.
