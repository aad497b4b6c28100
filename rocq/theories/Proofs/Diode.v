(** Proofs about the bishop88 functions. *)
From Verif Require Import Base.Fl Base.FlFacts Base.Py Model.SingleDiode Spec.DiodeSpec.
From Coq Require Import Psatz.
From Coquelicot Require Import Coquelicot.
Open Scope R_scope.

Lemma fexpm1_fin a : fexpm1 #a = #(exp a - 1). Proof. reflexivity. Qed.

Lemma g_sh_den g p : denotes g p -> (#1 / b_rsh g)%fl = #(dG p).
Proof.
  intros (_ & _ & _ & _ & _ & [(r & -> & Hr & ->)|(-> & ->)] & _).
  - apply fdiv_fin, Hr.
  - reflexivity.
Qed.
Lemma recomb_den g p x : denotes g p -> below_builtin p x -> b_i_recomb g #x = #(recombination p x).
Proof.
  intros (Hi & _ & _ & _ & _ & _ & HD & _) Hb. unfold b_i_recomb, b_v_recomb, b_is_recomb, recombination, below_builtin in *.
  destruct HD as [(d & -> & Hd & -> & _)|(-> & HDp & [(b & -> & E)|(-> & ->)])].
  - rewrite fgtb_fin. rdec. reflexivity.
  - rewrite E in *. rewrite fgtb_fin. rdec. unfold where_. rewrite Hi, fmul_fin, fsub_fin, fdiv_fin by lra. reflexivity.
  - rewrite fgtb_fin. rdec. unfold where_. rewrite Hi. reflexivity.
Qed.
Lemma current_den g p x : denotes g p -> valid_vd p x -> b_current g #x = #(terminal_current p x).
Proof.
  intros H [Hb Hk]. pose proof (g_sh_den g p H) as HG. pose proof (recomb_den g p x H Hb) as HR.
  destruct H as (Hi & H0 & _ & Ha & Ha0 & _ & _ & HB & HV & HV0 & HM).
  unfold b_current. cbv zeta. rewrite HG, HR. unfold b_brk_pwr, b_brk_term.
  rewrite Hi, H0, Ha, HB, HV, HM. unfold above_breakdown in Hk.
  rewrite !fdiv_fin by assumption. rewrite fsub_fin, fneg_fin, fpow_fin by exact Hk.
  rewrite fexpm1_fin, !fmul_fin, !fsub_fin. f_equal. unfold terminal_current, avalanche. ring.
Qed.
Lemma voltage_den g p x : denotes g p -> valid_vd p x ->
  b_voltage g #x = #(x - terminal_current p x * dRs p).
Proof.
  intros H Hv. unfold b_voltage. rewrite (current_den g p x H Hv). destruct H as (_ & _ & -> & _). reflexivity.
Qed.

Lemma bishop88_den g p x : denotes g p -> valid_vd p x ->
  let i := terminal_current p x in
  bishop88 #x g = (#i, #(x - i * dRs p), #(i * (x - i * dRs p))).
Proof.
  intros H Hv. unfold bishop88. rewrite (current_den g p x H Hv), (voltage_den g p x H Hv). reflexivity.
Qed.

(** ** derivatives *)
Definition dterm (p : diode) (x : R) : R :=
  - (dI0 p * exp (x / da p) / da p) - dG p
  - match dVbi p with Some b => dIL p * dD p / (b - x) / (b - x) | None => 0 end.
Definition d2term (p : diode) (x : R) : R :=
  - (dI0 p * exp (x / da p) / da p) / da p
  - match dVbi p with Some b => 2 * (dIL p * dD p / (b - x) / (b - x)) / (b - x) | None => 0 end.
Lemma terminal_no_breakdown p x : dB p = 0 -> terminal_current p x =
  dIL p - dI0 p * (exp (x / da p) - 1) - x * dG p - recombination p x.
Proof. intros H. unfold terminal_current, avalanche. rewrite H. ring. Qed.

Lemma dterm_deriv p x : dB p = 0 -> da p <> 0 -> below_builtin p x ->
  is_derive (terminal_current p) x (dterm p x).
Proof.
  intros HB Ha Hb.
  apply (is_derive_ext (fun y => dIL p - dI0 p * (exp (y / da p) - 1) - y * dG p - recombination p y)).
  { intros t. symmetry. apply terminal_no_breakdown, HB. }
  unfold recombination, dterm, below_builtin in *. destruct (dVbi p) as [b|].
  - auto_derive; [repeat split; lra|]. change (x * / da p) with (x / da p). field. split; [lra|exact Ha].
  - auto_derive; [repeat split; lra|]. change (x * / da p) with (x / da p). field. exact Ha.
Qed.
Lemma d2term_deriv p x : da p <> 0 -> below_builtin p x -> is_derive (dterm p) x (d2term p x).
Proof.
  intros Ha Hb. unfold d2term, dterm, below_builtin in *. destruct (dVbi p) as [b|].
  - auto_derive; [repeat split; lra|]. change (x * / da p) with (x / da p). field. split; [lra|exact Ha].
  - auto_derive; [repeat split; lra|]. change (x * / da p) with (x / da p). field. exact Ha.
Qed.

(** no breakdown, and junction voltages above the breakdown voltage: the gradient outputs *)
Lemma grads_den g p x : denotes g p -> dB p = 0 -> valid_vd p x -> 1 - dterm p x * dRs p <> 0 ->
  let i := terminal_current p x in let v := x - i * dRs p in
  let gi := dterm p x in let gv := 1 - gi * dRs p in
  let gg := d2term p x in
  bishop88_grads #x g =
  BG #gi #gv #(gi / gv) #(v * (gi / gv) + i)
     #(gv * (gi / gv) + v * (gg / gv - gi * (- gg * dRs p) / gv ^ 2) + gi).
Proof.
  intros H HB Hv Hgv. cbv zeta.
  unfold bishop88_grads. rewrite (current_den g p x H Hv), (voltage_den g p x H Hv).
  pose proof (g_sh_den g p H) as HG. destruct Hv as [Hb Hk].
  pose proof (recomb_den g p x H Hb) as HR. unfold b_brk_pwr, b_brk_term.
  assert (Hrec : where_ (b_is_recomb g) (b_i_recomb g #x / b_v_recomb g #x)%fl #0 =
    #(match dVbi p with Some b => dIL p * dD p / (b - x) / (b - x) | None => 0 end) /\
    (forall y, where_ (b_is_recomb g) (#2 * #y / b_v_recomb g #x)%fl #0 =
    #(match dVbi p with Some b => 2 * y / (b - x) | None => 0 end))).
  { rewrite HR. unfold b_v_recomb, b_is_recomb, recombination, below_builtin in *.
    destruct H as (_ & _ & _ & _ & _ & _ & HD & _).
    destruct HD as [(d & -> & Hd & -> & _)|(-> & HDp & [(b & -> & E)|(-> & ->)])].
    - rewrite fgtb_fin. rdec. split; reflexivity.
    - rewrite E in *. rewrite fgtb_fin. rdec. unfold where_. rewrite fsub_fin.
      split; [|intros y; rewrite fmul_fin]; rewrite fdiv_fin by lra; reflexivity.
    - rewrite fgtb_fin. rdec. unfold where_. split; [reflexivity|intros y]. simpl. reflexivity. }
  destruct Hrec as [Hr1 Hr2].
  destruct H as (Hi & H0 & Hs & Ha & Ha0 & _ & _ & HBf & HV & HV0 & HM).
  cbv zeta. rewrite Hr1, Hr2, HG, H0, Hs, Ha, HBf, HV, HM, HB. unfold above_breakdown in Hk.
  rewrite !(fdiv_fin x) by assumption. rewrite fsub_fin, !fneg_fin, !fsub_fin, !fpow_fin by exact Hk.
  rewrite !fexp_fin, !fmul_fin, !(fdiv_fin _ (da p)), !fadd_fin, !fmul_fin, !fneg_fin, !fsub_fin by exact Ha0.
  match goal with |- context [BG #?t _ _ _ _] =>
    replace t with (dterm p x) by (unfold dterm; destruct (dVbi p); ring) end.
  rewrite !fmul_fin, !fsub_fin, !(fdiv_fin (dterm p x) _) by exact Hgv.
  rewrite !(fdiv_fin _ (da p)) by exact Ha0. rewrite !fmul_fin, !fsub_fin.
  match goal with |- context [fneg #?t] =>
    replace t with (d2term p x) by (unfold d2term; destruct (dVbi p); ring) end.
  rewrite fpown_fin, !fneg_fin, !fmul_fin, !fdiv_fin, !fsub_fin, !fmul_fin, !fadd_fin; [|apply pow_nonzero|]; try exact Hgv.
  reflexivity.
Qed.

(** ** shape of the curve *)
Lemma exp_tangent a x y : 0 < a -> exp (x / a) * (1 + (y - x) / a) <= exp (y / a).
Proof.
  intros Ha. replace (y / a) with (x / a + (y - x) / a) by (field; lra). rewrite exp_plus.
  apply Rmult_le_compat_l; [apply Rlt_le, exp_pos|]. apply exp_ineq1_le.
Qed.
Lemma inv_tangent A B : 0 < A -> 0 < B -> 1 / A + (A - B) / A / A <= 1 / B.
Proof.
  intros HA HB. replace (1 / B) with (1 / A + (A - B) / A / A + (A - B) * (A - B) * (/ (A * A * B))) by (field; lra).
  assert (0 <= (A - B) * (A - B) * (/ (A * A * B))); [|lra].
  apply Rmult_le_pos; [apply Rle_0_sqr|]. apply Rlt_le, Rinv_0_lt_compat. apply Rmult_lt_0_compat; [apply Rmult_lt_0_compat|]; lra.
Qed.
Lemma dterm_neg p x : physical p -> below_builtin p x -> dterm p x < 0.
Proof.
  intros (HL & H0 & Hs & HG & Ha & HD & Hb) Hx. unfold dterm.
  assert (0 < dI0 p * exp (x / da p) / da p).
  { apply Rdiv_lt_0_compat; [apply Rmult_lt_0_compat; [exact H0|apply exp_pos]|exact Ha]. }
  assert (0 <= match dVbi p with Some b => dIL p * dD p / (b - x) / (b - x) | None => 0 end); [|lra].
  unfold below_builtin in Hx. destruct (dVbi p); [|lra].
  apply Rdiv_le_0_compat; [apply Rdiv_le_0_compat; [apply Rmult_le_pos; assumption|]|]; lra.
Qed.
Lemma grad_v_pos p x : physical p -> below_builtin p x -> 1 <= 1 - dterm p x * dRs p.
Proof.
  intros H Hx. pose proof (dterm_neg p x H Hx). destruct H as (_ & _ & Hs & _).
  assert (0 <= (- dterm p x) * dRs p) by (apply Rmult_le_pos; lra). lra.
Qed.
Lemma recomb_tangent p x y : physical p -> below_builtin p x -> below_builtin p y ->
  recombination p x + match dVbi p with Some b => dIL p * dD p / (b - x) / (b - x) | None => 0 end * (y - x)
  <= recombination p y.
Proof.
  intros (HL & H0 & Hs & HG & Ha & HD & Hb) Hx Hy. unfold recombination, below_builtin in *. destruct (dVbi p) as [b|]; [|lra].
  pose proof (inv_tangent (b - x) (b - y) ltac:(lra) ltac:(lra)) as H.
  apply (Rmult_le_compat_l (dIL p * dD p)) in H; [|apply Rmult_le_pos; assumption].
  replace (dIL p * dD p / (b - y)) with (dIL p * dD p * (1 / (b - y))) by (field; lra).
  eapply Rle_trans; [|exact H]. right. field. lra.
Qed.
Lemma concave p x y : physical p -> dB p = 0 -> below_builtin p x -> below_builtin p y ->
  terminal_current p y <= terminal_current p x + dterm p x * (y - x).
Proof.
  intros H HB Hx Hy. rewrite !terminal_no_breakdown by exact HB.
  pose proof (recomb_tangent p x y H Hx Hy) as HR. unfold dterm.
  destruct H as (HL & H0 & Hs & HG & Ha & HD & Hb).
  pose proof (exp_tangent (da p) x y Ha) as HE.
  apply (Rmult_le_compat_l (dI0 p)) in HE; [|lra].
  set (m := match dVbi p with Some b => _ | None => _ end) in *.
  replace (dI0 p * exp (x / da p) / da p) with (dI0 p * (exp (x / da p) * (1 / da p))) by (field; lra).
  replace (dI0 p * (exp (x / da p) * (1 + (y - x) / da p))) with
    (dI0 p * exp (x / da p) + dI0 p * (exp (x / da p) * (1 / da p)) * (y - x)) in HE by (field; lra).
  set (k := dI0 p * (exp (x / da p) * (1 / da p))) in *. lra.
Qed.
Lemma current_decreasing p x y : physical p -> dB p = 0 -> below_builtin p y -> x < y ->
  terminal_current p y < terminal_current p x.
Proof.
  intros H HB Hy Hxy. assert (Hx : below_builtin p x) by (unfold below_builtin in *; destruct (dVbi p); lra).
  pose proof (concave p x y H HB Hx Hy). pose proof (dterm_neg p x H Hx).
  assert (0 < (- dterm p x) * (y - x)) by (apply Rmult_lt_0_compat; lra). lra.
Qed.
Lemma voltage_increasing p x y : physical p -> dB p = 0 -> below_builtin p y -> x < y ->
  x - terminal_current p x * dRs p < y - terminal_current p y * dRs p.
Proof.
  intros H HB Hy Hxy. pose proof (current_decreasing p x y H HB Hy Hxy).
  destruct H as (_ & _ & Hs & _).
  assert (0 <= (terminal_current p x - terminal_current p y) * dRs p) by (apply Rmult_le_pos; lra). lra.
Qed.
(** along the curve the current falls with the voltage, and the curve is below its tangents *)
Lemma curve_tangent p v1 i1 v2 i2 : physical p -> dB p = 0 ->
  on_curve p v1 i1 -> on_curve p v2 i2 ->
  below_builtin p (v1 + i1 * dRs p) -> below_builtin p (v2 + i2 * dRs p) ->
  let d := dterm p (v1 + i1 * dRs p) in
  i2 - i1 <= d / (1 - d * dRs p) * (v2 - v1).
Proof.
  intros H HB C1 C2 B1 B2 d. unfold on_curve in *.
  pose proof (concave p _ _ H HB B1 B2) as K. rewrite <- C1, <- C2 in K. fold d in K.
  pose proof (grad_v_pos p _ H B1) as G. fold d in G.
  apply Rmult_le_reg_r with (1 - d * dRs p); [lra|].
  replace (d / (1 - d * dRs p) * (v2 - v1) * (1 - d * dRs p)) with (d * (v2 - v1)) by (field; lra). lra.
Qed.
Lemma curve_at p x : on_curve p (x - terminal_current p x * dRs p) (terminal_current p x).
Proof. unfold on_curve. f_equal. ring. Qed.

(** ** unique solutions *)
Lemma unique_vd_v p x y : physical p -> dB p = 0 -> below_builtin p x -> below_builtin p y ->
  x - terminal_current p x * dRs p = y - terminal_current p y * dRs p -> x = y.
Proof.
  intros H HB Hx Hy E. destruct (Rtotal_order x y) as [L|[L|L]]; [|exact L|].
  - pose proof (voltage_increasing p x y H HB Hy L). lra.
  - pose proof (voltage_increasing p y x H HB Hx L). lra.
Qed.
Lemma unique_vd_i p x y : physical p -> dB p = 0 -> below_builtin p x -> below_builtin p y ->
  terminal_current p x = terminal_current p y -> x = y.
Proof.
  intros H HB Hx Hy E. destruct (Rtotal_order x y) as [L|[L|L]]; [|exact L|].
  - pose proof (current_decreasing p x y H HB Hy L). lra.
  - pose proof (current_decreasing p y x H HB Hx L). lra.
Qed.

(** ** maximum power *)
Lemma power_max p v i : physical p -> dB p = 0 -> on_curve p v i -> below_builtin p (v + i * dRs p) ->
  0 <= terminal_current p 0 ->
  let d := dterm p (v + i * dRs p) in
  v * (d / (1 - d * dRs p)) + i = 0 -> 0 <= v ->
  forall v' i', on_curve p v' i' -> below_builtin p (v' + i' * dRs p) -> v' * i' <= v * i.
Proof.
  intros H HB C B Hsc d Hroot Hv v' i' C' B'.
  pose proof (curve_tangent p v i v' i' H HB C C' B B') as K. fold d in K.
  pose proof (grad_v_pos p _ H B) as G. fold d in G. pose proof (dterm_neg p _ H B) as Dn. fold d in Dn.
  cbv zeta in K. set (s := d / (1 - d * dRs p)) in *.
  assert (Hs : s < 0).
  { unfold s. assert (0 < (- d) / (1 - d * dRs p)) by (apply Rdiv_lt_0_compat; lra).
    replace (d / (1 - d * dRs p)) with (- ((- d) / (1 - d * dRs p))) by (field; lra). lra. }
  assert (Hi : i = - (s * v)) by lra.
  assert (Hp : 0 <= v * i). { rewrite Hi. replace (v * - (s * v)) with ((- s) * (v * v)) by ring.
    apply Rmult_le_pos; [lra|apply Rle_0_sqr]. }
  destruct (Rle_dec 0 v') as [V'|V'].
  - apply (Rmult_le_compat_l v') in K; [|exact V'].
    assert (0 <= (- s) * ((v' - v) * (v' - v))) by (apply Rmult_le_pos; [lra|apply Rle_0_sqr]).
    replace (v' * (s * (v' - v))) with (s * ((v' - v) * (v' - v)) + s * v * (v' - v)) in K by ring.
    replace (s * v) with (- i) in K by lra. lra.
  - apply Rnot_le_lt in V'. destruct (Rle_dec 0 i') as [I'|I'].
    + apply Rle_trans with 0; [|exact Hp]. assert (0 <= (- v') * i') by (apply Rmult_le_pos; lra). lra.
    + apply Rnot_le_lt in I'. exfalso.
      assert (Hx : v' + i' * dRs p < 0).
      { destruct H as (_ & _ & Hs' & _). assert (0 <= (- i') * dRs p) by (apply Rmult_le_pos; lra). lra. }
      assert (B0 : below_builtin p 0).
      { destruct H as (_ & _ & _ & _ & _ & _ & Hb). unfold below_builtin. destruct (dVbi p); auto. }
      pose proof (current_decreasing p _ _ H HB B0 Hx) as L. unfold on_curve in C'. rewrite <- C' in L. lra.
Qed.

(** ** brackets *)
Notation voc_estR := ideal_voc.
Lemma estimate_voc_den p : physical p -> estimate_voc #(dIL p) #(dI0 p) #(da p) = #(voc_estR p).
Proof.
  intros (HL & H0 & _). unfold estimate_voc. rewrite fdiv_fin by lra. rewrite fadd_fin.
  assert (0 <= dIL p / dI0 p) by (apply Rdiv_le_0_compat; assumption).
  rewrite fln_fin by lra. reflexivity.
Qed.
Lemma voc_estR_nonneg p : physical p -> 0 <= voc_estR p.
Proof.
  intros (HL & H0 & _ & _ & Ha & _). unfold ideal_voc. apply Rmult_le_pos; [lra|].
  assert (0 <= dIL p / dI0 p) by (apply Rdiv_le_0_compat; assumption).
  destruct (Req_dec (dIL p / dI0 p) 0) as [->|]; [rewrite Rplus_0_l, ln_1; lra|].
  rewrite <- ln_1. apply Rlt_le, ln_increasing; lra.
Qed.
Lemma recomb_nonneg p x : physical p -> below_builtin p x -> 0 <= recombination p x.
Proof.
  intros (HL & H0 & Hs & HG & Ha & HD & Hb) Hx. unfold recombination, below_builtin in *. destruct (dVbi p); [|lra].
  apply Rdiv_le_0_compat; [apply Rmult_le_pos; assumption|lra].
Qed.
Lemma current_at_voc_est p : physical p -> dB p = 0 -> below_builtin p (voc_estR p) ->
  terminal_current p (voc_estR p) <= 0.
Proof.
  intros H HB Hb. rewrite terminal_no_breakdown by exact HB. pose proof (recomb_nonneg p _ H Hb).
  pose proof (voc_estR_nonneg p H). destruct H as (HL & H0' & Hs & HG & Ha & HD & Hb').
  replace (voc_estR p / da p) with (ln (dIL p / dI0 p + 1)) by (unfold ideal_voc; field; lra).
  assert (0 <= dIL p / dI0 p) by (apply Rdiv_le_0_compat; assumption).
  rewrite exp_ln by lra. replace (dI0 p * (dIL p / dI0 p + 1 - 1)) with (dIL p) by (field; lra).
  assert (0 <= voc_estR p * dG p) by (apply Rmult_le_pos; assumption). lra.
Qed.
Lemma current_at_0 p : dB p = 0 -> terminal_current p 0 = dIL p - recombination p 0.
Proof.
  intros HB. rewrite terminal_no_breakdown by exact HB. unfold Rdiv. rewrite Rmult_0_l, exp_0. ring.
Qed.
