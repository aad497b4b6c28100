(** The Lambert W solutions of the single diode equation; batzelis. *)
From Verif Require Import Base.Fl Base.FlFacts Base.Py Model.SingleDiode Spec.DiodeSpec Proofs.Diode Proofs.LambertP.
From Coq Require Import Psatz.
From Coquelicot Require Import Rcomplements.
Open Scope R_scope.

Lemma lower_idem s : lower (lower s) = lower s.
Proof.
  assert (A : forall c, lower_ascii (lower_ascii c) = lower_ascii c).
  { intros [[] [] [] [] [] [] [] []]; reflexivity. }
  induction s as [|c s IH]; [reflexivity|]. simpl. rewrite IH, A. reflexivity.
Qed.
Lemma simple_terminal IL I0 Rs G a x :
  terminal_current (simple_diode IL I0 Rs G a) x = IL - I0 * (exp (x / a) - 1) - x * G.
Proof. unfold terminal_current, avalanche, recombination. simpl. ring. Qed.
Lemma shunt_gsh rsh G : shunt_of rsh G -> (#1 / rsh)%fl = #G /\ 0 <= G.
Proof.
  intros [(r & -> & Hr & ->)|(-> & ->)].
  - split; [apply fdiv_fin; lra|]. apply Rlt_le, Rdiv_lt_0_compat; lra.
  - split; [reflexivity|lra].
Qed.
Lemma simple_physical IL I0 Rs G a : 0 <= IL -> 0 < I0 -> 0 <= Rs -> 0 <= G -> 0 < a -> physical (simple_diode IL I0 Rs G a).
Proof. intros. unfold physical. simpl. repeat split; lra. Qed.

Lemma lw_solution_v I IL I0 Rs G a w : 0 < I0 -> 0 < G -> 0 < a ->
  is_W (I0 / (G * a) * exp ((- I + IL + I0) / (G * a))) w ->
  on_curve (simple_diode IL I0 Rs G a) ((IL + I0 - I) / G - I * Rs - a * w) I.
Proof.
  intros H0 HG Ha [Hw E]. unfold on_curve. rewrite simple_terminal. simpl.
  replace ((IL + I0 - I) / G - I * Rs - a * w + I * Rs) with ((IL + I0 - I) / G - a * w) by ring.
  replace (((IL + I0 - I) / G - a * w) / a) with ((- I + IL + I0) / (G * a) - w) by (field; lra).
  set (q := (- I + IL + I0) / (G * a)) in *.
  assert (K : I0 * exp (q - w) = G * a * w).
  { unfold Rminus. rewrite exp_plus. pose proof (exp_pos w) as Pw.
    assert (N : exp w * exp (- w) = 1) by (rewrite <- exp_plus, Rplus_opp_r; apply exp_0).
    replace (I0 * (exp q * exp (- w))) with (G * a * (I0 / (G * a) * exp q) * exp (- w)) by (field; lra).
    rewrite <- E. replace (G * a * (w * exp w) * exp (- w)) with (G * a * w * (exp w * exp (- w))) by ring. rewrite N. ring. }
  rewrite Rmult_minus_distr_l, K. field. lra.
Qed.
Lemma lw_solution_i V IL I0 Rs G a w : 0 < I0 -> 0 < Rs -> 0 <= G -> 0 < a ->
  is_W (Rs * I0 / (a * (Rs * G + 1)) * exp ((Rs * (IL + I0) + V) / (a * (Rs * G + 1)))) w ->
  on_curve (simple_diode IL I0 Rs G a) V ((IL + I0 - V * G) / (Rs * G + 1) - a / Rs * w).
Proof.
  intros H0 Hs HG Ha [Hw E]. unfold on_curve. rewrite simple_terminal. simpl.
  assert (Hk : 0 < Rs * G + 1) by (assert (0 <= Rs * G) by (apply Rmult_le_pos; lra); lra).
  set (k := Rs * G + 1) in *.
  assert (X : V + ((IL + I0 - V * G) / k - a / Rs * w) * Rs = (V + Rs * (IL + I0)) / k - a * w).
  { unfold k in *. field. lra. }
  rewrite X.
  replace (((V + Rs * (IL + I0)) / k - a * w) / a) with ((Rs * (IL + I0) + V) / (a * k) - w) by (field; lra).
  set (q := (Rs * (IL + I0) + V) / (a * k)) in *.
  assert (K : I0 * exp (q - w) = a * k / Rs * w).
  { unfold Rminus. rewrite exp_plus. pose proof (exp_pos w) as Pw.
    assert (N : exp w * exp (- w) = 1) by (rewrite <- exp_plus, Rplus_opp_r; apply exp_0).
    replace (I0 * (exp q * exp (- w))) with (a * k / Rs * (Rs * I0 / (a * k) * exp q) * exp (- w)) by (field; lra).
    rewrite <- E. replace (a * k / Rs * (w * exp w) * exp (- w)) with (a * k / Rs * w * (exp w * exp (- w))) by (field; lra).
    rewrite N. ring. }
  rewrite Rmult_minus_distr_l, K. unfold k in *. field. lra.
Qed.

Lemma v_from_i_acc big I IL I0 Rs rsh G a : 100 <= big -> 0 < I0 -> 0 < a -> shunt_of rsh G ->
  (G = 0 -> I < IL + I0) ->
  exists v v', on_curve (simple_diode IL I0 Rs G a) v I /\
    lambertw_v_from_i big #I #IL #I0 #Rs rsh #a = #v' /\ 0 <= v' - v <= 1.3e-10 * a.
Proof.
  intros Hbig H0 Ha HS HG0. destruct (shunt_gsh rsh G HS) as [EG HG].
  unfold lambertw_v_from_i. cbv zeta. rewrite EG, feqb_fin. destruct (Reqb_spec 0 G) as [<-|NG].
  - exists (a * ln (1 + (IL - I) / I0) - I * Rs), (a * ln (1 + (IL - I) / I0) - I * Rs).
    specialize (HG0 eq_refl). assert (P : 0 < 1 + (IL - I) / I0).
    { replace (1 + (IL - I) / I0) with ((IL + I0 - I) / I0) by (field; lra). apply Rdiv_lt_0_compat; lra. }
    split; [|split].
    + unfold on_curve. rewrite simple_terminal. simpl.
      replace ((a * ln (1 + (IL - I) / I0) - I * Rs + I * Rs) / a) with (ln (1 + (IL - I) / I0)) by (field; lra).
      rewrite exp_ln by exact P. field. lra.
    + unfold flog1p. rewrite fsub_fin, fdiv_fin by lra. rewrite fadd_fin, fln_fin by exact P. reflexivity.
    + rewrite Rminus_eq_0. split; [lra|]. apply Rmult_le_pos; lra.
  - rewrite fltb_fin. rewrite Rltb_t by lra. assert (Ga : 0 < G * a) by (apply Rmult_lt_0_compat; lra).
    rewrite !fneg_fin, !fadd_fin, !fmul_fin, !fsub_fin, !fdiv_fin by lra. rewrite fexp_fin, fmul_fin.
    set (x := I0 / (G * a) * exp ((- I + IL + I0) / (G * a))).
    assert (Hx : 0 < x). { apply Rmult_lt_0_compat; [apply Rdiv_lt_0_compat; assumption|apply exp_pos]. }
    assert (HW : exists w w', is_W x w /\ (if isinf (overflow big #x)
        then log_lambertw (fln #I0 - fln #G - fln #a + #((- I + IL + I0) / (G * a)))%fl
        else lambertw_pvlib (overflow big #x)) = #w' /\ 0 <= w - w' <= 1.3e-10).
    { unfold overflow. destruct (Rltb_spec big x) as [B|B].
      - simpl isinf. cbv iota. rewrite !fln_fin, !fsub_fin, fadd_fin by lra.
        assert (EL : ln I0 - ln G - ln a + (- I + IL + I0) / (G * a) = ln x).
        { unfold x. rewrite ln_mult, ln_exp by (try apply exp_pos; apply Rdiv_lt_0_compat; assumption).
          unfold Rdiv at 2. rewrite ln_mult, ln_Rinv, ln_mult by (try apply Rinv_0_lt_compat; lra). ring. }
        rewrite EL. destruct (W_exists x ltac:(lra)) as (w & Hw). destruct (W_log x w Hx Hw) as [Pw Ew].
        destruct (log_lambertw_acc (ln x) w (ln_gt_100 x ltac:(lra)) Pw Ew) as (w' & E & A).
        exists w, w'. split; [exact Hw|]. split; [exact E|lra].
      - simpl isinf. cbv iota. destruct (lambertw_acc x ltac:(lra)) as (w & w' & Hw & E & A & _).
        exists w, w'. auto. }
    destruct HW as (w & w' & Hw & E & A). rewrite E, !fmul_fin, !fsub_fin.
    exists ((IL + I0 - I) / G - I * Rs - a * w), ((IL + I0 - I) / G - I * Rs - a * w'). split; [|split].
    + apply lw_solution_v; try lra. exact Hw.
    + reflexivity.
    + replace ((IL + I0 - I) / G - I * Rs - a * w' - ((IL + I0 - I) / G - I * Rs - a * w)) with (a * (w - w')) by ring.
      split; [apply Rmult_le_pos; lra|]. rewrite (Rmult_comm _ a). apply Rmult_le_compat_l; lra.
Qed.
(** open circuit with no shunt and no light enough: nothing below the reverse saturation current *)
Lemma v_from_i_none big I IL I0 Rs a : 0 < I0 -> IL + I0 < I -> lambertw_v_from_i big #I #IL #I0 #Rs PInf #a = NaN.
Proof.
  intros H0 H. unfold lambertw_v_from_i. cbv zeta. change (#1 / PInf)%fl with #0. rewrite feqb_fin. rdec.
  unfold flog1p. rewrite fsub_fin, fdiv_fin by lra. rewrite fadd_fin. unfold fln, Rpos.
  assert (P : 1 + (IL - I) / I0 < 0).
  { replace (1 + (IL - I) / I0) with (- ((I - IL - I0) / I0)) by (field; lra).
    assert (0 < (I - IL - I0) / I0) by (apply Rdiv_lt_0_compat; lra). lra. }
  rdec. reflexivity.
Qed.

Lemma i_from_v_acc big V IL I0 Rs rsh G a : 0 < I0 -> 0 < a -> 0 <= Rs -> shunt_of rsh G ->
  (0 < Rs -> Rs * I0 / (a * (Rs * G + 1)) * exp ((Rs * (IL + I0) + V) / (a * (Rs * G + 1))) <= big) ->
  exists i i', on_curve (simple_diode IL I0 Rs G a) V i /\
    lambertw_i_from_v big #V #IL #I0 #Rs rsh #a = #i' /\
    (Rs = 0 -> i' = i) /\ (0 < Rs -> 0 <= i' - i <= 1.3e-10 * (a / Rs)).
Proof.
  intros H0 Ha Hs HS HO. destruct (shunt_gsh rsh G HS) as [EG HG].
  unfold lambertw_i_from_v. cbv zeta. rewrite EG, feqb_fin. destruct (Reqb_spec 0 Rs) as [<-|NR].
  - exists (IL - I0 * (exp (V / a) - 1) - G * V), (IL - I0 * (exp (V / a) - 1) - G * V). split; [|split; [|split]].
    + unfold on_curve. rewrite simple_terminal. simpl. rewrite Rmult_0_r, Rplus_0_r. ring.
    + unfold fexpm1. rewrite fdiv_fin by lra. reflexivity.
    + reflexivity.
    + lra.
  - rewrite fltb_fin. rewrite Rltb_t by lra. specialize (HO ltac:(lra)).
    assert (Hk : 0 < Rs * G + 1) by (assert (0 <= Rs * G) by (apply Rmult_le_pos; lra); lra).
    assert (Hak : 0 < a * (Rs * G + 1)) by (apply Rmult_lt_0_compat; lra).
    rewrite !fmul_fin, !fadd_fin, !fmul_fin, !fadd_fin, !fsub_fin, !fdiv_fin by lra. rewrite fexp_fin, fmul_fin.
    set (x := Rs * I0 / (a * (Rs * G + 1)) * exp ((Rs * (IL + I0) + V) / (a * (Rs * G + 1)))) in *.
    assert (Hx : 0 < x). { apply Rmult_lt_0_compat; [apply Rdiv_lt_0_compat; [apply Rmult_lt_0_compat; lra|assumption]|apply exp_pos]. }
    unfold overflow. rewrite Rltb_f by exact HO.
    destruct (lambertw_acc x ltac:(lra)) as (w & w' & Hw & E & A & _). rewrite E.
    exists ((IL + I0 - V * G) / (Rs * G + 1) - a / Rs * w), ((IL + I0 - V * G) / (Rs * G + 1) - a / Rs * w').
    split; [|split; [|split]].
    + apply lw_solution_i; try lra. exact Hw.
    + reflexivity.
    + lra.
    + intros _. replace ((IL + I0 - V * G) / (Rs * G + 1) - a / Rs * w' - ((IL + I0 - V * G) / (Rs * G + 1) - a / Rs * w))
        with (a / Rs * (w - w')) by ring.
      assert (0 < a / Rs) by (apply Rdiv_lt_0_compat; lra).
      split; [apply Rmult_le_pos; lra|]. rewrite (Rmult_comm _ (a / Rs)). apply Rmult_le_compat_l; lra.
Qed.
Lemma i_from_v_overflow big V IL I0 Rs rsh G a : 0 < I0 -> 0 < a -> 0 < Rs -> shunt_of rsh G ->
  big < Rs * I0 / (a * (Rs * G + 1)) * exp ((Rs * (IL + I0) + V) / (a * (Rs * G + 1))) ->
  lambertw_i_from_v big #V #IL #I0 #Rs rsh #a = NaN.
Proof.
  intros H0 Ha Hs HS HO. destruct (shunt_gsh rsh G HS) as [EG HG].
  unfold lambertw_i_from_v. cbv zeta. rewrite EG, feqb_fin, fltb_fin. rdec.
  assert (Hk : 0 < Rs * G + 1) by (assert (0 <= Rs * G) by (apply Rmult_le_pos; lra); lra).
  assert (Hak : 0 < a * (Rs * G + 1)) by (apply Rmult_lt_0_compat; lra).
  rewrite !fmul_fin, !fadd_fin, !fmul_fin, !fadd_fin, !fsub_fin, !fdiv_fin by lra. rewrite fexp_fin, fmul_fin.
  unfold overflow. rewrite Rltb_t by exact HO.
  change (lambertw_pvlib PInf) with NaN. reflexivity.
Qed.

(** solutions are unique *)
Lemma simple_unique_v IL I0 Rs G a v1 v2 i : 0 <= IL -> 0 < I0 -> 0 <= Rs -> 0 <= G -> 0 < a ->
  on_curve (simple_diode IL I0 Rs G a) v1 i -> on_curve (simple_diode IL I0 Rs G a) v2 i -> v1 = v2.
Proof.
  intros HL H0 Hs HG Ha C1 C2. unfold on_curve in *.
  assert (v1 + i * Rs = v2 + i * Rs); [|lra].
  apply (unique_vd_i (simple_diode IL I0 Rs G a)); [apply simple_physical; assumption|reflexivity|exact Logic.I|exact Logic.I|].
  simpl in C1, C2. congruence.
Qed.
Lemma simple_unique_i IL I0 Rs G a v i1 i2 : 0 <= IL -> 0 < I0 -> 0 <= Rs -> 0 <= G -> 0 < a ->
  on_curve (simple_diode IL I0 Rs G a) v i1 -> on_curve (simple_diode IL I0 Rs G a) v i2 -> i1 = i2.
Proof.
  intros HL H0 Hs HG Ha C1 C2. unfold on_curve in *. simpl in C1, C2.
  rewrite C1, C2. f_equal.
  apply (unique_vd_v (simple_diode IL I0 Rs G a)); [apply simple_physical; assumption|reflexivity|exact Logic.I|exact Logic.I|].
  rewrite <- C1, <- C2. simpl. ring.
Qed.

(** ** batzelis *)
Lemma batzelis_dark Iph Is Rs Rsh a : Iph <= 0 ->
  batzelis #Iph Is Rs Rsh a = [("p_mp", #0); ("i_mp", #0); ("v_mp", #0); ("i_sc", #0); ("v_oc", #0)]%string.
Proof.
  intros H. unfold batzelis. cbv zeta. rewrite fgtb_fin. rdec. unfold where_. rewrite fmul_fin, Rmult_0_l. reflexivity.
Qed.
Lemma batzelis_lit Iph Is Rs rsh G a : 0 < Iph -> 0 < Is -> 0 <= Rs -> shunt_of rsh G ->
  exists w w' : R, is_W (exp 1 * (Iph / Is)) w /\ 0 < w' /\ 0 <= w - w' <= 1.3e-10 /\
   let imp := Iph * (1 - 1 / w') - a * (w' - 1) * G in let vmp := a * (w' - 1) - Rs * imp in
   batzelis #Iph #Is #Rs rsh #a =
   [("p_mp", #(imp * vmp)); ("i_mp", #imp); ("v_mp", #vmp); ("i_sc", #(Iph / (Rs * G + 1)));
    ("v_oc", #(a * ln (Iph / Is)))]%string.
Proof.
  intros H Hs HR HS. assert (Hr : 0 < Iph / Is) by (apply Rdiv_lt_0_compat; assumption).
  pose proof (exp_pos 1) as P1. assert (Hx : 0 < exp 1 * (Iph / Is)) by (apply Rmult_lt_0_compat; assumption).
  destruct (lambertw_acc (exp 1 * (Iph / Is)) ltac:(lra)) as (w & w' & Hw & E & A & B).
  destruct (W_log _ w Hx Hw) as [Pw _]. exists w, w'. split; [exact Hw|].
  assert (Pw' : 0 < w') by lra. split; [exact Pw'|]. split; [exact A|]. cbv zeta.
  unfold batzelis. cbv zeta. rewrite fmul_fin, (fdiv_fin _ Is) by lra.
  replace (exp 1 * Iph / Is) with (exp 1 * (Iph / Is)) by (field; lra). rewrite E.
  rewrite fgtb_fin. rewrite Rltb_t by exact H. unfold where_.
  rewrite (fdiv_fin 1 w') by lra. rewrite (fdiv_fin Iph Is) by lra. rewrite (fln_fin (Iph / Is)) by exact Hr.
  rewrite !fsub_fin, !fmul_fin.
  assert (E1 : (#(a * (w' - 1)) / rsh)%fl = #(a * (w' - 1) * G)).
  { destruct HS as [(r & -> & Hr' & ->)|(-> & ->)].
    - rewrite fdiv_fin by lra. f_equal. field. lra.
    - simpl. f_equal. ring. }
  assert (E2 : (#Rs / rsh)%fl = #(Rs * G)).
  { destruct HS as [(r & -> & Hr' & ->)|(-> & ->)].
    - rewrite fdiv_fin by lra. f_equal. field. lra.
    - simpl. f_equal. ring. }
  rewrite E1, E2, !fsub_fin, fadd_fin, !fmul_fin. destruct (shunt_gsh rsh G HS) as [_ HG].
  assert (0 <= Rs * G) by (apply Rmult_le_pos; lra).
  rewrite (fdiv_fin Iph) by lra. rewrite fsub_fin, fmul_fin. reflexivity.
Qed.
(** with exact W, no series resistance and no shunt: the maximum of V (Iph - Is e^(V/a)) *)
Lemma batzelis_max Iph Is a w V : 0 < Is -> Is <= Iph -> 0 < a -> is_W (exp 1 * (Iph / Is)) w ->
  V * (Iph - Is * exp (V / a)) <= a * (w - 1) * (Iph * (1 - 1 / w)).
Proof.
  intros Hs H Ha Hw. assert (Hr : 1 <= Iph / Is).
  { apply Rmult_le_reg_r with Is; [exact Hs|]. replace (Iph / Is * Is) with Iph by (field; lra). lra. }
  pose proof (exp_pos 1) as P1.
  assert (W1 : 1 <= w).
  { apply Rnot_lt_le. intros K. destruct Hw as [Hw0 E]. pose proof (W_mono w 1 Hw0 K) as M.
    assert (exp 1 * 1 <= exp 1 * (Iph / Is)) by (apply Rmult_le_compat_l; lra). lra. }
  destruct Hw as [_ E].
  assert (EV : Is * exp (w - 1) = Iph / w).
  { assert (N : exp 1 * exp (- (1)) = 1) by (rewrite <- exp_plus, Rplus_opp_r; apply exp_0).
    unfold Rminus. rewrite exp_plus. apply Rmult_eq_reg_l with w; [|lra].
    replace (w * (Is * (exp w * exp (- (1))))) with (Is * (w * exp w) * exp (- (1))) by ring. rewrite E.
    replace (Is * (exp 1 * (Iph / Is)) * exp (- (1))) with (Iph * (exp 1 * exp (- (1)))) by (field; lra). rewrite N. field. lra. }
  set (vm := a * (w - 1)). assert (Hvm : 0 <= vm) by (unfold vm; apply Rmult_le_pos; lra).
  set (im := Iph * (1 - 1 / w)). assert (Eim : im = Iph / w * (w - 1)) by (unfold im; field; lra).
  assert (Him : 0 <= im). { rewrite Eim. apply Rmult_le_pos; [apply Rlt_le, Rdiv_lt_0_compat; lra|lra]. }
  destruct (Rle_dec 0 V) as [HV|HV].
  - pose proof (exp_tangent a vm V Ha) as T. unfold vm in T at 1. replace (a * (w - 1) / a) with (w - 1) in T by (field; lra).
    apply (Rmult_le_compat_l Is) in T; [|lra]. rewrite <- Rmult_assoc, EV in T.
    assert (Iph - Is * exp (V / a) <= im - Iph / w / a * (V - vm)).
    { rewrite Eim. replace (Iph / w * (1 + (V - vm) / a)) with (Iph / w + Iph / w / a * (V - vm)) in T by (field; lra).
      replace (Iph / w * (w - 1)) with (Iph - Iph / w) by (field; lra). lra. }
    apply (Rmult_le_compat_l V) in H0; [|exact HV]. eapply Rle_trans; [exact H0|].
    assert (Q : 0 <= Iph / w / a * ((V - vm) * (V - vm))).
    { apply Rmult_le_pos; [|apply Rle_0_sqr]. apply Rlt_le. apply Rdiv_lt_0_compat; [apply Rdiv_lt_0_compat|]; lra. }
    assert (Eq : im = Iph / w / a * vm) by (rewrite Eim; unfold vm; field; lra).
    set (k := Iph / w / a) in *. rewrite Eq. 
    replace (V * (k * vm - k * (V - vm))) with (vm * (k * vm) - k * ((V - vm) * (V - vm))) by ring. lra.
  - apply Rnot_le_lt in HV. apply Rle_trans with 0; [|apply Rmult_le_pos; assumption].
    assert (exp (V / a) <= 1).
    { rewrite <- exp_0. apply Rlt_le, exp_increasing. assert (0 < (- V) / a) by (apply Rdiv_lt_0_compat; lra).
      replace (V / a) with (- ((- V) / a)) by (field; lra). lra. }
    assert (Is * exp (V / a) <= Is * 1) by (apply Rmult_le_compat_l; lra).
    assert (0 <= (- V) * (Iph - Is * exp (V / a))) by (apply Rmult_le_pos; lra). lra.
Qed.
