(** C133-C134: model parameters from the parameters of many IV curves. *)
From Verif Require Import Base.Fl Base.FlFacts Base.Py Base.Series Model.IvUtils Model.SingleDiode Model.Pvsystem Spec.DiodeSpec Spec.IvSpec Spec.ScalingSpec
  Proofs.ScalingP Proofs.PvsystemP Proofs.ClearskyD Model.Clearsky Proofs.SdmLoops Proofs.SdmP Props.PSdmSandia Model.SdmSandia.
From Coq Require Import String Psatz.
Open Scope R_scope.
Open Scope list_scope.
Import ListNotations.


Lemma forallb_false {A} (f : A -> bool) l x : In x l -> f x = false -> forallb f l = false.
Proof. intros I F. destruct (forallb f l) eqn:E; [|reflexivity]. rewrite forallb_forall in E. rewrite (E x I) in F. discriminate. Qed.
(** a column with two different entries gets a constant column *)
Lemma add_constant_ok (l : list R) x y : In x l -> In y l -> x <> y -> add_constant (map Fin l) = Ok (map (fun a => [#1; #a]) l).
Proof.
  intros I J N. unfold add_constant. destruct l as [|a l]; [destruct I|]. cbn [map].
  assert (E : exists z, In z l /\ z <> a). { destruct I as [<-|I]; [destruct J as [<-|J]; [congruence|exists y; auto]|]. destruct (Req_EM_T x a) as [->|K]; [|exists x; auto]. destruct J as [<-|J]; [congruence|exists y; auto]. }
  destruct E as (z & Iz & Nz). rewrite (forallb_false _ _ #z (in_map Fin l z Iz)) by (cbn; apply Reqb_f; exact Nz). cbn [andb]. rewrite map_map. reflexivity.
Qed.
Lemma line_solved rlm (pts : list (R * R)) b0 b1 p p' : exact_solver rlm -> In p pts -> In p' pts -> fst p <> fst p' -> Forall (fun r => snd r = b0 + b1 * fst r) pts ->
  rlm (map (fun r => [#1; #(fst r)]) pts) (map (fun r => #(snd r)) pts) = [#b0; #b1].
Proof.
  intros ES I J N F. specialize (ES (map (fun r => [1; fst r]) pts) (map snd pts) [b0; b1]). rewrite !map_map in ES. apply ES.
  - apply Forall_forall. intros row H. apply in_map_iff in H. destruct H as (r & <- & _). reflexivity.
  - unfold fits. clear - F. induction F as [|r l H F IH]; cbn [map]; constructor; [|exact IH]. unfold dot. cbn [combine map fold_right fst snd]. rewrite H. ring.
  - intros b' L FB. destruct b' as [|c0 [|c1 [|? b']]]; try discriminate.
    assert (K : forall r, In r pts -> c0 + c1 * fst r = b0 + b1 * fst r).
    { intros r Hr. rewrite <- (proj1 (Forall_forall _ _) F r Hr). clear - FB Hr. unfold fits in FB. induction pts as [|q pts IH]; [destruct Hr|]. cbn [map] in FB. inversion FB as [|? ? ? ? H1 H2]. subst. destruct Hr as [<-|Hr]; [|apply IH; assumption].
      unfold dot in H1. cbn [combine map fold_right fst snd] in H1. lra. }
    pose proof (K p I) as K1. pose proof (K p' J) as K2. assert (D : (c1 - b1) * (fst p - fst p') = 0) by lra. apply Rmult_integral in D. destruct D as [D|D]; [|lra]. assert (c1 = b1) by lra. subst c1. assert (c0 = b0) by lra. congruence.
Qed.
Lemma mean_const {A} (f : A -> fl) v l : l <> [] -> (forall r, In r l -> f r = #v) -> fmean (map f l) = #v.
Proof.
  intros N H. rewrite (map_ext_in f (fun _ => #v) l H). replace (map (fun _ => #v) l) with (map Fin (map (fun _ : A => v) l)) by (rewrite map_map; reflexivity).
  rewrite fmean_mean by (destruct l; [contradiction|discriminate]). f_equal. unfold mean. rewrite map_length. assert (T : total (map (fun _ : A => v) l) = v * INR (List.length l)).
  { clear. induction l as [|a l IH]; cbn [map total fold_right List.length]; [cbn; ring|]. unfold total in IH. rewrite IH. rewrite S_INR. ring. }
  rewrite T. field. apply not_0_INR. destruct l; [contradiction|discriminate].
Qed.

(** ** C133: the reference values from the parameters of the curves *)
(** the parameters of one curve are those of the De Soto model *)
Definition desoto_row (co : consts) (alpha a IL I0 Rsh Rs Eg dEg : R) (r : curve * pars) : Prop :=
  let m := calcparams_desoto (k_ co / q_ co) #(c_ee (fst r)) #(c_tc (fst r)) #alpha #a #IL #I0 #Rsh #Rs #Eg #dEg #(E0 co) #(T0 co) in
  snd r = Pars (sd_IL m) (sd_I0 m) (sd_Rs m) (sd_Rsh m).
Definition sane (co : consts) (rows : list (curve * pars)) : Prop :=
  0 < k_ co /\ 0 < q_ co /\ 0 < E0 co /\ 0 < T0 co + 273.15 /\ Forall (fun r => 0 < c_ee (fst r) /\ 0 < c_tc (fst r) + 273.15) rows.

Lemma IL_exact co sp (rows : list (curve * pars)) IL : rows <> [] -> E0 co <> 0 -> Forall (fun r => c_ee (fst r) <> 0) rows ->
  (forall r, In r rows -> q_iph (snd r) = #(c_ee (fst r) / E0 co * (IL + m_alpha sp * (c_tc (fst r) - T0 co)))) -> fit_IL co sp rows = #IL.
Proof.
  intros N NE F H. unfold fit_IL. cbv zeta. set (v := fun r : curve * pars => let '(c, p) := r in (q_iph p * (#(E0 co) / #(c_ee c)) - #(m_alpha sp) * (#(c_tc c) - #(T0 co)))%fl).
  assert (V : forall r, In r rows -> v r = #IL).
  { intros [c p] I. unfold v. pose proof (H _ I) as E. pose proof (proj1 (Forall_forall _ _) F _ I) as Q. cbn [fst snd] in *. rewrite E. rewrite fdiv_fin by exact Q. rewrite fmul_fin, !fsub_fin, fmul_fin, fsub_fin. f_equal. field. split; [exact Q|exact NE]. }
  replace (filter (fun x => negb (isnan x)) (map v rows)) with (map v rows); [apply mean_const; assumption|].
  clear - V. induction rows as [|r l IH]; [reflexivity|]. cbn [map filter]. rewrite (V r) by (left; reflexivity). cbn [isnan negb]. f_equal. apply IH. intros r' I. apply V. right. exact I.
Qed.
Lemma Rs_exact (rows : list (curve * pars)) Rs : Exists (fun r => 400 < c_ee (fst r)) rows -> (forall r, In r rows -> q_rs (snd r) = #Rs) -> fit_Rs rows = #Rs.
Proof.
  intros X H. unfold fit_Rs. apply mean_const.
  - apply Exists_exists in X. destruct X as (r & I & L). intros Z. assert (In r (filter (fun r => Rltb 400 (c_ee (fst r))) rows)) as K by (apply filter_In; split; [exact I|apply Rltb_t; exact L]). rewrite Z in K. destruct K.
  - intros r I. apply filter_In in I. apply H, I.
Qed.
Lemma io_exact rlm (rows : list (curve * pars)) (x y : curve * pars -> R) (X Y : list fl) b0 b1 : exact_solver rlm -> X = map (fun r => #(x r)) rows -> Y = map (fun r => #(y r)) rows ->
  (forall r, In r rows -> y r = b0 + b1 * x r) -> (exists r r', In r rows /\ In r' rows /\ x r <> x r') -> fit_io rlm X Y = Ok (#(exp b0), #b1).
Proof.
  intros ES -> -> H (r & r' & I & J & N). unfold fit_io.
  replace (map (fun r => #(x r)) rows) with (map Fin (map x rows)) by (rewrite map_map; reflexivity).
  rewrite (add_constant_ok (map x rows) (x r) (x r') (in_map x rows r I) (in_map x rows r' J) N). cbn [bind]. rewrite map_map.
  pose proof (line_solved rlm (map (fun r => (x r, y r)) rows) b0 b1 (x r, y r) (x r', y r') ES (in_map (fun r => (x r, y r)) rows r I) (in_map (fun r => (x r, y r)) rows r' J) N) as L. rewrite !map_map in L. cbn [fst snd] in L.
  rewrite L; [reflexivity|]. apply Forall_forall. intros q Q. apply in_map_iff in Q. destruct Q as (r0 & <- & Q). cbn [fst snd]. apply H. exact Q.
Qed.
Lemma ln_cube_exp I0 t e : 0 < I0 -> 0 < t -> ln (I0 * t ^ 3 * exp e) - 3 * ln t = ln I0 + e.
Proof.
  intros H1 H2. assert (0 < t ^ 3) by (apply pow_lt; exact H2). rewrite ln_mult by (try apply Rmult_lt_0_compat; try assumption; apply exp_pos). rewrite ln_mult by assumption. rewrite ln_exp.
  assert (C : ln (t ^ 3) = 3 * ln t). { replace (t ^ 3) with (t * t * t) by ring. rewrite !ln_mult; try assumption; [ring|]. apply Rmult_lt_0_compat; assumption. } rewrite C. ring.
Qed.
(** exact De Soto parameters give back IL, I0, Rs and Rsh, but the band gap comes out multiplied by (1 - dEgdT T0)/(1 + dEgdT T0) *)
Theorem C133_desoto_roundtrip : forall rlm co sp cs st u a IL I0 Rsh Rs Eg, exact_solver rlm -> let rows := select u (combine cs st) in sane co rows -> T0 co + 273.15 < 3000 -> 0 < I0 ->
  Forall (desoto_row co (m_alpha sp) a IL I0 Rsh Rs Eg (-0.0002677)) rows ->
  (exists r r', In r rows /\ In r' rows /\ 400 < c_ee (fst r) < c_ee (fst r')) -> (exists r r', In r rows /\ In r' rows /\ c_tc (fst r) <> c_tc (fst r')) ->
  let d := -0.0002677 in let T := T0 co + 273.15 in
  extract_desoto rlm co sp cs st u =
  Ok [("dEgdT", #d); ("I_L_ref", #IL); ("I_o_ref", #I0); ("EgRef", #(Eg * ((1 - d * T) / (1 + d * T)))); ("R_sh_ref", #Rsh); ("R_s", #Rs)]%string.
Proof.
  intros rlm co sp cs st u a IL I0 Rsh Rs Eg ES rows (HK & HQ & HE & HT & HP) HT2 HI HM (e1 & e2 & Ie1 & Ie2 & LE) (t1 & t2 & It1 & It2 & NT) d T.
  assert (kq : 0 < k_ co / q_ co) by (apply Rdiv_lt_0_compat; assumption).
  assert (V : forall r, In r rows -> snd r = Pars #(c_ee (fst r) / E0 co * (IL + m_alpha sp * (c_tc (fst r) - T0 co)))
     #(I0 * ((c_tc (fst r) + 273.15) / T) ^ 3 * exp (Eg / (k_ co / q_ co * T) - Eg * (1 + d * (c_tc (fst r) - T0 co)) / (k_ co / q_ co * (c_tc (fst r) + 273.15)))) #Rs #(Rsh * (E0 co / c_ee (fst r)))).
  { intros r I. pose proof (proj1 (Forall_forall _ _) HP r I) as [P1 P2]. pose proof (proj1 (Forall_forall _ _) HM r I) as D. unfold desoto_row in D. cbv zeta in D. rewrite desoto_fin in D by lra. exact D. }
  assert (ND : rows <> []) by (intros Z; rewrite Z in Ie1; destruct Ie1).
  unfold extract_desoto. cbv zeta. fold rows.
  assert (SH : desoto_rsh rlm co rows = Ok #Rsh).
  { unfold desoto_rsh. cbv zeta. set (sel := filter _ rows). assert (J1 : In e1 sel) by (apply filter_In; split; [exact Ie1|apply Rltb_t; lra]). assert (J2 : In e2 sel) by (apply filter_In; split; [exact Ie2|apply Rltb_t; lra]).
    assert (SI : forall r, In r sel -> In r rows /\ 0 < c_ee (fst r)). { intros r J. apply filter_In in J. split; [apply J|]. apply (proj1 (Forall_forall _ _) HP r). apply J. }
    set (x := fun r : curve * pars => E0 co / c_ee (fst r)).
    rewrite (map_ext_in (fun r => (#(E0 co) / #(c_ee (fst r)))%fl) (fun r => #(x r)) sel) by (intros r J; apply fdiv_fin; apply SI in J; lra).
    rewrite (map_ext_in (fun r => q_rsh (snd r)) (fun r => #(Rsh * x r)) sel) by (intros r J; apply SI in J; rewrite (V r) by apply J; reflexivity).
    replace (map (fun r => #(x r)) sel) with (map Fin (map x sel)) by (rewrite map_map; reflexivity).
    assert (NX : x e1 <> x e2). { unfold x. intros Z. assert (Q : E0 co / c_ee (fst e1) * c_ee (fst e1) * c_ee (fst e2) = E0 co / c_ee (fst e2) * c_ee (fst e1) * c_ee (fst e2)) by (rewrite Z; reflexivity).
      replace (E0 co / c_ee (fst e1) * c_ee (fst e1) * c_ee (fst e2)) with (E0 co * c_ee (fst e2)) in Q by (field; lra). replace (E0 co / c_ee (fst e2) * c_ee (fst e1) * c_ee (fst e2)) with (E0 co * c_ee (fst e1)) in Q by (field; lra). apply Rmult_eq_reg_l in Q; lra. }
    rewrite (add_constant_ok (map x sel) (x e1) (x e2) (in_map x sel e1 J1) (in_map x sel e2 J2) NX). cbn [bind]. rewrite map_map.
    pose proof (line_solved rlm (map (fun r => (x r, Rsh * x r)) sel) 0 Rsh (x e1, Rsh * x e1) (x e2, Rsh * x e2) ES (in_map (fun r => (x r, Rsh * x r)) sel e1 J1) (in_map (fun r => (x r, Rsh * x r)) sel e2 J2) NX) as L. rewrite !map_map in L. cbn [fst snd] in L.
    rewrite L; [reflexivity|]. apply Forall_forall. intros q Q. apply in_map_iff in Q. destruct Q as (r0 & <- & Q). cbn [fst snd]. ring. }
  rewrite SH. cbn [bind].
  assert (DD : 0 < 1 + d * T). { unfold d, T. lra. }
  assert (IO : fit_io rlm (map (fun r => desoto_x co d (fst r)) rows) (map (fun r => io_regressand (#(T0 co) + #273.15)%fl (fst r) (snd r)) rows) = Ok (#(exp (ln I0)), #(Eg * ((1 - d * T) / (1 + d * T))))).
  { apply (io_exact rlm rows (fun r => q_ co / k_ co * (1 / T - 1 / (c_tc (fst r) + 273.15) + d * (c_tc (fst r) - T0 co) / (c_tc (fst r) + 273.15)))
      (fun r => ln I0 + Eg * ((1 - d * T) / (1 + d * T)) * (q_ co / k_ co * (1 / T - 1 / (c_tc (fst r) + 273.15) + d * (c_tc (fst r) - T0 co) / (c_tc (fst r) + 273.15)))) _ _ _ _ ES).
    - apply map_ext_in. intros r J. pose proof (proj1 (Forall_forall _ _) HP r J) as [P1 P2]. unfold desoto_x. cbv zeta. fold T. rewrite !fadd_fin, fsub_fin, fmul_fin. fold T. rewrite !fdiv_fin by (unfold T; lra). rewrite fsub_fin, fadd_fin, fmul_fin. reflexivity.
    - apply map_ext_in. intros r J. pose proof (proj1 (Forall_forall _ _) HP r J) as [P1 P2]. rewrite (V r J). unfold io_regressand. cbn [q_io]. cbv zeta. rewrite !fadd_fin. fold T. rewrite fdiv_fin by (unfold T; lra).
      assert (0 < (c_tc (fst r) + 273.15) / T) by (apply Rdiv_lt_0_compat; assumption). rewrite !fln_fin; [|assumption|apply Rmult_lt_0_compat; [apply Rmult_lt_0_compat; [assumption|apply pow_lt; assumption]|apply exp_pos]].
      rewrite fmul_fin, fsub_fin. f_equal. rewrite ln_cube_exp by assumption. f_equal. assert (T <> 0) by (unfold T; lra). assert (QT : c_tc (fst r) - T0 co = c_tc (fst r) + 273.15 - T) by (unfold T; ring). rewrite QT. set (t := c_tc (fst r) + 273.15) in *. clearbody t T d. unfold Rdiv. field. repeat split; lra.
    - reflexivity.
    - exists t1, t2. split; [exact It1|]. split; [exact It2|]. pose proof (proj1 (Forall_forall _ _) HP t1 It1) as [_ P1]. pose proof (proj1 (Forall_forall _ _) HP t2 It2) as [_ P2]. intros Z. apply NT.
      assert (QT : forall t, t - T0 co = t + 273.15 - T) by (intros t; unfold T; ring). rewrite !QT in Z. apply Rplus_eq_reg_r with (r := 273.15). set (x := c_tc (fst t1) + 273.15) in *. set (y := c_tc (fst t2) + 273.15) in *. assert (T <> 0) by (unfold T; lra). assert (TP : 0 < T) by exact HT. clearbody x y T d.
      apply Rmult_eq_reg_l in Z; [|apply Rgt_not_eq, Rdiv_lt_0_compat; assumption].
      assert (Q : (1 / T - 1 / x + d * (x - T) / x - (1 / T - 1 / y + d * (y - T) / y)) * (x * y) = (x - y) * (1 + d * T)) by (field; repeat split; lra). rewrite Z in Q. replace ((1 / T - 1 / y + d * (y - T) / y - (1 / T - 1 / y + d * (y - T) / y)) * (x * y)) with 0 in Q by ring. symmetry in Q. apply Rmult_integral in Q. lra. }
  fold d. rewrite IO. cbn [bind fst snd]. rewrite exp_ln by exact HI.
  rewrite (IL_exact co sp rows IL ND); [|lra| |intros r J; rewrite (V r J); reflexivity].
  2:{ apply Forall_forall. intros r J. pose proof (proj1 (Forall_forall _ _) HP r J). lra. }
  rewrite (Rs_exact rows Rs); [reflexivity| |intros r J; rewrite (V r J); reflexivity]. apply Exists_exists. exists e1. split; [exact Ie1|lra].
Qed.
Print Assumptions C133_desoto_roundtrip.
(** so a fit of exact De Soto curves (reference temperature 25 C) returns a band gap more than 17 % too large *)
Theorem C133_band_gap_refuted : forall rlm co sp cs st u a IL I0 Rsh Rs Eg, exact_solver rlm -> let rows := select u (combine cs st) in sane co rows -> T0 co = 25 -> 0 < I0 -> 0 < Eg ->
  Forall (desoto_row co (m_alpha sp) a IL I0 Rsh Rs Eg (-0.0002677)) rows ->
  (exists r r', In r rows /\ In r' rows /\ 400 < c_ee (fst r) < c_ee (fst r')) -> (exists r r', In r rows /\ In r' rows /\ c_tc (fst r) <> c_tc (fst r')) ->
  exists params fitted, extract_desoto rlm co sp cs st u = Ok params /\ lookup "EgRef" params = Some #fitted /\ 1.173 * Eg < fitted < 1.174 * Eg.
Proof.
  intros rlm co sp cs st u a IL I0 Rsh Rs Eg ES rows SN HT HI HG HM HX HY. assert (TK : T0 co + 273.15 < 3000) by (rewrite HT; lra).
  pose proof (C133_desoto_roundtrip rlm co sp cs st u a IL I0 Rsh Rs Eg ES SN TK HI HM HX HY) as E. cbv zeta in E. rewrite HT in E.
  eexists. exists (Eg * ((1 - -0.0002677 * (25 + 273.15)) / (1 + -0.0002677 * (25 + 273.15)))). split; [exact E|]. split; [reflexivity|].
  set (r := (1 - -0.0002677 * (25 + 273.15)) / (1 + -0.0002677 * (25 + 273.15))). assert (R : 1.173 < r < 1.174).
  { unfold r. set (b := 1 + -0.0002677 * (25 + 273.15)). assert (B : 0 < b) by (unfold b; lra). replace (1 - -0.0002677 * (25 + 273.15)) with (2 - b) by (unfold b; ring). assert (Q : (2 - b) / b * b = 2 - b) by (field; lra). split; apply (Rmult_lt_reg_r b); try exact B; rewrite ?Q; unfold b; lra. }
  split; rewrite (Rmult_comm _ Eg); apply Rmult_lt_compat_l; lra.
Qed.
Print Assumptions C133_band_gap_refuted.
(** all curves above 400 W/m2 at the same irradiance, or all curves at the same temperature (not the reference): IndexError; no usable curve: ValueError *)
Theorem C133_desoto_errors : forall rlm co sp cs st u, solver_width rlm -> let rows := select u (combine cs st) in let bright := filter (fun r => Rltb 400 (c_ee (fst r))) rows in 0 < E0 co ->
  (bright = [] -> extract_desoto rlm co sp cs st u = Err ValueError) /\
  (forall e, bright <> [] -> Forall (fun r => c_ee (fst r) = e) bright -> extract_desoto rlm co sp cs st u = Err IndexError) /\
  (forall t, Forall (fun r => c_tc (fst r) = t) rows -> 0 < t + 273.15 -> t <> T0 co -> 0 < T0 co + 273.15 < 3000 -> k_ co <> 0 -> q_ co <> 0 -> bright <> [] -> extract_desoto rlm co sp cs st u = Err IndexError).
Proof.
  intros rlm co sp cs st u SW rows bright HE.
  assert (AC : forall (l : list fl) x, l <> [] -> x <> 0 -> Forall (fun y => y = #x) l -> add_constant l = Ok (map (fun a => [a]) l)).
  { intros l x N NX F. destruct l as [|a l]; [contradiction|]. unfold add_constant. pose proof (Forall_inv F). cbn beta in H. subst a. assert (FB : forallb (fun b => feqb b #x) l = true). { apply forallb_forall. intros y Y. rewrite (proj1 (Forall_forall _ _) (Forall_inv_tail F) y Y). cbn. apply Reqb_t. reflexivity. }
    rewrite FB. unfold fneqb. cbn [feqb]. rewrite Reqb_f by exact NX. reflexivity. }
  assert (IX : forall (l : list fl) y, l <> [] -> SdmSandia.index (rlm (map (fun a => [a]) l) y) 1 = Err IndexError).
  { intros l y N. unfold SdmSandia.index. rewrite (proj2 (nth_error_None _ _)); [reflexivity|]. rewrite (SW _ y 1%nat); [lia| |]. { destruct l; [contradiction|discriminate]. } apply Forall_forall. intros row H. apply in_map_iff in H. destruct H as (z & <- & _). reflexivity. }
  assert (BE : forall r, In r bright -> 0 < c_ee (fst r)). { intros r I. apply filter_In in I. destruct I as [_ I]. apply Rltb_true in I. lra. }
  split; [|split].
  - intros Z. unfold extract_desoto. cbv zeta. fold rows. unfold desoto_rsh. fold bright. rewrite Z. reflexivity.
  - intros e N F. unfold extract_desoto. cbv zeta. fold rows. unfold desoto_rsh. cbv zeta. fold bright. rewrite (AC (map (fun r => (#(E0 co) / #(c_ee (fst r)))%fl) bright) (E0 co / e)).
    + cbn [bind]. rewrite IX; [reflexivity|]. destruct bright; [contradiction|discriminate].
    + destruct bright; [contradiction|discriminate].
    + destruct bright as [|r l] eqn:B; [contradiction|]. pose proof (Forall_inv F) as H. cbn beta in H. pose proof (BE r ltac:(left; reflexivity)). apply Rgt_not_eq, Rdiv_lt_0_compat; lra.
    + apply Forall_forall. intros y Y. apply in_map_iff in Y. destruct Y as (r & <- & I). pose proof (BE r I). rewrite (proj1 (Forall_forall _ _) F r I) in *. apply fdiv_fin. lra.
  - intros t F HT NT HT0 NK NQ N. unfold extract_desoto. cbv zeta. fold rows. destruct (desoto_rsh rlm co rows) as [v|e] eqn:D; cbn [bind].
    + unfold fit_io. assert (NR : rows <> []) by (intros Z; apply N; unfold bright; rewrite Z; reflexivity).
      set (x := q_ co / k_ co * (1 / (T0 co + 273.15) - 1 / (t + 273.15) + -0.0002677 * (t - T0 co) / (t + 273.15))).
      rewrite (AC (map (fun r => desoto_x co (-0.0002677) (fst r)) rows) x).
      * cbn [bind]. unfold SdmSandia.index at 1. destruct (nth_error _ 0) eqn:Z.
        -- cbn [bind]. rewrite IX; [reflexivity|]. destruct rows; [contradiction|discriminate].
        -- reflexivity.
      * destruct rows; [contradiction|discriminate].
      * unfold x. set (T := T0 co + 273.15) in *. set (s := t + 273.15) in *. replace (t - T0 co) with (s - T) by (unfold s, T; ring). assert (ST : s <> T) by (unfold s, T; lra). assert (DT : 1 + -0.0002677 * T <> 0) by lra.
        revert DT. clear x. generalize (-0.0002677). intros d DT. replace (1 / T - 1 / s + d * (s - T) / s) with ((s - T) * (1 + d * T) / (T * s)) by (field; lra).
        apply Rmult_integral_contrapositive_currified; [apply Rmult_integral_contrapositive_currified; [exact NQ|apply Rinv_neq_0_compat; exact NK]|]. apply Rmult_integral_contrapositive_currified; [apply Rmult_integral_contrapositive_currified; [lra|exact DT]|]. apply Rinv_neq_0_compat, Rgt_not_eq, Rmult_lt_0_compat; lra.
      * apply Forall_forall. intros y Y. apply in_map_iff in Y. destruct Y as (r & <- & I). unfold desoto_x. cbv zeta. rewrite (proj1 (Forall_forall _ _) F r I). rewrite !fadd_fin, fsub_fin, fmul_fin. rewrite !fdiv_fin by (try exact NK; lra). rewrite fsub_fin, fadd_fin, fmul_fin. reflexivity.
    + f_equal. unfold desoto_rsh in D. cbv zeta in D. fold bright in D. destruct (add_constant _) as [X|e'] eqn:A in D; cbn [bind] in D.
      * unfold SdmSandia.index in D. destruct (nth_error _ 1) in D; [discriminate|congruence].
      * exfalso. unfold add_constant in A. destruct (map (fun r => (#(E0 co) / #(c_ee (fst r)))%fl) bright) eqn:M; [destruct bright; [contradiction|discriminate]|]. destruct (_ && _)%bool in A; discriminate.
Qed.
Print Assumptions C133_desoto_errors.

(** the parameters of one curve are those of the PVsyst model *)
Definition pvsyst_row (co : consts) (alpha gamma mu IL I0 Rshref Rsh0 Rs cells Eg : R) (r : curve * pars) : Prop :=
  let m := calcparams_pvsyst (k_ co) (q_ co) #(c_ee (fst r)) #(c_tc (fst r)) #alpha #gamma #mu #IL #I0 #Rshref #Rsh0 #Rs #cells #5.5 #Eg #(E0 co) #(T0 co) in
  snd r = Pars (sd_IL m) (sd_I0 m) (sd_Rs m) (sd_Rsh m).
Lemma select_zip (f : curve * pars -> fl -> fl) (g : curve -> fl) : forall cs st u, List.length st = List.length cs -> List.length u = List.length cs ->
  zip_with f (select u (combine cs st)) (select u (map g cs)) = map (fun r => f r (g (fst r))) (select u (combine cs st)).
Proof.
  induction cs as [|c cs IH]; intros [|p st] [|b u] H1 H2; try discriminate; [reflexivity|]. unfold select in *. cbn [map combine]. cbn [filter fst]. destruct b; cbn [map zip_with snd fst]; [f_equal|]; apply IH; cbn in *; lia.
Qed.
(** exact PVsyst parameters give back IL, I0, EgRef and Rs; the residuals of the shunt fit vanish at the true values *)
Theorem C133_pvsyst_roundtrip : forall rlm ls co sp cs st u gamma mu IL I0 Rshref Rsh0 Rs Eg, exact_solver rlm -> List.length st = List.length cs -> List.length u = List.length cs ->
  let rows := select u (combine cs st) in let n c := gamma + mu * (c_tc c - T0 co) in sane co rows -> 0 < I0 -> Forall (fun r => n (fst r) <> 0) rows ->
  Forall (pvsyst_row co (m_alpha sp) gamma mu IL I0 Rshref Rsh0 Rs (m_cells sp) Eg) rows -> Exists (fun r => 400 < c_ee (fst r)) rows ->
  (exists r r', In r rows /\ In r' rows /\ (1 / (T0 co + 273.15) - 1 / (c_tc (fst r) + 273.15)) / n (fst r) <> (1 / (T0 co + 273.15) - 1 / (c_tc (fst r') + 273.15)) / n (fst r')) ->
  exists x0, let beta := ls (rsh_residuals co rows) x0 ((#1, #1), (#1e7, #1e6)) in
  extract_pvsyst rlm ls co sp cs st (map (fun c => #(n c)) cs) u =
    Ok [("R_sh_0", fst beta); ("R_sh_exp", #5.5); ("I_L_ref", #IL); ("I_o_ref", #I0); ("EgRef", #Eg); ("R_sh_ref", snd beta); ("R_s", #Rs)]%string /\
  (0 < Rshref -> 0 < Rsh0 -> Forall (fun x => x = #0) (rsh_residuals co rows (#Rsh0, #Rshref))).
Proof.
  intros rlm ls co sp cs st u gamma mu IL I0 Rshref Rsh0 Rs Eg ES L1 L2 rows n (HK & HQ & HE & HT & HP) HI HN HM HB (t1 & t2 & It1 & It2 & NT).
  assert (NX0 : rows <> []) by (intros Z; rewrite Z in It1; destruct It1).
  assert (SM : exists x0, pvsyst_rsh_start cs st = Ok x0).
  { unfold pvsyst_rsh_start. cbv zeta. assert (NS : map q_rsh st <> []). { intros Z. apply map_eq_nil in Z. subst st. apply NX0. unfold rows. destruct cs; [|discriminate]. destruct u; [reflexivity|discriminate]. }
    assert (MX : exists x, np_max (map q_rsh st) = Ok x) by (unfold np_max; destruct (map q_rsh st); [contradiction|eauto]). assert (MN : exists x, np_min (map q_rsh st) = Ok x) by (unfold np_min; destruct (map q_rsh st); [contradiction|eauto]).
    destruct MX as [mx ->], MN as [mn ->]. destruct (existsb _ cs), (existsb _ cs); cbn [bind]; eauto. }
  destruct SM as [x0 SM]. exists x0. cbv zeta.
  set (base := Rmax 0 ((Rshref - Rsh0 * exp (Ropp 5.5)) / (1 - exp (Ropp 5.5)))).
  assert (V : forall r, In r rows -> snd r = Pars #(c_ee (fst r) / E0 co * (IL + m_alpha sp * (c_tc (fst r) - T0 co)))
     #(I0 * ((c_tc (fst r) + 273.15) / (T0 co + 273.15)) ^ 3 * exp (q_ co * Eg / (k_ co * n (fst r)) * (1 / (T0 co + 273.15) - 1 / (c_tc (fst r) + 273.15)))) #Rs (pvsyst_Rsh #(c_ee (fst r)) #Rshref #Rsh0 #5.5 #(E0 co))).
  { intros r I. pose proof (proj1 (Forall_forall _ _) HP r I) as [P1 P2]. pose proof (proj1 (Forall_forall _ _) HN r I) as PN. pose proof (proj1 (Forall_forall _ _) HM r I) as D. unfold pvsyst_row in D. unfold calcparams_pvsyst in D. cbv zeta in D. cbn [sd_IL sd_I0 sd_Rs sd_Rsh] in D.
    unfold pvsyst_gamma in D. rewrite fsub_fin, fmul_fin, fadd_fin in D. fold (n (fst r)) in D. rewrite pvsyst_Io_fin in D by (try exact PN; lra). unfold pvsyst_IL in D. cbv zeta in D. rewrite !fadd_fin, fsub_fin, fmul_fin, fadd_fin in D. rewrite fdiv_fin in D by lra. rewrite fmul_fin in D. rewrite D. f_equal. f_equal. f_equal. f_equal. f_equal. ring. }
  split.
  - unfold extract_pvsyst. cbv zeta. fold rows. rewrite SM. cbn [bind]. set (beta := ls _ _ _). pose proof (select_zip (fun r n => pvsyst_x co (fst r) n) (fun c => #(n c)) cs st u L1 L2) as SZ. fold rows in SZ. rewrite SZ.
    rewrite (io_exact rlm rows (fun r => q_ co / k_ co * (1 / (T0 co + 273.15) - 1 / (c_tc (fst r) + 273.15)) / n (fst r)) (fun r => ln I0 + Eg * (q_ co / k_ co * (1 / (T0 co + 273.15) - 1 / (c_tc (fst r) + 273.15)) / n (fst r))) _ _ (ln I0) Eg ES).
    + cbn [bind fst snd]. rewrite exp_ln by exact HI.
      rewrite (IL_exact co sp rows IL NX0); [|lra| |intros r J; rewrite (V r J); reflexivity].
      2:{ apply Forall_forall. intros r J. pose proof (proj1 (Forall_forall _ _) HP r J). lra. }
      rewrite (Rs_exact rows Rs); [reflexivity|exact HB|intros r J; rewrite (V r J); reflexivity].
    + apply map_ext_in. intros r J. pose proof (proj1 (Forall_forall _ _) HP r J) as [P1 P2]. pose proof (proj1 (Forall_forall _ _) HN r J) as PN. unfold pvsyst_x. cbv zeta. rewrite !fadd_fin. rewrite !fdiv_fin by lra. rewrite fsub_fin, fmul_fin. rewrite fdiv_fin by exact PN. reflexivity.
    + apply map_ext_in. intros r J. pose proof (proj1 (Forall_forall _ _) HP r J) as [P1 P2]. pose proof (proj1 (Forall_forall _ _) HN r J) as PN. cbv beta in PN. rewrite (V r J). unfold io_regressand. cbn [q_io]. cbv zeta. rewrite !fadd_fin. rewrite fdiv_fin by lra.
      assert (0 < (c_tc (fst r) + 273.15) / (T0 co + 273.15)) by (apply Rdiv_lt_0_compat; assumption). rewrite !fln_fin; [|assumption|apply Rmult_lt_0_compat; [apply Rmult_lt_0_compat; [assumption|apply pow_lt; assumption]|apply exp_pos]].
      rewrite fmul_fin, fsub_fin. f_equal. rewrite ln_cube_exp by assumption. f_equal. set (t := c_tc (fst r) + 273.15) in *. set (T := T0 co + 273.15) in *. set (g := n (fst r)) in *. clearbody t T g. field. repeat split; first [exact PN|lra].
    + reflexivity.
    + exists t1, t2. split; [exact It1|]. split; [exact It2|]. intros Z. apply NT. apply (Rmult_eq_reg_l (q_ co / k_ co)); [|apply Rgt_not_eq, Rdiv_lt_0_compat; assumption]. unfold Rdiv in *. lra.
  - intros P1 P2. unfold rsh_residuals. cbn [fst snd]. apply Forall_forall. intros x X. apply in_map_iff in X. destruct X as (r & <- & J). rewrite (V r J). cbn [q_rsh]. pose proof (proj1 (Forall_forall _ _) HP r J) as [Q1 Q2]. rewrite pvsyst_Rsh_fin by lra. cbv zeta. fold base.
    set (e := exp (Ropp 5.5 * c_ee (fst r) / E0 co)). assert (EP : 0 < e <= 1). { split; [apply exp_pos|]. replace 1 with (exp 0) by apply exp_0. apply Rlt_le, exp_increasing. assert (0 < c_ee (fst r) / E0 co) by (apply Rdiv_lt_0_compat; assumption). unfold Rdiv in *. lra. }
    assert (BP : 0 <= base) by apply Rmax_l. assert (RP : 0 < base + (Rsh0 - base) * e). { assert (0 < Rsh0 * e) by (apply Rmult_lt_0_compat; lra). assert (0 <= base * (1 - e)) by (apply Rmult_le_pos; lra). lra. }
    unfold flog10. rewrite fln_fin by exact RP. assert (L10 : 0 < ln 10). { rewrite <- ln_1. apply ln_increasing; lra. } rewrite fdiv_fin by lra. rewrite fsub_fin. f_equal. ring.
Qed.
Print Assumptions C133_pvsyst_roundtrip.
(** vanishing residuals mean that the fitted curve passes through every shunt resistance, and two irradiances then determine both values *)
Theorem C133_pvsyst_shunt : forall co (rows : list (curve * pars)) r0 rref, 0 < E0 co -> 0 < r0 -> 0 <= rref -> Forall (fun r => 0 <= c_ee (fst r) /\ exists x, q_rsh (snd r) = #x /\ 0 < x) rows ->
  (Forall (fun x => x = #0) (rsh_residuals co rows (#r0, #rref)) <-> Forall (fun r => q_rsh (snd r) = pvsyst_Rsh #(c_ee (fst r)) #rref #r0 #5.5 #(E0 co)) rows).
Proof.
  intros co rows r0 rref HE H0 HR F. assert (L10 : 0 < ln 10). { rewrite <- ln_1. apply ln_increasing; lra. }
  unfold rsh_residuals. cbn [fst snd]. rewrite Forall_map. assert (K : forall r, In r rows -> ((flog10 (pvsyst_Rsh #(c_ee (fst r)) #rref #r0 #5.5 #(E0 co)) - flog10 (q_rsh (snd r)))%fl = #0 <-> q_rsh (snd r) = pvsyst_Rsh #(c_ee (fst r)) #rref #r0 #5.5 #(E0 co))).
  { intros r I. destruct (proj1 (Forall_forall _ _) F r I) as (P & x & -> & PX). rewrite pvsyst_Rsh_fin by lra. cbv zeta. set (base := Rmax 0 ((rref - r0 * exp (Ropp 5.5)) / (1 - exp (Ropp 5.5)))). set (e := exp (Ropp 5.5 * c_ee (fst r) / E0 co)).
    assert (EP : 0 < e <= 1). { split; [apply exp_pos|]. replace 1 with (exp 0) by apply exp_0. assert (0 <= c_ee (fst r) / E0 co) by (apply Rmult_le_pos; [exact P|apply Rlt_le, Rinv_0_lt_compat; exact HE]). unfold e. destruct (Req_dec (Ropp 5.5 * c_ee (fst r) / E0 co) 0) as [->|Z]; [lra|]. apply Rlt_le, exp_increasing. unfold Rdiv in *. lra. }
    assert (BP : 0 <= base) by apply Rmax_l. assert (RP : 0 < base + (r0 - base) * e). { assert (0 < r0 * e) by (apply Rmult_lt_0_compat; lra). assert (0 <= base * (1 - e)) by (apply Rmult_le_pos; lra). lra. }
    unfold flog10. rewrite !fln_fin by assumption. rewrite !fdiv_fin by lra. rewrite fsub_fin. split; intros E.
    - apply Fin_inj in E. f_equal. apply ln_inv; try assumption. assert (E' : ln (base + (r0 - base) * e) / ln 10 * ln 10 = ln x / ln 10 * ln 10) by (f_equal; lra). unfold Rdiv in E'. rewrite !Rmult_assoc, Rinv_l in E' by lra. lra.
    - apply Fin_inj in E. rewrite <- E. f_equal. ring. }
  rewrite !Forall_forall. split; intros H r I; apply K; auto.
Qed.
Print Assumptions C133_pvsyst_shunt.
Theorem C133_pvsyst_shunt_unique : forall E0 e1 e2 r0 rref r0' rref', 0 < E0 -> 0 <= e1 < e2 -> r0 * exp (Ropp 5.5) < rref -> r0' * exp (Ropp 5.5) <= rref' ->
  (forall e, e = e1 \/ e = e2 -> pvsyst_Rsh #e #rref #r0 #5.5 #E0 = pvsyst_Rsh #e #rref' #r0' #5.5 #E0) -> r0' = r0 /\ rref' = rref.
Proof.
  intros E0 e1 e2 r0 rref r0' rref' HE [H1 H2] HR HR' H. pose proof (H e1 (or_introl eq_refl)) as A. pose proof (H e2 (or_intror eq_refl)) as B. rewrite !pvsyst_Rsh_fin in A, B by lra. cbv zeta in A, B. apply Fin_inj in A, B.
  set (z := exp (Ropp 5.5)) in *. assert (Z : 0 < z < 1). { split; [apply exp_pos|]. replace 1 with (exp 0) by apply exp_0. apply exp_increasing. lra. }
  assert (M : forall r q, r * z <= q -> Rmax 0 ((q - r * z) / (1 - z)) = (q - r * z) / (1 - z)). { intros r q L. apply Rmax_right. apply Rmult_le_pos; [lra|apply Rlt_le, Rinv_0_lt_compat; lra]. }
  rewrite (M r0 rref) in A, B by lra. rewrite (M r0' rref') in A, B by lra. set (b := (rref - r0 * z) / (1 - z)) in *. set (b' := (rref' - r0' * z) / (1 - z)) in *.
  set (x := exp (Ropp 5.5 * e1 / E0)) in *. set (y := exp (Ropp 5.5 * e2 / E0)) in *. assert (XY : y < x). { apply exp_increasing. unfold Rdiv. apply Rmult_lt_compat_r; [apply Rinv_0_lt_compat; exact HE|]. lra. }
  assert (D : (x - y) * ((r0 - b) - (r0' - b')) = 0) by lra. apply Rmult_integral in D. destruct D as [D|D]; [lra|]. assert (D2 : b = b'). { assert (r0 - b = r0' - b') as E by lra. rewrite E in A. lra. } assert (r0' = r0) by lra. split; [assumption|]. subst r0'.
  assert (Q : b * (1 - z) = b' * (1 - z)) by (rewrite D2; reflexivity). unfold b, b' in Q. unfold Rdiv in Q. rewrite !Rmult_assoc, Rinv_l in Q by lra. lra.
Qed.
Print Assumptions C133_pvsyst_shunt_unique.
(** the starting point of that fit: mean Rsh below and above 400 W/m2 (of all curves with a value), else the extreme value *)
Theorem C133_pvsyst_start : forall cs st, cs <> [] -> List.length st = List.length cs -> exists g0 gr, pvsyst_rsh_start cs st = Ok (g0, gr) /\
  let rsh_where f := map snd (filter (fun r => (negb (isnan (snd r)) && f (c_ee (fst r)))%bool) (combine cs (map q_rsh st))) in
  (Exists (fun c => c_ee c < 400) cs -> g0 = fmean (rsh_where (fun e => Rltb e 400))) /\ (Exists (fun c => 400 < c_ee c) cs -> gr = fmean (rsh_where (fun e => Rltb 400 e))) /\
  (Forall (fun c => 400 <= c_ee c) cs -> g0 = fold_left fmax (map q_rsh st) NInf) /\ (Forall (fun c => c_ee c <= 400) cs -> gr = fold_left fmin (map q_rsh st) PInf).
Proof.
  intros cs st N L. unfold pvsyst_rsh_start. cbv zeta. assert (NS : st <> []) by (intros ->; destruct cs; [contradiction|discriminate]).
  assert (MX : np_max (map q_rsh st) = Ok (fold_left fmax (map q_rsh st) NInf)). { destruct st as [|p st]; [contradiction|]. cbn [map np_max fold_left]. replace (fmax NInf (q_rsh p)) with (q_rsh p) by (destruct (q_rsh p); reflexivity). reflexivity. }
  assert (MN : np_min (map q_rsh st) = Ok (fold_left fmin (map q_rsh st) PInf)). { destruct st as [|p st]; [contradiction|]. cbn [map np_min fold_left]. replace (fmin PInf (q_rsh p)) with (q_rsh p) by (destruct (q_rsh p); reflexivity). reflexivity. }
  rewrite MX, MN. assert (EX : forall f (P : curve -> Prop), (forall c, f c = true <-> P c) -> Exists P cs -> existsb f cs = true). { intros f P H X. apply Exists_exists in X. destruct X as (c & I & Q). apply existsb_exists. exists c. split; [exact I|apply H, Q]. }
  assert (EF : forall f (P : curve -> Prop), (forall c, f c = true -> ~ P c) -> Forall P cs -> existsb f cs = false). { intros f P H X. destruct (existsb f cs) eqn:E; [|reflexivity]. apply existsb_exists in E. destruct E as (c & I & Q). exfalso. apply (H c Q). apply (proj1 (Forall_forall _ _) X c I). }
  set (lo := existsb (fun c => Rltb (c_ee c) 400) cs) in *. set (hi := existsb (fun c => Rltb 400 (c_ee c)) cs) in *.
  exists (if lo then fmean (map snd (filter (fun r => (negb (isnan (snd r)) && Rltb (c_ee (fst r)) 400)%bool) (combine cs (map q_rsh st)))) else fold_left fmax (map q_rsh st) NInf),
    (if hi then fmean (map snd (filter (fun r => (negb (isnan (snd r)) && Rltb 400 (c_ee (fst r)))%bool) (combine cs (map q_rsh st)))) else fold_left fmin (map q_rsh st) PInf).
  split; [destruct lo, hi; reflexivity|]. split; [|split; [|split]]; intros X.
  - unfold lo. rewrite (EX _ (fun c => c_ee c < 400)); [reflexivity|intros c; apply Rltb_true|exact X].
  - unfold hi. rewrite (EX _ (fun c => 400 < c_ee c)); [reflexivity|intros c; apply Rltb_true|exact X].
  - unfold lo. rewrite (EF _ (fun c => 400 <= c_ee c)); [reflexivity|intros c Q; apply Rltb_true in Q; lra|exact X].
  - unfold hi. rewrite (EF _ (fun c => c_ee c <= 400)); [reflexivity|intros c Q; apply Rltb_true in Q; lra|exact X].
Qed.
Print Assumptions C133_pvsyst_start.
(** two curves that meet the hypotheses of both round trips *)
Example C133_nonvacuous : let co := Consts 1.38066e-23 1.60218e-19 1000 25 in let c1 := Curve 1000 25 9 40 8 32 [] in let c2 := Curve 800 50 7 38 6 30 [] in
  exists p1 p2, let rows := select [true; true] (combine [c1; c2] [p1; p2]) in sane co rows /\ Forall (desoto_row co 0.01 2 9 1e-9 300 0.3 1.121 (-0.0002677)) rows /\
  (exists r r', In r rows /\ In r' rows /\ 400 < c_ee (fst r) < c_ee (fst r')) /\ (exists r r', In r rows /\ In r' rows /\ c_tc (fst r) <> c_tc (fst r')).
Proof.
  intros co c1 c2. set (m := fun c => calcparams_desoto (k_ co / q_ co) #(c_ee c) #(c_tc c) #0.01 #2 #9 #1e-9 #300 #0.3 #1.121 #(-0.0002677) #(E0 co) #(T0 co)). set (p := fun c => Pars (sd_IL (m c)) (sd_I0 (m c)) (sd_Rs (m c)) (sd_Rsh (m c))).
  exists (p c1), (p c2). cbv zeta. unfold select. cbn [combine filter fst map snd]. split; [|split; [|split]].
  - unfold sane, co, c1, c2. cbn [k_ q_ E0 T0 fst c_ee c_tc]. repeat split; try lra. repeat constructor; cbn [fst c_ee c_tc]; lra.
  - constructor; [|constructor; [|constructor]]; unfold desoto_row; cbn [fst snd]; reflexivity.
  - exists (c2, p c2), (c1, p c1). split; [right; left; reflexivity|]. split; [left; reflexivity|]. unfold c1, c2. cbn [fst c_ee]. lra.
  - exists (c2, p c2), (c1, p c1). split; [right; left; reflexivity|]. split; [left; reflexivity|]. unfold c1, c2. cbn [fst c_tc]. lra.
Qed.

(** ** C134: the diode factor, and the fits end to end *)
(** a module whose Voc follows V0 + beta (T - T0) + n Ns Vth ln(E/E0) gives n *)
Theorem C134_desoto_diode : forall rlm co sp cs n V0, exact_solver rlm -> 0 < E0 co -> Forall (fun c => 0 < c_ee c) cs ->
  Forall (fun c => c_voc c = V0 + m_beta sp * (c_tc c - T0 co) + n * (m_cells sp * vth co c * ln (c_ee c / E0 co))) cs ->
  (exists c c', In c cs /\ In c' cs /\ m_cells sp * vth co c * ln (c_ee c / E0 co) <> m_cells sp * vth co c' * ln (c_ee c' / E0 co)) -> desoto_diode rlm co sp cs = Ok #n.
Proof.
  intros rlm co sp cs n V0 ES HE HP HV (c & c' & I & J & N). unfold desoto_diode. cbv zeta. set (x := fun c => m_cells sp * vth co c * ln (c_ee c / E0 co)). set (y := fun c => c_voc c - m_beta sp * (c_tc c - T0 co)).
  rewrite (map_ext_in _ (fun c => #(x c)) cs). 2:{ intros d D. pose proof (proj1 (Forall_forall _ _) HP d D) as P. cbv beta in P. rewrite fdiv_fin by lra. rewrite fln_fin by (apply Rdiv_lt_0_compat; assumption). rewrite fmul_fin. reflexivity. }
  replace (map (fun c => #(x c)) cs) with (map Fin (map x cs)) by (rewrite map_map; reflexivity). rewrite (add_constant_ok (map x cs) (x c) (x c') (in_map x cs c I) (in_map x cs c' J) N). cbn [bind]. rewrite map_map.
  pose proof (line_solved rlm (map (fun c => (x c, y c)) cs) V0 n (x c, y c) (x c', y c') ES (in_map (fun c => (x c, y c)) cs c I) (in_map (fun c => (x c, y c)) cs c' J) N) as L. rewrite !map_map in L. cbn [fst snd] in L.
  change (map (fun c => #(c_voc c - m_beta sp * (c_tc c - T0 co))) cs) with (map (fun c => #(y c)) cs). rewrite L; [reflexivity|]. apply Forall_forall. intros q Q. apply in_map_iff in Q. destruct Q as (d & <- & Q). cbn [fst snd]. pose proof (proj1 (Forall_forall _ _) HV d Q) as H. cbv beta in H. unfold y, x. rewrite H. ring.
Qed.
Print Assumptions C134_desoto_diode.
(** the PVsyst regression: one row per curve that has a shunt resistance r with isc > voc/r *)
Definition voc_row (co : consts) (sp : module_specs) (c : curve) : list R :=
  let T := c_tc c + 273.15 in let dT := c_tc c - T0 co in let x1 := q_ co / k_ co * (1 / (T0 co + 273.15) - 1 / T) in let x2 := c_voc c / (k_ co / q_ co * T * m_cells sp) in
  [1; x1; - x1 * dT; x2; - x2 * dT].
Definition voc_value (co : consts) (c : curve) (r : R) : R := ln (c_isc c - c_voc c / r) - 3 * ln ((c_tc c + 273.15) / (T0 co + 273.15)).
Inductive voc_usable : list curve -> list fl -> list (curve * R) -> Prop :=
| vu_nil : voc_usable [] [] []
| vu_use c r cs rsh l : r <> 0 -> 0 < c_isc c - c_voc c / r -> voc_usable cs rsh l -> voc_usable (c :: cs) (#r :: rsh) ((c, r) :: l)
| vu_negative c r cs rsh l : r <> 0 -> c_isc c - c_voc c / r < 0 -> voc_usable cs rsh l -> voc_usable (c :: cs) (#r :: rsh) l
| vu_missing c cs rsh l : voc_usable cs rsh l -> voc_usable (c :: cs) (NaN :: rsh) l.
Lemma gamma_rows co sp cs rsh l : k_ co <> 0 -> q_ co <> 0 -> m_cells sp <> 0 -> 0 < T0 co + 273.15 -> Forall (fun c => 0 < c_tc c + 273.15) cs -> voc_usable cs rsh l ->
  pvsyst_gamma_rows co sp cs rsh = map (fun r => (map Fin (voc_row co sp (fst r)), #(voc_value co (fst r) (snd r)))) l.
Proof.
  intros HK HQ HM HT HP U. unfold pvsyst_gamma_rows. cbv zeta. match goal with |- context [zip_with ?f cs rsh] => set (row := f) end.
  assert (R1 : forall c r, 0 < c_tc c + 273.15 -> r <> 0 -> 0 < c_isc c - c_voc c / r -> row c #r = (map Fin (voc_row co sp c), #(voc_value co c r), false)).
  { intros c r HC NR HI. assert (VN : vth co c * m_cells sp <> 0) by (unfold vth; repeat apply Rmult_integral_contrapositive_currified; try assumption; try apply Rinv_neq_0_compat; try assumption; lra).
    assert (0 < (c_tc c + 273.15) / (T0 co + 273.15)) as TP by (apply Rdiv_lt_0_compat; assumption). unfold row.
    rewrite (fdiv_fin (c_voc c) r NR), (fsub_fin (c_isc c) (c_voc c / r)), (fln_fin _ HI). rewrite (fdiv_fin (c_tc c + 273.15) (T0 co + 273.15)) by lra. rewrite (fln_fin _ TP). rewrite fmul_fin, !fsub_fin. rewrite !(fdiv_fin 1) by lra. rewrite (fdiv_fin (q_ co) (k_ co)) by exact HK. rewrite fsub_fin, fmul_fin.
    cbn [isnan orb]. rewrite (fdiv_fin _ _ VN). rewrite !fneg_fin, !fmul_fin. unfold voc_row. cbv zeta. cbn [map]. unfold vth. replace (c_tc c + 273.15 - (T0 co + 273.15)) with (c_tc c - T0 co) by ring. reflexivity. }
  assert (R2 : forall c r, r <> 0 -> c_isc c - c_voc c / r < 0 -> snd (row c #r) = true).
  { intros c r NR HI. unfold row. cbn [snd]. rewrite (fdiv_fin (c_voc c) r NR), (fsub_fin (c_isc c) (c_voc c / r)). replace (fln #(c_isc c - c_voc c / r)) with NaN; [reflexivity|]. cbn [fln]. unfold Rpos, Rneg. rewrite ?Rltb_f by lra. rewrite ?Reqb_f by lra. reflexivity. }
  assert (R3 : forall c, snd (row c NaN) = true) by (intros c; reflexivity). clearbody row.
  induction U as [|c r cs rsh l NR HI U IH|c r cs rsh l NR HI U IH|c cs rsh l U IH]; [reflexivity| | |].
  all: pose proof (Forall_inv HP) as HC; cbv beta in HC; specialize (IH (Forall_inv_tail HP)); cbn [zip_with filter].
  - rewrite (R1 c r HC NR HI). cbn [snd negb map fst]. rewrite IH. reflexivity.
  - rewrite (R2 c r NR HI). exact IH.
  - rewrite (R3 c). exact IH.
Qed.
(** a module whose 1/gamma is a - b (T - T0) gives gamma_ref = 1/a and, for mu_gamma, the derivative of gamma at T0 *)
Theorem C134_gamma : forall lstsq co sp cs rsh used a b lnI0 Eg, exact_solver lstsq -> k_ co <> 0 -> q_ co <> 0 -> m_cells sp <> 0 -> 0 < T0 co + 273.15 -> Forall (fun c => 0 < c_tc c + 273.15) cs ->
  voc_usable cs rsh used -> a <> 0 ->
  Forall (fun r => let c := fst r in let g := 1 / (a - b * (c_tc c - T0 co)) in a - b * (c_tc c - T0 co) <> 0 /\
    c_isc c - c_voc c / snd r = exp lnI0 * ((c_tc c + 273.15) / (T0 co + 273.15)) ^ 3 * exp (q_ co * Eg / (k_ co * g) * (1 / (T0 co + 273.15) - 1 / (c_tc c + 273.15))) * exp (c_voc c / (g * m_cells sp * (k_ co / q_ co * (c_tc c + 273.15))))) used ->
  (forall x, List.length x = 5%nat -> fits x (map (fun r => voc_row co sp (fst r)) used) (map (fun r => voc_value co (fst r) (snd r)) used) -> x = [lnI0; Eg * a; Eg * b; a; b]) ->
  fit_gamma lstsq co sp cs rsh = Ok (#(1 / a), #(b / a ^ 2)) /\ derivable_pt_lim (fun T => 1 / (a - b * (T - T0 co))) (T0 co) (b / a ^ 2).
Proof.
  intros lstsq co sp cs rsh used a b lnI0 Eg ES HK HQ HM HT HP U NA HD HU. split.
  - unfold fit_gamma. cbv zeta. rewrite (gamma_rows co sp cs rsh used HK HQ HM HT HP U). rewrite !map_map. cbn [fst snd].
    specialize (ES (map (fun r => voc_row co sp (fst r)) used) (map (fun r => voc_value co (fst r) (snd r)) used) [lnI0; Eg * a; Eg * b; a; b]). rewrite !map_map in ES. rewrite ES.
    + unfold SdmSandia.index. cbn [map nth_error bind]. rewrite fdiv_fin by exact NA. rewrite fpown_fin. rewrite fdiv_fin by (apply pow_nonzero; exact NA). reflexivity.
    + apply Forall_forall. intros row H. apply in_map_iff in H. destruct H as (r & <- & _). reflexivity.
    + assert (PU : Forall (fun r => 0 < c_tc (fst r) + 273.15) used). { clear - U HP. induction U as [|c r cs rsh l NR HI U IH|c r cs rsh l NR HI U IH|c cs rsh l U IH]; [constructor|constructor; [exact (Forall_inv HP)|apply IH, (Forall_inv_tail HP)]|apply IH, (Forall_inv_tail HP)|apply IH, (Forall_inv_tail HP)]. }
      unfold fits. clear - HD PU HK HQ HM HT. induction used as [|r used IH]; cbn [map]; constructor; [|apply IH; [exact (Forall_inv_tail HD)|exact (Forall_inv_tail PU)]].
      destruct (Forall_inv HD) as [GN D]. pose proof (Forall_inv PU) as PT. cbv beta in PT. unfold voc_value. rewrite D. assert (TP : 0 < (c_tc (fst r) + 273.15) / (T0 co + 273.15)) by (apply Rdiv_lt_0_compat; assumption).
      rewrite Rmult_assoc, <- exp_plus. rewrite ln_cube_exp by (try apply exp_pos; exact TP). rewrite ln_exp. unfold voc_row. cbv zeta. unfold dot. cbn [combine map fold_right fst snd]. set (T := c_tc (fst r) + 273.15) in *. set (Tr := T0 co + 273.15) in *. set (dT := c_tc (fst r) - T0 co) in *. set (g := a - b * dT) in *.
      replace (Eg * a * (q_ co / k_ co * (1 / Tr - 1 / T)) + (Eg * b * (- (q_ co / k_ co * (1 / Tr - 1 / T)) * dT) + (a * (c_voc (fst r) / (k_ co / q_ co * T * m_cells sp)) + (b * (- (c_voc (fst r) / (k_ co / q_ co * T * m_cells sp)) * dT) + 0)))) with
        (g * (Eg * (q_ co / k_ co * (1 / Tr - 1 / T)) + c_voc (fst r) / (k_ co / q_ co * T * m_cells sp))) by (unfold g; ring).
      clearbody g T Tr. clear D TP. match goal with |- ?p * 1 + ?q = ?p + ?s => enough (q = s) by lra end. field. repeat split; first [assumption|lra].
    + exact HU.
  - apply inv_affine_derive. exact NA.
Qed.
Print Assumptions C134_gamma.
(** the whole fits: RuntimeError if the diode factor cannot be determined; otherwise every returned curve meets its Isc, the flags are
    those of the filter, and a curve without a positive co-content Rsh comes out missing and unused *)
Definition fitted_curves (cs : list curve) (nn rsh : list fl) (f : sandia_fit) : Prop :=
  List.length (f_curves f) = List.length cs /\ f_u f = filter_params cs (f_curves f) /\
  forall i c a r, nth_error cs i = Some c -> nth_error nn i = Some a -> nth_error rsh i = Some r -> exists p, nth_error (f_curves f) i = Some p /\
    (fgtb r #0 = false -> q_io p = NaN /\ q_rs p = NaN /\ q_rsh p = r /\ nth_error (f_u f) i = Some false) /\
    (forall iph io rs rsh a', p = Pars #iph #io #rs #rsh -> a = #a' -> a' <> 0 -> rsh <> 0 -> on_sde_curve iph io rs rsh a' 0 (c_isc c)).
Lemma mapM_length {A B} (f : A -> res B) : forall l m, mapM f l = Ok m -> List.length m = List.length l.
Proof. induction l as [|a l IH]; intros m E; cbn in E; [apply Ok_inj in E; subst; reflexivity|]. destruct (f a); [|discriminate]. cbn [bind] in E. destruct (mapM f l) eqn:M; [|discriminate]. cbn [bind] in E. apply Ok_inj in E. subst m. cbn [List.length]. f_equal. apply IH. reflexivity. Qed.
Lemma curves_fitted big sd cs nn rsh s1 u1 maxiter eps s2 u2 d : List.length rsh = List.length cs -> List.length nn = List.length cs -> (1 <= maxiter)%nat -> isnan eps = false ->
  initial_iv_params big cs rsh nn = Ok (s1, u1) -> update_iv_params big sd cs nn s1 u1 maxiter eps = Ok (s2, u2) -> fitted_curves cs nn rsh (SandiaFit d s2 u2).
Proof.
  intros L1 L2 M NE E1 E2. destruct (C132_initial big cs rsh nn s1 u1 L1 L2 E1) as (_ & G1 & G2 & G3). destruct (C132_result big sd cs nn s1 u1 maxiter eps s2 u2 L2 G1 G2 NE M E2) as (H1 & H2 & H3).
  split; [exact H1|]. split; [exact H2|]. intros i c a r C A Hr. destruct (G3 i c a r C A Hr) as (p & P & Q1 & Q2 & Q3 & _). destruct (H3 i c a p C A P) as (p' & P' & K1 & K2). exists p'. split; [exact P'|]. split; [|exact K2].
  intros G. destruct (Q3 G) as [-> U]. assert (B : good (efficiency cs) c (Pars NaN NaN NaN r) = false). { unfold good. cbn [q_io q_rs q_rsh isnan]. rewrite !Bool.orb_true_r. cbn [negb]. rewrite !Bool.andb_false_r. reflexivity. }
  destruct (K1 U B) as (K3 & K4 & K5 & K6). repeat split; assumption.
Qed.
(** the co-content fit that starts the iteration gets each curve's clean points and the thermal voltage N k T / q of its cells *)
Theorem C134_start : forall coco co sp cs rsh, q_ co <> 0 ->
  (start_rsh coco co sp cs = Ok rsh <-> Forall2 (fun c r => coco (rectify_iv_curve (c_points c) None) (m_cells sp * k_ co * (c_tc c + 273.15) / q_ co) = Ok r) cs rsh).
Proof.
  intros coco co sp cs rsh NQ. unfold start_rsh. assert (V : forall c, vth co c * m_cells sp = m_cells sp * k_ co * (c_tc c + 273.15) / q_ co) by (intros c; unfold vth; field; exact NQ). split.
  - revert rsh. induction cs as [|c cs IH]; intros rsh E; cbn [mapM] in E; [injection E as <-; constructor|]. destruct (coco _ _) as [r|] eqn:F in E; [|discriminate]. cbn [bind] in E. destruct (mapM _ cs) as [rs|]; [|discriminate]. cbn [bind] in E. injection E as <-. constructor; [rewrite <- V; exact F|apply IH; reflexivity].
  - intros H. induction H as [|c r cs rsh F H IH]; [reflexivity|]. cbn [mapM]. rewrite V, F. cbn [bind]. rewrite IH. reflexivity.
Qed.
Print Assumptions C134_start.
Theorem C134_fit_desoto : forall big sd rlm coco co sp cs maxiter eps, (1 <= maxiter)%nat -> isnan eps = false ->
  (forall f, fit_desoto_sandia big sd rlm coco co sp cs maxiter eps = Ok f -> exists rsh n0, start_rsh coco co sp cs = Ok rsh /\ desoto_diode rlm co sp cs = Ok n0 /\ isnan n0 = false /\
     fitted_curves cs (map (fun c => (n0 * #(m_cells sp) * #(vth co c))%fl) cs) rsh f /\
     extract_desoto rlm co sp cs (f_curves f) (f_u f) = Ok (firstn 6 (f_params f)) /\ map fst (f_params f) = ["dEgdT"; "I_L_ref"; "I_o_ref"; "EgRef"; "R_sh_ref"; "R_s"; "a_ref"; "cells_in_series"]%string /\
     lookup "cells_in_series" (f_params f) = Some #(m_cells sp) /\ (forall n, n0 = #n -> q_ co <> 0 -> lookup "a_ref" (f_params f) = Some #(n * m_cells sp * (k_ co / q_ co) * (T0 co + 273.15)))) /\
  (forall rsh n0, start_rsh coco co sp cs = Ok rsh -> desoto_diode rlm co sp cs = Ok n0 -> isnan n0 = true -> fit_desoto_sandia big sd rlm coco co sp cs maxiter eps = Err RuntimeError) /\
  (cs = [] -> fit_desoto_sandia big sd rlm coco co sp cs maxiter eps = Err ValueError).
Proof.
  intros big sd rlm coco co sp cs maxiter eps M NE. split; [|split].
  - intros f E. unfold fit_desoto_sandia in E. destruct (start_rsh coco co sp cs) as [rsh|] eqn:ER; [|discriminate]. cbn [bind] in E. destruct (desoto_diode rlm co sp cs) as [n0|] eqn:ED; [|discriminate]. cbn [bind] in E. destruct (isnan n0) eqn:EN; [discriminate|]. cbv zeta in E.
    set (nn := map (fun c => (n0 * #(m_cells sp) * #(vth co c))%fl) cs) in *. destruct (initial_iv_params big cs rsh nn) as [[s1 u1]|] eqn:E1; [|discriminate]. cbn [bind fst snd] in E. destruct (update_iv_params big sd cs nn s1 u1 maxiter eps) as [[s2 u2]|] eqn:E2; [|discriminate]. cbn [bind fst snd] in E.
    destruct (extract_desoto rlm co sp cs s2 u2) as [d|] eqn:EX; [|discriminate]. cbn [bind] in E. apply Ok_inj in E. subst f. exists rsh, n0. cbn [f_params f_curves f_u]. split; [reflexivity|]. split; [reflexivity|]. split; [exact EN|].
    assert (LR : List.length rsh = List.length cs) by (unfold start_rsh in ER; apply mapM_length in ER; exact ER). assert (LN : List.length nn = List.length cs) by apply map_length.
    split; [apply (curves_fitted big sd cs nn rsh s1 u1 maxiter eps s2 u2 _ LR LN M NE E1 E2)|]. rewrite EX.
    assert (DK : exists v1 v2 v3 v4 v5 v6, d = [("dEgdT", v1); ("I_L_ref", v2); ("I_o_ref", v3); ("EgRef", v4); ("R_sh_ref", v5); ("R_s", v6)]%string).
    { unfold extract_desoto in EX. cbv zeta in EX. destruct (desoto_rsh _ _ _) in EX; [|discriminate]. cbn [bind] in EX. destruct (fit_io _ _ _) in EX; [|discriminate]. cbn [bind] in EX. apply Ok_inj in EX. rewrite <- EX. repeat eexists. }
    destruct DK as (v1 & v2 & v3 & v4 & v5 & v6 & ->). split; [reflexivity|]. split; [reflexivity|]. split; [reflexivity|]. intros n -> NQ. cbn [app lookup String.eqb Ascii.eqb Bool.eqb]. f_equal. rewrite !fmul_fin. rewrite fdiv_fin by exact NQ. rewrite fadd_fin, fmul_fin. f_equal. unfold Rdiv. ring.
  - intros rsh n0 ER ED EN. unfold fit_desoto_sandia. rewrite ER. cbn [bind]. rewrite ED. cbn [bind]. rewrite EN. reflexivity.
  - intros ->. reflexivity.
Qed.
Print Assumptions C134_fit_desoto.
Theorem C134_fit_pvsyst : forall big sd rlm ls coco lstsq co sp cs maxiter eps, (1 <= maxiter)%nat -> isnan eps = false ->
  (forall f, fit_pvsyst_sandia big sd rlm ls coco lstsq co sp cs maxiter eps = Ok f -> exists rsh g mu, start_rsh coco co sp cs = Ok rsh /\ fit_gamma lstsq co sp cs rsh = Ok (g, mu) /\ isnan g = false /\ isnan mu = false /\
     let gamma c := (g + mu * (#(c_tc c) - #(T0 co)))%fl in
     fitted_curves cs (map (fun c => (gamma c * #(vth co c * m_cells sp))%fl) cs) rsh f /\
     extract_pvsyst rlm ls co sp cs (f_curves f) (map gamma cs) (f_u f) = Ok (firstn 7 (f_params f)) /\
     map fst (f_params f) = ["R_sh_0"; "R_sh_exp"; "I_L_ref"; "I_o_ref"; "EgRef"; "R_sh_ref"; "R_s"; "gamma_ref"; "mu_gamma"; "cells_in_series"]%string /\
     lookup "gamma_ref" (f_params f) = Some g /\ lookup "mu_gamma" (f_params f) = Some mu /\ lookup "cells_in_series" (f_params f) = Some #(m_cells sp)) /\
  (forall rsh g mu, start_rsh coco co sp cs = Ok rsh -> fit_gamma lstsq co sp cs rsh = Ok (g, mu) -> (isnan g || isnan mu)%bool = true -> fit_pvsyst_sandia big sd rlm ls coco lstsq co sp cs maxiter eps = Err RuntimeError).
Proof.
  intros big sd rlm ls coco lstsq co sp cs maxiter eps M NE. split.
  - intros f E. unfold fit_pvsyst_sandia in E. destruct (start_rsh coco co sp cs) as [rsh|] eqn:ER; [|discriminate]. cbn [bind] in E. destruct (fit_gamma lstsq co sp cs rsh) as [[g mu]|] eqn:ED; [|discriminate]. cbn [bind] in E. destruct (isnan g || isnan mu)%bool eqn:EN; [discriminate|]. apply Bool.orb_false_iff in EN. cbv zeta in E.
    set (gamma := fun c => (g + mu * (#(c_tc c) - #(T0 co)))%fl) in *. assert (EZ : zip_with (fun c g0 => (g0 * #(vth co c * m_cells sp))%fl) cs (map gamma cs) = map (fun c => (gamma c * #(vth co c * m_cells sp))%fl) cs) by (clear; induction cs as [|c cs IH]; cbn [map zip_with]; [reflexivity|f_equal; exact IH]).
    rewrite EZ in E. set (nn := map (fun c => (gamma c * #(vth co c * m_cells sp))%fl) cs) in *. destruct (initial_iv_params big cs rsh nn) as [[s1 u1]|] eqn:E1; [|discriminate]. cbn [bind fst snd] in E. destruct (update_iv_params big sd cs nn s1 u1 maxiter eps) as [[s2 u2]|] eqn:E2; [|discriminate]. cbn [bind fst snd] in E.
    destruct (extract_pvsyst rlm ls co sp cs s2 (map gamma cs) u2) as [d|] eqn:EX; [|discriminate]. cbn [bind] in E. apply Ok_inj in E. subst f. exists rsh, g, mu. cbn [f_params f_curves f_u]. split; [reflexivity|]. split; [exact ED|]. split; [apply EN|]. split; [apply EN|]. cbv zeta. fold gamma. fold nn.
    assert (LR : List.length rsh = List.length cs) by (unfold start_rsh in ER; apply mapM_length in ER; exact ER). assert (LN : List.length nn = List.length cs) by apply map_length.
    split; [apply (curves_fitted big sd cs nn rsh s1 u1 maxiter eps s2 u2 _ LR LN M NE E1 E2)|]. rewrite EX.
    assert (DK : exists v1 v2 v3 v4 v5 v6 v7, d = [("R_sh_0", v1); ("R_sh_exp", v2); ("I_L_ref", v3); ("I_o_ref", v4); ("EgRef", v5); ("R_sh_ref", v6); ("R_s", v7)]%string).
    { unfold extract_pvsyst in EX. cbv zeta in EX. destruct (pvsyst_rsh_start _ _) in EX; [|discriminate]. cbn [bind] in EX. destruct (fit_io _ _ _) in EX; [|discriminate]. cbn [bind] in EX. apply Ok_inj in EX. rewrite <- EX. repeat eexists. }
    destruct DK as (v1 & v2 & v3 & v4 & v5 & v6 & v7 & ->). repeat split.
  - intros rsh g mu ER ED EN. unfold fit_pvsyst_sandia. rewrite ER. cbn [bind]. rewrite ED. cbn [bind]. rewrite EN. reflexivity.
Qed.
Print Assumptions C134_fit_pvsyst.
Example C134_nonvacuous : let co := Consts 1.38066e-23 1.60218e-19 1000 25 in let c := Curve 1000 50 9 40 8 32 [] in voc_usable [c; c] [#300; NaN] [(c, 300)] /\ 0 < T0 co + 273.15 /\ Forall (fun c => 0 < c_tc c + 273.15) [c; c].
Proof. intros co c. split; [|split; [unfold co; cbn [T0]; lra|repeat constructor; unfold c; cbn [c_tc]; lra]]. apply vu_use; [lra|unfold c; cbn [c_isc c_voc]; lra|]. apply vu_missing. constructor. Qed.
