(** C39-C41, C64, C65: pvlib.temperature. *)
From Verif Require Import Base.Fl Base.FlFacts Base.Py Base.Series Model.Tools Model.Temperature Spec.ThermalSpec Proofs.TemperatureP.
From Coq Require Import ZArith Lia Lra Psatz.
Open Scope R_scope.

(** ** C39.  Each model in closed form (so: equal to temp_air at zero irradiance and shifting one-for-one with it),
    then monotonicity. *)
Theorem C39_sapm_cell : forall p t w a b dT ref, ref <> 0 ->
  sapm_cell #p #t #w #a #b #dT #ref = #(t + p * exp (a + b * w) + p / ref * dT) /\
  sapm_cell #0 #t #w #a #b #dT #ref = #t /\
  (forall p' w', 0 < ref -> 0 <= dT -> b <= 0 -> 0 <= p -> p <= p' -> w' <= w ->
     exists x y, sapm_cell #p #t #w #a #b #dT #ref = #x /\ sapm_cell #p' #t #w' #a #b #dT #ref = #y /\ x <= y).
Proof.
  intros p t w a b dT ref Hr. split; [apply sapm_cell_fin, Hr|]. split.
  - rewrite sapm_cell_fin by exact Hr. f_equal. unfold Rdiv. ring.
  - intros p' w' H1 H2 H3 H4 H5 H6. do 2 eexists. rewrite !sapm_cell_fin by exact Hr. split; [reflexivity|]. split; [reflexivity|].
    assert (E : exp (a + b * w) <= exp (a + b * w')).
    { assert (L : a + b * w <= a + b * w') by nra. destruct L as [L|L]; [left; apply exp_increasing, L|rewrite L; lra]. }
    pose proof (exp_pos (a + b * w)). assert (p * exp (a + b * w) <= p' * exp (a + b * w')) by (apply Rmult_le_compat; lra).
    assert (p / ref * dT <= p' / ref * dT) by (apply Rmult_le_compat_r; [lra|]; apply div_mono_num; lra). lra.
Qed.
Print Assumptions C39_sapm_cell.
Theorem C39_pvsyst_cell : forall p t w uc uv e al, 0 < uc + uv * w ->
  pvsyst_cell #p #t #w #uc #uv #e #al = #(t + p * al * (1 - e) / (uc + uv * w)) /\
  pvsyst_cell #0 #t #w #uc #uv #e #al = #t /\
  (forall p' w', 0 <= al -> e <= 1 -> 0 <= uv -> 0 <= p -> p <= p' -> w' <= w -> 0 < uc + uv * w' ->
     exists x y, pvsyst_cell #p #t #w #uc #uv #e #al = #x /\ pvsyst_cell #p' #t #w' #uc #uv #e #al = #y /\ x <= y).
Proof.
  intros p t w uc uv e al Hd. split; [apply pvsyst_cell_fin; lra|]. split.
  - rewrite pvsyst_cell_fin by lra. f_equal. unfold Rdiv. ring.
  - intros p' w' H1 H2 H3 H4 H5 H6 H7. do 2 eexists. rewrite !pvsyst_cell_fin by lra. split; [reflexivity|]. split; [reflexivity|].
    assert (N : 0 <= p * al * (1 - e)) by (apply Rmult_le_pos; [apply Rmult_le_pos; lra|lra]).
    assert (N2 : p * al * (1 - e) <= p' * al * (1 - e)) by (apply Rmult_le_compat_r; [lra|]; apply Rmult_le_compat_r; lra).
    pose proof (div_anti_den _ (uc + uv * w') (uc + uv * w) N H7 ltac:(nra)). pose proof (div_mono_num _ _ (uc + uv * w') H7 N2). lra.
Qed.
Print Assumptions C39_pvsyst_cell.
Theorem C39_faiman : forall p t w u0 u1 sv em, 0 < u0 + u1 * w ->
  faiman #p #t #w #u0 #u1 = #(t + p / (u0 + u1 * w)) /\
  faiman #0 #t #w #u0 #u1 = #t /\
  faiman_rad #p #t #w None #u0 #u1 #sv #em = faiman #p #t #w #u0 #u1 /\
  (forall p' w', 0 <= u1 -> 0 <= p -> p <= p' -> w' <= w -> 0 < u0 + u1 * w' ->
     exists x y, faiman #p #t #w #u0 #u1 = #x /\ faiman #p' #t #w' #u0 #u1 = #y /\ x <= y).
Proof.
  intros p t w u0 u1 sv em Hd. split; [apply faiman_fin; lra|]. split; [|split].
  - rewrite faiman_fin by lra. f_equal. unfold Rdiv. ring.
  - rewrite faiman_fin, faiman_rad_none_fin by lra. reflexivity.
  - intros p' w' H3 H4 H5 H6 H7. do 2 eexists. rewrite !faiman_fin by lra. split; [reflexivity|]. split; [reflexivity|].
    pose proof (div_anti_den p (u0 + u1 * w') (u0 + u1 * w) H4 H7 ltac:(nra)). pose proof (div_mono_num p p' (u0 + u1 * w') H7 H5). lra.
Qed.
Print Assumptions C39_faiman.
(** with sky radiation: the correction is emissivity*sky_view*(sigma T^4 - ir_down) W/m2; it vanishes when the sky radiates
    like a black body at air temperature, and cools the module when the sky is colder *)
Theorem C39_faiman_rad : forall p t w ir u0 u1 sv em, 0 < u0 + u1 * w ->
  faiman_rad #p #t #w (Some #ir) #u0 #u1 #sv #em = #(t + (p - em * sv * (5.670374419 / 10 ^ 8 * (t + 273.15) ^ 4 - ir)) / (u0 + u1 * w)) /\
  (ir = 5.670374419 / 10 ^ 8 * (t + 273.15) ^ 4 -> faiman_rad #p #t #w (Some #ir) #u0 #u1 #sv #em = faiman #p #t #w #u0 #u1) /\
  (0 <= em -> 0 <= sv -> ir <= 5.670374419 / 10 ^ 8 * (t + 273.15) ^ 4 ->
     exists x y, faiman_rad #p #t #w (Some #ir) #u0 #u1 #sv #em = #x /\ faiman #p #t #w #u0 #u1 = #y /\ x <= y).
Proof.
  intros p t w ir u0 u1 sv em Hd. rewrite faiman_fin, faiman_rad_some_fin by lra. unfold stefan_boltzmann. split; [reflexivity|]. split.
  - intros ->. f_equal. f_equal. f_equal. ring.
  - intros H1 H2 H3. do 2 eexists. split; [reflexivity|]. split; [reflexivity|].
    assert (0 <= em * sv * (5.670374419 / 10 ^ 8 * (t + 273.15) ^ 4 - ir)) by (apply Rmult_le_pos; [apply Rmult_le_pos; assumption|lra]).
    apply Rplus_le_compat_l. apply div_mono_num; lra.
Qed.
Print Assumptions C39_faiman_rad.
Theorem C39_ross : forall p t,
  (forall noct, ross #p #t (Some #noct) None = Ok #(t + (noct - 20) / 80 * p * 0.1)) /\
  (forall k, ross #p #t None (Some #k) = Ok #(t + k * p)) /\
  (forall noct, ross #0 #t (Some #noct) None = Ok #t) /\ (forall k, ross #0 #t None (Some #k) = Ok #t) /\
  (forall noct, exists k, ross #p #t (Some #noct) None = ross #p #t None (Some #k) /\ k = (noct - 20) / 800).
Proof.
  intros p t. assert (A : forall p noct, ross #p #t (Some #noct) None = Ok #(t + (noct - 20) / 80 * p * 0.1)).
  { intros. unfold ross. rewrite fsub_fin, fdiv_fin by lra. reflexivity. }
  assert (B : forall p k, ross #p #t None (Some #k) = Ok #(t + k * p)) by reflexivity.
  split; [apply A|]. split; [apply B|]. split; [intros; rewrite A; f_equal; f_equal; lra|]. split; [intros; rewrite B; f_equal; f_equal; lra|].
  intros noct. exists ((noct - 20) / 800). rewrite A, B. split; [f_equal; f_equal; lra|reflexivity].
Qed.
Print Assumptions C39_ross.
Theorem C39_ross_errors : forall p t noct k,
  (exists v, ross p t noct k = Ok v) <-> (noct = None /\ k <> None) \/ (noct <> None /\ k = None).
Proof.
  intros p t noct k. unfold ross. destruct noct, k; split; intros H;
    try (destruct H as [v H]; discriminate); try (destruct H as [[? ?]|[? ?]]; congruence);
    try (eexists; reflexivity); [right|left]; split; congruence.
Qed.
Print Assumptions C39_ross_errors.
Theorem C39_noct_sam : forall p t w noct e ta h m, 0 < ta -> h = 1 \/ h = 2 ->
  let f := if Req_EM_T h 1 then 0.51 else 0.61 in
  let adj := if Rle_dec m 0 then 0 else if Rlt_dec m 0.5 then 18 else if Rlt_dec m 1.5 then 11
             else if Rlt_dec m 2.5 then 6 else if Rle_dec m 3.5 then 2 else 0 in
  0 <= w ->
  noct_sam #p #t #w #noct #e None #ta #h #m = Ok #(t + p / 800 * (noct + adj - 20) * (1 - e / ta) * (9.5 / (5.7 + 3.8 * (f * w)))) /\
  noct_sam #0 #t #w #noct #e None #ta #h #m = Ok #t /\
  (forall p' w', 20 <= noct + adj -> e <= ta -> 0 <= p -> p <= p' -> 0 <= w' -> w' <= w ->
     exists x y, noct_sam #p #t #w #noct #e None #ta #h #m = Ok #x /\ noct_sam #p' #t #w' #noct #e None #ta #h #m = Ok #y /\ x <= y).
Proof.
  intros p t w noct e ta h m Hta Hh f adj Hw.
  assert (Hf : 0 < f) by (unfold f; destruct (Req_EM_T h 1); lra).
  assert (D : forall w, 0 <= w -> 0 < 5.7 + 3.8 * (f * w)) by (intros v Hv; assert (0 <= f * v) by (apply Rmult_le_pos; lra); lra).
  assert (A : forall p w, 0 <= w -> noct_sam #p #t #w #noct #e None #ta #h #m = Ok #(t + p / 800 * (noct + adj - 20) * (1 - e / ta) * (9.5 / (5.7 + 3.8 * (f * w))))).
  { intros p0 w0 Hw0. pose proof (D w0 Hw0). rewrite noct_sam_fin; [reflexivity|lra|exact Hh|]. fold f. lra. }
  split; [apply A, Hw|]. split; [rewrite A by exact Hw; f_equal; f_equal; unfold Rdiv; ring|].
  intros p' w' H1 H2 H3 H4 H5 H6. do 2 eexists. rewrite !A by assumption. split; [reflexivity|]. split; [reflexivity|].
  apply Rplus_le_compat_l. pose proof (D w Hw). pose proof (D w' H5).
  assert (HL : 0 <= 1 - e / ta) by (assert (e / ta <= 1) by (apply Rmult_le_reg_r with ta; [exact Hta|]; unfold Rdiv; rewrite Rmult_assoc, Rinv_l by lra; lra); lra).
  assert (N : 0 <= p / 800 * (noct + adj - 20) * (1 - e / ta)) by (apply Rmult_le_pos; [apply Rmult_le_pos; lra|exact HL]).
  assert (N2 : p / 800 * (noct + adj - 20) * (1 - e / ta) <= p' / 800 * (noct + adj - 20) * (1 - e / ta)).
  { apply Rmult_le_compat_r; [exact HL|]. apply Rmult_le_compat_r; lra. }
  apply Rmult_le_compat; [exact N|left; apply Rdiv_lt_0_compat; lra|exact N2|].
  apply div_anti_den; try lra. assert (f * w' <= f * w) by (apply Rmult_le_compat_l; lra). lra.
Qed.
Print Assumptions C39_noct_sam.
Theorem C39_noct_sam_errors : forall p t w noct e ei ta h m,
  (exists v, noct_sam p t w noct e ei ta #h m = Ok v) <-> h = 1 \/ h = 2.
Proof.
  intros. unfold noct_sam. rewrite !feqb_fin. split.
  - intros [v H]. destruct (Reqb_spec h 1); [auto|]. destruct (Reqb_spec h 2); [auto|]. discriminate.
  - intros [->| ->]; [rewrite Reqb_t by reflexivity|rewrite Reqb_f, Reqb_t by lra]; cbn [bind]; eexists; reflexivity.
Qed.
Print Assumptions C39_noct_sam_errors.
Theorem C39_generic_linear : forall p t w uc du e al, 0 < uc + du * w ->
  generic_linear #p #t #w #uc #du #e #al = #(t + p * (al - e) / (uc + du * w)) /\
  generic_linear #0 #t #w #uc #du #e #al = #t /\
  (forall p' w', e <= al -> 0 <= du -> 0 <= p -> p <= p' -> w' <= w -> 0 < uc + du * w' ->
     exists x y, generic_linear #p #t #w #uc #du #e #al = #x /\ generic_linear #p' #t #w' #uc #du #e #al = #y /\ x <= y).
Proof.
  intros p t w uc du e al Hd. split; [apply generic_linear_fin; lra|]. split.
  - rewrite generic_linear_fin by lra. f_equal. unfold Rdiv. ring.
  - intros p' w' H1 H3 H4 H5 H6 H7. do 2 eexists. rewrite !generic_linear_fin by lra. split; [reflexivity|]. split; [reflexivity|].
    assert (N : 0 <= p * (al - e)) by (apply Rmult_le_pos; lra).
    assert (N2 : p * (al - e) <= p' * (al - e)) by (apply Rmult_le_compat_r; lra).
    pose proof (div_anti_den _ (uc + du * w') (uc + du * w) N H7 ltac:(nra)). pose proof (div_mono_num _ _ (uc + du * w') H7 N2). lra.
Qed.
Print Assumptions C39_generic_linear.
Example C39_nonvacuous : 0 < 25 + 6.84 * 1 /\ 0 < 29 + 0 * 3 /\ 1000 <> 0. Proof. lra. Qed.

(** ** C40.  [m] is any model object (any prior history of use_* calls) with finite efficiency and absorptance. *)
Theorem C40_faiman_roundtrip : forall m e al u0 u1, eta m = #e -> alpha m = #al -> al <> e ->
  to_faiman (use_faiman m #u0 #u1) = (#u0, #u1) /\
  (forall p t w, u0 + u1 * w <> 0 -> glm_call (use_faiman m #u0 #u1) #p #t #w None = faiman #p #t #w #u0 #u1).
Proof.
  intros m e al u0 u1 He Hal Hne. split.
  - unfold to_faiman, use_faiman. cbn [u_const du_wind eta alpha]. rewrite He, Hal. rewrite fsub_fin, !fmul_fin, !fdiv_fin by lra.
    apply f_equal2; f_equal; field; lra.
  - intros p t w Hd. unfold glm_call, use_faiman. cbn [u_const du_wind eta alpha or_else]. rewrite He, Hal, fsub_fin, !fmul_fin.
    assert (D : u0 * (al - e) + u1 * (al - e) * w <> 0).
    { replace (u0 * (al - e) + u1 * (al - e) * w) with ((u0 + u1 * w) * (al - e)) by ring. apply Rmult_integral_contrapositive_currified; lra. }
    rewrite generic_linear_fin by exact D. rewrite faiman_fin by exact Hd. f_equal. f_equal.
    replace (u0 * (al - e) + u1 * (al - e) * w) with ((u0 + u1 * w) * (al - e)) by ring. field. split; lra.
Qed.
Print Assumptions C40_faiman_roundtrip.
Theorem C40_pvsyst_roundtrip : forall m e al oe oal uc uv,
  or_else oe (eta m) = #e -> or_else oal (alpha m) = #al -> al <> e -> al <> 0 -> e <> 1 ->
  to_pvsyst (use_pvsyst m #uc #uv oe oal) = (#uc, #uv, #e, #al) /\
  (forall p t w, uc + uv * w <> 0 -> glm_call (use_pvsyst m #uc #uv oe oal) #p #t #w None = pvsyst_cell #p #t #w #uc #uv #e #al).
Proof.
  intros m e al oe oal uc uv He Hal Hne Ha0 He1.
  assert (P0 : al * (1 - e) <> 0) by (apply Rmult_integral_contrapositive_currified; lra).
  assert (ER : fdiv (fsub #al #e) (fmul #al (fsub #1 #e)) = #((al - e) / (al * (1 - e)))) by (rewrite !fsub_fin, fmul_fin, fdiv_fin by exact P0; reflexivity).
  assert (R0 : (al - e) / (al * (1 - e)) <> 0) by (unfold Rdiv; apply Rmult_integral_contrapositive_currified; [lra|apply Rinv_neq_0_compat; exact P0]).
  split.
  - unfold to_pvsyst, use_pvsyst. rewrite He, Hal. cbv zeta. cbn [u_const du_wind eta alpha]. rewrite ER, !fmul_fin, !fdiv_fin by exact R0.
    replace (uc * ((al - e) / (al * (1 - e))) / ((al - e) / (al * (1 - e)))) with uc by (field; repeat split; lra).
    replace (uv * ((al - e) / (al * (1 - e))) / ((al - e) / (al * (1 - e)))) with uv by (field; repeat split; lra). reflexivity.
  - intros p t w Hd. unfold glm_call, use_pvsyst. rewrite He, Hal. cbv zeta. cbn [u_const du_wind eta alpha or_else]. rewrite ER, !fmul_fin.
    set (r := (al - e) / (al * (1 - e))) in *.
    assert (D : uc * r + uv * r * w <> 0).
    { replace (uc * r + uv * r * w) with ((uc + uv * w) * r) by ring. apply Rmult_integral_contrapositive_currified; assumption. }
    rewrite generic_linear_fin by exact D. rewrite pvsyst_cell_fin by exact Hd. f_equal. f_equal.
    replace (uc * r + uv * r * w) with ((uc + uv * w) * r) by ring. unfold r. field. repeat split; try lra.
Qed.
Print Assumptions C40_pvsyst_roundtrip.
Theorem C40_noct_sam_roundtrip : forall m e al oe oal noct,
  or_else oe (eta m) = #e -> or_else oal (alpha m) = #al -> al <> 0 -> noct <> 20 ->
  to_noct_sam (use_noct_sam m #noct oe oal) = (#noct, #e, #al) /\
  (forall p t w, 0 <= w -> glm_call (use_noct_sam m #noct oe oal) #p #t #w None = 
      match noct_sam #p #t #w #noct #e None #al #1 #4 with Ok v => v | Err _ => NaN end).
Proof.
  intros m e al oe oal noct He Hal Ha Hn.
  assert (U : fdiv (fmul #800 #al) (fsub #noct #20) = #(800 * al / (noct - 20))) by (rewrite fsub_fin, fmul_fin, fdiv_fin by lra; reflexivity).
  set (u := 800 * al / (noct - 20)) in *.
  assert (U0 : u <> 0) by (unfold u, Rdiv; apply Rmult_integral_contrapositive_currified; [lra|apply Rinv_neq_0_compat; lra]).
  split.
  - unfold to_noct_sam, use_noct_sam. rewrite He, Hal. cbv zeta. cbn [u_const du_wind eta alpha]. rewrite U, !fmul_fin. rewrite (fdiv_fin _ 0.51) by lra.
    rewrite fadd_fin. replace (u * 0.6 + u * 0.4 * 0.51 / 0.51) with u by lra. rewrite fdiv_fin by exact U0.
    cbn [fadd]. replace (20 + 800 * al / u) with noct by (unfold u; field; split; lra). reflexivity.
  - intros p t w Hw. rewrite noct_sam_fin; [|exact Ha|left; reflexivity|destruct (Req_EM_T 1 1); nra].
    assert (S4 : standoffR 4 = 0).
    { unfold standoffR. repeat match goal with |- context [Rle_dec ?a ?b] => destruct (Rle_dec a b) | |- context [Rlt_dec ?a ?b] => destruct (Rlt_dec a b) end; lra. }
    rewrite S4. destruct (Req_EM_T 1 1) as [_|]; [|lra].
    unfold glm_call, use_noct_sam. rewrite He, Hal. cbv zeta. cbn [u_const du_wind eta alpha or_else]. rewrite U, !fmul_fin.
    assert (F : 0 < 0.6 + 0.4 * 0.51 * w) by lra.
    assert (EQ : u * 0.6 + u * 0.4 * 0.51 * w = u * (0.6 + 0.4 * 0.51 * w)) by lra.
    assert (DD : u * 0.6 + u * 0.4 * 0.51 * w <> 0) by (rewrite EQ; apply Rmult_integral_contrapositive_currified; lra).
    rewrite generic_linear_fin by exact DD. f_equal. f_equal. rewrite EQ.
    set (g := 0.6 + 0.4 * 0.51 * w) in *.
    assert (EW : 9.5 / (5.7 + 3.8 * (0.51 * w)) = / g).
    { apply Rmult_eq_reg_r with (5.7 + 3.8 * (0.51 * w)); [|lra]. unfold Rdiv. rewrite Rmult_assoc, Rinv_l by lra.
      replace (5.7 + 3.8 * (0.51 * w)) with (9.5 * g) by (unfold g; lra). field_simplify; lra. }
    rewrite EW. unfold u. field. repeat split; lra.
Qed.
Print Assumptions C40_noct_sam_roundtrip.
(** sapm: the round trip is exact, and the linear model agrees with sapm_module at the two fit wind speeds *)
Theorem C40_sapm_roundtrip : forall m e al a b lo hi, eta m = #e -> alpha m = #al -> al <> e -> lo <> hi ->
  to_sapm (use_sapm m #a #b #lo #hi) #lo #hi = (#a, #b) /\
  (forall p t w, w = lo \/ w = hi -> glm_call (use_sapm m #a #b #lo #hi) #p #t #w None = sapm_module #p #t #w #a #b).
Proof.
  intros m e al a b lo hi He Hal Hne Hlh.
  set (ul := / exp (a + b * lo)). set (uh := / exp (a + b * hi)).
  assert (Pl : 0 < ul) by (apply Rinv_0_lt_compat, exp_pos). assert (Ph : 0 < uh) by (apply Rinv_0_lt_compat, exp_pos).
  assert (El : fdiv #1 (fexp (fadd #a (fmul #b #lo))) = #ul) by (rewrite fmul_fin, fadd_fin, fexp_fin; pose proof (exp_pos (a + b * lo)); rewrite fdiv_fin by lra; unfold ul; f_equal; field; lra).
  assert (Eh : fdiv #1 (fexp (fadd #a (fmul #b #hi))) = #uh) by (rewrite fmul_fin, fadd_fin, fexp_fin; pose proof (exp_pos (a + b * hi)); rewrite fdiv_fin by lra; unfold uh; f_equal; field; lra).
  set (du := (uh - ul) / (hi - lo)). set (uc := ul - du * lo).
  assert (LO : uc + du * lo = ul) by (unfold uc; ring). assert (HI : uc + du * hi = uh) by (unfold uc, du; field; lra).
  assert (ST : use_sapm m #a #b #lo #hi = GLM #(uc * (al - e)) #(du * (al - e)) #e #al).
  { unfold use_sapm. rewrite El, Eh, He, Hal. cbv zeta. rewrite !fsub_fin, (fdiv_fin (uh - ul)) by lra. fold du. rewrite !fmul_fin, !fsub_fin, !fmul_fin. reflexivity. }
  rewrite ST. split.
  - unfold to_sapm. cbn [u_const du_wind eta alpha]. rewrite !fsub_fin, !(fdiv_fin _ (al - e)) by lra. cbv zeta. rewrite !fmul_fin, !fadd_fin.
    replace (uc * (al - e) / (al - e) + du * (al - e) / (al - e) * lo) with ul by (rewrite <- LO; field; lra).
    replace (uc * (al - e) / (al - e) + du * (al - e) / (al - e) * hi) with uh by (rewrite <- HI; field; lra).
    rewrite (fln_fin uh Ph), (fln_fin ul Pl).
    assert (Ll : ln ul = - (a + b * lo)) by (unfold ul; rewrite <- exp_Ropp; apply ln_exp).
    assert (Lh : ln uh = - (a + b * hi)) by (unfold uh; rewrite <- exp_Ropp; apply ln_exp).
    rewrite Ll, Lh, !fsub_fin, fdiv_fin by lra. rewrite !fneg_fin, fmul_fin, fadd_fin, fneg_fin.
    replace (- ((- (a + b * hi) - - (a + b * lo)) / (hi - lo))) with b by (field; lra).
    apply f_equal2; f_equal. ring.
  - intros p t w Hw. unfold glm_call. cbn [u_const du_wind eta alpha or_else].
    assert (EU : exists u, 0 < u /\ uc + du * w = u /\ / u = exp (a + b * w)).
    { destruct Hw as [->| ->]; [exists ul|exists uh]; (split; [assumption|split; [assumption|]]); unfold ul, uh; apply Rinv_inv. }
    destruct EU as (u & Hu & E1 & E2).
    assert (D : uc * (al - e) + du * (al - e) * w = u * (al - e)) by (rewrite <- E1; ring).
    rewrite generic_linear_fin by (rewrite D; apply Rmult_integral_contrapositive_currified; lra). rewrite D.
    unfold sapm_module. rewrite fmul_fin, fadd_fin, fexp_fin, fmul_fin, fadd_fin. f_equal. rewrite <- E2. field. lra.
Qed.
Print Assumptions C40_sapm_roundtrip.
(** a fresh object predicts nothing until parameters are given *)
Theorem C40_uninitialised : forall e al p t w, glm_call (glm_init e al) p t w None = NaN.
Proof. intros. unfold glm_call, glm_init, generic_linear. cbn. rewrite fdiv_nan_r. apply fadd_nan_r. Qed.
Print Assumptions C40_uninitialised.
Example C40_nonvacuous : let m := use_sapm (glm_init #0.19 #0.88) #(-3.5) #(-0.06) #1.4 #5.4 in eta m = #0.19 /\ alpha m = #0.88 /\ 0.88 <> 0.19.
Proof. repeat split. lra. Qed.

(** ** C41 *)
(** the samples that count towards output j: the W samples before it *)
Definition in_window (W j k : nat) : Prop := (k < j)%nat /\ (j <= k + W)%nat.
Theorem C41_coarse_data_unchanged : forall fi deltas temp wind um c dt wz,
  get_sample_intervals fi deltas 20 = Ok (dt, wz) -> 20 <= dt -> prilliman fi deltas temp wind um c = Ok temp.
Proof. intros. unfold prilliman. rewrite H. cbn [bind fst]. rewrite Rleb_t by assumption. reflexivity. Qed.
Print Assumptions C41_coarse_data_unchanged.
Theorem C41_first_value_kept : forall fi deltas t0 temp w0 wind um c out,
  prilliman fi deltas (t0 :: temp) (w0 :: wind) um c = Ok out -> nth_error out 0 = Some t0.
Proof.
  intros fi deltas t0 temp w0 wind um c out. unfold prilliman. destruct (get_sample_intervals fi deltas 20) as [[dt wz]|]; [|discriminate]. cbn [bind fst snd].
  destruct (Rleb 20 dt); [intros [= <-]; reflexivity|].
  destruct (match c with Some x => x | None => _ end) as [[[a0 a1] a2] a3]. intros [= <-]. reflexivity.
Qed.
Print Assumptions C41_first_value_kept.
(** exact value: exponentially weighted mean of the valid samples of the preceding window, weight
    exp(-P * lag seconds) with P = a0 + a1 wind + a2 mass + a3 wind mass; nan if there is none *)
Theorem C41_weighted_mean : forall fi deltas temps winds um a0 a1 a2 a3 dt wz j u,
  get_sample_intervals fi deltas 20 = Ok (dt, wz) -> dt < 20 -> (0 < j < length temps)%nat -> nth_error winds j = Some #u ->
  let W := Z.to_nat wz in
  let P := a0 + a1 * u + a2 * um + a3 * u * um in
  let weight := fun m : nat => exp (- P * (INR m * dt * 60)) in
  exists out, prilliman fi deltas (map of_opt temps) winds #um (Some (#a0, #a1, #a2, #a3)) = Ok out /\
    ((forall k, in_window W j k -> nth k temps None = None) -> nth_error out j = Some NaN) /\
    ((exists k t, in_window W j k /\ nth k temps None = Some t) ->
       nth_error out j = Some #(lag_sum (fun m t => t * weight m) temps j W / lag_sum (fun m _ => weight m) temps j W)).
Proof.
  intros fi deltas temps winds um a0 a1 a2 a3 dt wz j u E Hdt Hj Hu W P weight.
  destruct (prilliman_at fi deltas temps winds um a0 a1 a2 a3 dt wz j u E Hdt Hj Hu) as (out & E1 & E2).
  exists out. split; [exact E1|]. change (pcoef a0 a1 a2 a3 um u) with P in E2. fold W in E2. split.
  - intros HN. rewrite E2. rewrite !lag_sum_none by (intros; apply HN; split; assumption). rewrite fdiv_zero. unfold sinf, Rpos, Rneg.
    rewrite !Rltb_f by lra. reflexivity.
  - intros (k & t & [K1 K2] & Ek). rewrite E2. pose proof (lag_den_pos P dt temps j W k t K1 K2 Ek).
    rewrite fdiv_fin by lra. reflexivity.
Qed.
Print Assumptions C41_weighted_mean.
Theorem C41_between_window_extremes : forall fi deltas temps winds um a0 a1 a2 a3 dt wz j u lo hi,
  get_sample_intervals fi deltas 20 = Ok (dt, wz) -> dt < 20 -> (0 < j < length temps)%nat -> nth_error winds j = Some #u ->
  (forall k t, in_window (Z.to_nat wz) j k -> nth k temps None = Some t -> lo <= t <= hi) ->
  exists out y, prilliman fi deltas (map of_opt temps) winds #um (Some (#a0, #a1, #a2, #a3)) = Ok out /\
    nth_error out j = Some y /\ within #lo #hi y.
Proof.
  intros fi deltas temps winds um a0 a1 a2 a3 dt wz j u lo hi E Hdt Hj Hu HB.
  destruct (prilliman_at fi deltas temps winds um a0 a1 a2 a3 dt wz j u E Hdt Hj Hu) as (out & E1 & E2).
  exists out. eexists. split; [exact E1|]. split; [exact E2|]. set (P := pcoef a0 a1 a2 a3 um u).
  destruct (lag_sum_bounds P dt temps j (Z.to_nat wz) lo hi) as (D0 & D1 & D2); [intros; apply (HB k); [split|]; assumption|].
  set (D := lag_sum (fun k _ => wt P dt k) temps j (Z.to_nat wz)) in *. set (N := lag_sum (fun k t => t * wt P dt k) temps j (Z.to_nat wz)) in *.
  destruct D0 as [D0|D0].
  - rewrite fdiv_fin by lra. apply within_fin. split; apply Rmult_le_reg_r with D; try exact D0; unfold Rdiv; rewrite Rmult_assoc, Rinv_l by lra; lra.
  - left. rewrite <- D0 in *. assert (N = 0) by lra. rewrite H, fdiv_zero. unfold sinf, Rpos, Rneg. rewrite !Rltb_f by lra. reflexivity.
Qed.
Print Assumptions C41_between_window_extremes.
(** output j does not depend on sample j or later ones, nor on wind other than at j *)
Theorem C41_causal : forall fi deltas temps temps' winds winds' um a0 a1 a2 a3 dt wz j u,
  get_sample_intervals fi deltas 20 = Ok (dt, wz) -> dt < 20 ->
  (0 < j < length temps)%nat -> length temps' = length temps -> nth_error winds j = Some #u -> nth_error winds' j = Some #u ->
  (forall k, (k < j)%nat -> nth k temps None = nth k temps' None) ->
  exists out out', prilliman fi deltas (map of_opt temps) winds #um (Some (#a0, #a1, #a2, #a3)) = Ok out /\
    prilliman fi deltas (map of_opt temps') winds' #um (Some (#a0, #a1, #a2, #a3)) = Ok out' /\ nth_error out j = nth_error out' j.
Proof.
  intros fi deltas temps temps' winds winds' um a0 a1 a2 a3 dt wz j u E Hdt Hj Hl Hu Hu' HE.
  destruct (prilliman_at fi deltas temps winds um a0 a1 a2 a3 dt wz j u E Hdt Hj Hu) as (out & E1 & E2).
  destruct (prilliman_at fi deltas temps' winds' um a0 a1 a2 a3 dt wz j u E Hdt ltac:(lia) Hu') as (out' & E1' & E2').
  exists out, out'. split; [exact E1|]. split; [exact E1'|]. rewrite E2, E2'.
  rewrite !(lag_sum_ext _ temps temps' j) by (intros; apply HE; assumption). reflexivity.
Qed.
Print Assumptions C41_causal.
Theorem C41_default_coefficients : forall fi deltas temp wind um,
  prilliman fi deltas temp wind um None = prilliman fi deltas temp wind um (Some (#0.0046, #0.00046, #(-0.00023), #(-0.000016))).
Proof. reflexivity. Qed.
Print Assumptions C41_default_coefficients.
Example C41_nonvacuous : exists dt wz, get_sample_intervals true [5; 5; 5] 20 = Ok (dt, wz) /\ dt < 20.
Proof.
  unfold get_sample_intervals. cbn [forallb andb]. rewrite Reqb_t by reflexivity. cbn [andb].
  assert (EI : Rmodp (5 * 60) 86400 = 300).
  { destruct (Trig.Rmodp_spec (5 * 60) 86400 ltac:(lra)) as [B [k Hk]].
    assert (k = 0%Z); [|subst k; lra].
    assert (IZR k < 1) by lra. assert (-1 < IZR k) by lra. apply lt_IZR in H, H0. lia. }
  rewrite EI. rewrite Reqb_f by lra. do 2 eexists. split; [reflexivity|]. lra.
Qed.

(** ** C64 fuentes *)
Theorem C64_setup_physical : forall noct emiss absorp tilt mw ml,
  let T := noct + 273.15 in let eb := emiss * (5.669 / 10 ^ 8) in
  20 < noct -> 0 < emiss -> 0 <= sinD tilt -> 0 < mw -> 0 < ml ->
  eb * (2 * T ^ 4 - 282.21 ^ 4 - 293.15 ^ 4) < absorp * 800 <= eb * (2 * T ^ 4 - 282.21 ^ 4) ->
  exists xlen tgrat convrat cap, fuentes_setup #noct #emiss #absorp #tilt #mw #ml = (#xlen, #tgrat, #convrat, #cap) /\
    0 < xlen /\ 0 <= tgrat <= 1 /\ 0 < convrat /\ 11000 <= cap.
Proof.
  intros noct emiss absorp tilt mw ml T eb H1 H2 H3 H4 H5 H6.
  destruct (fuentes_setup_ok noct emiss absorp tilt mw ml ltac:(lra) H2 H3 H4 H5 H6) as (q & E & (_ & Q1 & Q2 & Q3 & _) & _ & _ & Q4).
  do 4 eexists. split; [exact E|]. auto.
Qed.
Print Assumptions C64_setup_physical.
(** the module never gets colder than the coldest of its start (20 C), the air and the sky; without sun never hotter
    than the hottest of them.  All outputs are finite. *)
Theorem C64_temperature_bounds : forall emiss absorp xlen tgrat convrat cap tilt wf lo rows,
  0 <= emiss -> 0 < xlen -> 0 <= tgrat <= 1 -> 0 < convrat -> 0 < cap -> 0 <= sinD tilt -> 0 <= absorp -> 0 <= wf ->
  0 < lo <= 293.15 -> Forall (weather_ok lo) rows ->
  exists ys, fuentes_loop #emiss #absorp #xlen #tgrat #convrat #cap #tilt #wf #293.15 #0 (map to_row rows) = map Fin ys /\
    length ys = length rows /\ Forall (fun y => lo <= y) ys /\
    (forall hi, 293.15 <= hi ->
       Forall (fun w => w_poa w = 0 /\ w_temp w + 273.15 <= hi /\ skyR (w_temp w + 273.15) <= hi) rows -> Forall (fun y => y <= hi) ys).
Proof.
  intros emiss absorp xlen tgrat convrat cap tilt wf lo rows H1 H2 H3 H4 H5 H6 H7 H8 H9 HF.
  destruct (fuentes_loop_bounds (FuP emiss xlen tgrat convrat cap tilt) absorp wf lo rows 293.15 0) as (ys & E & L & B & U); try lra; auto.
  { unfold fu_ok. cbn. auto 10. }
  exists ys. cbn [fp_emiss fp_xlen fp_tgrat fp_convrat fp_cap fp_tilt] in E. split; [exact E|]. split; [exact L|]. split; [exact B|].
  intros hi Hh HU. apply U; auto.
Qed.
Print Assumptions C64_temperature_bounds.
(** earlier outputs do not depend on later weather *)
Theorem C64_causal : forall em ab xl tg cr cp ti wf t s rows1 rows2,
  exists tail, fuentes_loop em ab xl tg cr cp ti wf t s (rows1 ++ rows2) = fuentes_loop em ab xl tg cr cp ti wf t s rows1 ++ tail /\ length tail = length rows2.
Proof. intros. apply fuentes_loop_app. Qed.
Print Assumptions C64_causal.
Theorem C64_needs_two_samples : forall times p t w noct mh wh em ab ti mw ml,
  (exists v, fuentes times p t w noct mh wh em ab ti mw ml = Ok v) <-> (2 <= length times)%nat.
Proof.
  intros. unfold fuentes. destruct times as [|t0 [|t1 ts]].
  - split; [intros [v H]; discriminate|cbn; lia].
  - split; [intros [v H]; discriminate|cbn; lia].
  - destruct (fuentes_setup noct em ab ti mw ml) as [[[a b] c] d]. split; [cbn; lia|eexists; reflexivity].
Qed.
Print Assumptions C64_needs_two_samples.
Example C64_nonvacuous :
  (let T := 45 + 273.15 in let eb := 0.84 * (5.669 / 10 ^ 8) in
   eb * (2 * T ^ 4 - 282.21 ^ 4 - 293.15 ^ 4) < 0.83 * 800 <= eb * (2 * T ^ 4 - 282.21 ^ 4)) /\
  0 <= sinD 30.
Proof. split; [simpl; lra|apply sinD_nonneg; lra]. Qed.

(** ** C65 named parameter sets *)
Theorem C65_named_sets : forall model set,
  (exists v, temperature_model_params model set = Ok v) <->
  In (model, set) [("sapm", "open_rack_glass_glass"); ("sapm", "close_mount_glass_glass"); ("sapm", "open_rack_glass_polymer");
     ("sapm", "insulated_back_glass_polymer"); ("pvsyst", "freestanding"); ("pvsyst", "insulated"); ("pvsyst", "semi_integrated")]%string.
Proof.
  intros model set. unfold temperature_model_params, getitem, temperature_model_parameters. cbn [lookup]. split.
  - intros [v H]. cbn [In].
    destruct (String.eqb_spec model "sapm") as [->|_]; [|destruct (String.eqb_spec model "pvsyst") as [->|_]]; cbn [bind lookup] in H; try discriminate;
    repeat (match type of H with context [String.eqb set ?c] => destruct (String.eqb_spec set c) as [->|_] end; [auto 10|]); discriminate.
  - cbn [In]. intros H. repeat (destruct H as [[= <- <-]|H]; [eexists; reflexivity|]). destruct H.
Qed.
Print Assumptions C65_named_sets.
Theorem C65_unknown_set_keyerror : forall model set e, temperature_model_params model set = Err e -> e = KeyError.
Proof.
  intros model set e. unfold temperature_model_params, getitem. destruct (lookup model temperature_model_parameters); cbn [bind]; [|congruence].
  destruct (lookup set l); congruence.
Qed.
Print Assumptions C65_unknown_set_keyerror.
(** every named set gives a physically sensible model: hotter with more sun, cooler (or equal) with more wind *)
Theorem C65_named_sets_monotone :
  (forall set ps, temperature_model_params "sapm" set = Ok ps ->
     exists a b dT, ps = [("a", a); ("b", b); ("deltaT", dT)]%string /\ b <= 0 /\ 0 <= dT) /\
  (forall set ps, temperature_model_params "pvsyst" set = Ok ps -> exists uc uv, ps = [("u_c", uc); ("u_v", uv)]%string /\ 0 < uc /\ 0 <= uv).
Proof.
  split; intros set ps H; unfold temperature_model_params, getitem, temperature_model_parameters in H; cbn [lookup String.eqb Ascii.eqb Bool.eqb bind] in H;
  repeat (match type of H with context [String.eqb set ?c] => destruct (String.eqb set c) end; [injection H as <-; repeat eexists; lra|]); discriminate.
Qed.
Print Assumptions C65_named_sets_monotone.
