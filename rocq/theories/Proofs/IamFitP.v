(** convert and fit: the objective is the weighted misfit, and the returned parameters minimise it. *)
From Verif Require Import Base.Fl Base.FlFacts Base.Py Base.Trig Model.Iam Spec.Optics Spec.IamFit Proofs.IamP Proofs.Invert.
From Coq Require Import ZArith Lia Lra Psatz.
Open Scope R_scope.

Lemma phys_not_inf a n K L : 0 < n -> 0 <= K * L ->
  physical #a #n #K #L None = NaN \/ exists y, physical #a #n #K #L None = #y.
Proof.
  intros Hn HK. pose proof (c1_range a) as C.
  set (arg := 1 - (1 / n * sqrt (1 - c1 a ^ 2)) ^ 2).
  destruct (Rlt_dec arg 0) as [Hneg|Hge].
  - (* beyond the critical angle *)
    unfold physical, phys_n2. rewrite fclose_self. cbv zeta. rewrite cosd_fin, fmax_fin. fold (c1 a).
    assert (E2 : fsqrt (#1 - (#1 / #n * fsqrt (#1 - #(c1 a) ^ 2)) ^ 2)%fl = NaN).
    { rewrite fdiv_fin by lra. rewrite fpown_fin, fsub_fin, fsqrt_fin by nra. rewrite fmul_fin, fpown_fin, fsub_fin. fold arg.
      cbn [fsqrt]. unfold Rneg. rewrite Rltb_t by exact Hneg. reflexivity. }
    rewrite E2. cbn -[Rleb]. destruct (Rleb 90 a); destruct (Rleb (Rabs (n - 1)) _); cbn [where_]; eauto.
  - destruct (Req_dec arg 0) as [Hz|Hnz].
    + (* at the critical angle *)
      unfold physical, phys_n2. rewrite fclose_self. cbv zeta. rewrite cosd_fin, fmax_fin. fold (c1 a).
      assert (E2 : fsqrt (#1 - (#1 / #n * fsqrt (#1 - #(c1 a) ^ 2)) ^ 2)%fl = #0).
      { rewrite fdiv_fin by lra. rewrite fpown_fin, fsub_fin, fsqrt_fin by nra. rewrite fmul_fin, fpown_fin, fsub_fin. fold arg.
        rewrite Hz, fsqrt_fin, sqrt_0 by lra. reflexivity. }
      rewrite E2. rewrite !fmul_fin, !fsub_fin, !fadd_fin.
      destruct (Req_dec (c1 a) 0) as [C0|C0].
      * rewrite C0. rewrite !Rmult_0_r, Rplus_0_r, Rminus_0_r, fdiv_zero.
        assert (sinf 0 = NaN) as -> by (unfold sinf, Rpos, Rneg; rewrite !Rltb_f by lra; reflexivity).
        cbn -[Rleb Rltb]. destruct (Rleb 90 a); destruct (Rleb (Rabs (n - 1)) _); cbn [where_]; eauto.
      * assert (0 < c1 a) by lra. assert (0 < n * c1 a) by (apply Rmult_lt_0_compat; lra).
        rewrite !fdiv_fin by lra. rewrite !fpown_fin, !fsub_fin, fneg_fin, !fmul_fin, fdiv_zero.
        destruct (Req_dec (K * L) 0) as [K0|K0].
        -- replace (- K * L) with (- (K * L)) by ring. rewrite K0, Ropp_0.
           assert (sinf 0 = NaN) as -> by (unfold sinf, Rpos, Rneg; rewrite !Rltb_f by lra; reflexivity).
           cbn -[Rleb Rltb]. destruct (Rleb 90 a); destruct (Rleb (Rabs (n - 1)) _); cbn [where_]; eauto.
        -- right. unfold sinf.
           replace (- K * L) with (- (K * L)) by ring. assert (EP : Rpos (- (K * L)) = false) by (unfold Rpos; apply Rltb_f; lra).
           assert (EN : Rneg (- (K * L)) = true) by (unfold Rneg; apply Rltb_t; lra). rewrite EP, EN. cbn [fexp].
           rewrite !fmul_fin, !fadd_fin. rewrite !fdiv_fin by lra.
           assert (E0 : 1 - ((1 - n) / (1 + n)) ^ 2 = fresnel_0 n) by reflexivity. rewrite E0.
           pose proof (fresnel_0_pos n Hn) as F0. pose proof (exp_pos (- (K * L))) as X.
           rewrite !fdiv_fin by (apply Rmult_integral_contrapositive_currified; lra).
           destruct (fclose #n #1); [|eauto]. unfold where_. destruct (fgeb _ _); eauto.
    + right. assert (0 < c2 n a) by (unfold c2; fold arg; apply sqrt_lt_R0; lra). rewrite phys_fin by assumption.
      destruct (fclose #n #1); [|eauto]. destruct (Rleb 90 a); cbn [where_]; eauto.
Qed.
(** the value a fit works with: the model's, with nan read as 0 *)
Definition value_of (p : iam_params) (a : R) : R :=
  match iam_eval p #a with Ok (Fin y) => y | _ => 0 end.
Definition proper (p : iam_params) : Prop :=
  match p with PAshrae b => True | PMartinRuiz a => 0 < a | PPhysical n K L => 0 < n /\ 0 <= K * L end.
Lemma eval_proper p a : proper p -> exists t, iam_eval p #a = Ok t /\ nan_to #0 t = #(value_of p a).
Proof.
  destruct p as [b|ar|n K L]; cbn [proper iam_eval]; unfold value_of; cbn [iam_eval].
  - intros _. eexists. split; [reflexivity|]. destruct (Rle_dec 90 (Rabs a)) as [H|H].
    + rewrite ashrae_back; [reflexivity|]. rewrite fabs_fin, fleb_fin. apply Rleb_t, H.
    + rewrite ashrae_fin by lra. reflexivity.
  - intros H. destruct (Rle_dec 90 (Rabs a)) as [H'|H'].
    + unfold martin_ruiz. rewrite fleb_fin, Rleb_f by exact H. unfold fgeb. rewrite fabs_fin, fleb_fin, Rleb_t by exact H'.
      cbn [where_]. eexists. split; reflexivity.
    + rewrite mr_fin by lra. eexists. split; reflexivity.
  - intros [Hn HK]. eexists. split; [reflexivity|]. destruct (phys_not_inf a n K L Hn HK) as [->|[y ->]]; reflexivity.
Qed.
Lemma fsum_nil : fsum [] = #0. Proof. reflexivity. Qed.
Definition ptsa (pts : list (R * R)) : list fl := map (fun p => #(fst p)) pts.
Definition ptsm (pts : list (R * R)) : list fl := map (fun p => #(snd p)) pts.
Lemma residual_misfit p pts weight w : proper p -> (forall a, weight #a = #(w a)) ->
  residual (ptsa pts) (ptsm pts) (iam_eval p) weight = Ok #(misfit w (value_of p) pts).
Proof.
  intros HP HW. unfold residual.
  assert (HM : exists t, mapM (iam_eval p) (ptsa pts) = Ok t /\
     fsum (map (fun q : fl * (fl * fl) => let '(a, (s, t)) := q in
         fmul (fabs (fsub s (nan_to #0 t))) (fmul (weight a) (if fgeb a #0 && fleb a #90 then #1 else #0)))
       (combine (ptsa pts) (combine (ptsm pts) t))) = #(misfit w (value_of p) pts)).
  { induction pts as [|[a m] pts (t & E & S)]; [exists []; split; reflexivity|].
    destruct (eval_proper p a HP) as (t0 & E0 & V0). exists (t0 :: t). split.
    - cbn [ptsa map mapM fst]. rewrite E0. unfold bind. unfold ptsa in E. rewrite E. reflexivity.
    - cbn [ptsa ptsm map combine fst snd]. rewrite fsum_cons. unfold ptsa, ptsm in S. rewrite S. cbn [misfit].
      rewrite V0, HW, fsub_fin, fabs_fin. unfold fgeb. rewrite !fleb_fin.
      destruct (Rle_dec 0 a) as [A|A]; [rewrite (Rleb_t 0 a) by exact A|rewrite (Rleb_f 0 a) by lra];
      (destruct (Rle_dec a 90) as [B|B]; [rewrite (Rleb_t a 90) by exact B|rewrite (Rleb_f a 90) by lra]);
      cbn [andb]; rewrite !fmul_fin, fadd_fin; f_equal; ring. }
  destruct HM as (t & -> & S). unfold bind. rewrite S. reflexivity.
Qed.
Lemma mapM_eval p l : proper p -> exists t, mapM (iam_eval p) (map (fun a => #a) l) = Ok t /\ map (nan_to #0) t = map (fun a => #(value_of p a)) l.
Proof.
  intros HP. induction l as [|a l (t & E & S)]; [exists []; split; reflexivity|].
  destruct (eval_proper p a HP) as (t0 & E0 & V0). exists (t0 :: t). split; [|cbn [map]; rewrite V0, S; reflexivity].
  cbn [map mapM]. rewrite E0. unfold bind. rewrite E. reflexivity.
Qed.

Lemma objective_target p either target x pts weight w : target_params either target x = Ok p -> proper p -> (forall a, weight #a = #(w a)) ->
  objective (ptsa pts) (ptsm pts) weight either target x = Ok #(misfit w (value_of p) pts).
Proof. intros H HP HW. unfold objective. rewrite H. unfold bind. apply residual_misfit; assumption. Qed.

Lemma intercept_sin b : 0 < b <= 300 -> exists n, sind (ashrae_intercept #b) = #n /\ 0.08 < n <= 1.
Proof.
  intros Hb. unfold ashrae_intercept. rewrite fadd_fin, fdiv_fin by lra.
  assert (Hc : 0 < b / (1 + b) < 1).
  { split; [apply Rdiv_lt_0_compat; lra|]. apply Rmult_lt_reg_r with (1 + b); [lra|]. unfold Rdiv. rewrite Rmult_assoc, Rinv_l by lra. lra. }
  rewrite acosd_fin by lra. rewrite sind_fin. eexists. split; [reflexivity|]. unfold sinD. rewrite Rrad_deg, sin_acos by lra.
  assert (E : 1 - (b / (1 + b))² = (1 + 2 * b) / ((1 + b) * (1 + b))) by (unfold Rsqr; field; lra). rewrite E.
  assert (P : 0 < (1 + b) * (1 + b)) by (apply Rmult_lt_0_compat; lra).
  assert (L : 0.08 * 0.08 < (1 + 2 * b) / ((1 + b) * (1 + b)) <= 1 * 1).
  { assert (F : (1 + 2 * b) / ((1 + b) * (1 + b)) * ((1 + b) * (1 + b)) = 1 + 2 * b) by (field; lra).
    assert (0 <= (300 - b) * b) by (apply Rmult_le_pos; lra). assert (0 <= b * b) by (apply Rmult_le_pos; lra).
    split; [apply Rmult_lt_reg_r with ((1 + b) * (1 + b))|apply Rmult_le_reg_r with ((1 + b) * (1 + b))]; try exact P; rewrite F; lra. }
  split.
  - rewrite <- (sqrt_square 0.08) by lra. apply sqrt_lt_1; lra.
  - apply Rle_trans with (sqrt (1 * 1)); [apply sqrt_le_1; lra|rewrite sqrt_square; lra].
Qed.
