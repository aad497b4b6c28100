(** Proofs about the SAPM DC model. *)
From Verif Require Import Base.Fl Base.FlFacts Base.Py Model.Iam Model.Spectrum Model.Pvsystem Spec.SapmSpec Proofs.PvsystemP.
Open Scope R_scope.

Ltac getkeys H := repeat match goal with |- context [getitem ?m ?k] =>
  let E := fresh "E" in assert (E : getitem m k = Ok (Fin (_ k))) by (unfold getitem; rewrite (H k) by (cbn; tauto); reflexivity);
  rewrite E; clear E; cbn [bind] end.

Lemma sapm_fin k q G T m T0 G0 p : reads m p -> q <> 0 -> 0 < G / G0 -> G0 <> 0 ->
  exists ex, sapm k q #G #T m #T0 #G0 = Ok ([("i_sc", #(sapm_isc p (G / G0) T T0)); ("i_mp", #(sapm_imp p (G / G0) T T0));
    ("v_oc", #(Rmax 0 (sapm_voc k q p (G / G0) T T0))); ("v_mp", #(Rmax 0 (sapm_vmp k q p (G / G0) T T0)));
    ("p_mp", #(sapm_imp p (G / G0) T T0 * Rmax 0 (sapm_vmp k q p (G / G0) T T0)))]%string ++ ex)%list /\
   (forall key, In key ["i_sc"; "i_mp"; "v_oc"; "v_mp"; "p_mp"]%string -> lookup key ex = None).
Proof.
  intros H Hq He HG. unfold sapm. rewrite (fdiv_fin G G0) by assumption. set (Ee := G / G0) in *.
  getkeys H. rewrite fgtb_fin, Rltb_t by assumption. rewrite fln_fin by assumption.
  rewrite !fpown_fin. fsx. rewrite !(fdiv_fin _ q) by assumption. fsx.
  eexists; split; [reflexivity|].
  intros key Hk. cbn in Hk. rewrite lookup_app.
  destruct (lookup "IXO" m), (lookup "C4" m), (lookup "C5" m), (lookup "IXXO" m), (lookup "C6" m), (lookup "C7" m);
    repeat (destruct Hk as [<-|Hk]; [reflexivity|]); destruct Hk.
Qed.

Lemma sapm_keys k q G T m T0 G0 :
  (forall key, In key sapm_required -> lookup key m <> None) /\ (exists out, sapm k q G T m T0 G0 = Ok out) \/
  (exists key, In key sapm_required /\ lookup key m = None) /\ sapm k q G T m T0 G0 = Err KeyError.
Proof.
  unfold sapm, getitem.
  repeat match goal with |- context [match lookup ?key m with Some v => Ok v | None => Err KeyError end] =>
    let E := fresh "E" in destruct (lookup key m) as [?v|] eqn:E; [cbn [bind]|right; split; [exists key; split; [cbn; tauto|exact E]|reflexivity]] end.
  left. split; [|eauto].
  intros key H. cbn in H. repeat (destruct H as [<-|H]; [congruence|]). destruct H.
Qed.
Lemma Ok_inj {A} (a b : A) : Ok a = Ok b -> a = b. Proof. congruence. Qed.
Lemma fmax_comm x y : fmax x y = fmax y x.
Proof. destruct x, y; cbn; try reflexivity. f_equal. apply Rmax_comm. Qed.
(** shape and unconditional facts of a successful call *)
Definition has3 (m : list (string * fl)) (a b c : string) : Prop := lookup a m <> None /\ lookup b m <> None /\ lookup c m <> None.
Lemma sapm_shape k q G T m T0 G0 out : sapm k q G T m T0 G0 = Ok out ->
  exists isc imp voc vmp, firstn 5 out = [("i_sc", isc); ("i_mp", imp); ("v_oc", voc); ("v_mp", vmp); ("p_mp", fmul imp vmp)]%string /\
    atleast #0 voc /\ atleast #0 vmp /\
    (lookup "i_x" out <> None <-> has3 m "IXO" "C4" "C5") /\ (lookup "i_xx" out <> None <-> has3 m "IXXO" "C6" "C7") /\
    (forall key, lookup key out <> None -> In key ["i_sc"; "i_mp"; "v_oc"; "v_mp"; "p_mp"; "i_x"; "i_xx"]%string).
Proof.
  unfold sapm, getitem.
  repeat match goal with |- context [match lookup ?key m with Some v => Ok v | None => Err KeyError end] =>
    destruct (lookup key m) as [?v|]; [cbn [bind]|discriminate] end.
  cbv zeta. intros E. apply Ok_inj in E. subst out. do 4 eexists. split; [cbn [firstn app]; reflexivity|].
  split; [|split; [|split; [|split]]].
  - rewrite fmax_comm. apply fmax_atleast.
  - rewrite fmax_comm. apply fmax_atleast.
  - unfold has3. destruct (lookup "IXO" m), (lookup "C4" m), (lookup "C5" m), (lookup "IXXO" m), (lookup "C6" m), (lookup "C7" m);
      cbn; split; intros; try split; try split; try tauto; try congruence; intuition congruence.
  - unfold has3. destruct (lookup "IXO" m), (lookup "C4" m), (lookup "C5" m), (lookup "IXXO" m), (lookup "C6" m), (lookup "C7" m);
      cbn; split; intros; try split; try split; try tauto; try congruence; intuition congruence.
  - intros key H. destruct (lookup key _) as [x|] eqn:E; [|congruence]. apply lookup_In in E.
    apply in_app_or in E as [E|E]; [cbn in E; cbn; repeat (destruct E as [E|E]; [injection E as <- _; tauto|]); destruct E|].
    apply in_app_or in E as [E|E].
    + destruct (lookup "IXO" m), (lookup "C4" m), (lookup "C5" m); cbn in E; try tauto. destruct E as [E|[]]. injection E as <- _. cbn; tauto.
    + destruct (lookup "IXXO" m), (lookup "C6" m), (lookup "C7" m); cbn in E; try tauto. destruct E as [E|[]]. injection E as <- _. cbn; tauto.
Qed.
(** without light: no current, no open-circuit voltage *)
Lemma sapm_dark k q T m T0 G0 p : reads m p -> q <> 0 -> G0 <> 0 -> 0 < p "Cells_in_Series"%string -> 0 < p "N"%string * k * (T + 273.15) / q ->
  exists out, sapm k q #0 #T m #T0 #G0 = Ok out /\ lookup "i_sc" out = Some #0 /\ lookup "i_mp" out = Some #0 /\ lookup "v_oc" out = Some #0 /\
   (0 < p "C2"%string -> p "C3"%string < 0 -> lookup "v_mp" out = Some #0 /\ lookup "p_mp" out = Some #0) /\
   (p "C2"%string <= 0 -> p "C3"%string < 0 -> lookup "v_mp" out = Some NaN /\ lookup "p_mp" out = Some NaN).
Proof.
  intros H Hq HG Hn Hd. unfold sapm. rewrite (fdiv_fin 0 G0) by assumption. replace (0 / G0) with 0 by (field; assumption).
  getkeys H. rewrite fgtb_fin, Rltb_f by lra. rewrite feqb_fin, Reqb_t by reflexivity.
  eexists; split; [reflexivity|]. cbn [lookup app String.eqb Ascii.eqb Bool.eqb].
  rewrite !fpown_fin. fsx. rewrite !(fdiv_fin _ q) by assumption. fsx. split; [f_equal; f_equal; ring|]. split; [f_equal; f_equal; ring|].
  assert (N : forall a, fmul (Fin a) NInf = sinf (- a)) by reflexivity.
  assert (SN : forall a, 0 < a -> sinf (- a) = NInf) by (intros; unfold sinf, Rpos, Rneg; rewrite Rltb_f, Rltb_t by lra; reflexivity).
  assert (SP : forall a, a < 0 -> sinf (- a) = PInf) by (intros; unfold sinf, Rpos, Rneg; rewrite Rltb_t by lra; reflexivity).
  set (d := p "N"%string * k * (T + 273.15) / q) in *. set (n := p "Cells_in_Series"%string) in *.
  split. { rewrite N, SN by nra. reflexivity. }
  cbn [fpown]. rewrite !N.
  rewrite (SN d) by exact Hd. cbn [fmul].
  assert (Q : forall a, a < 0 -> sinf a = NInf) by (intros; unfold sinf, Rpos, Rneg; rewrite Rltb_f, Rltb_t by lra; reflexivity).
  split; intros H2 H3.
  - rewrite SN by (rewrite Rmult_assoc; apply Rmult_lt_0_compat; nra). rewrite Q by nra. split; [reflexivity|]. cbn. f_equal. f_equal. ring.
  - rewrite (Q (p "C3"%string * n)) by nra.
    destruct (Req_dec (p "C2"%string) 0) as [Z|Z].
    + rewrite Z. replace (- (0 * n * d)) with 0 by ring. unfold sinf, Rpos, Rneg. rewrite !Rltb_f by lra. split; reflexivity.
    + rewrite SP by (rewrite Rmult_assoc; assert (0 < n * d) by nra; nra). split; reflexivity.
Qed.
