From Verif Require Import Base.Fl Base.FlFacts Base.Py Model.Tools Model.Iam Model.Spectrum Model.Pvsystem Spec.PvSpec.
From Coq Require Import Psatz ZArith Permutation.
Open Scope R_scope.

Ltac fsx := cbv zeta; repeat first [rewrite !fmul_fin | rewrite !fadd_fin | rewrite !fsub_fin | rewrite !fneg_fin
   | rewrite !fpown_fin | rewrite !fexp_fin | rewrite !fmax_fin | rewrite !fmin_fin].

Lemma Fin_inj a b : #a = #b -> a = b. Proof. congruence. Qed.
(** ** calcparams *)
Lemma desoto_fin kB G T al ar il io rsh rs eg de Gr Tr :
  kB <> 0 -> Gr <> 0 -> G <> 0 -> Tr + 273.15 <> 0 -> T + 273.15 <> 0 ->
  calcparams_desoto kB #G #T #al #ar #il #io #rsh #rs #eg #de #Gr #Tr =
  SD #(G / Gr * (il + al * (T - Tr)))
     #(io * ((T + 273.15) / (Tr + 273.15)) ^ 3 *
       exp (eg / (kB * (Tr + 273.15)) - eg * (1 + de * (T - Tr)) / (kB * (T + 273.15))))
     #rs #(rsh * (Gr / G)) #(ar * ((T + 273.15) / (Tr + 273.15))).
Proof.
  intros H1 H2 H3 H4 H5. unfold calcparams_desoto.
  assert (kB * (Tr + 273.15) <> 0) by (apply Rmult_integral_contrapositive_currified; auto).
  assert (kB * (T + 273.15) <> 0) by (apply Rmult_integral_contrapositive_currified; auto).
  fsx. rewrite !fdiv_fin by auto. fsx. replace (T + 273.15 - (Tr + 273.15)) with (T - Tr) by ring. reflexivity.
Qed.

Lemma desoto_dark kB T al ar il io rsh rs eg de Gr Tr : 0 < rsh * Gr -> rsh <> 0 -> Gr <> 0 ->
  sd_Rsh (calcparams_desoto kB #0 #T #al #ar #il #io #rsh #rs #eg #de #Gr #Tr) = PInf /\
  sd_IL (calcparams_desoto kB #0 #T #al #ar #il #io #rsh #rs #eg #de #Gr #Tr) = #0.
Proof.
  intros H Hr HG. unfold calcparams_desoto. cbv zeta. cbn [sd_Rsh sd_IL]. rewrite fdiv_zero. split.
  - unfold sinf, Rpos, Rneg. destruct (Rltb_spec 0 Gr) as [P|P].
    + cbn [fmul]. unfold sinf, Rpos. rewrite Rltb_t; [reflexivity|]. nra.
    + rewrite (Rltb_t Gr 0) by lra. cbn [fmul]. unfold sinf, Rpos. rewrite Rltb_t; [reflexivity|]. nra.
  - rewrite fdiv_fin by exact HG. fsx. f_equal. unfold Rdiv. ring.
Qed.

Lemma cube_lt a b : 0 < a < b -> a ^ 3 < b ^ 3.
Proof.
  intros [H1 H2]. assert (0 < (b - a) * (a * a + a * b + b * b)) by (apply Rmult_lt_0_compat; nra).
  replace (b ^ 3) with (a ^ 3 + (b - a) * (a * a + a * b + b * b)) by ring. lra.
Qed.
Lemma desoto_I0_increasing kB io eg de Tr T1 T2 :
  0 < kB -> 0 < io -> 0 <= eg -> 0 < Tr -> de * Tr <= 1 -> 0 < T1 < T2 ->
  io * (T1 / Tr) ^ 3 * exp (eg / (kB * Tr) - eg * (1 + de * (T1 - Tr)) / (kB * T1)) <
  io * (T2 / Tr) ^ 3 * exp (eg / (kB * Tr) - eg * (1 + de * (T2 - Tr)) / (kB * T2)).
Proof.
  intros Hk Hi He Ht Hd [H1 H2].
  assert (Q : 0 < T1 / Tr < T2 / Tr).
  { split; [apply Rdiv_lt_0_compat; lra|]. unfold Rdiv. apply Rmult_lt_compat_r; [apply Rinv_0_lt_compat; lra|lra]. }
  assert (P : (T1 / Tr) ^ 3 < (T2 / Tr) ^ 3) by (apply cube_lt; lra).
  assert (P1 : 0 < (T1 / Tr) ^ 3) by (apply pow_lt; lra).
  assert (E : exp (eg / (kB * Tr) - eg * (1 + de * (T1 - Tr)) / (kB * T1)) <= exp (eg / (kB * Tr) - eg * (1 + de * (T2 - Tr)) / (kB * T2))).
  { assert (D : eg / (kB * Tr) - eg * (1 + de * (T2 - Tr)) / (kB * T2) - (eg / (kB * Tr) - eg * (1 + de * (T1 - Tr)) / (kB * T1))
        = eg * (1 - de * Tr) * (T2 - T1) / (kB * T1 * T2)) by (field; lra).
    assert (0 <= eg * (1 - de * Tr) * (T2 - T1) / (kB * T1 * T2)).
    { apply Rle_mult_inv_pos; [|repeat apply Rmult_lt_0_compat; lra]. repeat apply Rmult_le_pos; lra. }
    destruct (Req_dec (eg / (kB * Tr) - eg * (1 + de * (T1 - Tr)) / (kB * T1)) (eg / (kB * Tr) - eg * (1 + de * (T2 - Tr)) / (kB * T2))) as [->|N]; [lra|].
    left. apply exp_increasing. lra. }
  pose proof (exp_pos (eg / (kB * Tr) - eg * (1 + de * (T1 - Tr)) / (kB * T1))).
  rewrite !Rmult_assoc. apply Rmult_lt_compat_l; [exact Hi|].
  apply Rlt_le_trans with ((T2 / Tr) ^ 3 * exp (eg / (kB * Tr) - eg * (1 + de * (T1 - Tr)) / (kB * T1))).
  - apply Rmult_lt_compat_r; assumption.
  - apply Rmult_le_compat_l; lra.
Qed.

Lemma pvsyst_Rsh_fin G rref r0 x Gr : 0 < x -> Gr <> 0 ->
  let base := Rmax 0 ((rref - r0 * exp (- x)) / (1 - exp (- x))) in
  pvsyst_Rsh #G #rref #r0 #x #Gr = #(base + (r0 - base) * exp (- x * G / Gr)).
Proof.
  intros Hx HG base. unfold pvsyst_Rsh. fsx.
  assert (exp (- x) < 1) by (rewrite <- exp_0; apply exp_increasing; lra).
  rewrite !fdiv_fin by lra. fsx. reflexivity.
Qed.
Lemma pvsyst_Rsh_ref rref r0 x Gr : 0 < x -> Gr <> 0 -> pvsyst_Rsh #Gr #rref #r0 #x #Gr = #(Rmax rref (r0 * exp (- x))).
Proof.
  intros Hx HG. rewrite pvsyst_Rsh_fin by assumption. cbv zeta.
  assert (Hb : exp (- x) < 1) by (rewrite <- exp_0; apply exp_increasing; lra).
  pose proof (exp_pos (- x)) as Hp. replace (- x * Gr / Gr) with (- x) by (field; auto). set (e := exp (- x)) in *. f_equal.
  unfold Rmax at 3. destruct (Rle_dec rref (r0 * e)) as [L|L].
  - rewrite Rmax_left; [ring|]. unfold Rdiv. assert (0 < / (1 - e)) by (apply Rinv_0_lt_compat; lra). nra.
  - rewrite Rmax_right; [field; lra|]. apply Rle_mult_inv_pos; lra.
Qed.
Lemma pvsyst_Io_fin k q T g io eg Tr : k <> 0 -> g <> 0 -> T + 273.15 <> 0 -> Tr + 273.15 <> 0 ->
  pvsyst_Io k q #T #g #io #eg #Tr =
  #(io * ((T + 273.15) / (Tr + 273.15)) ^ 3 * exp (q * eg / (k * g) * (1 / (Tr + 273.15) - 1 / (T + 273.15)))).
Proof.
  intros H1 H2 H3 H4. unfold pvsyst_Io. fsx. assert (k * g <> 0) by (apply Rmult_integral_contrapositive_currified; auto).
  rewrite !fdiv_fin by auto. fsx. reflexivity.
Qed.

(** ** scale_voltage_current_power *)
Lemma lookup_flat_map k items (d : frame) :
  lookup k (df_filter items d) = if mem k items then lookup k d else None.
Proof.
  unfold df_filter. induction items as [|i items IH]; [reflexivity|]. cbn [flat_map].
  unfold mem in *. cbn [existsb]. destruct (String.eqb_spec k i) as [->|N]; cbn [orb].
  - destruct (lookup i d) as [v|] eqn:E; cbn [app lookup]; [rewrite String.eqb_refl; reflexivity|].
    rewrite IH. destruct (existsb (String.eqb i) items); reflexivity.
  - destruct (lookup i d) as [v|] eqn:E; cbn [app lookup]; [|exact IH].
    destruct (String.eqb_spec k i); [contradiction|exact IH].
Qed.
Lemma lookup_scale k c (d : frame) : lookup k (df_scale c d) = option_map (map (fun x => fmul x c)) (lookup k d).
Proof.
  induction d as [|[i v] d IH]; [reflexivity|]. cbn [df_scale map lookup fst snd]. destruct (String.eqb k i); [reflexivity|exact IH].
Qed.
Lemma lookup_app {A} k (d d' : list (string * A)) : lookup k (d ++ d') = match lookup k d with Some v => Some v | None => lookup k d' end.
Proof. induction d as [|[i v] d IH]; [reflexivity|]. cbn [app lookup]. destruct (String.eqb k i); [reflexivity|exact IH]. Qed.
Lemma lookup_unique {A} k (v : A) d : NoDup (map fst d) -> In (k, v) d -> lookup k d = Some v.
Proof.
  induction d as [|[i w] d IH]; [intros _ []|]. cbn [map fst lookup In]. intros N [H|H].
  - injection H as -> ->. rewrite String.eqb_refl. reflexivity.
  - inversion N as [|? ? N1 N2]; subst. destruct (String.eqb_spec k i) as [->|_]; [|auto].
    exfalso. apply N1. apply (in_map fst) in H. exact H.
Qed.

Definition vkeys := ["v_mp"; "v_oc"]%string.
Definition ikeys := ["i_mp"; "i_x"; "i_xx"; "i_sc"]%string.
Lemma keys_disjoint k : mem k vkeys = true -> mem k ikeys = false /\ mem k ["p_mp"]%string = false.
Proof. rewrite mem_In. intros [<-|[<-|[]]]; split; reflexivity. Qed.
Lemma ikeys_disjoint k : mem k ikeys = true -> mem k vkeys = false /\ mem k ["p_mp"]%string = false.
Proof. rewrite mem_In. intros [<-|[<-|[<-|[<-|[]]]]]; split; reflexivity. Qed.

Definition scaled (data : frame) (v c : fl) : frame :=
  (df_scale v (df_filter vkeys data) ++ df_scale c (df_filter ikeys data) ++ df_scale c (df_scale v (df_filter ["p_mp"]%string data)))%list.
Lemma scaled_lookup k data m s : lookup k (scaled data #m #s) =
  match array_factor k m s with
  | Some f => option_map (map (fun x => if String.eqb k "p_mp" then fmul (fmul x #m) #s else fmul x #f)) (lookup k data)
  | None => None
  end.
Proof.
  unfold scaled. rewrite !lookup_app, !lookup_scale, !lookup_flat_map. unfold array_factor.
  change (existsb (String.eqb k) ["v_mp"; "v_oc"]%string) with (mem k vkeys).
  change (existsb (String.eqb k) ["i_mp"; "i_x"; "i_xx"; "i_sc"]%string) with (mem k ikeys).
  assert (HP : mem k ["p_mp"]%string = String.eqb k "p_mp") by (unfold mem; cbn [existsb]; apply orb_false_r).
  destruct (mem k vkeys) eqn:V.
  - destruct (keys_disjoint k V) as [D1 D2]. rewrite D1, D2. rewrite HP in D2. rewrite D2. destruct (lookup k data); reflexivity.
  - destruct (mem k ikeys) eqn:I.
    + destruct (ikeys_disjoint k I) as [D1 D2]. rewrite D2. rewrite HP in D2. rewrite D2. cbn [option_map]. destruct (lookup k data); reflexivity.
    + rewrite HP. cbn [option_map]. destruct (String.eqb k "p_mp"); cbn [option_map]; [|reflexivity].
      destruct (lookup k data); cbn [option_map]; [|reflexivity]. rewrite map_map. reflexivity.
Qed.

Lemma mapM_ok_iff {A B} (f : A -> res B) l : (exists r, mapM f l = Ok r) <-> Forall (fun x => exists y, f x = Ok y) l.
Proof.
  induction l as [|x l IH]; cbn [mapM].
  - split; [constructor|eauto].
  - split.
    + intros [r H]. destruct (f x) as [y|] eqn:E; cbn [bind] in H; [|discriminate]. destruct (mapM f l) as [ys|] eqn:E2; cbn [bind] in H; [|discriminate].
      constructor; [eauto|]. apply IH. eauto.
    + intros H. inversion H as [|? ? [y E] HF]; subst. rewrite E. cbn [bind]. apply IH in HF as [ys E2]. rewrite E2. cbn [bind]. eauto.
Qed.
Lemma mapM_map {A B} (f : A -> res B) g l : (forall x, In x l -> f x = Ok (g x)) -> mapM f l = Ok (map g l).
Proof.
  induction l as [|x l IH]; intros H; [reflexivity|]. cbn [mapM map]. rewrite H by (left; reflexivity). cbn [bind].
  rewrite IH by (intros; apply H; right; assumption). reflexivity.
Qed.
Lemma mapM_nth {A B} (f : A -> res B) l r : mapM f l = Ok r ->
  length r = length l /\ forall i x, nth_error l i = Some x -> exists y, nth_error r i = Some y /\ f x = Ok y.
Proof.
  revert r. induction l as [|x l IH]; cbn [mapM]; intros r H.
  - injection H as <-. split; [reflexivity|]. intros [|i] y Hy; discriminate.
  - destruct (f x) as [y|] eqn:E; cbn [bind] in H; [|discriminate]. destruct (mapM f l) as [ys|] eqn:E2; cbn [bind] in H; [|discriminate].
    injection H as <-. destruct (IH _ eq_refl) as [L N]. split; [cbn; lia|].
    intros [|i] z Hz; cbn in Hz |- *; [injection Hz as <-; eauto|auto].
Qed.
Lemma mapM_err {A B} (f : A -> res B) l e : mapM f l = Err e -> exists x, In x l /\ f x = Err e.
Proof.
  induction l as [|x l IH]; cbn [mapM]; [discriminate|]. destruct (f x) as [y|e'] eqn:E; cbn [bind].
  - destruct (mapM f l) eqn:E2; cbn [bind]; [discriminate|]. intros [= <-]. destruct (IH eq_refl) as (z & Hz & Ez). exists z. split; [right|]; auto.
  - intros [= <-]. exists x. split; [left; reflexivity|exact E].
Qed.

Lemma scale_eq data v c : scale_voltage_current_power data v c = df_select (map fst data) (scaled data v c).
Proof. reflexivity. Qed.

Definition scale_col (m s : R) (p : string * list fl) : string * list fl :=
  (fst p, match array_factor (fst p) m s with
          | Some f => map (fun x => if String.eqb (fst p) "p_mp" then fmul (fmul x #m) #s else fmul x #f) (snd p)
          | None => [] end).
Lemma scale_ok data m s : NoDup (map fst data) -> Forall (fun p => array_factor (fst p) m s <> None) data ->
  scale_voltage_current_power data #m #s = Ok (map (scale_col m s) data).
Proof.
  intros N HF. rewrite scale_eq. unfold df_select.
  assert (G : forall sub, (forall p, In p sub -> In p data) ->
    mapM (fun k => let* v := getitem (scaled data #m #s) k in Ok (k, v)) (map fst sub) = Ok (map (scale_col m s) sub)).
  { induction sub as [|[k col] sub IH]; intros HS; [reflexivity|]. cbn [map fst mapM].
    unfold getitem at 1. rewrite scaled_lookup. assert (HI := HS (k, col) (or_introl eq_refl)).
    rewrite (lookup_unique k col data N HI). rewrite Forall_forall in HF. specialize (HF _ HI). cbn [fst] in HF.
    unfold scale_col at 1. cbn [fst snd]. destruct (array_factor k m s) as [f|] eqn:EF; [|congruence]. cbn [option_map bind].
    rewrite IH by (intros; apply HS; right; assumption). reflexivity. }
  apply G. auto.
Qed.
Lemma scale_err data m s k : In k (map fst data) -> array_factor k m s = None ->
  scale_voltage_current_power data #m #s = Err KeyError.
Proof.
  intros HI HF. rewrite scale_eq. unfold df_select.
  destruct (mapM _ (map fst data)) as [r|e] eqn:E.
  - apply mapM_nth in E as [_ E]. apply In_nth_error in HI as [i Hi]. destruct (E i k Hi) as (y & _ & Ey).
    unfold getitem in Ey. rewrite scaled_lookup, HF in Ey. discriminate.
  - apply mapM_err in E as (x & _ & E). cbv beta in E. unfold getitem in E. destruct (lookup x (scaled data #m #s)); cbn [bind] in E; [discriminate|injection E as <-; reflexivity].
Qed.

(** ** losses *)
Lemma losses_fold l acc : fold_left (fun perf param => (perf * (#1 - param / #100))%fl) (map Fin l) #acc = #(acc * remaining (map (fun x => x / 100) l)).
Proof.
  revert acc. induction l as [|x l IH]; intros acc; cbn [map fold_left remaining].
  - f_equal. ring.
  - rewrite fdiv_fin by lra. fsx. rewrite IH. f_equal. ring.
Qed.
Lemma losses_of_fin l : losses_of (map Fin l) = #(100 * (1 - remaining (map (fun x => x / 100) l))).
Proof. unfold losses_of. cbv zeta. rewrite losses_fold. fsx. f_equal. ring. Qed.
Lemma remaining_perm l l' : Permutation l l' -> remaining l = remaining l'.
Proof. induction 1; cbn [remaining]; try congruence; ring. Qed.
Lemma remaining_bounds l : Forall (fun x => 0 <= x <= 1) l -> 0 <= remaining l <= 1.
Proof. induction 1; cbn [remaining]; [lra|]. nra. Qed.
Lemma remaining_ge1 l x : Forall (fun x => 0 <= x <= 1) l -> In x l -> remaining l <= 1 - x.
Proof.
  intros HF. induction HF as [|y l Hy HF IH]; [intros []|]. cbn [remaining]. intros [->|HI].
  - pose proof (remaining_bounds l HF). nra.
  - specialize (IH HI). pose proof (remaining_bounds l HF). nra.
Qed.

(** ** combine_loss_factors *)
Lemma combine_fold m t losses acc vs : map (fun l => reindex1 m l t) losses = map Fin vs ->
  fold_left (fun acc loss => (acc * (#1 - reindex1 m loss t))%fl) losses #acc = #(acc * remaining vs).
Proof.
  revert acc vs. induction losses as [|l losses IH]; intros acc vs H.
  - destruct vs; [|discriminate]. cbn. f_equal. ring.
  - destruct vs as [|v vs]; [discriminate|]. cbn [map] in H. injection H as H1 H2. cbn [fold_left remaining]. rewrite H1. fsx.
    rewrite (IH _ vs H2). f_equal. ring.
Qed.
Lemma first_ge_next s t v : increasing s -> next_in s t v -> first_ge t s = v.
Proof.
  induction s as [|[u w] s IH]; intros HI (x & HX & Hx & HM); [destruct HX|]. cbn [first_ge]. destruct HI as [HF HI].
  destruct (Z.leb_spec t u) as [L|L].
  - destruct HX as [E|HX]; [injection E as _ ->; reflexivity|]. exfalso.
    rewrite Forall_forall in HF. specialize (HF _ HX). cbn in HF. specialize (HM u w (or_introl eq_refl) L). lia.
  - apply IH; [exact HI|]. exists x. destruct HX as [E|HX]; [injection E as -> _; lia|]. split; [exact HX|]. split; [exact Hx|].
    intros u' v' H. apply (HM u' v'). right. exact H.
Qed.
Lemma first_ge_none s t : Forall (fun p => (fst p < t)%Z) s -> first_ge t s = NaN.
Proof. induction 1 as [|[u w] s H HF IH]; [reflexivity|]. cbn [first_ge fst] in *. destruct (Z.leb_spec t u); [lia|exact IH]. Qed.
Lemma exact_at_in s t v : increasing s -> In (t, v) s -> exact_at t s = v.
Proof.
  induction s as [|[u w] s IH]; intros HI HX; [destruct HX|]. cbn [exact_at]. destruct HI as [HF HI].
  destruct HX as [E|HX]; [injection E as -> ->; rewrite Z.eqb_refl; reflexivity|].
  rewrite Forall_forall in HF. specialize (HF _ HX). cbn in HF. destruct (Z.eqb_spec u t); [lia|]. apply IH; assumption.
Qed.
Lemma exact_at_none s t : Forall (fun p => fst p <> t) s -> exact_at t s = NaN.
Proof. induction 1 as [|[u w] s H HF IH]; [reflexivity|]. cbn [exact_at fst] in *. destruct (Z.eqb_spec u t); [contradiction|exact IH]. Qed.
Lemma last_le_in_force s t acc : increasing s ->
  (forall v, in_force s t v -> last_le t acc s = v) /\ (Forall (fun p => (t < fst p)%Z) s -> last_le t acc s = acc).
Proof.
  revert acc. induction s as [|[u w] s IH]; intros acc H.
  - split; [intros v (x & [] & _)|reflexivity].
  - destruct H as [H1 H2]. cbn [last_le]. destruct (Z.leb_spec u t) as [L|L].
    + destruct (IH w H2) as [I1 I2]. split.
      * intros v (x & [E|E] & X1 & X2).
        -- injection E as -> ->. apply I2. rewrite Forall_forall in *. intros [u' v'] HI.
           specialize (H1 _ HI). cbn in *. destruct (Z.leb_spec u' t); [|lia]. specialize (X2 u' v' (or_intror HI) H). lia.
        -- apply I1. exists x. split; [exact E|]. split; [exact X1|]. intros u1 v1 HI. apply (X2 u1 v1). right. exact HI.
      * intros HF. inversion HF; subst. cbn in *. lia.
    + split; [|reflexivity]. intros v (x & [E|E] & X1 & X2).
      * injection E as -> ->. lia.
      * rewrite Forall_forall in H1. specialize (H1 _ E). cbn in H1. lia.
Qed.

(** ** pvwatts_dc *)
Lemma pvwatts_dc_plain G T p g Tr b : pvwatts_dc #G #T #p #g #Tr None b = #(G / 1000 * p * (1 + g * (T - Tr))).
Proof. unfold pvwatts_dc. fsx. f_equal. lra. Qed.
Lemma pvwatts_dc_k G T p g Tr k cap :
  pvwatts_dc #G #T #p #g #Tr (Some #k) cap =
  #(Rmax 0 (G / 1000 * p * (1 + g * (T - Tr)) - p * (if cap then (if Rle_dec 1000 G then 0 else marion_err k G) else marion_err k G))).
Proof.
  unfold pvwatts_dc. fsx. rewrite !fdiv_fin by lra. fsx. rewrite fleb_fin, fgeb_fin.
  assert (E : where_ (Rleb G 200) #(k * (1 - (1 - G / 200) ^ 4)) #(k * (1000 - G) / (1000 - 200)) = #(marion_err k G)).
  { unfold where_, marion_err, Rleb. destruct (Rle_dec G 200); [reflexivity|]. f_equal. field. }
  rewrite E. destruct cap.
  - unfold where_, Rleb. destruct (Rle_dec 1000 G); fsx; rewrite fltb_fin; unfold Rltb; destruct Rlt_dec; f_equal; rmm; lra.
  - unfold where_. fsx. rewrite fltb_fin. unfold Rltb. destruct Rlt_dec; f_equal; rmm; lra.
Qed.
