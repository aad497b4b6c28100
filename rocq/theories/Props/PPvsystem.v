(** Properties C44-C47: module-level functions of pvsystem.py. *)
From Verif Require Import Base.Fl Base.FlFacts Base.Py Model.Tools Model.Pvsystem Model.System Spec.PvSpec Proofs.PvsystemP.
From Coq Require Import Psatz ZArith Permutation.
Open Scope R_scope.

(** ** C44 single-diode parameters *)
Theorem C44_desoto_reference : forall kB al ar il io rsh rs eg de Gr Tr,
  kB <> 0 -> Gr <> 0 -> Tr + 273.15 <> 0 ->
  calcparams_desoto kB #Gr #Tr #al #ar #il #io #rsh #rs #eg #de #Gr #Tr = SD #il #io #rs #rsh #ar.
Proof.
  intros kB al ar il io rsh rs eg de Gr Tr H1 H2 H3. rewrite desoto_fin by auto.
  replace (Tr - Tr) with 0 by ring. replace ((Tr + 273.15) / (Tr + 273.15)) with 1 by (field; auto).
  replace (eg * (1 + de * 0)) with eg by ring. rewrite Rminus_diag_eq by reflexivity. rewrite exp_0.
  f_equal; f_equal; try (field; auto); ring.
Qed.
Print Assumptions C44_desoto_reference.
(** the De Soto auxiliary equations at any condition *)
Theorem C44_desoto_equations : forall kB G T al ar il io rsh rs eg de Gr Tr,
  kB <> 0 -> Gr <> 0 -> G <> 0 -> Tr + 273.15 <> 0 -> T + 273.15 <> 0 ->
  let TK := T + 273.15 in let TrK := Tr + 273.15 in let Eg := eg * (1 + de * (T - Tr)) in
  calcparams_desoto kB #G #T #al #ar #il #io #rsh #rs #eg #de #Gr #Tr =
  SD #(G / Gr * (il + al * (T - Tr))) #(io * (TK / TrK) ^ 3 * exp (eg / (kB * TrK) - Eg / (kB * TK)))
     #rs #(rsh * (Gr / G)) #(ar * (TK / TrK)).
Proof. intros. apply desoto_fin; auto. Qed.
Print Assumptions C44_desoto_equations.
(** photocurrent proportional to irradiance; shunt resistance inversely proportional *)
Theorem C44_desoto_proportional : forall kB c G T al ar il io rsh rs eg de Gr Tr,
  kB <> 0 -> Gr <> 0 -> G <> 0 -> c <> 0 -> Tr + 273.15 <> 0 -> T + 273.15 <> 0 ->
  let p := calcparams_desoto kB #G #T #al #ar #il #io #rsh #rs #eg #de #Gr #Tr in
  let p' := calcparams_desoto kB #(c * G) #T #al #ar #il #io #rsh #rs #eg #de #Gr #Tr in
  sd_IL p' = fmul #c (sd_IL p) /\ sd_Rsh p = fmul #c (sd_Rsh p') /\ sd_I0 p' = sd_I0 p /\ sd_Rs p' = sd_Rs p /\ sd_nNsVth p' = sd_nNsVth p.
Proof.
  intros kB c G T al ar il io rsh rs eg de Gr Tr H1 H2 H3 H4 H5 H6. cbv zeta.
  rewrite !desoto_fin by (auto; apply Rmult_integral_contrapositive_currified; auto). cbn [sd_IL sd_Rsh sd_I0 sd_Rs sd_nNsVth].
  rewrite !fmul_fin. repeat split; f_equal; field; auto.
Qed.
Print Assumptions C44_desoto_proportional.
(** no light: no photocurrent and an infinite shunt resistance, without any exception *)
Theorem C44_desoto_dark : forall kB T al ar il io rsh rs eg de Gr Tr, 0 < rsh * Gr ->
  sd_IL (calcparams_desoto kB #0 #T #al #ar #il #io #rsh #rs #eg #de #Gr #Tr) = #0 /\
  sd_Rsh (calcparams_desoto kB #0 #T #al #ar #il #io #rsh #rs #eg #de #Gr #Tr) = PInf.
Proof. intros. assert (rsh <> 0 /\ Gr <> 0) as [A B] by (split; intros ->; lra). destruct (desoto_dark kB T al ar il io rsh rs eg de Gr Tr H A B). auto. Qed.
Print Assumptions C44_desoto_dark.
(** the saturation current strictly increases with cell temperature *)
Theorem C44_desoto_saturation_increasing : forall kB G T1 T2 al ar il io rsh rs eg de Gr Tr i1 i2,
  0 < kB -> 0 < io -> 0 <= eg -> -273.15 < Tr -> de * (Tr + 273.15) <= 1 -> -273.15 < T1 < T2 -> Gr <> 0 -> G <> 0 ->
  sd_I0 (calcparams_desoto kB #G #T1 #al #ar #il #io #rsh #rs #eg #de #Gr #Tr) = #i1 ->
  sd_I0 (calcparams_desoto kB #G #T2 #al #ar #il #io #rsh #rs #eg #de #Gr #Tr) = #i2 -> 0 < i1 < i2.
Proof.
  intros kB G T1 T2 al ar il io rsh rs eg de Gr Tr i1 i2 H1 H2 H3 H4 H5 H6 H7 H8 E1 E2.
  rewrite desoto_fin in E1 by (auto; lra). rewrite desoto_fin in E2 by (auto; lra). cbn [sd_I0] in E1, E2.
  apply Fin_inj in E1, E2. subst i1 i2. split.
  - apply Rmult_lt_0_compat; [|apply exp_pos]. apply Rmult_lt_0_compat; [lra|]. apply pow_lt. apply Rdiv_lt_0_compat; lra.
  - pose proof (desoto_I0_increasing kB io eg de (Tr + 273.15) (T1 + 273.15) (T2 + 273.15) H1 H2 H3 ltac:(lra) H5 ltac:(lra)) as K.
    replace (T1 + 273.15 - (Tr + 273.15)) with (T1 - Tr) in K by ring. replace (T2 + 273.15 - (Tr + 273.15)) with (T2 - Tr) in K by ring. exact K.
Qed.
Print Assumptions C44_desoto_saturation_increasing.
(** CEC: De Soto with the temperature coefficient of short circuit current reduced by Adjust percent *)
Theorem C44_cec_is_adjusted_desoto : forall kB G T al ar il io rsh rs adj eg de Gr Tr,
  calcparams_cec kB G T #al ar il io rsh rs #adj eg de Gr Tr =
  calcparams_desoto kB G T #(al * (100 - adj) / 100) ar il io rsh rs eg de Gr Tr.
Proof.
  intros. unfold calcparams_cec. rewrite fdiv_fin by lra. rewrite fsub_fin, fmul_fin. do 2 f_equal. field.
Qed.
Print Assumptions C44_cec_is_adjusted_desoto.
Theorem C44_cec_adjust_zero : forall kB G T al ar il io rsh rs eg de Gr Tr,
  calcparams_cec kB G T #al ar il io rsh rs #0 eg de Gr Tr = calcparams_desoto kB G T #al ar il io rsh rs eg de Gr Tr.
Proof. intros. rewrite C44_cec_is_adjusted_desoto. do 2 f_equal. field. Qed.
Print Assumptions C44_cec_adjust_zero.
Theorem C44_pvsyst_reference : forall k q al gam mu il io rref r0 rs cells x eg Gr Tr,
  0 < k -> 0 < q -> gam <> 0 -> 0 < x -> Gr <> 0 -> Tr + 273.15 <> 0 -> r0 * exp (- x) <= rref ->
  calcparams_pvsyst k q #Gr #Tr #al #gam #mu #il #io #rref #r0 #rs #cells #x #eg #Gr #Tr =
  SD #il #io #rs #rref #(gam * k / q * cells * (Tr + 273.15)).
Proof.
  intros k q al gam mu il io rref r0 rs cells x eg Gr Tr H1 H2 H3 H4 H5 H6 H7.
  unfold calcparams_pvsyst, pvsyst_gamma, pvsyst_IL, pvsyst_nNsVth. fsx. replace (gam + mu * (Tr - Tr)) with gam by ring.
  rewrite pvsyst_Rsh_ref by auto. rewrite Rmax_left by exact H7. rewrite pvsyst_Io_fin by (auto; lra).
  rewrite !fdiv_fin by (auto; lra). fsx.
  replace (1 / (Tr + 273.15) - 1 / (Tr + 273.15)) with 0 by ring. rewrite Rmult_0_r, exp_0.
  f_equal; f_equal; field; auto.
Qed.
Print Assumptions C44_pvsyst_reference.
Theorem C44_pvsyst_equations : forall k q G T al gam mu il io rref r0 rs cells x eg Gr Tr,
  k <> 0 -> q <> 0 -> 0 < x -> Gr <> 0 -> Tr + 273.15 <> 0 -> T + 273.15 <> 0 ->
  let g := gam + mu * (T - Tr) in g <> 0 ->
  let base := Rmax 0 ((rref - r0 * exp (- x)) / (1 - exp (- x))) in
  calcparams_pvsyst k q #G #T #al #gam #mu #il #io #rref #r0 #rs #cells #x #eg #Gr #Tr =
  SD #(G / Gr * (il + al * (T - Tr)))
     #(io * ((T + 273.15) / (Tr + 273.15)) ^ 3 * exp (q * eg / (k * g) * (1 / (Tr + 273.15) - 1 / (T + 273.15))))
     #rs #(base + (r0 - base) * exp (- x * G / Gr)) #(g * k / q * cells * (T + 273.15)).
Proof.
  intros k q G T al gam mu il io rref r0 rs cells x eg Gr Tr H1 H2 H3 H4 H5 H6 g H7 base.
  unfold calcparams_pvsyst, pvsyst_gamma, pvsyst_IL, pvsyst_nNsVth. fsx. fold g.
  rewrite pvsyst_Rsh_fin by auto. rewrite pvsyst_Io_fin by auto. rewrite !fdiv_fin by auto. fsx.
  replace (T + 273.15 - (Tr + 273.15)) with (T - Tr) by ring. reflexivity.
Qed.
Print Assumptions C44_pvsyst_equations.
(** the shunt resistance starts at R_sh_0 in the dark and does not increase with light when R_sh_0 >= R_sh_ref > 0 *)
Theorem C44_pvsyst_shunt : forall rref r0 x Gr G1 G2 r1 r2, 0 < x -> 0 < Gr -> 0 < rref <= r0 -> 0 <= G1 <= G2 ->
  pvsyst_Rsh #G1 #rref #r0 #x #Gr = #r1 -> pvsyst_Rsh #G2 #rref #r0 #x #Gr = #r2 ->
  pvsyst_Rsh #0 #rref #r0 #x #Gr = #r0 /\ 0 <= r2 <= r1 /\ r1 <= r0.
Proof.
  intros rref r0 x Gr G1 G2 r1 r2 Hx HG [Hr1 Hr2] [H1 H2]. rewrite !pvsyst_Rsh_fin by lra. cbv zeta.
  assert (Hb : exp (- x) < 1) by (rewrite <- exp_0; apply exp_increasing; lra). pose proof (exp_pos (- x)) as Hp.
  set (b := Rmax 0 _). assert (B : 0 <= b <= r0).
  { unfold b. split; [apply Rmax_l|]. apply Rmax_lub; [lra|]. apply (Rmult_le_reg_r (1 - exp (- x))); [lra|].
    unfold Rdiv. rewrite Rmult_assoc, Rinv_l by lra. nra. }
  intros [= <-] [= <-].
  assert (E1 : exp (- x * G1 / Gr) <= 1).
  { rewrite <- exp_0. destruct (Req_dec G1 0) as [->|N]; [right; f_equal; field; lra|]. left. apply exp_increasing.
    unfold Rdiv. assert (0 < / Gr) by (apply Rinv_0_lt_compat; lra). assert (0 < x * G1) by (apply Rmult_lt_0_compat; lra). nra. }
  assert (E2 : exp (- x * G2 / Gr) <= exp (- x * G1 / Gr)).
  { destruct (Req_dec G1 G2) as [->|N]; [lra|]. left. apply exp_increasing. unfold Rdiv. apply Rmult_lt_compat_r; [apply Rinv_0_lt_compat; lra|nra]. }
  pose proof (exp_pos (- x * G2 / Gr)) as P2.
  repeat split.
  - replace (- x * 0 / Gr) with 0 by (field; lra). rewrite exp_0. f_equal. ring.
  - nra.
  - nra.
  - nra.
Qed.
Print Assumptions C44_pvsyst_shunt.
Example C44_nonvacuous : 0 < 8.617333262 / 10 ^ 5 /\ -0.0002677 * (25 + 273.15) <= 1 /\ 0 < 5.5.
Proof. repeat split; lra. Qed.

(** ** C45 scaling *)
Theorem C45_scaled_columns : forall data m s out,
  NoDup (map fst data) -> scale_voltage_current_power data #m #s = Ok out ->
  map fst out = map fst data /\
  forall i name col, nth_error data i = Some (name, col) ->
    exists f, array_factor name m s = Some f /\
      exists col', nth_error out i = Some (name, col') /\ length col' = length col /\
        forall j x, nth_error col j = Some #x -> nth_error col' j = Some #(x * f).
Proof.
  intros data m s out N H.
  assert (HF : Forall (fun p => array_factor (fst p) m s <> None) data).
  { apply Forall_forall. intros p HI E. rewrite (scale_err data m s (fst p)) in H; [discriminate|apply in_map, HI|exact E]. }
  rewrite scale_ok in H by assumption. injection H as <-. split.
  - rewrite map_map. apply map_ext. intros [k c]. reflexivity.
  - intros i name col Hi. rewrite Forall_forall in HF. specialize (HF _ (nth_error_In _ _ Hi)). cbn [fst] in HF.
    destruct (array_factor name m s) as [f|] eqn:EF; [|congruence]. exists f. split; [reflexivity|].
    exists (snd (scale_col m s (name, col))). split.
    { rewrite nth_error_map, Hi. cbn [option_map]. unfold scale_col. cbn [fst snd]. reflexivity. }
    unfold scale_col. cbn [fst snd]. rewrite EF. split; [apply map_length|].
    intros j x Hj. rewrite nth_error_map, Hj. cbn [option_map]. f_equal.
    destruct (String.eqb_spec name "p_mp") as [->|_]; [|reflexivity].
    cbn in EF. injection EF as <-. rewrite !fmul_fin. f_equal. ring.
Qed.
Print Assumptions C45_scaled_columns.
Theorem C45_succeeds_iff_known_columns : forall data m s, NoDup (map fst data) ->
  ((exists out, scale_voltage_current_power data #m #s = Ok out) <->
   (forall name, In name (map fst data) -> In name ["v_mp"; "v_oc"; "i_mp"; "i_x"; "i_xx"; "i_sc"; "p_mp"]%string)) /\
  (forall e, scale_voltage_current_power data #m #s = Err e -> e = KeyError).
Proof.
  intros data m s N.
  assert (K : forall name, array_factor name m s <> None <-> In name ["v_mp"; "v_oc"; "i_mp"; "i_x"; "i_xx"; "i_sc"; "p_mp"]%string).
  { intros name. unfold array_factor. cbn [existsb]. split.
    - intros H. repeat (match type of H with context [String.eqb name ?c] => destruct (String.eqb_spec name c) as [Q|_]; [rewrite Q; cbn [In]; tauto|] end).
      cbn in H. exfalso. apply H. reflexivity.
    - cbn [In]. intros H. repeat (destruct H as [<-|H]; [cbn; discriminate|]). destruct H. }
  split.
  - split.
    + intros [out H] name HI. apply K. intros E. rewrite (scale_err data m s name HI E) in H. discriminate.
    + intros H. exists (map (scale_col m s) data). apply scale_ok; [exact N|]. apply Forall_forall. intros p HI. apply K, H, in_map, HI.
  - intros e H. destruct (Forall_Exists_dec (fun p : string * list fl => array_factor (fst p) m s <> None)) with (l := data) as [F|F].
    + intros p. destruct (array_factor (fst p) m s); [left; discriminate|right; intros X; apply X; reflexivity].
    + rewrite scale_ok in H by assumption. discriminate.
    + apply Exists_exists in F as (p & HI & E). destruct (array_factor (fst p) m s) eqn:EF; [exfalso; apply E; discriminate|].
      rewrite (scale_err data m s (fst p) (in_map _ _ _ HI) EF) in H. congruence.
Qed.
Print Assumptions C45_succeeds_iff_known_columns.
(** power stays the product of voltage and current *)
Theorem C45_power_is_product : forall data m s out ip iv ii cp cv ci j p v c,
  NoDup (map fst data) -> scale_voltage_current_power data #m #s = Ok out ->
  nth_error data ip = Some ("p_mp"%string, cp) -> nth_error data iv = Some ("v_mp"%string, cv) -> nth_error data ii = Some ("i_mp"%string, ci) ->
  nth_error cp j = Some #p -> nth_error cv j = Some #v -> nth_error ci j = Some #c -> p = v * c ->
  exists cp' cv' ci' p' v' c',
    nth_error out ip = Some ("p_mp"%string, cp') /\ nth_error out iv = Some ("v_mp"%string, cv') /\ nth_error out ii = Some ("i_mp"%string, ci') /\
    nth_error cp' j = Some #p' /\ nth_error cv' j = Some #v' /\ nth_error ci' j = Some #c' /\ p' = v' * c' /\ p' = p * (m * s).
Proof.
  intros data m s out ip iv ii cp cv ci j p v c N H H1 H2 H3 J1 J2 J3 ->.
  destruct (C45_scaled_columns data m s out N H) as [_ K].
  destruct (K _ _ _ H1) as (f1 & F1 & c1 & O1 & _ & V1). destruct (K _ _ _ H2) as (f2 & F2 & c2 & O2 & _ & V2). destruct (K _ _ _ H3) as (f3 & F3 & c3 & O3 & _ & V3).
  cbn in F1, F2, F3. injection F1 as <-. injection F2 as <-. injection F3 as <-.
  do 6 eexists. split; [exact O1|]. split; [exact O2|]. split; [exact O3|]. split; [apply V1, J1|]. split; [apply V2, J2|]. split; [apply V3, J3|].
  split; ring.
Qed.
Print Assumptions C45_power_is_product.
Example C45_nonvacuous : exists out, scale_voltage_current_power [("v_mp", [#30]); ("i_mp", [#8]); ("p_mp", [#240])]%string #10 #2 = Ok out /\
  map fst out = ["v_mp"; "i_mp"; "p_mp"]%string.
Proof. eexists. split; reflexivity. Qed.

(** ** C46 PVWatts *)
Theorem C46_pvwatts_dc : forall G T p g Tr b, pvwatts_dc #G #T #p #g #Tr None b = #(G / 1000 * p * (1 + g * (T - Tr))).
Proof. exact pvwatts_dc_plain. Qed.
Print Assumptions C46_pvwatts_dc.
Theorem C46_pvwatts_dc_linear : forall c G G' T p g Tr b,
  pvwatts_dc #(c * G + G') #T #p #g #Tr None b = fadd (fmul #c (pvwatts_dc #G #T #p #g #Tr None b)) (pvwatts_dc #G' #T #p #g #Tr None b).
Proof. intros. rewrite !pvwatts_dc_plain, fmul_fin, fadd_fin. f_equal. lra. Qed.
Print Assumptions C46_pvwatts_dc_linear.
Theorem C46_pvwatts_dc_nameplate : forall p g Tr b k cap,
  pvwatts_dc #1000 #Tr #p #g #Tr None b = #p /\
  (0 <= p -> pvwatts_dc #1000 #Tr #p #g #Tr (Some #k) cap = #p).
Proof.
  intros p g Tr b k cap. split; [rewrite pvwatts_dc_plain; f_equal; field|]. intros Hp. rewrite pvwatts_dc_k.
  replace (if cap then if Rle_dec 1000 1000 then 0 else marion_err k 1000 else marion_err k 1000) with 0.
  - f_equal. rewrite Rmax_right; lra.
  - assert (E : marion_err k 1000 = 0) by (unfold marion_err; destruct (Rle_dec 1000 200); lra).
    destruct cap; [destruct (Rle_dec 1000 1000); auto|auto].
Qed.
Print Assumptions C46_pvwatts_dc_nameplate.
(** the low-light correction: exact value, and never negative whatever the inputs *)
Theorem C46_pvwatts_dc_with_k : forall G T p g Tr k cap,
  pvwatts_dc #G #T #p #g #Tr (Some #k) cap =
  #(Rmax 0 (G / 1000 * p * (1 + g * (T - Tr)) - p * (if cap then (if Rle_dec 1000 G then 0 else marion_err k G) else marion_err k G))).
Proof. exact pvwatts_dc_k. Qed.
Print Assumptions C46_pvwatts_dc_with_k.
Theorem C46_pvwatts_dc_k_nonnegative : forall G T p g Tr k cap, atleast #0 (pvwatts_dc G T p g Tr (Some k) cap).
Proof.
  intros. unfold pvwatts_dc. cbv zeta. match goal with |- atleast _ (where_ (fltb ?x _) _ _) => set (y := x) end.
  unfold atleast, fle, where_. destruct y; cbn [fltb]; try (right; cbn; unfold Rleb; destruct Rle_dec; auto; lra); auto.
  unfold Rltb. destruct Rlt_dec; right; cbn; apply Rleb_t; lra.
Qed.
Print Assumptions C46_pvwatts_dc_k_nonnegative.
(** Marion's correction is continuous at 200 W/m2, full there, zero at 0 and at 1000 W/m2 *)
Theorem C46_marion_correction : forall k,
  marion_err k 0 = 0 /\ marion_err k 200 = k /\ k * (1000 - 200) / 800 = marion_err k 200 /\ marion_err k 1000 = 0.
Proof.
  intros k. unfold marion_err. repeat split; destruct Rle_dec; try lra; field.
Qed.
Print Assumptions C46_marion_correction.
Theorem C46_losses_value : forall l, losses_of (map Fin l) = #(100 * (1 - remaining (map (fun x => x / 100) l))).
Proof. exact losses_of_fin. Qed.
Print Assumptions C46_losses_value.
Theorem C46_losses_range : forall l, Forall (fun x => 0 <= x <= 100) l ->
  exists v, losses_of (map Fin l) = #v /\ 0 <= v <= 100 /\ Forall (fun x => x <= v) l.
Proof.
  intros l HF. rewrite losses_of_fin. eexists. split; [reflexivity|].
  assert (B : Forall (fun x => 0 <= x <= 1) (map (fun x => x / 100) l)).
  { apply Forall_forall. intros y Hy. apply in_map_iff in Hy as (x & <- & Hx). rewrite Forall_forall in HF. specialize (HF _ Hx). lra. }
  pose proof (remaining_bounds _ B). split; [lra|]. apply Forall_forall. intros x Hx.
  pose proof (remaining_ge1 _ (x / 100) B (in_map (fun x => x / 100) _ _ Hx)). lra.
Qed.
Print Assumptions C46_losses_range.
Theorem C46_losses_order_independent : forall l l', Permutation l l' -> losses_of (map Fin l) = losses_of (map Fin l').
Proof. intros l l' H. rewrite !losses_of_fin. do 3 f_equal. apply remaining_perm. apply Permutation_map, H. Qed.
Print Assumptions C46_losses_order_independent.
Theorem C46_no_losses : forall n, losses_of (repeat #0 n) = #0.
Proof.
  intros n. replace (repeat #0 n) with (map Fin (repeat 0 n)) by (induction n; cbn; congruence). rewrite losses_of_fin. f_equal.
  induction n; cbn [repeat map remaining]; [ring|]. lra.
Qed.
Print Assumptions C46_no_losses.
(** keyword arguments of pvwatts_losses override the default of the same name, the others keep theirs *)
Theorem C46_losses_keywords : forall soi sha sno mis wir con lid nam age ava,
  pvwatts_losses [("age", #age); ("snow", #sno); ("shading", #sha); ("soiling", #soi); ("availability", #ava); ("mismatch", #mis);
                  ("wiring", #wir); ("lid", #lid); ("connections", #con); ("nameplate_rating", #nam)]%string
  = losses_of [#soi; #sha; #sno; #mis; #wir; #con; #lid; #nam; #age; #ava] /\
  pvwatts_losses [] = losses_of [#2; #3; #0; #2; #2; #0.5; #1.5; #1; #0; #3] /\
  pvwatts_losses [("snow", #sno)]%string = losses_of [#2; #3; #sno; #2; #2; #0.5; #1.5; #1; #0; #3].
Proof. intros. repeat split; reflexivity. Qed.
Print Assumptions C46_losses_keywords.
(** combine_loss_factors: 1 - product of (1 - loss in force) *)
Theorem C46_combine_value : forall index losses i t vs, nth_error index i = Some t ->
  Forall increasing losses -> length vs = length losses ->
  (forall j l v, nth_error losses j = Some l -> nth_error vs j = Some v -> in_force l t #v) ->
  nth_error (combine_loss_factors index losses Ffill) i = Some #(1 - remaining vs).
Proof.
  intros index losses i t vs Hi HF L HV. unfold combine_loss_factors. rewrite nth_error_map, Hi. cbn [option_map]. f_equal.
  rewrite (combine_fold Ffill t losses 1 vs).
  - rewrite fsub_fin. f_equal. ring.
  - revert vs L HV. induction HF as [|l losses Hl HF IH]; intros vs L HV; destruct vs as [|v vs]; try discriminate; [reflexivity|].
    cbn [map]. apply (f_equal2 cons).
    + cbn [reindex1]. apply (proj1 (last_le_in_force l t NaN Hl)). exact (HV 0%nat l v eq_refl eq_refl).
    + apply IH; [cbn in L; lia|]. intros j l0 v0 H1 H2. exact (HV (S j) l0 v0 H1 H2).
Qed.
Print Assumptions C46_combine_value.
(** before the first row of a series the result is missing *)
Theorem C46_combine_missing : forall index losses i t l, nth_error index i = Some t -> In l losses -> increasing l ->
  Forall (fun p => (t < fst p)%Z) l -> nth_error (combine_loss_factors index losses Ffill) i = Some NaN.
Proof.
  intros index losses i t l Hi HI Hl HF. unfold combine_loss_factors. rewrite nth_error_map, Hi. cbn [option_map]. f_equal.
  assert (E : reindex1 Ffill l t = NaN) by (cbn; apply (proj2 (last_le_in_force l t NaN Hl)), HF).
  assert (G : forall acc, fold_left (fun acc loss => (acc * (#1 - reindex1 Ffill loss t))%fl) losses acc = NaN).
  { assert (Z : forall ls, fold_left (fun acc loss => (acc * (#1 - reindex1 Ffill loss t))%fl) ls NaN = NaN) by (induction ls; [reflexivity|exact IHls]).
    induction losses as [|l0 losses IH]; [destruct HI|]. intros acc. cbn [fold_left]. destruct HI as [->|HI]; [|apply IH, HI].
    rewrite E. replace (acc * (#1 - NaN))%fl with NaN by (destruct acc; reflexivity). apply Z. }
  rewrite G. reflexivity.
Qed.
Print Assumptions C46_combine_missing.
(** the other fill methods: the next row, or only a row at exactly that time *)
Theorem C46_combine_backfill : forall index losses i t vs, nth_error index i = Some t ->
  Forall increasing losses -> length vs = length losses ->
  (forall j l v, nth_error losses j = Some l -> nth_error vs j = Some v -> next_in l t #v) ->
  nth_error (combine_loss_factors index losses Bfill) i = Some #(1 - remaining vs).
Proof.
  intros index losses i t vs Hi HF L HV. unfold combine_loss_factors. rewrite nth_error_map, Hi. cbn [option_map]. f_equal.
  rewrite (combine_fold Bfill t losses 1 vs).
  - rewrite fsub_fin. f_equal. ring.
  - revert vs L HV. induction HF as [|l losses Hl HF IH]; intros vs L HV; destruct vs as [|v vs]; try discriminate; [reflexivity|].
    cbn [map]. apply (f_equal2 cons).
    + cbn [reindex1]. apply (first_ge_next l t _ Hl). exact (HV 0%nat l v eq_refl eq_refl).
    + apply IH; [cbn in L; lia|]. intros j l0 v0 H1 H2. exact (HV (S j) l0 v0 H1 H2).
Qed.
Print Assumptions C46_combine_backfill.
Theorem C46_combine_no_fill : forall index losses i t vs, nth_error index i = Some t ->
  Forall increasing losses -> length vs = length losses ->
  (forall j l v, nth_error losses j = Some l -> nth_error vs j = Some v -> In (t, #v) l) ->
  nth_error (combine_loss_factors index losses NoFill) i = Some #(1 - remaining vs).
Proof.
  intros index losses i t vs Hi HF L HV. unfold combine_loss_factors. rewrite nth_error_map, Hi. cbn [option_map]. f_equal.
  rewrite (combine_fold NoFill t losses 1 vs).
  - rewrite fsub_fin. f_equal. ring.
  - revert vs L HV. induction HF as [|l losses Hl HF IH]; intros vs L HV; destruct vs as [|v vs]; try discriminate; [reflexivity|].
    cbn [map]. apply (f_equal2 cons).
    + cbn [reindex1]. apply (exact_at_in l t _ Hl). exact (HV 0%nat l v eq_refl eq_refl).
    + apply IH; [cbn in L; lia|]. intros j l0 v0 H1 H2. exact (HV (S j) l0 v0 H1 H2).
Qed.
Print Assumptions C46_combine_no_fill.
(** where a series has no such row the result is missing *)
Theorem C46_combine_other_missing : forall m index losses i t l, nth_error index i = Some t -> In l losses ->
  (m = Bfill /\ Forall (fun p => (fst p < t)%Z) l \/ m = NoFill /\ Forall (fun p => fst p <> t) l) ->
  nth_error (combine_loss_factors index losses m) i = Some NaN.
Proof.
  intros m index losses i t l Hi HI HF. unfold combine_loss_factors. rewrite nth_error_map, Hi. cbn [option_map]. f_equal.
  assert (E : reindex1 m l t = NaN) by (destruct HF as [[-> HF]|[-> HF]]; cbn; [apply first_ge_none, HF|apply exact_at_none, HF]).
  assert (G : forall acc, fold_left (fun acc loss => (acc * (#1 - reindex1 m loss t))%fl) losses acc = NaN).
  { assert (Z : forall ls, fold_left (fun acc loss => (acc * (#1 - reindex1 m loss t))%fl) ls NaN = NaN) by (induction ls; [reflexivity|exact IHls]).
    induction losses as [|l0 losses IH]; [destruct HI|]. intros acc. cbn [fold_left]. destruct HI as [->|HI]; [|apply IH, HI].
    rewrite E. replace (acc * (#1 - NaN))%fl with NaN by (destruct acc; reflexivity). apply Z. }
  rewrite G. reflexivity.
Qed.
Print Assumptions C46_combine_other_missing.
Theorem C46_combine_range : forall index losses i t vs, nth_error index i = Some t ->
  Forall increasing losses -> length vs = length losses ->
  (forall j l v, nth_error losses j = Some l -> nth_error vs j = Some v -> in_force l t #v) -> Forall (fun v => 0 <= v <= 1) vs ->
  exists y, nth_error (combine_loss_factors index losses Ffill) i = Some #y /\ 0 <= y <= 1.
Proof.
  intros. rewrite (C46_combine_value index losses i t vs) by assumption. eexists. split; [reflexivity|].
  pose proof (remaining_bounds vs H3). lra.
Qed.
Print Assumptions C46_combine_range.
Example C46_nonvacuous :
  in_force [(0%Z, #0.1); (10%Z, #0.2)] 5%Z #0.1 /\ increasing [(0%Z, #0.1); (10%Z, #0.2)] /\ Forall (fun x => 0 <= x <= 100) [2; 3; 0.5].
Proof.
  repeat split; try (repeat constructor; cbn; lia).
  - exists 0%Z. split; [left; reflexivity|]. split; [lia|]. intros u v [H|[H|[]]]; injection H as <- <-; lia.
  - repeat constructor; lra.
Qed.

(** ** C47 ohmic losses *)
(** the losses at the array's reference current are the stated percentage of the array's reference power *)
Theorem C47_losses_are_percentage : forall vmp imp pct mods strs, strs <> 0 -> imp <> 0 ->
  let power := (mods * vmp) * (strs * imp) in
  dc_ohmic_losses (dc_ohms_from_percent #vmp #imp #pct #mods #strs) #(strs * imp) = #(pct / 100 * power).
Proof.
  intros vmp imp pct mods strs H1 H2. cbv zeta. unfold dc_ohms_from_percent, dc_ohmic_losses. fsx.
  assert (strs * imp <> 0) by (apply Rmult_integral_contrapositive_currified; auto).
  rewrite !fdiv_fin by (auto; lra). fsx. f_equal. field. auto.
Qed.
Print Assumptions C47_losses_are_percentage.
(** losses grow with the square of the current, never negative for a non-negative resistance *)
Theorem C47_losses_quadratic : forall r i c, dc_ohmic_losses #r #(c * i) = fmul #(c * c) (dc_ohmic_losses #r #i) /\
  (0 <= r -> exists p, dc_ohmic_losses #r #i = #p /\ 0 <= p).
Proof.
  intros. unfold dc_ohmic_losses. fsx. split; [f_equal; ring|]. intros. eexists. split; [reflexivity|]. rewrite Rmult_assoc. apply Rmult_le_pos; [lra|]. nra.
Qed.
Print Assumptions C47_losses_quadratic.
(** which module parameters are used: CEC names first, then SAPM, then PVsyst *)
Theorem C47_parameter_priority : forall a pct, let mp := ar_module_parameters a in
  lookup "dc_ohmic_percent" (ar_array_losses_parameters a) = Some (VNum pct) ->
  let result v i := Ok (dc_ohms_from_percent v i pct (ar_modules_per_string a) (ar_strings a)) in
  let has k := lookup k mp <> None in
  (forall v i, lookup "V_mp_ref" mp = Some (VNum v) -> lookup "I_mp_ref" mp = Some (VNum i) -> array_dc_ohms_from_percent a = result v i) /\
  (~ (has "V_mp_ref" /\ has "I_mp_ref") -> forall v i, lookup "Vmpo" mp = Some (VNum v) -> lookup "Impo" mp = Some (VNum i) ->
     array_dc_ohms_from_percent a = result v i) /\
  (~ (has "V_mp_ref" /\ has "I_mp_ref") -> ~ (has "Vmpo" /\ has "Impo") ->
     forall v i, lookup "Vmpp" mp = Some (VNum v) -> lookup "Impp" mp = Some (VNum i) -> array_dc_ohms_from_percent a = result v i) /\
  (~ (has "V_mp_ref" /\ has "I_mp_ref") -> ~ (has "Vmpo" /\ has "Impo") -> ~ (has "Vmpp" /\ has "Impp") ->
     array_dc_ohms_from_percent a = Err ValueError).
Proof.
  intros a pct mp HP result has.
  assert (HK : forall k, haskey k mp = match lookup k mp with Some _ => true | None => false end).
  { intros k. unfold haskey. destruct (lookup k mp) eqn:E.
    - apply mem_In. apply lookup_In in E. apply (in_map fst) in E. exact E.
    - apply lookup_None in E. destruct (mem k (map fst mp)) eqn:M; [|reflexivity]. apply mem_In in M. contradiction. }
  assert (PN : getnum (ar_array_losses_parameters a) "dc_ohmic_percent" = Ok pct) by (unfold getnum, getitem; rewrite HP; reflexivity).
  unfold array_dc_ohms_from_percent. fold mp. cbv zeta. rewrite PN. cbn [forallb]. rewrite !HK. unfold has, getnum, getitem.
  destruct (lookup "V_mp_ref" mp), (lookup "I_mp_ref" mp), (lookup "Vmpo" mp), (lookup "Impo" mp), (lookup "Vmpp" mp), (lookup "Impp" mp);
  cbn [andb]; repeat split; intros;
  try (exfalso; match goal with H : ~ _ |- _ => apply H; split; discriminate end);
  repeat match goal with H : Some _ = Some _ |- _ => injection H as -> | H : None = Some _ |- _ => discriminate H end; reflexivity.
Qed.
Print Assumptions C47_parameter_priority.
