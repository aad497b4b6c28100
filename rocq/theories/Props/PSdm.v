(** C126-C128: module parameters from datasheet values. *)
From Verif Require Import Base.Fl Base.FlFacts Base.Py Model.SingleDiode Model.Pvsystem Model.Sdm Spec.DiodeSpec Spec.IvSpec Proofs.Diode Proofs.DiodeLW Proofs.LambertP Proofs.PvarrayP Spec.PvarraySpec Proofs.SdmP.
From Coq Require Import String Psatz.
Open Scope R_scope.
Open Scope list_scope.
Import ListNotations.

Lemma Ok_inj {A} (a b : A) : Ok a = Ok b -> a = b. Proof. congruence. Qed.
(** ** C126: fit_desoto *)
(** the five equations say: the short circuit, open circuit and maximum power points of the datasheet are those of the
    fitted device, and its open circuit voltage two degrees up, translated by calcparams_desoto, follows beta_voc *)
Theorem C126_equations : forall kB IL Io Rs Rsh a isc voc imp vmp be al Eg dEg tref g, kB <> 0 -> tref + 273.15 <> 0 -> tref + 2 + 273.15 <> 0 -> g <> 0 ->
  0 <= IL -> 0 < Io -> 0 <= Rs -> 0 < Rsh -> 0 < a -> 0 <= vmp ->
  exists IL2 Io2 Rsh2 a2,
  calcparams_desoto kB #g #(tref + 2) #al #a #IL #Io #Rsh #Rs #Eg #dEg #g #tref = SD #IL2 #Io2 #Rs #Rsh2 #a2 /\
  (desoto_system (#IL, #Io, #Rs, #Rsh, #a) (Specs #isc #voc #imp #vmp #be #al #Eg #dEg #(tref + 273.15) #kB) = (#0, #0, #0, #0, #0) <->
   on_sde_curve IL Io Rs Rsh a 0 isc /\ on_sde_curve IL Io Rs Rsh a voc 0 /\ max_power_at (simple_diode IL Io Rs (1 / Rsh) a) vmp imp /\
   on_sde_curve IL2 Io2 Rs Rsh2 a2 (voc + 2 * be) 0).
Proof.
  intros kB IL Io Rs Rsh a isc voc imp vmp be al Eg dEg tref g HK HT HT2 HG H1 H2 H3 H4 H5 HV.
  set (T := tref + 273.15) in *. set (T2 := tref + 2 + 273.15) in *. assert (ET : T + 2 = T2) by (unfold T, T2; ring).
  assert (A2 : a * T2 / T <> 0). { unfold Rdiv. apply Rmult_integral_contrapositive_currified; [|apply Rinv_neq_0_compat; exact HT]. apply Rmult_integral_contrapositive_currified; lra. }
  exists (g / g * (IL + al * (T2 - T))), (Io * (T2 / T) ^ 3 * exp (Eg / (kB * T) - Eg * (1 + dEg * (T2 - T)) / (kB * T2))), (Rsh * (g / g)), (a * (T2 / T)). split.
  { assert (KT : kB * T <> 0) by (apply Rmult_integral_contrapositive_currified; assumption). assert (KT2 : kB * T2 <> 0) by (apply Rmult_integral_contrapositive_currified; assumption).
    unfold calcparams_desoto. rewrite !fadd_fin. fold T T2. rewrite !fsub_fin, !fmul_fin, !fadd_fin, !fmul_fin. rewrite !fdiv_fin by assumption. rewrite fpown_fin, !fmul_fin, fsub_fin, fexp_fin, !fmul_fin. reflexivity. }
  assert (EX : forall x, fexpm1 #x = #(exp x - 1)) by reflexivity.
  destruct (Req_EM_T (1 + Io * Rs / a * exp ((vmp + imp * Rs) / a) + Rs / Rsh) 0) as [Z|Z].
  { exfalso. assert (0 < 1 + Io * Rs / a * exp ((vmp + imp * Rs) / a) + Rs / Rsh); [|lra].
    assert (0 <= Io * Rs / a * exp ((vmp + imp * Rs) / a)). { apply Rmult_le_pos; [|apply Rlt_le, exp_pos]. apply Rmult_le_pos; [apply Rmult_le_pos; lra|apply Rlt_le, Rinv_0_lt_compat; lra]. }
    assert (0 <= Rs / Rsh) by (apply Rmult_le_pos; [lra|apply Rlt_le, Rinv_0_lt_compat; lra]). lra. }
  assert (SYS : desoto_system (#IL, #Io, #Rs, #Rsh, #a) (Specs #isc #voc #imp #vmp #be #al #Eg #dEg #T #kB) =
    (#(isc - IL + Io * (exp (isc * Rs / a) - 1) + isc * Rs / Rsh), #(- IL + Io * (exp (voc / a) - 1) + voc / Rsh),
     #(imp - IL + Io * (exp ((vmp + imp * Rs) / a) - 1) + (vmp + imp * Rs) / Rsh),
     #(imp - vmp * (Io / a * exp ((vmp + imp * Rs) / a) + 1 / Rsh) / (1 + Io * Rs / a * exp ((vmp + imp * Rs) / a) + Rs / Rsh)),
     #(- (IL + al * (T2 - T)) + Io * (T2 / T) ^ 3 * exp (1 / kB * (Eg / T - Eg * (1 + dEg * (T2 - T)) / T2)) * (exp (((T2 - T) * be + voc) / (a * T2 / T)) - 1) + ((T2 - T) * be + voc) / Rsh))).
  { cbv beta iota zeta delta [desoto_system]. rewrite (fadd_fin T 2), ET. rewrite !fneg_fin, !fsub_fin, !fmul_fin, !fadd_fin, !fmul_fin. rewrite !fdiv_fin by lra.
    repeat first [rewrite EX | rewrite fexp_fin | rewrite fsub_fin | rewrite fmul_fin | rewrite fadd_fin | rewrite fneg_fin | rewrite fpown_fin | rewrite fdiv_fin by assumption]. reflexivity. }
  rewrite SYS. clear SYS.
  assert (EE : 1 / kB * (Eg / T - Eg * (1 + dEg * (T2 - T)) / T2) = Eg / (kB * T) - Eg * (1 + dEg * (T2 - T)) / (kB * T2)) by (field; repeat split; assumption). rewrite EE.
  set (I2 := Io * (T2 / T) ^ 3 * exp (Eg / (kB * T) - Eg * (1 + dEg * (T2 - T)) / (kB * T2))).
  assert (EA : a * T2 / T = a * (T2 / T)) by (unfold Rdiv; ring). rewrite EA. assert (EV : (T2 - T) * be + voc = voc + 2 * be) by (rewrite <- ET; ring). rewrite EV.
  assert (Eg1 : g / g = 1) by (field; exact HG). rewrite Eg1, Rmult_1_l, Rmult_1_r.
  set (A := isc - IL + Io * (exp (isc * Rs / a) - 1) + isc * Rs / Rsh). set (B := - IL + Io * (exp (voc / a) - 1) + voc / Rsh).
  set (C := imp - IL + Io * (exp ((vmp + imp * Rs) / a) - 1) + (vmp + imp * Rs) / Rsh).
  set (D := imp - vmp * (Io / a * exp ((vmp + imp * Rs) / a) + 1 / Rsh) / (1 + Io * Rs / a * exp ((vmp + imp * Rs) / a) + Rs / Rsh)).
  set (E := - (IL + al * (T2 - T)) + I2 * (exp ((voc + 2 * be) / (a * (T2 / T))) - 1) + (voc + 2 * be) / Rsh).
  assert (KA : on_sde_curve IL Io Rs Rsh a 0 isc <-> A = 0). { unfold on_sde_curve, A. rewrite Rplus_0_l, (Rmult_comm Rs). lra. }
  assert (KB : on_sde_curve IL Io Rs Rsh a voc 0 <-> B = 0). { unfold on_sde_curve, B. rewrite Rmult_0_r, Rplus_0_r. lra. }
  assert (KC : on_sde_curve IL Io Rs Rsh a vmp imp <-> C = 0). { unfold on_sde_curve, C. rewrite (Rmult_comm Rs). lra. }
  assert (KE : on_sde_curve (IL + al * (T2 - T)) I2 Rs Rsh (a * (T2 / T)) (voc + 2 * be) 0 <-> E = 0). { unfold on_sde_curve, E. rewrite Rmult_0_r, Rplus_0_r. lra. }
  rewrite KA, KB, KE.
  assert (KD : C = 0 -> (max_power_at (simple_diode IL Io Rs (1 / Rsh) a) vmp imp <-> D = 0)).
  { intros K. destruct (mpp_equation IL Io Rs Rsh a vmp imp H1 H2 H3 H4 H5 HV (proj2 KC K)) as [_ M]. exact M. }
  split.
  - intros K. injection K as -> -> K3 -> ->. pose proof (proj2 (KD K3) eq_refl). tauto.
  - intros (-> & -> & M & ->). assert (K3 : C = 0). { apply (proj1 KC). apply sde_simple, M. } rewrite K3. rewrite (proj1 (KD K3) M). reflexivity.
Qed.
Print Assumptions C126_equations.
Definition guess_names : list string := ["IL_0"; "Io_0"; "Rs_0"; "Rsh_0"; "a_0"]%string.
Definition pick (guess : list (string * fl)) (key : string) (default : fl) : fl := match lookup key guess with Some v => v | None => default end.
Lemma set_key_lookup key v d k : lookup k (set_key key v d) = if String.eqb k key then match lookup k d with Some _ => Some v | None => None end else lookup k d.
Proof.
  induction d as [|[x w] d IH]; cbn [set_key lookup]; [destruct (String.eqb k key); reflexivity|].
  destruct (String.eqb_spec x key) as [->|N]; cbn [lookup].
  - destruct (String.eqb_spec k key); reflexivity.
  - destruct (String.eqb_spec k x) as [->|M]; [|exact IH]. destruct (String.eqb_spec x key); [contradiction|reflexivity].
Qed.
Lemma overwrite_ok guess : forall init, NoDup (map fst guess) -> (forall k, In k (map fst guess) -> In k guess_names) ->
  exists d, overwrite init guess = Ok d /\ forall k v, lookup k init = Some v -> lookup k d = Some (pick guess k v).
Proof.
  induction guess as [|[key v] guess IH]; intros init ND V; [exists init; split; [reflexivity|intros; assumption]|].
  cbn [map fst] in ND. inversion ND as [|? ? NI ND2]; subst. cbn [overwrite]. rewrite (proj2 (mem_In key init_guess_keys)) by (apply V; left; reflexivity).
  destruct (IH (set_key key v init) ND2 ltac:(intros k Hk; apply V; right; exact Hk)) as (d & E & L). exists d. split; [exact E|]. intros k w Hw.
  rewrite (L k (if String.eqb k key then v else w)). 2: { rewrite set_key_lookup, Hw. destruct (String.eqb k key); reflexivity. }
  unfold pick. cbn [lookup]. destruct (String.eqb_spec k key) as [->|N]; [|reflexivity].
  destruct (lookup key guess) eqn:G; [|reflexivity]. exfalso. apply NI. apply lookup_In in G. apply (in_map fst) in G. exact G.
Qed.
(** where the search starts, what is returned and when it fails *)
Theorem C126_fit : forall root kB v_mp i_mp v_oc i_sc al be Ns Eg dEg tref g guess kw, NoDup (map fst guess) -> (forall k, In k (map fst guess) -> In k guess_names) ->
  let a0 := (#1.5 * #kB * (tref + #273.15) * Ns)%fl in
  let Io0 := (i_sc * fexp (- v_oc / a0))%fl in
  let x0 := (pick guess "IL_0" i_sc, pick guess "Io_0" Io0, pick guess "Rs_0" ((a0 * fln (#1 + (i_sc - i_mp) / Io0) - v_mp) / i_mp)%fl, pick guess "Rsh_0" #100, pick guess "a_0" a0) in
  let r := root (fun p => desoto_system p (Specs i_sc v_oc i_mp v_mp be al Eg dEg (tref + #273.15)%fl #kB)) x0 kw in
  fit_desoto root kB v_mp i_mp v_oc i_sc al be Ns Eg dEg tref g guess kw =
  if o_success r then
    let '(IL, Io, Rs, Rsh, a) := o_x r in
    Ok ([("I_L_ref", IL); ("I_o_ref", Io); ("R_s", Rs); ("R_sh_ref", Rsh); ("a_ref", a); ("alpha_sc", al); ("EgRef", Eg); ("dEgdT", dEg); ("irrad_ref", g); ("temp_ref", tref)]%string, r)
  else Err RuntimeError.
Proof.
  intros root kB v_mp i_mp v_oc i_sc al be Ns Eg dEg tref g guess kw ND V a0 Io0 x0 r. unfold fit_desoto. cbv zeta.
  destruct (overwrite_ok guess (desoto_defaults #kB v_mp i_mp v_oc i_sc Ns (tref + #273.15)%fl) ND V) as (d & E & L). rewrite E. unfold bind at 1.
  unfold getitem. rewrite (L "IL_0"%string i_sc eq_refl), (L "Io_0"%string Io0 eq_refl), (L "Rs_0"%string _ eq_refl), (L "Rsh_0"%string #100 eq_refl), (L "a_0"%string a0 eq_refl).
  reflexivity.
Qed.
Print Assumptions C126_fit.
(** an unknown name in init_guess is refused before anything is solved, and only that *)
Theorem C126_bad_guess : forall root kB v_mp i_mp v_oc i_sc al be Ns Eg dEg tref g guess kw, NoDup (map fst guess) ->
  (fit_desoto root kB v_mp i_mp v_oc i_sc al be Ns Eg dEg tref g guess kw = Err ValueError <-> exists k, In k (map fst guess) /\ ~ In k guess_names).
Proof.
  intros root kB v_mp i_mp v_oc i_sc al be Ns Eg dEg tref g guess kw ND. split.
  - intros E.
    assert (D : (forall k, In k (map fst guess) -> In k guess_names) \/ exists k, In k (map fst guess) /\ ~ In k guess_names).
    { clear. induction (map fst guess) as [|k l IH]; [left; intros k []|]. destruct (in_dec string_dec k guess_names) as [K|K]; [|right; exists k; split; [left; reflexivity|exact K]].
      destruct IH as [IH|(k' & A & B)]; [left; intros x [<-|H]; [exact K|apply IH, H]|right; exists k'; split; [right; exact A|exact B]]. }
    destruct D as [V|D]; [|exact D]. exfalso. rewrite (C126_fit root kB v_mp i_mp v_oc i_sc al be Ns Eg dEg tref g guess kw ND V) in E.
    destruct (o_success _); [|discriminate]. destruct (o_x _) as [[[[? ?] ?] ?] ?]. discriminate.
  - intros (k & I & N). unfold fit_desoto. cbv zeta.
    assert (H : forall init, overwrite init guess = Err ValueError).
    { revert I. clear ND. induction guess as [|[key v] guess IH]; intros I init; [destruct I|]. cbn [overwrite]. destruct (mem key init_guess_keys) eqn:M; [|reflexivity].
      apply IH. destruct I as [<-|I]; [|exact I]. exfalso. apply N. apply mem_In in M. exact M. }
    rewrite H. reflexivity.
Qed.
Print Assumptions C126_bad_guess.
(** there are datasheets and devices that meet all five equations *)
Example C126_nonvacuous : exists IL Rsh al, 0 <= IL /\ 0 < Rsh /\
  desoto_system (#IL, #1, #0, #Rsh, #1) (Specs #IL #(7 / 2) #(IL - (exp 2 - 1) - 2 / Rsh) #2 #0 #al #1 #0 #(25 + 273.15) #1) = (#0, #0, #0, #0, #0).
Proof.
  pose proof e_ge as He. assert (E2 : exp 2 = exp 1 * exp 1) by (rewrite <- exp_plus; f_equal; ring).
  assert (E3 : exp (7 / 2) = exp 2 * (exp 1 * exp (1 / 2))) by (rewrite <- !exp_plus; f_equal; field).
  pose proof (exp_ge_2 (1 / 2) ltac:(lra)) as Hh. pose proof (exp_pos 2) as P2.
  assert (Hm : 4 <= exp 1 * exp (1 / 2)). { apply Rle_trans with (2.5 * (1 + 1 / 2 + (1 / 2) ^ 2 / 2)); [lra|]. apply Rmult_le_compat; lra. }
  assert (P : 0 < exp (7 / 2) - 3 * exp 2). { rewrite E3. assert (exp 2 * 4 <= exp 2 * (exp 1 * exp (1 / 2))) by (apply Rmult_le_compat_l; lra). lra. }
  set (Rsh := 1 / 2 / (exp (7 / 2) - 3 * exp 2)). assert (HR : 0 < Rsh) by (apply Rdiv_lt_0_compat; lra).
  assert (G : 1 / Rsh = 2 * (exp (7 / 2) - 3 * exp 2)) by (unfold Rsh; field; lra).
  set (IL := exp (7 / 2) - 1 + 7 / 2 / Rsh). assert (HI : 0 <= IL). { unfold IL. assert (0 < 7 / 2 / Rsh) by (apply Rdiv_lt_0_compat; lra). assert (1 < exp (7 / 2)) by (rewrite <- exp_0; apply exp_increasing; lra). lra. }
  assert (K := fun al => C126_equations 1 IL 1 0 Rsh 1 IL (7 / 2) (IL - (exp 2 - 1) - 2 / Rsh) 2 0 al 1 0 25 1 ltac:(lra) ltac:(lra) ltac:(lra) ltac:(lra) HI ltac:(lra) ltac:(lra) HR ltac:(lra) ltac:(lra)).
  set (T := 25 + 273.15) in *. set (T2 := 25 + 2 + 273.15) in *. set (I2 := 1 * (T2 / T) ^ 3 * exp (1 / (1 * T) - 1 * (1 + 0 * (T2 - T)) / (1 * T2))).
  set (X := I2 * (exp ((7 / 2 + 2 * 0) / (1 * (T2 / T))) - 1) + 7 / 2 / Rsh).
  exists IL, Rsh, ((X - IL) / 2). split; [exact HI|]. split; [exact HR|]. destruct (K ((X - IL) / 2)) as (IL2 & Io2 & Rsh2 & a2 & E & F). apply F. clear F K.
  assert (SD : calcparams_desoto 1 #1 #(25 + 2) #((X - IL) / 2) #1 #IL #1 #Rsh #0 #1 #0 #1 #25 = SD #(1 / 1 * (IL + (X - IL) / 2 * (T2 - T))) #I2 #0 #(Rsh * (1 / 1)) #(1 * (T2 / T))).
  { unfold calcparams_desoto. rewrite !fadd_fin. fold T T2. rewrite !fsub_fin, !fmul_fin, !fadd_fin, !fmul_fin. rewrite !fdiv_fin by (unfold T, T2; lra). rewrite fpown_fin, !fmul_fin, fsub_fin, fexp_fin, !fmul_fin. reflexivity. }
  rewrite SD in E. injection E as <- <- <- <-. assert (D2 : T2 - T = 2) by (unfold T, T2; ring). rewrite D2.
  assert (C1 : on_sde_curve IL 1 0 Rsh 1 2 (IL - (exp 2 - 1) - 2 / Rsh)). { unfold on_sde_curve. rewrite Rmult_0_l, Rplus_0_r. replace (2 / 1) with 2 by field. ring. }
  split; [|split; [|split]].
  - unfold on_sde_curve. rewrite Rmult_0_l, Rplus_0_r. unfold Rdiv. rewrite !Rmult_0_l, exp_0. ring.
  - unfold on_sde_curve. rewrite Rmult_0_l, Rplus_0_r. replace (7 / 2 / 1) with (7 / 2) by field. unfold IL. ring.
  - destruct (mpp_equation IL 1 0 Rsh 1 2 _ HI ltac:(lra) ltac:(lra) HR ltac:(lra) ltac:(lra) C1) as [_ M]. apply M.
    rewrite Rmult_0_r, Rplus_0_r. replace (1 * 0 / 1) with 0 by field. replace (0 / Rsh) with 0 by (field; lra). replace (2 / 1) with 2 by field. unfold IL. replace (7 / 2 / Rsh) with (7 / 2 * (1 / Rsh)) by (field; lra). replace (2 / Rsh) with (2 * (1 / Rsh)) by (field; lra). rewrite G. field.
  - unfold on_sde_curve. rewrite Rmult_0_l, Rplus_0_r. replace (Rsh * (1 / 1)) with Rsh by field. replace (1 / 1 * (IL + (X - IL) / 2 * 2)) with X by field. unfold X. replace (7 / 2 + 2 * 0) with (7 / 2) by ring. ring.
Qed.

(** ** C127: fit_desoto_batzelis *)
(** Batzelis' explicit equations (9), (11)-(15) *)
Definition bf_a (d voc : R) : R := d * voc.
Definition bf_Rs (d voc vmp imp w : R) : R := (bf_a d voc * (w - 1) - vmp) / imp.
Definition bf_Rsh (d voc imp isc w : R) : R := bf_a d voc * (w - 1) / (isc * (1 - 1 / w) - imp).
Definition bf_IL (d voc vmp imp isc w : R) : R := (1 + bf_Rs d voc vmp imp w / bf_Rsh d voc imp isc w) * isc.
Definition bf_Io (d voc vmp imp isc w : R) : R := bf_IL d voc vmp imp isc w * exp (- (1 / d)).
(** the returned dict; Lambert's W is met within 1.3e-10 and the temperature coefficient of the short circuit current is unchanged *)
Theorem C127_value : forall vmp imp voc isc al be, let d := bz_d (al / isc) (be / voc) in
  voc <> 0 -> isc <> 0 -> imp <> 0 -> 0 < d <= 1 -> 50.1 - al / isc * 298.15 <> 0 ->
  exists w w', is_W (exp (1 / d + 1)) w /\ 0 <= w - w' <= 1.3e-10 /\
  (isc * (1 - 1 / w') - imp <> 0 ->
   fit_desoto_batzelis #vmp #imp #voc #isc #al #be =
   [("alpha_sc", #al); ("a_ref", #(bf_a d voc)); ("I_L_ref", #(bf_IL d voc vmp imp isc w')); ("I_o_ref", #(bf_Io d voc vmp imp isc w'));
    ("R_sh_ref", #(bf_Rsh d voc imp isc w')); ("R_s", #(bf_Rs d voc vmp imp w'))]%string).
Proof.
  intros vmp imp voc isc al be d V I M D K. destruct (bz_w d D) as (w & w' & Hw & E & A & W & _). exists w, w'. split; [exact Hw|]. split; [exact A|]. intros N.
  unfold fit_desoto_batzelis. cbv zeta. rewrite (fdiv_fin al isc), (fdiv_fin be voc) by assumption. rewrite !fmul_fin, !fsub_fin. rewrite (fdiv_fin (1 - be / voc * 298.15)) by exact K.
  fold (bz_d (al / isc) (be / voc)). fold d. rewrite (fdiv_fin 1 d), (fdiv_fin (-1) d) by lra. rewrite fadd_fin, fexp_fin, E. rewrite (fdiv_fin 1 w') by lra.
  rewrite !fsub_fin, !fmul_fin, !fsub_fin. rewrite (fdiv_fin _ imp) by exact M. rewrite (fdiv_fin _ (isc * (1 - 1 / w') - imp)) by exact N. fold (bf_a d voc). fold (bf_Rs d voc vmp imp w'). fold (bf_Rsh d voc imp isc w').
  rewrite fdiv_fin. 2: { unfold bf_Rsh, Rdiv. apply Rmult_integral_contrapositive_currified; [|apply Rinv_neq_0_compat; exact N]. apply Rmult_integral_contrapositive_currified; [|lra]. unfold bf_a. apply Rmult_integral_contrapositive_currified; lra. }
  rewrite fadd_fin, fmul_fin, fexp_fin, fmul_fin. fold (bf_IL d voc vmp imp isc w'). replace (-1 / d) with (- (1 / d)) by (field; lra). fold (bf_Io d voc vmp imp isc w'). replace (al / isc * isc) with al by (field; exact I). reflexivity.
Qed.
Print Assumptions C127_value.
(** how well the parameters reproduce the datasheet: the residual current of the single diode equation at the three points *)
Theorem C127_points : forall d vmp imp voc isc w, d <> 0 -> voc <> 0 -> imp <> 0 -> is_W (exp (1 / d + 1)) w -> isc * (1 - 1 / w) - imp <> 0 -> w <> 1 ->
  let a := bf_a d voc in let Rs := bf_Rs d voc vmp imp w in let Rsh := bf_Rsh d voc imp isc w in let IL := bf_IL d voc vmp imp isc w in let Io := bf_Io d voc vmp imp isc w in
  let current v i := IL - Io * (exp ((v + Rs * i) / a) - 1) - (v + Rs * i) / Rsh in
  current vmp imp - imp = Io + Rs / Rsh * isc * (1 - 1 / w) /\
  current voc 0 = Io - voc / Rsh /\
  current 0 isc - isc = - Io * (exp (Rs * isc / a) - 1).
Proof.
  intros d vmp imp voc isc w D V M [W0 W] N W1 a Rs Rsh IL Io current.
  assert (Hw : w <> 0). { intros E. rewrite E in W. rewrite Rmult_0_l in W. pose proof (exp_pos (1 / d + 1)). lra. }
  assert (A : a <> 0) by (unfold a, bf_a; apply Rmult_integral_contrapositive_currified; assumption).
  assert (RSH : Rsh <> 0). { unfold Rsh, bf_Rsh, Rdiv. apply Rmult_integral_contrapositive_currified; [|apply Rinv_neq_0_compat; exact N]. apply Rmult_integral_contrapositive_currified; [exact A|lra]. }
  assert (EIL : IL = (1 + Rs / Rsh) * isc) by reflexivity. assert (EIo : Io = IL * exp (- (1 / d))) by reflexivity.
  assert (X : exp (- (1 / d)) * exp (1 / d) = 1) by (rewrite <- exp_plus, Rplus_opp_l; apply exp_0).
  split; [|split].
  - assert (S1 : vmp + Rs * imp = a * (w - 1)) by (unfold Rs, bf_Rs; fold a; field; exact M).
    assert (S2 : a * (w - 1) / a = w - 1) by (field; exact A).
    assert (S3 : a * (w - 1) / Rsh = isc * (1 - 1 / w) - imp). { unfold Rsh, bf_Rsh. fold a. set (n := isc * (1 - 1 / w) - imp) in *. assert (w - 1 <> 0) by lra. field. repeat split; try assumption. }
    assert (S4 : Io * exp (w - 1) = IL / w). { assert (P : w * exp (w - 1) = exp (1 / d)). { apply (Rmult_eq_reg_r (exp 1)); [|apply Rgt_not_eq, exp_pos]. rewrite Rmult_assoc, <- !exp_plus. replace (w - 1 + 1) with w by ring. exact W. }
      rewrite EIo. apply (Rmult_eq_reg_l w); [|exact Hw]. replace (w * (IL * exp (- (1 / d)) * exp (w - 1))) with (IL * exp (- (1 / d)) * (w * exp (w - 1))) by ring. rewrite P. rewrite Rmult_assoc, X. field. exact Hw. }
    unfold current. rewrite S1, S2, S3. replace (Io * (exp (w - 1) - 1)) with (Io * exp (w - 1) - Io) by ring. rewrite S4. rewrite EIL. field. split; assumption.
  - unfold current. rewrite Rmult_0_r, Rplus_0_r. replace (voc / a) with (1 / d) by (unfold a, bf_a; field; split; assumption).
    replace (Io * (exp (1 / d) - 1)) with (IL * (exp (- (1 / d)) * exp (1 / d)) - Io) by (rewrite EIo; ring). rewrite X. ring.
  - unfold current. rewrite Rplus_0_l. rewrite EIL. field. exact RSH.
Qed.
Print Assumptions C127_points.
Example C127_nonvacuous : let d := bz_d (0.005 / 9) (-0.1 / 40) in 0 < d <= 1 /\ 50.1 - 0.005 / 9 * 298.15 <> 0.
Proof. cbv zeta. unfold bz_d. assert (H : 0 < 50.1 - 0.005 / 9 * 298.15 < 51) by lra. assert (H2 : 1 < 50.1 - 0.005 / 9 * 298.15) by lra. set (x := 50.1 - 0.005 / 9 * 298.15) in *. set (y := 1 - -0.1 / 40 * 298.15). assert (0 < y < 2) by (unfold y; lra).
  split; [|lra]. split; [apply Rdiv_lt_0_compat; lra|]. apply (Rmult_le_reg_r x); [lra|]. unfold Rdiv. rewrite Rmult_assoc, Rinv_l, Rmult_1_r, Rmult_1_l by lra. unfold x. lra. Qed.

(** ** C128: fit_cec_sam *)
Definition sam_inputs (v_mp i_mp v_oc i_sc al be ga Ns tref : fl) : list (string * fl) :=
  [("Vmp", v_mp); ("Imp", i_mp); ("Voc", v_oc); ("Isc", i_sc); ("alpha_isc", al); ("beta_voc", be); ("gamma_pmp", ga); ("Nser", Ns); ("Tref", tref)]%string.
Theorem C128_cec_sam : forall ssc celltype v_mp i_mp v_oc i_sc al be ga Ns tref,
  let run := fit_cec_sam (Some ssc) celltype v_mp i_mp v_oc i_sc al be ga Ns tref in
  let answer := ssc celltype (sam_inputs v_mp i_mp v_oc i_sc al be ga Ns tref) in
  fit_cec_sam None celltype v_mp i_mp v_oc i_sc al be ga Ns tref = Err ImportError /\
  (forall Il Io Rs Rsh a Adj, lookup "cmod_success" answer = Some #1 -> lookup "Il" answer = Some Il -> lookup "Io" answer = Some Io -> lookup "Rs" answer = Some Rs ->
     lookup "Rsh" answer = Some Rsh -> lookup "a" answer = Some a -> lookup "Adj" answer = Some Adj -> run = Ok [Il; Io; Rs; Rsh; a; Adj]) /\
  (forall s, lookup "cmod_success" answer = Some s -> s <> #1 -> run = Err RuntimeError).
Proof.
  intros ssc celltype v_mp i_mp v_oc i_sc al be ga Ns tref run answer. split; [reflexivity|]. unfold run, fit_cec_sam. fold (sam_inputs v_mp i_mp v_oc i_sc al be ga Ns tref). fold answer. cbv zeta. split.
  - intros Il Io Rs Rsh a Adj E0 E1 E2 E3 E4 E5 E6. unfold getitem. cbn [mapM bind]. rewrite E0, E1, E2, E3, E4, E5, E6. cbn [bind]. rewrite feqb_fin, Reqb_t by reflexivity. reflexivity.
  - intros s E N. unfold getitem at 1. rewrite E. cbn [bind]. destruct s as [x| | |]; try reflexivity. rewrite feqb_fin. rewrite Reqb_f; [reflexivity|]. intros ->. apply N. reflexivity.
Qed.
Print Assumptions C128_cec_sam.
Example C128_nonvacuous : let ssc := fun (_ : string) (_ : list (string * fl)) => [("cmod_success", #1); ("Il", #9); ("Io", #0); ("Rs", #2); ("Rsh", #3); ("a", #4); ("Adj", #5)]%string in
  lookup "Adj" (ssc "monoSi"%string []) = Some #5.
Proof. reflexivity. Qed.
