(** Properties C09-C15: decomposition, clearness indices, component completion, DIRINT, GTI-DIRINT,
    extraterrestrial radiation.  Models: Model/IrradDecomp.v, Model/Irradiance.v. *)
From Verif Require Import Base.Fl Base.FlFacts Base.Py Spec.Decomposition Spec.BestIterate Spec.DirintBins
  Model.IrradTables Model.Atmosphere Model.Irradiance Model.IrradDecomp Proofs.Decomp Proofs.Gti Proofs.Dirint.
Open Scope R_scope.

(** C09 / C10: [closes] is in Spec/Decomposition.v *)
Theorem C09_erbs_closure :
  forall g z x mc mz, d_kt (erbs #g #z #x #mc #mz) <> NaN -> cosD z <> 0 ->
    closes g z mz (d_dni (erbs #g #z #x #mc #mz)) (d_dhi (erbs #g #z #x #mc #mz)).
Proof. exact erbs_closes. Qed.
Print Assumptions C09_erbs_closure.
Theorem C09_orgill_hollands_closure :
  forall g z x mc mz, d_kt (orgill_hollands #g #z #x #mc #mz) <> NaN -> cosD z <> 0 ->
    closes g z mz (d_dni (orgill_hollands #g #z #x #mc #mz)) (d_dhi (orgill_hollands #g #z #x #mc #mz)).
Proof. exact orgill_hollands_closes. Qed.
Print Assumptions C09_orgill_hollands_closure.
Theorem C09_boland_closure :
  forall g z x a b mc mz, d_kt (boland #g #z #x #a #b #mc #mz) <> NaN -> cosD z <> 0 ->
    closes g z mz (d_dni (boland #g #z #x #a #b #mc #mz)) (d_dhi (boland #g #z #x #a #b #mc #mz)).
Proof. exact boland_closes. Qed.
Print Assumptions C09_boland_closure.
(** erbs_driesse replaces negative ghi by 0 before splitting *)
Theorem C09_erbs_driesse_closure :
  forall g z xt x mc mz d, erbs_driesse #g #z xt (Some #x) #mc #mz = Ok d ->
    d_kt d <> NaN -> cosD z <> 0 -> closes (Rmax 0 g) z mz (d_dni d) (d_dhi d).
Proof. exact erbs_driesse_closes. Qed.
Print Assumptions C09_erbs_driesse_closure.
Theorem C09_erbs_driesse_arguments :
  forall g z xt x mc mz,
  (forall v, x = Some v -> erbs_driesse g z xt x mc mz = erbs_driesse g z None x mc mz) /\
  (forall v, x = None -> xt = Some v -> erbs_driesse g z xt x mc mz = erbs_driesse g z None (Some v) mc mz) /\
  (forall e, erbs_driesse g z xt x mc mz = Err e <-> e = ValueError /\ x = None /\ xt = None).
Proof. exact erbs_driesse_args. Qed.
Print Assumptions C09_erbs_driesse_arguments.
(** louche: closure without the upper bound on dhi *)
Theorem C09_louche_closure :
  forall g z I0 mz, I0 <> 0 ->
  exists n h, d_dni (louche #g #z #I0 #mz) = #n /\ d_dhi (louche #g #z #I0 #mz) = #h /\
    0 <= n /\ g = h + n * cosD z /\ (mz < z -> n = 0 /\ h = g).
Proof. exact louche_closes. Qed.
Print Assumptions C09_louche_closure.
(** the only finite inputs without a result: ghi = 0 with zero extraterrestrial horizontal irradiance *)
Theorem C09_undefined_exactly :
  forall g z x mc mz a b,
  (d_kt (erbs #g #z #x #mc #mz) = NaN <-> g = 0 /\ x * Rmax (cosD z) mc = 0) /\
  (d_kt (orgill_hollands #g #z #x #mc #mz) = NaN <-> g = 0 /\ x * Rmax (cosD z) mc = 0) /\
  (d_kt (boland #g #z #x a b #mc #mz) = NaN <-> g = 0 /\ x * Rmax (cosD z) mc = 0) /\
  (forall xt d, erbs_driesse #g #z xt (Some #x) #mc #mz = Ok d ->
     (d_kt d = NaN <-> g <= 0 /\ x * Rmax (cosD z) mc = 0)).
Proof. exact decomp_kt_nan. Qed.
Print Assumptions C09_undefined_exactly.
Theorem C09_dni_nonneg :
  forall g z x a b mc mz : fl,
  atleast #0 (d_dni (erbs g z x mc mz)) /\ atleast #0 (d_dni (orgill_hollands g z x mc mz)) /\
  atleast #0 (d_dni (boland g z x a b mc mz)) /\ atleast #0 (d_dni (louche g z x mz)) /\
  (forall xt d, erbs_driesse g z xt (Some x) mc mz = Ok d -> atleast #0 (d_dni d)).
Proof. exact dni_nonneg_all. Qed.
Print Assumptions C09_dni_nonneg.
Theorem C09_night :
  forall g z x a b mc mz : fl, fgtb z mz = true ->
  (d_dni (erbs g z x mc mz) = #0 /\ d_dhi (erbs g z x mc mz) = g) /\
  (d_dni (orgill_hollands g z x mc mz) = #0 /\ d_dhi (orgill_hollands g z x mc mz) = g) /\
  (d_dni (boland g z x a b mc mz) = #0 /\ d_dhi (boland g z x a b mc mz) = g) /\
  (d_dni (louche g z x mz) = #0 /\ d_dhi (louche g z x mz) = g) /\
  (forall xt d, erbs_driesse g z xt (Some x) mc mz = Ok d -> d_dni d = #0 /\ d_dhi d = fmax #0 g).
Proof. exact night_all. Qed.
Print Assumptions C09_night.
Example C09_example : d_kt (erbs #500 #0 #1366 #0.065 #87) <> NaN /\ cosD 0 <> 0.
Proof.
  split; [|rewrite cosD_0; lra]. intros H. apply (decomp_kt_nan 500 0 1366 0.065 87 #0 #0) in H. lra.
Qed.

(** C10: by_fraction and the published fractions are in Spec/Decomposition.v *)
Theorem C10_diffuse_fraction :
  forall g z x mc mz a b,
  x * Rmax (cosD z) mc <> 0 -> 0 < cosD z -> z <= mz -> 0 <= g ->
  let k := Rmin (Rmax (g / (x * Rmax (cosD z) mc)) 0) 1 in
  let ok frac (d : decomp) := by_fraction frac k g z (d_kt d) (d_dni d) (d_dhi d) in
  ok erbs_fraction (erbs #g #z #x #mc #mz) /\
  ok orgill_hollands_fraction (orgill_hollands #g #z #x #mc #mz) /\
  ok (boland_fraction a b) (boland #g #z #x #a #b #mc #mz) /\
  (forall xt, exists d, erbs_driesse #g #z xt (Some #x) #mc #mz = Ok d /\ ok erbs_driesse_fraction d).
Proof. exact daytime_all. Qed.
Print Assumptions C10_diffuse_fraction.
Theorem C10_diffuse_range :
  forall g z x a b mc mz h, 0 <= g -> 0 < cosD z \/ (mz < z /\ cosD z <> 0) ->
  (d_dhi (erbs #g #z #x #mc #mz) = #h -> d_kt (erbs #g #z #x #mc #mz) <> NaN -> 0 <= h <= g) /\
  (d_dhi (orgill_hollands #g #z #x #mc #mz) = #h -> d_kt (orgill_hollands #g #z #x #mc #mz) <> NaN -> 0 <= h <= g) /\
  (d_dhi (boland #g #z #x #a #b #mc #mz) = #h -> d_kt (boland #g #z #x #a #b #mc #mz) <> NaN -> 0 <= h <= g) /\
  (forall xt d, erbs_driesse #g #z xt (Some #x) #mc #mz = Ok d -> d_dhi d = #h -> d_kt d <> NaN -> 0 <= h <= g).
Proof. exact diffuse_range_all. Qed.
Print Assumptions C10_diffuse_range.
Example C10_example : 1366 * Rmax (cosD 0) 0.065 <> 0 /\ 0 < cosD 0 /\ 0 <= 87 /\ 0 <= 700.
Proof. rewrite cosD_0, Rmax_left; lra. Qed.

(** C11 *)
Theorem C11_ranges :
  forall m, 0 <= m ->
  (forall g z x mc, within #0 #m (clearness_index g z x mc #m)) /\
  (forall k am, within #0 #m (clearness_index_zenith_independent k am #m)) /\
  (forall g c, within #0 #m (clearsky_index g c #m)).
Proof.
  exact (fun m H => conj (fun g z x mc => clearness_index_within g z x mc m H)
    (conj (fun k am => clearness_index_zi_within k am m H) (fun g c => clearsky_index_within g c m H))).
Qed.
Print Assumptions C11_ranges.
Theorem C11_clearness_index_value :
  forall g z x mc m, x * Rmax (cosD z) mc <> 0 ->
  clearness_index #g #z #x #mc #m = #(Rmin (Rmax (g / (x * Rmax (cosD z) mc)) 0) m).
Proof. exact clearness_index_fin. Qed.
Print Assumptions C11_clearness_index_value.
Theorem C11_zenith_independent_value :
  forall k am m, 0 < am ->
  clearness_index_zenith_independent #k #am #m
  = #(Rmin (Rmax (k / (1.031 * exp (-1.4 / (0.9 + 9.4 / am)) + 0.1)) 0) m).
Proof. exact clearness_index_zi_fin. Qed.
Print Assumptions C11_zenith_independent_value.
Theorem C11_clearsky_index :
  (forall g c m, clearsky_index g c #m = NaN <-> isfinite g && isfinite c = false) /\
  (forall g c m, c <> 0 -> clearsky_index #g #c #m = #(Rmin (Rmax (g / c) 0) m)) /\
  (forall g m, 0 <= m -> clearsky_index #g #0 #m = #0).
Proof. exact (conj clearsky_index_nan (conj clearsky_index_fin clearsky_index_zero)). Qed.
Print Assumptions C11_clearsky_index.
Example C11_example : clearsky_index #500 #1000 #2 = #0.5.
Proof. rewrite clearsky_index_fin by lra. f_equal. rewrite Rmax_left, Rmin_left; lra. Qed.

(** C12 *)
Theorem C12_complete_irradiance :
  forall z ghi dhi dni c,
  (forall g d, ghi = Some g -> dhi = Some d -> dni = None ->
     complete_irradiance z ghi dhi dni c = Ok (g, d, irr_dni g d z c #1.1 #88 #80)) /\
  (forall d n, ghi = None -> dhi = Some d -> dni = Some n ->
     complete_irradiance z ghi dhi dni c = Ok (fadd d (fmul n (cosd z)), d, n)) /\
  (forall g n, ghi = Some g -> dhi = None -> dni = Some n ->
     complete_irradiance z ghi dhi dni c = Ok (g, fsub g (fmul n (cosd z)), n)) /\
  (forall e, complete_irradiance z ghi dhi dni c = Err e <->
     e = ValueError /\
     (length (filter (fun o : option fl => match o with None => true | _ => false end) [ghi; dhi; dni]) <> 1)%nat).
Proof. exact complete_irradiance_spec. Qed.
Print Assumptions C12_complete_irradiance.
Theorem C12_closure :
  forall z ghi dhi dni g d n, cosD z <> 0 ->
  complete_irradiance #z ghi dhi dni None = Ok (#g, #d, #n) -> g = d + n * cosD z.
Proof. exact complete_irradiance_closure. Qed.
Print Assumptions C12_closure.
(** the computed dni with the thresholds used by complete_irradiance *)
Theorem C12_computed_dni :
  forall g h z c, cosD z <> 0 ->
  let raw := (g - h) / cosD z in
  let dni := irr_dni #g #h #z c #1.1 #88 #80 in
  (raw < 0 -> dni = NaN) /\
  (88 <= z -> raw <> 0 -> dni = NaN) /\
  (0 <= raw -> (88 <= z -> raw = 0) ->
     (c = None \/ z < 80 \/ 88 <= z -> dni = #raw) /\
     (forall cc, c = Some #cc -> 80 <= z < 88 -> dni = #(Rmin raw (cc * 1.1)))).
Proof. exact irr_dni_value. Qed.
Print Assumptions C12_computed_dni.
Example C12_example :
  complete_irradiance #0 (Some #800) (Some #100) None None = Ok (#800, #100, #700).
Proof.
  unfold complete_irradiance. destruct (irr_dni_value 800 100 0 None) as (_ & _ & C);
  [rewrite cosD_0; lra|]. rewrite cosD_0 in C. destruct C as [C _]; [lra|lra|].
  rewrite C by auto. do 3 f_equal. lra.
Qed.

(** C13: bins from Spec/DirintBins.v *)
Theorem C13_bins_partition :
  (forall k, 0 <= k <= 1 -> exists! n, kt_bin_spec k n) /\
  (forall z, 0 <= z -> exists! n, zenith_bin_spec z n) /\
  (forall w, 0 <= w \/ w = -1 -> exists! n, w_bin_spec w n) /\
  (forall d, 0 <= d <= 1 \/ d = -1 -> exists! n, dkt_bin_spec d n).
Proof. exact (conj kt_bin_ex (conj zenith_bin_ex (conj w_bin_ex dkt_bin_ex))). Qed.
Print Assumptions C13_bins_partition.
Theorem C13_bins_computed :
  (forall k n, kt_prime_bin #k = S n <-> kt_bin_spec k n) /\
  (forall z n, zenith_bin #z = S n <-> zenith_bin_spec z n) /\
  (forall w n, w_bin #w = S n <-> w_bin_spec w n) /\
  (forall d n, delta_kt_prime_bin #d = S n <-> dkt_bin_spec d n) /\
  kt_prime_bin NaN = 0%nat /\ zenith_bin NaN = 0%nat /\ w_bin NaN = 0%nat /\ delta_kt_prime_bin NaN = 0%nat.
Proof. exact (conj kt_bin_iff (conj zenith_bin_iff (conj w_bin_iff (conj dkt_bin_iff dirint_coeff_special)))). Qed.
Print Assumptions C13_bins_computed.
(** table lookup: never an IndexError, nan exactly outside the ranges, the entry of the bins inside *)
Theorem C13_coefficient :
  forall kt z w d,
  exists v, dirint_coeff #kt #z #w #d = Ok v /\
    (v = NaN <-> ~ (0 <= kt <= 1 /\ 0 <= z /\ (0 <= w \/ w = -1) /\ (0 <= d <= 1 \/ d = -1))) /\
    (forall i j k l, kt_bin_spec kt i -> zenith_bin_spec z j -> dkt_bin_spec d k -> w_bin_spec w l ->
       exists c, table_at i j k l = Some c /\ v = #c).
Proof. exact dirint_coeff_fin. Qed.
Print Assumptions C13_coefficient.
Theorem C13_coefficient_any_input :
  forall kt z w d, exists v, dirint_coeff kt z w d = Ok v /\
    (v = NaN <-> kt_prime_bin kt = 0%nat \/ zenith_bin z = 0%nat \/ w_bin w = 0%nat \/ delta_kt_prime_bin d = 0%nat) /\
    (forall i j k l, kt_prime_bin kt = S i -> zenith_bin z = S j -> delta_kt_prime_bin d = S k -> w_bin w = S l ->
       exists c, table_at i j k l = Some c /\ v = #c).
Proof. exact dirint_coeff_total. Qed.
Print Assumptions C13_coefficient_any_input.
(** the stability index that is binned *)
Theorem C13_stability_index :
  (forall l b, length (delta_kt_prime_dirint l b) = length l) /\
  (forall l, delta_kt_prime_dirint l false = map (fun _ => #(-1)) l) /\
  (forall l i a b c, nth_error l i = Some a -> nth_error l (S i) = Some b -> nth_error l (S (S i)) = Some c ->
     nth (S i) (delta_kt_prime_dirint (map Fin l) true) NaN = #((Rabs (b - c) + Rabs (b - a)) / 2)) /\
  (forall l b c, nth_error l 0 = Some b -> nth_error l 1 = Some c ->
     nth 0 (delta_kt_prime_dirint (map Fin l) true) NaN = #(Rabs (b - c))).
Proof. exact (conj delta_kt_length (conj delta_kt_off (conj delta_kt_interior delta_kt_first))). Qed.
Print Assumptions C13_stability_index.
Example C13_example : kt_bin_spec 0.5 2 /\ zenith_bin_spec 30 1 /\ w_bin_spec (-1) 4 /\ dkt_bin_spec 0.02 1.
Proof.
  repeat split.
  - left. eexists _, _. split; [reflexivity|split; [reflexivity|lra]].
  - left. eexists _, _. split; [reflexivity|split; [reflexivity|lra]].
  - right; right. split; reflexivity.
  - left. eexists _, _. split; [reflexivity|split; [reflexivity|lra]].
Qed.

(** C14: [eval] computes the iterates and the modelled GTI of the whole series from the adjusted GTI;
    [gti_inputs eval poa k] is the input of evaluation k, [gti_mismatch] its absolute error at point i,
    [gti_value] its iterate.  [best_iter] is in Spec/BestIterate.v. *)
Theorem C14_best_iterate :
  forall (V : Type) (eval : list fl -> list V * list fl) (poa : list fl) (aoi90 : list bool),
  (forall p, length p = length poa -> length (fst (eval p)) = length poa /\ length (snd (eval p)) = length poa) ->
  length aoi90 = length poa ->
  forall max_it,
    (existsb (fun b => b) aoi90 = false -> gti_dirint eval poa aoi90 max_it = Err ValueError) /\
    (existsb (fun b => b) aoi90 = true -> max_it = 0%nat ->
       gti_dirint eval poa aoi90 max_it = Err UnboundLocalError) /\
    (existsb (fun b => b) aoi90 = true -> (1 <= max_it)%nat ->
       exists K best, gti_dirint eval poa aoi90 max_it = Ok best /\
         (1 <= K <= max_it)%nat /\
         (forall j, (1 <= j < K)%nat -> ~ all_close eval poa aoi90 j) /\
         ((K < max_it)%nat -> all_close eval poa aoi90 K) /\
         length best = length poa /\
         forall i, (i < length poa)%nat -> exists k, best_iter (gti_mismatch eval poa i) K k /\
           forall d, nth i best d = gti_value eval poa k i d).
Proof. exact @gti_dirint_spec. Qed.
Print Assumptions C14_best_iterate.
Theorem C14_step_sizes :
  forall k, gti_coeff k = if Nat.ltb k 3 then 1 else if Nat.ltb k 10 then 0.5 else if Nat.ltb k 20 then 0.25 else 0.125.
Proof. exact (fun k => eq_refl). Qed.
Print Assumptions C14_step_sizes.
Example C14_example :
  let eval := fun p : list fl => (p, p) in
  (forall p, length p = 2%nat -> length (fst (eval p)) = 2%nat /\ length (snd (eval p)) = 2%nat) /\
  existsb (fun b => b) [true; false] = true.
Proof. split; [intros p H; simpl; auto|reflexivity]. Qed.

(** C15 *)
Theorem C15_asce :
  forall p q doy sc, exists v, get_extra_radiation p q #doy #sc "asce" = Ok #v /\
    v = sc * (1 + 0.033 * cos (2 * PI * doy / 365)) /\ (0 <= sc -> 0.967 * sc <= v <= 1.033 * sc).
Proof. exact extra_radiation_asce. Qed.
Print Assumptions C15_asce.
Theorem C15_spencer :
  forall p q doy sc, let B := 2 * PI * (doy - 1) / 365 in
  exists v, get_extra_radiation p q #doy #sc "spencer" = Ok #v /\
    v = sc * (1.00011 + 0.034221 * cos B + 0.00128 * sin B + 0.000719 * cos (2 * B) + 7.7e-05 * sin (2 * B)) /\
    (0 <= sc -> 0.963 * sc <= v <= 1.037 * sc).
Proof. exact extra_radiation_spencer. Qed.
Print Assumptions C15_spencer.
Theorem C15_period :
  forall p q doy sc m, m = "asce"%string \/ m = "spencer"%string ->
  get_extra_radiation p q #(doy + 365) #sc m = get_extra_radiation p q #doy #sc m.
Proof. exact extra_radiation_period. Qed.
Print Assumptions C15_period.
Theorem C15_inverse_square :
  forall p q doy sc d,
  (p doy = #d -> d <> 0 -> get_extra_radiation p q doy #sc "pyephem" = Ok #(sc / d ^ 2)) /\
  (q doy = #d -> d <> 0 -> get_extra_radiation p q doy #sc "nrel" = Ok #(sc / d ^ 2)).
Proof. exact extra_radiation_distance. Qed.
Print Assumptions C15_inverse_square.
Theorem C15_errors :
  forall p q doy sc m e, get_extra_radiation p q doy sc m = Err e <->
  e = ValueError /\ ~ In (lower m) ["asce"; "spencer"; "pyephem"; "nrel"]%string.
Proof. exact extra_radiation_error. Qed.
Print Assumptions C15_errors.
Example C15_example : exists v, get_extra_radiation (fun _ => NaN) (fun _ => NaN) #0 #1366.1 "asce" = Ok #v /\
  v = 1366.1 * 1.033.
Proof.
  destruct (extra_radiation_asce (fun _ => NaN) (fun _ => NaN) 0 1366.1) as (v & E & Hv & _).
  exists v. split; [exact E|]. rewrite Hv. replace (2 * PI * 0 / 365) with 0 by field. rewrite cos_0. lra.
Qed.
