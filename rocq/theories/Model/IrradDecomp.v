(** Model of pvlib/irradiance.py, part 2: clearness indices, decomposition models, DIRINT,
    GTI-DIRINT, component completion. *)
From Verif Require Import Base.Fl Base.Py Model.IrradTables Model.Atmosphere Model.Irradiance.
Open Scope fl_scope.

(** irradiance.py:1764-1806 clearsky_index *)
Definition clearsky_index (ghi ghi_clear max_clearsky_index : fl) : fl :=
  let c := ghi / ghi_clear in
  let c := where_ (negb (isfinite c)) #0 c in
  let input_is_nan := negb (isfinite ghi) || negb (isfinite ghi_clear) in
  let c := where_ input_is_nan NaN c in
  let c := fmax c #0 in
  fmin c max_clearsky_index.

(** irradiance.py:1809-1859 clearness_index *)
Definition clearness_index (ghi solar_zenith extra_radiation min_cos_zenith max_clearness_index : fl) : fl :=
  let cos_zenith := cosd solar_zenith in
  let I0h := extra_radiation * fmax cos_zenith min_cos_zenith in
  let kt := ghi / I0h in
  let kt := fmax kt #0 in
  fmin kt max_clearness_index.

(** irradiance.py:1901-1908 _kt_kt_prime_factor *)
Definition kt_kt_prime_factor (airmass : fl) : fl :=
  #1.031 * fexp (#(-1.4) / (#0.9 + #9.4 / airmass)) + #0.1.

(** irradiance.py:1862-1898 clearness_index_zenith_independent *)
Definition clearness_index_zenith_independent (clearness_index airmass max_clearness_index : fl) : fl :=
  let kt_prime := clearness_index / kt_kt_prime_factor airmass in
  let kt_prime := fmax kt_prime #0 in
  fmin kt_prime max_clearness_index.

(** irradiance.py:2014-2057 _disc_kn *)
Definition disc_kn (clearness_index airmass max_airmass : fl) : fl * fl :=
  let kt := clearness_index in
  let am := fmin airmass max_airmass in
  let is_cloudy := fleb kt #0.6 in
  let a := where_ is_cloudy
    (#0.512 + kt * (#(-1.56) + kt * (#2.286 - #2.222 * kt)))
    (#(-5.743) + kt * (#21.77 + kt * (#(-27.49) + #11.56 * kt))) in
  let b := where_ is_cloudy
    (#0.37 + #0.962 * kt)
    (#41.4 + kt * (#(-118.5) + kt * (#66.05 + #31.9 * kt))) in
  let c := where_ is_cloudy
    (#(-0.28) + kt * (#0.932 - #2.048 * kt))
    (#(-47.01) + kt * (#184.2 + kt * (#(-222.0) + #73.81 * kt))) in
  let delta_kn := a + b * fexp (c * am) in
  let Knc := #0.866 + am * (#(-0.122) + am * (#0.0121 + am * (#(-0.000653) + #1.4e-05 * am))) in
  (Knc - delta_kn, am).

(** irradiance.py:1911-2011 disc, for a numeric day of year; [pressure = None] keeps the relative
    airmass (1993-1995). *)
Record disc_out := { disc_dni : fl; disc_kt : fl; disc_airmass : fl }.
Definition disc (ghi solar_zenith doy : fl) (pressure : option fl)
    (min_cos_zenith max_zenith max_airmass : fl) : disc_out :=
  let I0 := #1370 * spencer_factor doy in
  let kt := clearness_index ghi solar_zenith I0 min_cos_zenith #1 in
  let am := am_kasten1966 (airmass_z solar_zenith) in
  let am := match pressure with Some p => get_absolute_airmass am p | None => am end in
  let '(Kn, am) := disc_kn kt am max_airmass in
  let dni := Kn * I0 in
  let bad_values := fgtb solar_zenith max_zenith || fltb ghi #0 || fltb dni #0 in
  {| disc_dni := where_ bad_values #0 dni; disc_kt := kt; disc_airmass := am |}.

(** ** DIRINT binning.  irradiance.py:2242-2299 _dirint_bins; MATLAB 1-based bins, 0 = unassigned.
    The successive masked assignments are written as nested [where_] with the last one outermost. *)
Definition in_co (x : fl) (lo hi : R) : bool := fgeb x #lo && fltb x #hi.
Definition kt_prime_bin (kt_prime : fl) : nat :=
  let b := 0%nat in
  let b := where_ (in_co kt_prime 0 0.24) 1%nat b in
  let b := where_ (in_co kt_prime 0.24 0.4) 2%nat b in
  let b := where_ (in_co kt_prime 0.4 0.56) 3%nat b in
  let b := where_ (in_co kt_prime 0.56 0.7) 4%nat b in
  let b := where_ (in_co kt_prime 0.7 0.8) 5%nat b in
  where_ (fgeb kt_prime #0.8 && fleb kt_prime #1) 6%nat b.
Definition zenith_bin (zenith : fl) : nat :=
  let b := 0%nat in
  let b := where_ (in_co zenith 0 25) 1%nat b in
  let b := where_ (in_co zenith 25 40) 2%nat b in
  let b := where_ (in_co zenith 40 55) 3%nat b in
  let b := where_ (in_co zenith 55 70) 4%nat b in
  let b := where_ (in_co zenith 70 80) 5%nat b in
  where_ (fgeb zenith #80) 6%nat b.
Definition w_bin (w : fl) : nat :=
  let b := 0%nat in
  let b := where_ (in_co w 0 1) 1%nat b in
  let b := where_ (in_co w 1 2) 2%nat b in
  let b := where_ (in_co w 2 3) 3%nat b in
  let b := where_ (fgeb w #3) 4%nat b in
  where_ (feqb w #(-1)) 5%nat b.
Definition delta_kt_prime_bin (d : fl) : nat :=
  let b := 0%nat in
  let b := where_ (in_co d 0 0.015) 1%nat b in
  let b := where_ (in_co d 0.015 0.035) 2%nat b in
  let b := where_ (in_co d 0.035 0.07) 3%nat b in
  let b := where_ (in_co d 0.07 0.15) 4%nat b in
  let b := where_ (in_co d 0.15 0.3) 5%nat b in
  let b := where_ (fgeb d #0.3 && fleb d #1) 6%nat b in
  where_ (feqb d #(-1)) 7%nat b.

(** numpy indexing of one axis with an integer computed as bin-1: -1 wraps to the last element *)
Definition py_index {A} (l : list A) (b : nat) : option A :=
  match b with O => nth_error l (length l - 1) | S n => nth_error l n end.
(** irradiance.py:2206-2239 _dirint_coeffs for one time; IndexError when an index leaves the table *)
Definition dirint_coeff (kt_prime solar_zenith w delta_kt_prime : fl) : res fl :=
  let kb := kt_prime_bin kt_prime in
  let zb := zenith_bin solar_zenith in
  let wb := w_bin w in
  let db := delta_kt_prime_bin delta_kt_prime in
  match py_index dirint_table kb with
  | None => Err IndexError
  | Some t1 => match py_index t1 zb with
  | None => Err IndexError
  | Some t2 => match py_index t2 db with
  | None => Err IndexError
  | Some t3 => match py_index t3 wb with
  | None => Err IndexError
  | Some c =>
      Ok (where_ (Nat.eqb kb 0 || Nat.eqb zb 0 || Nat.eqb wb 0 || Nat.eqb db 0) NaN #c)
  end end end end.

(** irradiance.py:2192-2203 _temp_dew_dirint *)
Definition temp_dew_dirint (temp_dew : option fl) : fl :=
  match temp_dew with Some t => fexp (#0.07 * t - #0.075) | None => #(-1) end.

(** mean of the non-nan values of a row, nan when there is none (pandas mean(axis=1)) *)
Definition nanmean (l : list fl) : fl :=
  let v := filter (fun x => negb (isnan x)) l in
  match v with [] => NaN | _ => fsum v / #(INR (length v)) end.
(** irradiance.py:2171-2189 _delta_kt_prime_dirint on the whole series *)
Definition delta_kt_prime_dirint (kt_prime : list fl) (use_delta_kt_prime : bool) : list fl :=
  if use_delta_kt_prime then
    let n := length kt_prime in
    map (fun i =>
           let x := nth i kt_prime NaN in
           let nxt := nth (S i) kt_prime NaN in
           let prev := match i with O => NaN | S j => nth j kt_prime NaN end in
           nanmean [fabs (x - nxt); fabs (x - prev)])
        (seq 0 n)
  else map (fun _ => #(-1)) kt_prime.

(** irradiance.py:2397-2399, the final combination of dirindex *)
Definition dirindex_combine (dni_clear dni_dirint dni_dirint_clearsky : fl) : fl :=
  let d := dni_clear * dni_dirint / dni_dirint_clearsky in
  where_ (fltb d #0) #0 d.

(** ** GTI-DIRINT *)
(** irradiance.py:2565-2570 step size of iteration [i] *)
Definition gti_coeff (i : nat) : R :=
  if Nat.ltb i 3 then 1 else if Nat.ltb i 10 then 0.5 else if Nat.ltb i 20 then 0.25 else 0.125.
Definition gti_coeffs (max_iterations : nat) : list R := map gti_coeff (seq 0 max_iterations).

(** Series.where(cond, other) *)
Definition swhere {A} (cond : list bool) (x other : list A) : list A :=
  map (fun p => let '(c, (a, b)) := p in if c : bool then a else b) (combine cond (combine x other)).
Definition smap2 {A B C} (f : A -> B -> C) (x : list A) (y : list B) : list C :=
  map (fun p => f (fst p) (snd p)) (combine x y).

(** The loop of irradiance.py:2579-2655 (_gti_dirint_lt_90).  [eval] stands for lines 2590-2616: from
    the adjusted input series it computes the iterate (ghi, dni, dhi, kt_prime) of every time and
    the modelled GTI.  Returns the best iterates, or UnboundLocalError when no iteration ran. *)
Section Gti.
  Context {V : Type}.
  Variable eval : list fl -> list V * list fl.
  Variable poa_measured : list fl.
  Variable aoi_lt_90 : list bool.

  Record gti_state := { g_best_diff : list fl; g_best : option (list V); g_poa_i : list fl }.
  Definition gti_init : gti_state :=
    {| g_best_diff := map (fun _ => #9999) poa_measured; g_best := None; g_poa_i := poa_measured |}.
  (** 2584-2586 *)
  Definition gti_converged (s : gti_state) : bool :=
    forallb (fun p : fl * bool => implb (snd p) (fleb (fst p) #1)) (combine (g_best_diff s) aoi_lt_90).
  (** 2590-2644 *)
  Definition gti_iter (first : bool) (coeff : R) (s : gti_state) : gti_state :=
    let '(vals, gti_model) := eval (g_poa_i s) in
    let diff := smap2 fsub gti_model poa_measured in
    let diff_abs := map fabs diff in
    let smallest := smap2 fltb diff_abs (g_best_diff s) in
    {| g_best_diff := swhere smallest diff_abs (g_best_diff s);
       g_best := Some (match g_best s with
                       | None => vals
                       | Some b => if first then vals else swhere smallest vals b
                       end);
       g_poa_i := smap2 (fun p d => fmax #1 (p - #coeff * d)) (g_poa_i s) diff |}.
  Fixpoint gti_loop (first : bool) (coeffs : list R) (s : gti_state) : gti_state :=
    match coeffs with
    | [] => s
    | c :: cs => if gti_converged s then s else gti_loop false cs (gti_iter first c s)
    end.
  Definition gti_dirint_lt_90 (max_iterations : nat) : res (list V) :=
    match g_best (gti_loop true (gti_coeffs max_iterations) gti_init) with
    | Some b => Ok b
    | None => Err UnboundLocalError
    end.
  (** 2530-2538 _gti_dirint_check_input, then the loop; the AOI >= 90 part (2658-2736) is separate *)
  Definition gti_dirint (max_iterations : nat) : res (list V) :=
    if existsb (fun b => b) aoi_lt_90 then gti_dirint_lt_90 max_iterations else Err ValueError.
End Gti.

(** irradiance.py:2679-2689: isotropic-sky inversion for AOI >= 90 *)
Definition gti_gte_90 (poa_global dni_gte_90 solar_zenith surface_tilt albedo : fl) : fl * fl :=
  let dni_proj := dni_gte_90 * cosd solar_zenith in
  let ct := cosd surface_tilt in
  let dhi := (#2 * poa_global - dni_proj * albedo * (#1 - ct)) / (#1 + ct + albedo * (#1 - ct)) in
  (dni_proj + dhi, dhi).

(** ** Decomposition *)
Record decomp := { d_dni : fl; d_dhi : fl; d_kt : fl }.

(** the common tail of erbs, erbs_driesse, orgill_hollands and boland: irradiance.py:2818-2829,
    2955-2966, 3053-3064, 3164-3175 *)
Definition decomp_tail (df ghi zenith max_zenith kt : fl) : decomp :=
  let dhi := df * ghi in
  let dni := (ghi - dhi) / cosd zenith in
  let bad_values := fgtb zenith max_zenith || fltb ghi #0 || fltb dni #0 in
  {| d_dni := where_ bad_values #0 dni; d_dhi := where_ bad_values ghi dhi; d_kt := kt |}.

(** irradiance.py:2806-2816 *)
Definition erbs_df (kt : fl) : fl :=
  let df := #1 - #0.09 * kt in
  let df := where_ (fgtb kt #0.22 && fleb kt #0.8)
    (#0.9511 - #0.1604 * kt + #4.388 * (kt ^ 2) - #16.638 * (kt ^ 3) + #12.336 * (kt ^ 4)) df in
  where_ (fgtb kt #0.8) #0.165 df.
(** irradiance.py:2739-2834 erbs; [dni_extra] is get_extra_radiation(datetime_or_doy), line 2801 *)
Definition erbs (ghi zenith dni_extra min_cos_zenith max_zenith : fl) : decomp :=
  let kt := clearness_index ghi zenith dni_extra min_cos_zenith #1 in
  decomp_tail (erbs_df kt) ghi zenith max_zenith kt.

(** np.polyval: Horner from the leading coefficient *)
Definition polyval (p : list fl) (x : fl) : fl := fold_left (fun acc c => acc * x + c) p #0.
(** irradiance.py:2926-2931, 2946-2953 *)
Definition erbs_driesse_p : list fl :=
  [#12.26911439571261000; #(-16.47050842469730700); #4.24692671521831700;
   #(-0.11390583806313881); #0.94629663357100100].
Definition erbs_driesse_df (kt : fl) : fl :=
  let df := #1 - #0.09 * kt in
  let df := where_ (fgtb kt #0.216) (polyval erbs_driesse_p kt) df in
  where_ (fgtb kt #0.792) #0.165 df.
(** irradiance.py:2837-2973 erbs_driesse; [dni_extra_of_time] is get_extra_radiation of the optional
    datetime_or_doy *)
Definition erbs_driesse (ghi zenith : fl) (dni_extra_of_time dni_extra : option fl)
    (min_cos_zenith max_zenith : fl) : res decomp :=
  let* x := match dni_extra, dni_extra_of_time with
            | Some x, _ => Ok x
            | None, Some x => Ok x
            | None, None => Err ValueError
            end in
  let ghi := fmax #0 ghi in
  let kt := clearness_index ghi zenith x min_cos_zenith #1 in
  Ok (decomp_tail (erbs_driesse_df kt) ghi zenith max_zenith kt).

(** irradiance.py:3043-3051 *)
Definition orgill_hollands_df (kt : fl) : fl :=
  let df := #1 - #0.249 * kt in
  let df := where_ (fgeb kt #0.35 && fleb kt #0.75) (#1.557 - #1.84 * kt) df in
  where_ (fgtb kt #0.75) #0.177 df.
(** irradiance.py:2976-3069 orgill_hollands *)
Definition orgill_hollands (ghi zenith dni_extra min_cos_zenith max_zenith : fl) : decomp :=
  let kt := clearness_index ghi zenith dni_extra min_cos_zenith #1 in
  decomp_tail (orgill_hollands_df kt) ghi zenith max_zenith kt.

(** irradiance.py:3158-3159 *)
Definition boland_df (kt a_coeff b_coeff : fl) : fl :=
  #1 / (#1 + fexp (a_coeff * (kt - b_coeff))).
(** irradiance.py:3072-3180 boland *)
Definition boland (ghi solar_zenith dni_extra a_coeff b_coeff min_cos_zenith max_zenith : fl) : decomp :=
  let kt := clearness_index ghi solar_zenith dni_extra min_cos_zenith #1 in
  decomp_tail (boland_df kt a_coeff b_coeff) ghi solar_zenith max_zenith kt.

(** irradiance.py:3944-4003 louche; clearness_index with its defaults 0.065 and 2 *)
Definition louche (ghi solar_zenith I0 max_zenith : fl) : decomp :=
  let Kt := clearness_index ghi solar_zenith I0 #0.065 #2 in
  let kb := #(-10.627) * (Kt ^ 5) + #15.307 * (Kt ^ 4) - #5.205 * (Kt ^ 3)
            + #0.994 * (Kt ^ 2) - #0.059 * Kt + #0.002 in
  let dni := kb * I0 in
  let dhi := ghi - dni * cosd solar_zenith in
  let bad_values := fgtb solar_zenith max_zenith || fltb ghi #0 || fltb dni #0 in
  {| d_dni := where_ bad_values #0 dni; d_dhi := where_ bad_values ghi dhi; d_kt := Kt |}.

(** irradiance.py:3183-3234 campbell_norman: (ghi, dni, dhi) *)
Definition campbell_norman (zenith transmittance pressure dni_extra : fl) : fl * fl * fl :=
  let airmass := get_absolute_airmass (am_simple (airmass_z zenith)) pressure in
  let dni := dni_extra * fpow transmittance airmass in
  let cos_zen := cosd zenith in
  let dhi := #0.3 * (#1 - fpow transmittance airmass) * dni_extra * cos_zen in
  (dhi + dni * cos_zen, dni, dhi).
(** irradiance.py:3237-3292 _liujordan *)
Definition liujordan (zenith transmittance airmass dni_extra : fl) : fl * fl * fl :=
  let dni := dni_extra * fpow transmittance airmass in
  let dhi := #0.3 * (#1 - fpow transmittance airmass) * dni_extra * fcos (fradians zenith) in
  (dhi + dni * fcos (fradians zenith), dni, dhi).

(** irradiance.py:3798-3869 dni *)
Definition irr_dni (ghi dhi zenith : fl) (dni_clear : option fl)
    (clearsky_tolerance zenith_threshold_for_zero_dni zenith_threshold_for_clearsky_limit : fl) : fl :=
  let dni := (ghi - dhi) / cosd zenith in
  let dni := where_ (fltb dni #0) NaN dni in
  let dni := where_ (fgeb zenith zenith_threshold_for_zero_dni && fneqb dni #0) NaN dni in
  match dni_clear with
  | None => dni
  | Some c =>
      let max_dni := c * clearsky_tolerance in
      where_ (fgeb zenith zenith_threshold_for_clearsky_limit
              && fltb zenith zenith_threshold_for_zero_dni && fgtb dni max_dni) max_dni dni
  end.

(** irradiance.py:3872-3941 complete_irradiance: (ghi, dhi, dni) *)
Definition complete_irradiance (solar_zenith : fl) (ghi dhi dni dni_clear : option fl) : res (fl * fl * fl) :=
  match ghi, dhi, dni with
  | Some g, Some d, None => Ok (g, d, irr_dni g d solar_zenith dni_clear #1.1 #88 #80)
  | None, Some d, Some n => Ok (d + n * cosd solar_zenith, d, n)
  | Some g, None, Some n => Ok (g, g - n * cosd solar_zenith, n)
  | _, _, _ => Err ValueError
  end.

(** irradiance.py:4006-4076 diffuse_par_spitters *)
Definition diffuse_par_spitters (daily_solar_zenith global_diffuse_fraction : fl) : fl :=
  let k := global_diffuse_fraction in
  (#1 + #0.3 * (#1 - k ^ 2)) * k
  / (#1 + (#1 - k ^ 2) * (cosd daily_solar_zenith ^ 2) * (sind daily_solar_zenith ^ 3)).
