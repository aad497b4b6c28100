(** ivtools/sdm: fit_desoto_sandia (desoto.py), fit_pvsyst_sandia (pvsyst.py) and their common helpers
    (_fit_desoto_pvsyst_sandia.py, cited as dps).  A set of IV curves is a list; measured values are finite reals, the parameters of a
    curve are floats with nan.  statsmodels' RLM, numpy's lstsq, scipy's least_squares, the co-content estimate of Rsh and
    pvsystem.singlediode are arguments. *)
From Verif Require Import Base.Fl Base.Py Base.Series Model.IvUtils Model.SingleDiode Model.Pvsystem Model.Clearsky.
From Coq Require Import String.
Open Scope R_scope.
Open Scope list_scope.

(** one IV curve of [ivcurves]: ee, tc, i_sc, v_oc, i_mp, v_mp and the points (v, i) *)
Record curve := Curve { c_ee : R; c_tc : R; c_isc : R; c_voc : R; c_imp : R; c_vmp : R; c_points : list (option R * option R) }.
(** the estimates for one curve *)
Record pars := Pars { q_iph : fl; q_io : fl; q_rs : fl; q_rsh : fl }.
Definition with_io (x : fl) (p : pars) : pars := Pars (q_iph p) x (q_rs p) (q_rsh p).
Definition with_rs (x : fl) (p : pars) : pars := Pars (q_iph p) (q_io p) x (q_rsh p).
Definition with_rsh (x : fl) (p : pars) : pars := Pars (q_iph p) (q_io p) (q_rs p) x.
Definition with_iph (x : fl) (p : pars) : pars := Pars x (q_io p) (q_rs p) (q_rsh p).

(** l[u] and l[u] = new *)
Definition select {A} (u : list bool) (l : list A) : list A := map snd (filter fst (combine u l)).
Fixpoint scatter {A} (u : list bool) (new old : list A) : list A :=
  match u, old with
  | true :: u', _ :: old' => match new with n :: new' => n :: scatter u' new' old' | [] => old end
  | false :: u', o :: old' => o :: scatter u' new old'
  | _, _ => old
  end.

Section Sandia.
(** the largest finite float *)
Variable big : R.

(** ** _calc_theta_phi_exact *)
(** dps:549-551, 578-580: [x = logargw] names the same array, so [x *= ...] also changes logargw: the step is taken with the
    current x in the place of logargw *)
Definition alias_step (x : fl) : fl := (x * ((#1 - fln x + x) / (#1 + x)))%fl.
Definition alias_newton (logargw : fl) : fl := alias_step (alias_step (alias_step logargw)).
(** dps:531-553 (the overflow of exp and of the product is taken on the product) *)
Definition calc_phi (imp iph io rsh nnsvth : fl) : fl :=
  (let argw := if feqb nnsvth #0 then NaN else overflow big (rsh * io / nnsvth * fexp (rsh * (iph + io - imp) / nnsvth)) in
   if isinf argw then alias_newton (fln rsh + fln io - fln nnsvth + rsh * (iph + io - imp) / nnsvth)
   else if fgtb argw #0 then lambertw_pvlib argw else NaN)%fl.
(** dps:555-582 *)
Definition calc_theta (vmp iph io rs rsh nnsvth : fl) : fl :=
  (let argw := if feqb nnsvth #0 then NaN
               else overflow big (rsh / (rsh + rs) * rs * io / nnsvth * fexp (rsh / (rsh + rs) * (rs * (iph + io) + vmp) / nnsvth)) in
   if isinf argw then alias_newton (fln rsh - fln (rsh + rs) + fln rs + fln io - fln nnsvth + (rsh / (rsh + rs)) * (rs * (iph + io) + vmp) / nnsvth)
   else if fgtb argw #0 then lambertw_pvlib argw else NaN)%fl.

(** ** _update_rsh_fixed_pt, dps:428-473 *)
Definition rsh_step (vmp imp iph io nnsvth x1 : fl) : fl :=
  (let z := calc_phi imp iph io x1 nnsvth in
   (#1 + z) / z * ((iph + io) * x1 / imp - nnsvth * z / imp - #2 * vmp / imp))%fl.
Definition update_rsh_fixed_pt (vmp imp iph io rsh nnsvth : fl) : fl := Nat.iter 500 (rsh_step vmp imp iph io nnsvth) rsh.
(** dps:90-94 *)
Definition update_rs (vmp imp iph io rsh nnsvth : fl) : fl :=
  (let phi := calc_phi imp iph io rsh nnsvth in
   (iph + io - imp) * rsh / imp - nnsvth * phi / imp - vmp / imp)%fl.

(** ** _update_io, dps:237-296 *)
(** np.max *)
Definition np_max (l : list fl) : res fl := match l with [] => Err ValueError | x :: l' => Ok (fold_left fmax l' x) end.
Definition np_min (l : list fl) : res fl := match l with [] => Err ValueError | x :: l' => Ok (fold_left fmin l' x) end.
(** voc, nnsvth and the parameters; the current io is apart *)
Definition io_step (voc nnsvth : fl) (p : pars) (tio : fl) : fl :=
  (let pvoc := lambertw_v_from_i big #0 (q_iph p) tio (q_rs p) (q_rsh p) nnsvth in
   let dvoc := pvoc - voc in
   tio * (#1 + (#2 * dvoc) / (#2 * nnsvth - dvoc)))%fl.
Definition io_round (rows : list (fl * fl * pars)) (tio : list fl) : list fl :=
  zip_with (fun r t => let '(voc, a, p) := r in io_step voc a p t) rows tio.
Definition io_change (new old : fl) : fl := (fabs (new - old) / old)%fl.
Fixpoint io_loop (fuel : nat) (rows : list (fl * fl * pars)) (tio : list fl) : res (list fl) :=
  match fuel with
  | O => Ok tio
  | S fuel' =>
      let new := io_round rows tio in
      let* m := np_max (zip_with io_change new tio) in
      if fgtb (m * #100)%fl #1e-6 then io_loop fuel' rows new else Ok new
  end.
(** niter = 10, k from 1: at most nine rounds *)
Definition update_io (rows : list (fl * fl * pars)) : res (list fl) := io_loop 9 rows (map (fun r => q_io (snd r)) rows).

(** ** _filter_params, dps:299-324; numbers are real, so np.isreal holds *)
(** lstsq with the columns (ee/1000, 0): the minimum norm solution *)
Definition efficiency (cs : list curve) : R :=
  let sxx := fold_right Rplus 0 (map (fun c => (c_ee c / 1000) ^ 2) cs) in
  let sxy := fold_right Rplus 0 (map (fun c => c_ee c / 1000 * c_isc c) cs) in
  if Reqb sxx 0 then 0 else sxy / sxx.
Definition good (eff : R) (c : curve) (p : pars) : bool :=
  let badrsh := (fltb (q_rsh p) #0 || isnan (q_rsh p))%bool in
  let negrs := fltb (q_rs p) #0 in
  let badrs := (fgtb (q_rs p) (q_rsh p) || isnan (q_rs p))%bool in
  let badio := (fleb (q_io p) #0 || isnan (q_io p))%bool in
  let pisc := eff * c_ee c / 1000 in
  let badiph := fgtb (#(Rabs (pisc - c_isc c)) / #(c_isc c))%fl #0.05 in
  (negb badrsh && negb negrs && negb badrs && negb badio && negb badiph)%bool.
Definition filter_params (cs : list curve) (st : list pars) : list bool := zip_with (good (efficiency cs)) cs st.

(** dps:69 and 103: iph from the short circuit *)
Definition iph_from_isc (c : curve) (nnsvth : fl) (p : pars) : fl :=
  (#(c_isc c) + q_io p * fexpm1 (q_rs p * #(c_isc c) / nnsvth) + #(c_isc c) * q_rs p / q_rsh p)%fl.
(** dps:63-69 and 99-103: io of the good curves, then iph of all *)
Definition refine_io (cs : list curve) (nn : list fl) (u : list bool) (st : list pars) : res (list pars) :=
  let rows := zip_with (fun ca p => (#(c_voc (fst ca)), snd ca, p)) (combine cs nn) st in
  let* io := update_io (select u rows) in
  let st := zip_with with_io (scatter u io (map q_io st)) st in
  Ok (zip_with (fun ca p => with_iph (iph_from_isc (fst ca) (snd ca) p) p) (combine cs nn) st).

(** ** _initial_iv_params *)
(** dps:24-57 *)
Definition initial_pars (c : curve) (nnsvth rsh : fl) : pars :=
  (if fgtb rsh #0 then
     let vc := rectify_iv_curve (c_points c) None in
     let isc := #(c_isc c) in let voc := #(c_voc c) in
     let io := (isc - voc / rsh) * fexp (- voc / nnsvth) in
     let didv := fst (numdiff (map fst vc) (map snd vc)) in
     let tmp d := - rsh * d - #1 in
     let sel := filter (fun r => let '(v, d) := r in
       (Rltb (0.5 * c_voc c) v && Rltb v (0.9 * c_voc c) && negb (isnan (tmp d)) && fgtb (tmp d) #0)%bool) (combine (map fst vc) didv) in
     let vtrs := map (fun r => let '(v, d) := r in nnsvth / isc * (fln (tmp d * nnsvth / (rsh * io)) - #v / nnsvth)) sel in
     let rs := match sel with [] => #0 | _ => fmean (filter (fun x => fgtb x #0) vtrs) end in
     Pars (isc + io * fexpm1 (isc / nnsvth) + isc * rs / rsh) io rs rsh
   else Pars NaN NaN NaN rsh)%fl.
Fixpoint set_nth {A} (i : nat) (x : A) (l : list A) : list A :=
  match l, i with [] , _ => [] | _ :: l', O => x :: l' | y :: l', S i' => y :: set_nth i' x l' end.
(** dps:59-69: the filter and the refinement are inside the loop over the curves *)
Fixpoint initial_loop (cs : list curve) (nn : list fl) (todo : list nat) (st : list pars) (u : option (list bool)) : res (list pars * list bool) :=
  match todo with
  | [] => match u with Some u => Ok (st, u) | None => Err UnboundLocalError end
  | j :: todo' =>
      let p := initial_pars (nth j cs (Curve 0 0 0 0 0 0 [])) (nth j nn NaN) (q_rsh (nth j st (Pars NaN NaN NaN NaN))) in
      let st := set_nth j p st in
      let u := filter_params cs st in
      let* st := refine_io cs nn u st in
      initial_loop cs nn todo' st (Some u)
  end.
(** dps:14-71 *)
Definition initial_iv_params (cs : list curve) (rsh nn : list fl) : res (list pars * list bool) :=
  initial_loop cs nn (seq 0 (List.length cs)) (map (fun r => Pars #1 #1 #1 r) rsh) None.

(** ** _update_iv_params *)
(** singlediode(iph, io, rs, rsh, nnsvth): (i_mp, v_mp, p_mp) *)
Variable singlediode : fl -> fl -> fl -> fl -> fl -> fl * fl * fl.
(** python's max of a sequence *)
Definition py_max (l : list fl) : res fl := match l with [] => Err ValueError | x :: l' => Ok (fold_left (fun m y => if fgtb y m then y else m) l' x) end.
(** dps:363-392, the entries that are used: max |error|, mean and std of the errors in per cent *)
Definition error_stats (errors : list fl) : res (list fl) :=
  let* m := py_max (map fabs errors) in Ok [m; fmean errors; fstd1 errors].
Definition converge_stats (rows : list (curve * (fl * fl * fl))) : res (list fl) :=
  let err x y := ((x - y) / y * #100)%fl in
  let* i := error_stats (map (fun r : curve * (fl * fl * fl) => let '(c, (i, _, _)) := r in err i #(c_imp c)) rows) in
  let* v := error_stats (map (fun r : curve * (fl * fl * fl) => let '(c, (_, v, _)) := r in err v #(c_vmp c)) rows) in
  let* p := error_stats (map (fun r : curve * (fl * fl * fl) => let '(c, (_, _, p)) := r in err p (#(c_imp c) * #(c_vmp c))%fl) rows) in
  Ok (i ++ v ++ p).
(** dps:394-424 *)
Definition stat_changes (prev : option (list fl)) (cur : list fl) : list fl :=
  match prev with
  | None => map (fun _ => PInf) cur
  | Some prev => zip_with (fun c p => fabs (c / p - #1)%fl) cur prev
  end.
(** dps:86-106 *)
Definition refine_all (cs : list curve) (nn : list fl) (st : list pars) (u : list bool) : res (list pars * list bool) :=
  let upd (f : curve -> fl -> pars -> pars) st := zip_with (fun (r : bool * (curve * fl)) (p : pars) => let '(b, (c, a)) := r in if b then f c a p else p) (combine u (combine cs nn)) st in
  let st := upd (fun c a p => with_rsh (update_rsh_fixed_pt #(c_vmp c) #(c_imp c) (q_iph p) (q_io p) (q_rsh p) a) p) st in
  let st := upd (fun c a p => with_rs (update_rs #(c_vmp c) #(c_imp c) (q_iph p) (q_io p) (q_rsh p) a) p) st in
  let u := filter_params cs st in
  let* st := refine_io cs nn u st in
  Ok (st, filter_params cs st).
(** dps:85-128, [fuel] counts the remaining iterations, [prev] are the statistics of the previous one *)
Fixpoint update_loop (cs : list curve) (nn : list fl) (eps1 : fl) (fuel : nat) (st : list pars) (u : list bool) (prev : option (list fl)) : res (list pars * list bool) :=
  match fuel with
  | O => Ok (st, u)
  | S fuel' =>
      let* su := refine_all cs nn st u in
      let '(st, u) := su in
      let result := select u (zip_with (fun ca p => (fst ca, singlediode (q_iph p) (q_io p) (q_rs p) (q_rsh p) (snd ca))) (combine cs nn) st) in
      let* cur := converge_stats result in
      if existsb (fun x => fgeb x eps1) (stat_changes prev cur) then update_loop cs nn eps1 fuel' st u (Some cur) else Ok (st, u)
  end.
(** dps:74-130 *)
Definition update_iv_params (cs : list curve) (nn : list fl) (st : list pars) (u : list bool) (maxiter : nat) (eps1 : fl) : res (list pars * list bool) :=
  update_loop cs nn eps1 maxiter st u None.

(** ** _extract_sdm_params *)
(** sm.RLM(y, x).fit().params and lstsq: rows of x, right hand sides y *)
Variable rlm : list (list fl) -> list fl -> list fl.
(** sm.add_constant of one column (has_constant='skip'): a column that is constant and not zero stays alone; of no rows it fails *)
Definition add_constant (x : list fl) : res (list (list fl)) :=
  match x with
  | [] => Err ValueError
  | a :: x' => if (forallb (fun b => feqb b a) x' && fneqb a #0)%bool then Ok (map (fun a => [a]) x) else Ok (map (fun a => [#1; a]) x)
  end.
Definition index (l : list fl) (i : nat) : res fl := match nth_error l i with Some x => Ok x | None => Err IndexError end.
(** const and specs: k, q, E0, T0; cells_in_series, alpha_sc, beta_voc *)
Record consts := Consts { k_ : R; q_ : R; E0 : R; T0 : R }.
Record module_specs := ModuleSpecs { m_cells : R; m_alpha : R; m_beta : R }.

(** dps:203-209: I_o_ref and EgRef *)
Definition fit_io (x_for_io y : list fl) : res (fl * fl) :=
  let* X := add_constant x_for_io in
  let beta := rlm X y in
  let* b0 := index beta 0 in let* b1 := index beta 1 in Ok (fexp b0, b1).
Definition io_regressand (tok : fl) (c : curve) (p : pars) : fl :=
  let tck := (#(c_tc c) + #273.15)%fl in (fln (q_io p) - #3 * fln (tck / tok))%fl.
(** dps:211-216 *)
Definition fit_IL (co : consts) (sp : module_specs) (rows : list (curve * pars)) : fl :=
  let v r := let '(c, p) := r in
    (q_iph p * (#(E0 co) / #(c_ee c)) - #(m_alpha sp) * (#(c_tc c) - #(T0 co)))%fl in
  fmean (filter (fun x => negb (isnan x)) (map v rows)).
(** dps:218-220: np.logical_and(u, ee > 400, ~nans) takes its third argument as the output array *)
Definition fit_Rs (rows : list (curve * pars)) : fl :=
  fmean (map (fun r => q_rs (snd r)) (filter (fun r => Rltb 400 (c_ee (fst r))) rows)).
(** dps:188-199 *)
Definition desoto_x (co : consts) (dEgdT : R) (c : curve) : fl :=
  let tck := (#(c_tc c) + #273.15)%fl in let tok := (#(T0 co) + #273.15)%fl in
  (#(q_ co) / #(k_ co) * (#1 / tok - #1 / tck + #dEgdT * (#(c_tc c) - #(T0 co)) / tck))%fl.
Definition desoto_rsh (co : consts) (rows : list (curve * pars)) : res fl :=
  let sel := filter (fun r => Rltb 400 (c_ee (fst r))) rows in
  let* X := add_constant (map (fun r => (#(E0 co) / #(c_ee (fst r)))%fl) sel) in
  index (rlm X (map (fun r => q_rsh (snd r)) sel)) 1.
Definition extract_desoto (co : consts) (sp : module_specs) (cs : list curve) (st : list pars) (u : list bool) : res (list (string * fl)) :=
  let rows := select u (combine cs st) in
  let dEgdT := -0.0002677 in
  let* R_sh_ref := desoto_rsh co rows in
  let* io := fit_io (map (fun r => desoto_x co dEgdT (fst r)) rows) (map (fun r => io_regressand (#(T0 co) + #273.15)%fl (fst r) (snd r)) rows) in
  Ok [("dEgdT", #dEgdT); ("I_L_ref", fit_IL co sp rows); ("I_o_ref", fst io); ("EgRef", snd io); ("R_sh_ref", R_sh_ref); ("R_s", fit_Rs rows)]%string.
(** dps:148-186; [least_squares] gets the residuals of (R_sh_0, R_sh_ref), the start and the bounds *)
Variable least_squares : (fl * fl -> list fl) -> fl * fl -> (fl * fl) * (fl * fl) -> fl * fl.
Definition flog10 (x : fl) : fl := (fln x / #(ln 10))%fl.
Definition pvsyst_x (co : consts) (c : curve) (n : fl) : fl :=
  let tck := (#(c_tc c) + #273.15)%fl in let tok := (#(T0 co) + #273.15)%fl in
  (#(q_ co) / #(k_ co) * (#1 / tok - #1 / tck) / n)%fl.
Definition rsh_residuals (co : consts) (rows : list (curve * pars)) (x : fl * fl) : list fl :=
  map (fun r => (flog10 (pvsyst_Rsh #(c_ee (fst r)) (snd x) (fst x) #5.5 #(E0 co)) - flog10 (q_rsh (snd r)))%fl) rows.
Definition pvsyst_rsh_start (cs : list curve) (st : list pars) : res (fl * fl) :=
  let rsh := map q_rsh st in
  let mean_where f := fmean (map snd (filter (fun r => (negb (isnan (snd r)) && f (c_ee (fst r)))%bool) (combine cs rsh))) in
  let low := existsb (fun c => Rltb (c_ee c) 400) cs in
  let high := existsb (fun c => Rltb 400 (c_ee c)) cs in
  let* g0 := if low then Ok (mean_where (fun e => Rltb e 400)) else np_max rsh in
  let* gr := if high then Ok (mean_where (fun e => Rltb 400 e)) else np_min rsh in
  Ok (g0, gr).
Definition extract_pvsyst (co : consts) (sp : module_specs) (cs : list curve) (st : list pars) (n : list fl) (u : list bool) : res (list (string * fl)) :=
  let rows := select u (combine cs st) in
  let* x0 := pvsyst_rsh_start cs st in
  let beta := least_squares (rsh_residuals co rows) x0 ((#1, #1), (#1e7, #1e6)) in
  let* io := fit_io (zip_with (fun r n => pvsyst_x co (fst r) n) rows (select u n)) (map (fun r => io_regressand (#(T0 co) + #273.15)%fl (fst r) (snd r)) rows) in
  Ok [("R_sh_0", fst beta); ("R_sh_exp", #5.5); ("I_L_ref", fit_IL co sp rows); ("I_o_ref", fst io); ("EgRef", snd io); ("R_sh_ref", snd beta); ("R_s", fit_Rs rows)]%string.

(** ** the fits *)
(** what the dict holds per curve: iph, io, rsh, rs and u *)
Record sandia_fit := SandiaFit { f_params : list (string * fl); f_curves : list pars; f_u : list bool }.
(** the co-content estimate of Rsh of one rectified curve: _fit_sandia_cocontent(v, i, nsvth)[3] *)
Variable cocontent_rsh : list (R * R) -> R -> res fl.
Definition vth (co : consts) (c : curve) : R := k_ co / q_ co * (c_tc c + 273.15).
Definition start_rsh (co : consts) (sp : module_specs) (cs : list curve) : res (list fl) :=
  mapM (fun c => cocontent_rsh (rectify_iv_curve (c_points c) None) (vth co c * m_cells sp)) cs.
(** desoto.py:388-401 *)
Definition desoto_diode (co : consts) (sp : module_specs) (cs : list curve) : res fl :=
  let x := map (fun c => (#(m_cells sp * vth co c) * fln (#(c_ee c) / #(E0 co)))%fl) cs in
  let y := map (fun c => #(c_voc c - m_beta sp * (c_tc c - T0 co))) cs in
  let* X := add_constant x in index (rlm X y) 1.
(** desoto.py:220-385 fit_desoto_sandia *)
Definition fit_desoto_sandia (co : consts) (sp : module_specs) (cs : list curve) (maxiter : nat) (eps1 : fl) : res sandia_fit :=
  let* rsh := start_rsh co sp cs in
  let* n0 := desoto_diode co sp cs in
  if isnan n0 then Err RuntimeError else
  let nn := map (fun c => (n0 * #(m_cells sp) * #(vth co c))%fl) cs in
  let* su := initial_iv_params cs rsh nn in
  let* su := update_iv_params cs nn (fst su) (snd su) maxiter eps1 in
  let* d := extract_desoto co sp cs (fst su) (snd su) in
  let a_ref := (n0 * #(m_cells sp) * #(k_ co) / #(q_ co) * (#(T0 co) + #273.15))%fl in
  Ok (SandiaFit (d ++ [("a_ref", a_ref); ("cells_in_series", #(m_cells sp))]%string) (fst su) (snd su)).
(** pvsyst.py:205-221 _fit_pvsyst_sandia_gamma; np.logical_or(isnan(y), isnan(x1), isnan(x2)) takes its third argument as the output array *)
Variable lstsq : list (list fl) -> list fl -> list fl.
Definition pvsyst_gamma_rows (co : consts) (sp : module_specs) (cs : list curve) (rsh : list fl) : list (list fl * fl) :=
  let T0K := #(T0 co + 273.15) in
  let row c r :=
    let tck := #(c_tc c + 273.15) in
    (let y := fln (#(c_isc c) - #(c_voc c) / r) - #3 * fln (tck / T0K) in
     let x1 := #(q_ co) / #(k_ co) * (#1 / T0K - #1 / tck) in
     let x2 := #(c_voc c) / #(vth co c * m_cells sp) in
     ([#1; x1; - x1 * (tck - T0K); x2; - x2 * (tck - T0K)], y, (isnan y || isnan x1)%bool))%fl in
  map (fun r => fst r) (filter (fun r => negb (snd r)) (zip_with row cs rsh)).
Definition fit_gamma (co : consts) (sp : module_specs) (cs : list curve) (rsh : list fl) : res (fl * fl) :=
  let rows := pvsyst_gamma_rows co sp cs rsh in
  let alpha := lstsq (map fst rows) (map snd rows) in
  let* a3 := index alpha 3 in let* a4 := index alpha 4 in
  Ok (#1 / a3, a4 / a3 ^ 2)%fl.
(** pvsyst.py:24-202 fit_pvsyst_sandia *)
Definition fit_pvsyst_sandia (co : consts) (sp : module_specs) (cs : list curve) (maxiter : nat) (eps1 : fl) : res sandia_fit :=
  let* rsh := start_rsh co sp cs in
  let* gm := fit_gamma co sp cs rsh in
  let '(gamma_ref, mu_gamma) := gm in
  if (isnan gamma_ref || isnan mu_gamma)%bool then Err RuntimeError else
  let gamma := map (fun c => (gamma_ref + mu_gamma * (#(c_tc c) - #(T0 co)))%fl) cs in
  let nn := zip_with (fun c g => (g * #(vth co c * m_cells sp))%fl) cs gamma in
  let* su := initial_iv_params cs rsh nn in
  let* su := update_iv_params cs nn (fst su) (snd su) maxiter eps1 in
  let* d := extract_pvsyst co sp cs (fst su) gamma (snd su) in
  Ok (SandiaFit (d ++ [("gamma_ref", gamma_ref); ("mu_gamma", mu_gamma); ("cells_in_series", #(m_cells sp))]%string) (fst su) (snd su)).
End Sandia.
