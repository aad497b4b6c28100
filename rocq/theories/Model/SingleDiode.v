(** Model of pvlib/singlediode.py, of the two Lambert W routines of pvlib/ivtools/utils.py and of the single-diode
    front ends of pvlib/pvsystem.py.  All functions are given on one sample (every argument a scalar); the broadcasting of
    arrays and the packing of results in DataFrames are not modelled.  scipy's solvers are arguments. *)
From Verif Require Import Base.Fl Base.Py Model.Tools Model.Pvsystem.
Open Scope R_scope.
Open Scope list_scope.

(** np.expm1, np.log1p *)
Definition fexpm1 (x : fl) : fl := (fexp x - #1)%fl.
Definition flog1p (x : fl) : fl := fln (#1 + x)%fl.

(** the arguments shared by the bishop88 functions, in their order; the defaults are d2mutau=0, NsVbi=np.inf,
    breakdown_factor=0, breakdown_voltage=-5.5, breakdown_exp=3.28 (singlediode.py:61-64) *)
Record bargs := BA { b_iph : fl; b_isat : fl; b_rs : fl; b_rsh : fl; b_a : fl;
                     b_d2mutau : fl; b_NsVbi : fl; b_bf : fl; b_bv : fl; b_be : fl }.
Definition plain_args (iph isat rs rsh a : fl) : bargs := BA iph isat rs rsh a #0 PInf #0 #(-5.5) #3.28.

(** singlediode.py:23-58 estimate_voc *)
Definition estimate_voc (iph isat a : fl) : fl := (a * fln (iph / isat + #1))%fl.

(** singlediode.py:162-177 bishop88, gradients=False *)
Definition b_is_recomb (g : bargs) : bool := fgtb (b_d2mutau g) #0.
Definition b_v_recomb (g : bargs) (vd : fl) : fl := where_ (b_is_recomb g) (b_NsVbi g - vd)%fl PInf.
Definition b_i_recomb (g : bargs) (vd : fl) : fl :=
  where_ (b_is_recomb g) (b_iph g * b_d2mutau g / b_v_recomb g vd)%fl #0.
Definition b_brk_term (g : bargs) (vd : fl) : fl := (#1 - vd / b_bv g)%fl.
Definition b_brk_pwr (g : bargs) (vd : fl) : fl := fpow (b_brk_term g vd) (- b_be g)%fl.
Definition b_current (g : bargs) (vd : fl) : fl :=
  (let v_star := vd / b_a g in
   let g_sh := #1 / b_rsh g in
   let i_breakdown := b_bf g * vd * g_sh * b_brk_pwr g vd in
   b_iph g - b_isat g * fexpm1 v_star - vd * g_sh - b_i_recomb g vd - i_breakdown)%fl.
Definition b_voltage (g : bargs) (vd : fl) : fl := (vd - b_current g vd * b_rs g)%fl.
Definition bishop88 (vd : fl) (g : bargs) : fl * fl * fl :=
  let i := b_current g vd in
  let v := b_voltage g vd in
  (i, v, i * v)%fl.

(** singlediode.py:178-202 the five extra outputs with gradients=True: di/dvd, dv/dvd, di/dv, dp/dv, d2p/dv/dvd *)
Record bgrads := BG { g_i : fl; g_v : fl; g_iv : fl; g_p : fl; g_2p : fl }.
Definition bishop88_grads (vd : fl) (g : bargs) : bgrads :=
  (let i := b_current g vd in
   let v := b_voltage g vd in
   let g_sh := #1 / b_rsh g in
   let v_recomb := b_v_recomb g vd in
   let grad_i_recomb := where_ (b_is_recomb g) (b_i_recomb g vd / v_recomb) #0 in
   let grad_2i_recomb := where_ (b_is_recomb g) (#2 * grad_i_recomb / v_recomb) #0 in
   let g_diode := b_isat g * fexp (vd / b_a g) / b_a g in
   let brk_pwr := b_brk_pwr g vd in
   let brk_pwr_1 := fpow (b_brk_term g vd) (- b_be g - #1) in
   let brk_pwr_2 := fpow (b_brk_term g vd) (- b_be g - #2) in
   let brk_fctr := b_bf g * g_sh in
   let grad_i_brk := brk_fctr * (brk_pwr + vd * (- b_be g) * brk_pwr_1) in
   let grad2i_brk := brk_fctr * (- b_be g) * (#2 * brk_pwr_1 + vd * (- b_be g - #1) * brk_pwr_2) in
   let grad_i := - g_diode - g_sh - grad_i_recomb - grad_i_brk in
   let grad_v := #1 - grad_i * b_rs g in
   let grad := grad_i / grad_v in
   let grad_p := v * grad + i in
   let grad2i := - g_diode / b_a g - grad_2i_recomb - grad2i_brk in
   let grad2v := - grad2i * b_rs g in
   let grad2p := grad_v * grad + v * (grad2i / grad_v - grad_i * grad2v / grad_v ^ 2) + grad_i in
   BG grad_i grad_v grad grad_p grad2p)%fl.

(** scipy's root finders and minimiser, with the keyword arguments that are passed on; [find_root] and [find_minimum]
    come from scipy.optimize.elementwise, absent (None) before scipy 1.15 *)
Definition kwargs := list (string * fl).
Record scipy := Scipy {
  brentq : (fl -> fl) -> fl -> fl -> kwargs -> res fl;
  newton : (fl -> fl) -> fl -> (fl -> fl) -> kwargs -> res fl;
  find_root : option ((fl -> fl) -> fl -> fl -> kwargs -> res fl);
  find_minimum : option ((fl -> fl) -> fl -> fl -> fl -> fl * fl) }.

(** singlediode.py:14-17, 750-752: {**NEWTON_DEFAULT_PARAMS, **method_kwargs}; lookups take the first binding, so the
    user's keywords come first *)
Definition newton_kwargs (kw : kwargs) : kwargs := kw ++ [("tol"%string, #1e-6); ("maxiter"%string, #100)].

(** singlediode.py:321, 488, 657 *)
Definition voc_start (g : bargs) : fl :=
  let voc_est := estimate_voc (b_iph g) (b_isat g) (b_a g) in
  where_ (fltb voc_est (b_NsVbi g)) voc_est (#0.9999 * b_NsVbi g)%fl.

(** the common solver dispatch; [f] the residual, [x0] newton's starting point, [fprime] its derivative.  The
    'full_output' keyword (which changes the shape of the result) is not modelled. *)
Definition solve_vd (sp : scipy) (g : bargs) (method : string) (kw : kwargs) (f fprime : fl -> fl) (x0 : fl) : res fl :=
  let m := lower method in
  if String.eqb m "brentq" then brentq sp f #0 (voc_start g) kw
  else if String.eqb m "newton" then newton sp f x0 fprime (newton_kwargs kw)
  else if String.eqb m "chandrupatla" then
    match find_root sp with
    | None => Err ImportError
    | Some fr => fr f #0 (estimate_voc (b_iph g) (b_isat g) (b_a g)) kw
    end
  else Err NotImplementedError.

(** singlediode.py:206-375 bishop88_i_from_v *)
Definition bishop88_i_from_v (sp : scipy) (voltage : fl) (g : bargs) (method : string) (kw : kwargs) : res fl :=
  let* vd := solve_vd sp g method kw (fun x => b_voltage g x - voltage)%fl (fun x => g_v (bishop88_grads x g)) voltage in
  Ok (b_current g vd).
(** singlediode.py:378-546 bishop88_v_from_i *)
Definition bishop88_v_from_i (sp : scipy) (current : fl) (g : bargs) (method : string) (kw : kwargs) : res fl :=
  let* vd := solve_vd sp g method kw (fun x => b_current g x - current)%fl (fun x => g_i (bishop88_grads x g))
               (voc_start g) in
  Ok (b_voltage g vd).
(** singlediode.py:549-716 bishop88_mpp *)
Definition bishop88_mpp (sp : scipy) (g : bargs) (method : string) (kw : kwargs) : res (fl * fl * fl) :=
  let* vd := solve_vd sp g method kw (fun x => g_p (bishop88_grads x g)) (fun x => g_2p (bishop88_grads x g))
               (voc_start g) in
  Ok (bishop88 vd g).

(** ivtools/utils.py:549-569 _log_lambertw *)
Definition newton_w_step (logx w : fl) : fl := (w * (#1 - fln w + logx) / (#1 + w))%fl.
Definition log_lambertw (logx : fl) : fl :=
  Nat.iter 3 (newton_w_step logx) (logx - fln logx)%fl.
(** ivtools/utils.py:572-606 _lambertw_pvlib *)
Definition halley_w_step (z g : fl) : fl :=
  (let expg := fexp g in
   let g_expg_z := g * expg - z in
   let g_p1 := g + #1 in
   g - g_expg_z * g_p1 / (expg * g_p1 ^ 2 - #0.5 * (g + #2) * g_expg_z))%fl.
Definition lambertw_pvlib (x : fl) : fl :=
  if fleb x #100 then
    let temp := flog1p x in
    Nat.iter 3 (halley_w_step x) (temp - flog1p temp)%fl
  else log_lambertw (fln x).

(** float64 overflow of the argument of W: finite values above [big] become inf.  This is the one place of the model
    where a finite result is not exact. *)
Definition overflow (big : R) (x : fl) : fl := match x with Fin a => if Rltb big a then PInf else x | _ => x end.

(** singlediode.py:757-829 _lambertw_v_from_i *)
Definition lambertw_v_from_i (big : R) (I IL I0 Rs Rsh a : fl) : fl :=
  (let Gsh := #1 / Rsh in
   if feqb #0 Gsh then a * flog1p ((IL - I) / I0) - I * Rs
   else if fltb #0 Gsh then
     let argW := overflow big (I0 / (Gsh * a) * fexp ((- I + IL + I0) / (Gsh * a))) in
     let lambertwterm :=
       if isinf argW
       then log_lambertw (fln I0 - fln Gsh - fln a + (- I + IL + I0) / (Gsh * a))
       else lambertw_pvlib argW in
     (IL + I0 - I) / Gsh - I * Rs - a * lambertwterm
   else NaN)%fl.

(** singlediode.py:832-885 _lambertw_i_from_v *)
Definition lambertw_i_from_v (big : R) (V IL I0 Rs Rsh a : fl) : fl :=
  (let Gsh := #1 / Rsh in
   if feqb #0 Rs then IL - I0 * fexpm1 (V / a) - Gsh * V
   else if fltb #0 Rs then
     let argW := overflow big (Rs * I0 / (a * (Rs * Gsh + #1)) *
                               fexp ((Rs * (IL + I0) + V) / (a * (Rs * Gsh + #1)))) in
     (IL + I0 - V * Gsh) / (Rs * Gsh + #1) - (a / Rs) * lambertw_pvlib argW
   else NaN)%fl.

(** the seven points, in the column order of pvsystem.py:2630 *)
Record sdpoints := Points { p_i_sc : fl; p_v_oc : fl; p_i_mp : fl; p_v_mp : fl; p_p_mp : fl; p_i_x : fl; p_i_xx : fl }.

(** singlediode.py:888-936, 950-969 _lambertw, without the iv curve.  [gs_fuel] bounds the golden section loop, which is
    used when scipy has no find_minimum; None means it is still running.  A negative bracket raises ValueError. *)
Definition lambertw_points (big : R) (sp : scipy) (gs_fuel : nat) (IL I0 Rs Rsh a : fl) : res (option sdpoints) :=
  let i_of v := lambertw_i_from_v big v IL I0 Rs Rsh a in
  let i_sc := i_of #0 in
  let v_oc0 := lambertw_v_from_i big #0 IL I0 Rs Rsh a in
  let v_oc := if fltb v_oc0 #0 && fgtb v_oc0 #(-1e-12) then #0 else v_oc0 in
  let finish (mp : fl * fl) :=
    let '(p_mp, v_mp) := mp in
    Points i_sc v_oc (i_of v_mp) v_mp p_mp (i_of (#0.5 * v_oc)%fl) (i_of (#0.5 * (v_oc + v_mp))%fl) in
  match find_minimum sp with
  | Some fm =>
      let '(v_mp, f_x) := fm (fun v => (- v) * i_of v)%fl #(-1) (#0.8 * v_oc)%fl v_oc in
      Ok (Some (finish (#(-1) * f_x, v_mp)%fl))
  | None =>
      let* r := golden_sect gs_fuel [GsRow #0 (v_oc * #1.14)%fl (fun v => i_of v * v)%fl] #1e-8 in
      match r with
      | Some [mp] => Ok (Some (finish mp))
      | _ => Ok None
      end
  end.

(** singlediode.py:939-945 the iv curve of _lambertw: voltages v_oc*linspace(0, 1, n) and their currents *)
Definition linspace01 (n : nat) : list fl :=
  if Nat.eqb n 1 then [#0] else map (fun k => (#(INR k) / #(INR (n - 1)))%fl) (seq 0 n).
Definition lambertw_curve (big : R) (v_oc IL I0 Rs Rsh a : fl) (n : nat) : list fl * list fl :=
  let vs := map (fun t => v_oc * t)%fl (linspace01 n) in
  (map (fun v => lambertw_i_from_v big v IL I0 Rs Rsh a) vs, vs).

(** pvsystem.py:2480-2634 singlediode on scalars *)
Definition sd_dict (p : sdpoints) : list (string * fl) :=
  [("i_sc", p_i_sc p); ("v_oc", p_v_oc p); ("i_mp", p_i_mp p); ("v_mp", p_v_mp p); ("p_mp", p_p_mp p);
   ("i_x", p_i_x p); ("i_xx", p_i_xx p)]%string.
Definition singlediode (big : R) (sp : scipy) (gs_fuel : nat) (IL I0 Rs Rsh a : fl) (method : string)
    : res (option (list (string * fl))) :=
  if String.eqb (lower method) "lambertw" then
    let* p := lambertw_points big sp gs_fuel IL I0 Rs Rsh a in Ok (option_map sd_dict p)
  else
    let g := plain_args IL I0 Rs Rsh a in
    let m := lower method in
    let* v_oc := bishop88_v_from_i sp #0 g m [] in
    let* mp := bishop88_mpp sp g m [] in
    let '(i_mp, v_mp, p_mp) := mp in
    let* i_sc := bishop88_i_from_v sp #0 g m [] in
    let* i_x := bishop88_i_from_v sp (v_oc / #2)%fl g m [] in
    let* i_xx := bishop88_i_from_v sp ((v_oc + v_mp) / #2)%fl g m [] in
    Ok (Some (sd_dict (Points i_sc v_oc i_mp v_mp p_mp i_x i_xx))).

(** pvsystem.py:2647-2709 max_power_point *)
Definition max_power_point (sp : scipy) (IL I0 Rs Rsh a d2mutau NsVbi : fl) (method : string)
    : res (list (string * fl)) :=
  let* mp := bishop88_mpp sp (BA IL I0 Rs Rsh a d2mutau NsVbi #0 #(-5.5) #3.28) (lower method) [] in
  let '(i, v, p) := mp in
  Ok [("i_mp", i); ("v_mp", v); ("p_mp", p)]%string.

(** pvsystem.py:2712-2796 v_from_i *)
Definition v_from_i (big : R) (sp : scipy) (I IL I0 Rs Rsh a : fl) (method : string) : res fl :=
  if String.eqb (lower method) "lambertw" then Ok (lambertw_v_from_i big I IL I0 Rs Rsh a)
  else bishop88_v_from_i sp I (plain_args IL I0 Rs Rsh a) (lower method) [].
(** pvsystem.py:2799-2883 i_from_v *)
Definition i_from_v (big : R) (sp : scipy) (V IL I0 Rs Rsh a : fl) (method : string) : res fl :=
  if String.eqb (lower method) "lambertw" then Ok (lambertw_i_from_v big V IL I0 Rs Rsh a)
  else bishop88_i_from_v sp V (plain_args IL I0 Rs Rsh a) (lower method) [].

(** singlediode.py:972-1051 batzelis *)
Definition batzelis (Iph Is Rs Rsh a : fl) : list (string * fl) :=
  (let isc := Iph / (Rs / Rsh + #1) in
   let voc := a * fln (Iph / Is) in
   let w := lambertw_pvlib (#(exp 1) * Iph / Is) in
   let imp := Iph * (#1 - #1 / w) - a * (w - #1) / Rsh in
   let vmp := a * (w - #1) - Rs * imp in
   let on x := where_ (fgtb Iph #0) x #0 in
   [("p_mp", on imp * on vmp); ("i_mp", on imp); ("v_mp", on vmp); ("i_sc", on isc); ("v_oc", on voc)]%string)%fl.
