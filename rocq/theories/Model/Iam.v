(** Model of pvlib/iam.py (scalar inputs; arrays and Series act elementwise). *)
From Verif Require Import Base.Fl Base.Py.
Open Scope R_scope.

(** np.isclose / np.allclose on scalars with the default tolerances *)
Definition fclose (a b : fl) : bool :=
  match a, b with
  | Fin x, Fin y => Rleb (Rabs (x - y)) (0.00000001 + 0.00001 * Rabs y)
  | PInf, PInf | NInf, NInf => true
  | _, _ => false
  end.

(** iam.py:30-94 ashrae *)
Definition ashrae (aoi b : fl) : fl :=
  (let iam := #1 - b * (#1 / fcos (fradians aoi) - #1) in
   let aoi_gte_90 := negb (isnan aoi) && fgeb (fabs aoi) #90 in
   let iam := where_ aoi_gte_90 #0 iam in
   fmax #0 iam)%fl.

(** iam.py:97-234 physical; n2 is the index of the first layer (161-166) *)
Definition phys_n2 (n : fl) (n_ar : option fl) : fl :=
  match n_ar with None => n | Some a => if fclose a #1 then n else a end.
Definition physical (aoi n K L : fl) (n_ar : option fl) : fl :=
  (let n1 := #1 in let n3 := n in
   let n2 := phys_n2 n n_ar in
   let costheta := fmax #0 (cosd aoi) in
   let sintheta := fsqrt (#1 - costheta ^ 2) in
   let n1costheta1 := n1 * costheta in
   let n2costheta1 := n2 * costheta in
   let sintheta := n1 / n2 * sintheta in
   let costheta := fsqrt (#1 - sintheta ^ 2) in
   let n1costheta2 := n1 * costheta in
   let n2costheta2 := n2 * costheta in
   let rho12_s := ((n1costheta1 - n2costheta2) / (n1costheta1 + n2costheta2)) ^ 2 in
   let rho12_p := ((n1costheta2 - n2costheta1) / (n1costheta2 + n2costheta1)) ^ 2 in
   let rho12_0 := ((n1 - n2) / (n1 + n2)) ^ 2 in
   let tau_s := #1 - rho12_s in
   let tau_p := #1 - rho12_p in
   let tau_0 := #1 - rho12_0 in
   let '(tau_s, tau_p, tau_0, costheta) :=
     if fclose n3 n2 then (tau_s, tau_p, tau_0, costheta) else
     let n3costheta2 := n3 * costheta in
     let sintheta := n2 / n3 * sintheta in
     let costheta := fsqrt (#1 - sintheta ^ 2) in
     let n2costheta3 := n2 * costheta in
     let n3costheta3 := n3 * costheta in
     let rho23_s := ((n2costheta2 - n3costheta3) / (n2costheta2 + n3costheta3)) ^ 2 in
     let rho23_p := ((n2costheta3 - n3costheta2) / (n2costheta3 + n3costheta2)) ^ 2 in
     let rho23_0 := ((n2 - n3) / (n2 + n3)) ^ 2 in
     (tau_s * ((#1 - rho23_s) / (#1 - rho23_s * rho12_s)),
      tau_p * ((#1 - rho23_p) / (#1 - rho23_p * rho12_p)),
      tau_0 * ((#1 - rho23_0) / (#1 - rho23_0 * rho12_0)), costheta) in
   let tau_s := tau_s * fexp (- K * L / costheta) in
   let tau_p := tau_p * fexp (- K * L / costheta) in
   let tau_0 := tau_0 * fexp (- K * L) in
   let iam := (tau_s + tau_p) / #2 / tau_0 in
   if fclose n2 #1 then where_ (fgeb aoi #90) #0 iam else iam)%fl.

(** iam.py:237-314 martin_ruiz *)
Definition martin_ruiz (aoi a_r : fl) : res fl :=
  if fleb a_r #0 then Err ValueError else
  Ok (let iam := ((#1 - fexp (- cosd aoi / a_r)) / (#1 - fexp (#(-1) / a_r)))%fl in
      where_ (fgeb (fabs aoi) #90) #0 iam).

(** iam.py:317-422 martin_ruiz_diffuse -> (iam_sky, iam_gnd) *)
Definition mrd_tilt (surface_tilt : fl) : fl :=
  let t := where_ (feqb surface_tilt #0) #0.000001 surface_tilt in
  where_ (feqb t #180) #(180 - 0.000001) t.
Definition martin_ruiz_diffuse (surface_tilt a_r c1 : fl) (c2 : option fl) : fl * fl :=
  (let surface_tilt := mrd_tilt surface_tilt in
   let c2 := match c2 with None => #0.5 * a_r - #0.154 | Some c => c end in
   let beta := fradians surface_tilt in
   let sin_beta := where_ (fltb surface_tilt #90) (fsin beta) (fsin (#PI - beta)) in
   let trig_term_sky := sin_beta + (#PI - beta - sin_beta) / (#1 + fcos beta) in
   let trig_term_gnd := sin_beta + (beta - sin_beta) / (#1 - fcos beta) in
   (#1 - fexp (- (c1 + c2 * trig_term_sky) * trig_term_sky / a_r),
    #1 - fexp (- (c1 + c2 * trig_term_gnd) * trig_term_gnd / a_r)))%fl.

(** iam.py:425-514 interp.  scipy's interpolator for (theta_ref, iam_ref, method) is the parameter [spline]. *)
Definition interp_min_vals (m : string) : nat :=
  if String.eqb m "quadratic" then 3 else if String.eqb m "cubic" then 4 else 2.
Definition interp_methods : list string :=
  ["linear"; "quadratic"; "cubic"; "nearest"; "nearest-up"; "zero"; "slinear"; "previous"; "next"]%string.
Definition interp (spline : string -> list fl -> list fl -> fl -> fl) (aoi : fl) (theta_ref iam_ref : list fl)
    (method : string) (normalize : bool) : res fl :=
  if Nat.ltb (length theta_ref) (interp_min_vals method) then Err ValueError
  else if existsb (fun x => fltb x #0) iam_ref then Err ValueError
  else if negb (mem method interp_methods) then Err ValueError
  else
    let f := spline method theta_ref iam_ref in
    let iam := fmax (f (fabs aoi)) #0 in
    Ok (if normalize then fdiv iam (f #0) else iam).

(** iam.py:517-581 sapm; np.polyval is Horner from the highest power *)
Record sapm_b := SapmB { B0 : fl; B1 : fl; B2 : fl; B3 : fl; B4 : fl; B5 : fl }.
Definition polyval (coeffs : list fl) (x : fl) : fl := fold_left (fun acc c => fadd (fmul acc x) c) coeffs #0.
Definition iam_sapm (aoi : fl) (m : sapm_b) (upper : option fl) : fl :=
  let iam := polyval [B5 m; B4 m; B3 m; B2 m; B1 m; B0 m] aoi in
  let iam := match upper with None => fmax iam #0 | Some u => fclip iam #0 u end in
  let aoi_lt_0 := negb (isnan aoi) && fltb aoi #0 in
  where_ aoi_lt_0 #0 iam.

(** iam.py:803-857 schlick *)
Definition schlick (aoi : fl) : fl :=
  let iam := (#1 - (#1 - cosd aoi) ^ 5)%fl in
  where_ (fgeb (fabs aoi) #90) #0 iam.

(** iam.py:860-964 schlick_diffuse *)
Definition schlick_diffuse (surface_tilt : fl) : fl * fl :=
  (let cosB := cosd surface_tilt in
   let sinB := sind surface_tilt in
   let cuk := (#2 / (#PI * (#1 + cosB))) * (
      #(30/7) * #PI - #(160/21) * fradians surface_tilt - #(10/3) * #PI * cosB
      + #(160/21) * cosB * sinB - #(5/3) * #PI * cosB * sinB ^ 2 + #(20/7) * cosB * sinB ^ 3
      - #(5/16) * #PI * cosB * sinB ^ 4 + #(16/105) * cosB * sinB ^ 5) in
   let cug := #40 / (#21 * (#1 - cosB)) - (#1 + cosB) / (#1 - cosB) * cuk in
   let cug := where_ (fltb surface_tilt #0.000001) #0 cug in
   (cuk, cug))%fl.

(** iam.py:660-800 marion_integrate on a finite scalar tilt; [f] is the IAM function of the aoi in degrees.
    np.linspace(0, b, n, endpoint=False) is i*b/n. *)
Inductive region := Sky | Horizon | Ground | OtherRegion.
Definition region_num (num : option nat) (r : region) : res nat :=
  match r with
  | OtherRegion => Err ValueError      (* 730 when num is None, 752 otherwise *)
  | Sky | Ground => Ok (match num with Some n => n | None => 180 end)
  | Horizon => Ok (match num with Some n => n | None => 1800 end)
  end%nat.
Definition linspace0 (b : R) (n : nat) : list R := map (fun i => INR i * (b / INR n)) (seq 0 n).
Definition region_mask (r : region) (ai phi : R) : bool :=
  match r with
  | Sky => Rleb (phi + ai) (PI / 2)
  | Horizon => Rleb (89.5 * PI / 180) phi && Rleb (phi + ai) (PI / 2)
  | Ground => Rleb (PI / 2) phi
  | OtherRegion => false
  end.
Definition marion_grid (r : region) (n : nat) : list (R * R) :=
  let ai := PI / INR n in
  flat_map (fun phi => map (fun psi => (phi, psi)) (linspace0 (2 * PI) (2 * n)))
           (filter (region_mask r ai) (linspace0 PI n)).
(** (aoi in radians, solid-angle weight) of one patch *)
Definition marion_patch (beta ai : R) (p : R * R) : R * R :=
  let phi_1 := fst p in let psi_1 := snd p in
  let phi_2 := phi_1 + ai in
  let phi_avg := phi_1 + 0.5 * ai in
  let psi_avg := psi_1 + 0.5 * ai in
  let cosaoi := cos beta * cos phi_avg + sin beta * sin phi_avg * cos psi_avg in
  let aoi := acos cosaoi in
  let dAs := ai * (cos phi_1 - cos phi_2) in
  (aoi, if Rltb aoi (PI / 2) then cosaoi * dAs else 0).
Definition Rlsum (l : list R) : R := fold_right Rplus 0 l.
Definition marion_integrate (f : R -> R) (surface_tilt : R) (r : region) (num : option nat) : res R :=
  let* n := region_num num r in
  let beta := Rrad surface_tilt in
  let ai := PI / INR n in
  let patches := map (marion_patch beta ai) (marion_grid r n) in
  let numerator := Rlsum (map (fun p => f (Rdeg (fst p)) * snd p) patches) in
  let denominator := Rlsum (map snd patches) in
  Ok (if Reqb denominator 0 then 0 else numerator / denominator).

(** iam.py:584-657 marion_diffuse: the names it accepts *)
Definition marion_models : list string := ["physical"; "ashrae"; "sapm"; "martin_ruiz"; "schlick"]%string.
Definition marion_diffuse (iam_of : string -> R -> R) (model : string) (surface_tilt : R) : res (R * R * R) :=
  if mem model marion_models then
    let* s := marion_integrate (iam_of model) surface_tilt Sky None in
    let* h := marion_integrate (iam_of model) surface_tilt Horizon None in
    let* g := marion_integrate (iam_of model) surface_tilt Ground None in
    Ok (s, h, g)
  else Err ValueError.

(** iam.py:967-1323 convert and fit.  [minimize] stands for scipy's Powell search: given the objective, the guess and
    the bounds it returns Ok x or fails (no success: RuntimeError, 1081-1093). *)
Inductive iam_params := PAshrae (b : R) | PMartinRuiz (a_r : R) | PPhysical (n K L : R).
Definition iam_model_params (name : string) : list string :=
  if String.eqb name "ashrae" then ["b"]%string
  else if String.eqb name "martin_ruiz" then ["a_r"]%string
  else if String.eqb name "physical" then ["n"; "K"; "L"]%string else [].
Definition iam_convertible : list string := ["ashrae"; "martin_ruiz"; "physical"]%string.
(** set equality of keys *)
Definition same_keys (a b : list string) : bool := forallb (fun k => mem k b) a && forallb (fun k => mem k a) b.
Definition process_return (target : string) (x : list R) : res iam_params :=
  if String.eqb target "ashrae" then match x with [b] => Ok (PAshrae b) | _ => Err ValueError end
  else if String.eqb target "martin_ruiz" then match x with [a] => Ok (PMartinRuiz a) | _ => Err ValueError end
  else match x with
       | [L; n] => if Rltb n L then Ok (PPhysical L 4 n) else Ok (PPhysical n 4 L)
       | _ => Err ValueError
       end.
Definition ashrae_intercept (b : fl) : fl := acosd (b / (#1 + b))%fl.
(** guess and bounds, 1017-1040, 1049-1060, 1225-1226 *)
Definition convert_setup (source : string) (params : list (string * R)) (target : string) (fix_n : bool)
    : res (list R * list (R * R)) :=
  if String.eqb target "physical" then
    if String.eqb source "ashrae" then
      let* b := getitem params "b"%string in
      if fix_n then
        match sind (ashrae_intercept #b) with
        | Fin n => Ok ([0.002; n], [(0.000001, 0.08); (n, n)])
        | _ => Err ValueError
        end
      else Ok ([0.002; 1], [(0.000001, 0.08); (0.8, 2)])
    else if String.eqb source "martin_ruiz" then
      let* a := getitem params "a_r"%string in
      let bounds := [(0.000001, 0.08); (1.05, 2)] in
      let guess := [0.002; 1.1] in
      Ok (if Rltb 0.22 a then (rev guess, rev bounds) else (guess, bounds))
    else Err UnboundLocalError   (* no branch for source 'physical': residual_function is unbound at 1231 *)
  else Ok ([0.001], [(0.0001, 1)]).
(** the model functions on their parameters (967-977 _get_model) *)
Definition iam_eval (p : iam_params) (aoi : fl) : res fl :=
  match p with
  | PAshrae b => Ok (ashrae aoi #b)
  | PMartinRuiz a => martin_ruiz aoi #a
  | PPhysical n K L => Ok (physical aoi #n #K #L None)
  end.
(** iam.py:994-1009 _residual; np.nan_to_num also replaces infinities, which the three models do not return here *)
Definition residual (aoi source_iam : list fl) (target : fl -> res fl) (weight : fl -> fl) : res fl :=
  let* t := mapM target aoi in
  Ok (fsum (map (fun p : fl * (fl * fl) =>
         let '(a, (s, t)) := p in
         let w := fmul (weight a) (if fgeb a #0 && fleb a #90 then #1 else #0) in
         fmul (fabs (fsub s (nan_to #0 t))) w) (combine aoi (combine source_iam t)))).
(** the vector the optimiser works on, read as parameters of the target model: 1042-1044, 1063-1070, 1228-1229,
    1305-1316; [either_order] in 1065-1069 *)
Definition target_params (either_order : bool) (target : string) (x : list R) : res iam_params :=
  if String.eqb target "physical" then
    match x with
    | [x0; x1] => if either_order then Ok (if Rltb x0 x1 then PPhysical x1 4 x0 else PPhysical x0 4 x1) else Ok (PPhysical x1 4 x0)
    | _ => Err ValueError
    end
  else match x with
       | [x0] => Ok (if String.eqb target "ashrae" then PAshrae x0 else PMartinRuiz x0)
       | _ => Err TypeError
       end.
Definition objective (aoi source_iam : list fl) (weight : fl -> fl) (either_order : bool) (target : string) (x : list R) : res fl :=
  let* p := target_params either_order target x in residual aoi source_iam (iam_eval p) weight.
(** source(aoi, **source_params), 1208, after _check_params *)
Definition source_params (source : string) (params : list (string * R)) : res iam_params :=
  if String.eqb source "ashrae" then let* b := getitem params "b"%string in Ok (PAshrae b)
  else if String.eqb source "martin_ruiz" then let* a := getitem params "a_r"%string in Ok (PMartinRuiz a)
  else let* n := getitem params "n"%string in let* K := getitem params "K"%string in let* L := getitem params "L"%string in
       Ok (PPhysical n K L).
(** np.linspace(0, 90, 91), 1205 *)
Definition convert_aoi : list fl := map (fun k => #(INR k)) (seq 0 91).
Definition optimizer : Type := (list R -> res fl) -> list R -> list (R * R) -> res (list R).
Definition convert (minimize : optimizer)
    (source : string) (params : list (string * R)) (target : string) (weight : fl -> fl) (fix_n : bool) : res iam_params :=
  if negb (mem source iam_convertible) then Err NotImplementedError
  else if negb (mem target iam_convertible) then Err NotImplementedError
  else if negb (same_keys (map fst params) (iam_model_params source)) then Err ValueError
  else
    let* sp := source_params source params in
    let* source_iam := mapM (iam_eval sp) convert_aoi in
    let* gb := convert_setup source params target fix_n in
    let* x := minimize (objective convert_aoi source_iam weight (String.eqb source "martin_ruiz") target) (fst gb) (snd gb) in
    process_return target x.
(** iam.py:1295-1323 *)
Definition fit_setup (model : string) : list R * list (R * R) :=
  if String.eqb model "physical" then ([0.002; 1 + 0.00000001], [(0, 0.08); (1, 2)])
  else ([0.05], [(0.00000001, 1)]).
Definition fit (minimize : optimizer) (measured_aoi measured_iam : list fl) (model : string) (weight : fl -> fl) : res iam_params :=
  if negb (mem model iam_convertible) then Err NotImplementedError
  else
    let* x := minimize (objective measured_aoi measured_iam weight false model) (fst (fit_setup model)) (snd (fit_setup model)) in
    process_return model x.
