(** ivtools/sde.py.  Data are finite; numpy's polyfit and lstsq are arguments. *)
From Verif Require Import Base.Fl Base.Py Model.IvUtils.
From Coq Require Import ZArith.
Open Scope R_scope.
Open Scope list_scope.

(** ** fit_sandia_simple *)
(** sde.py:168-190 *)
Definition find_mp (curve : list (R * R)) : res (R * R) :=
  let* idx := argmax (map (fun p => fst p * snd p) curve) in Ok (nth idx curve (0, 0)).
(** np.searchsorted(v, x) of increasing v *)
Fixpoint searchsorted (v : list R) (x : R) : nat := match v with [] => O | a :: v' => if Rltb a x then S (searchsorted v' x) else O end.
Section Simple.
(** np.polyfit(v, i, deg=1) of a non-empty list: (slope, intercept) *)
Variable polyfit : list (R * R) -> R * R.
(** np.linalg.lstsq on rows (1, v, i) and right hand sides; 0 for no rows *)
Variable lstsq3 : list (R * R * R) -> R * R * R.
(** sde.py:201-208: idx, idx + 1, ... while fewer than n *)
Fixpoint beta_loop (curve : list (R * R)) (idx fuel : nat) : res (R * R) :=
  match fuel with
  | O => Err RuntimeError
  | S fuel' =>
    match firstn idx curve with
    | [] => Err TypeError  (* polyfit: expected non-empty vector *)
    | pts => let coef := polyfit pts in if Rltb (fst coef) 0 then Ok (snd coef, - fst coef) else beta_loop curve (S idx) fuel'
    end
  end.
(** sde.py:193-213 *)
Definition sandia_beta0_beta1 (curve : list (R * R)) (vlim v_oc : R) : res (R * R) :=
  let first_idx := searchsorted (map fst curve) (vlim * v_oc) in
  beta_loop curve first_idx (length curve - first_idx).
(** sde.py:216-231 for ilim * i_sc >= 0 (otherwise the logarithm can be undefined) *)
Definition sandia_beta3_beta4 (curve : list (R * R)) (beta0 beta1 ilim i_sc : R) : R * R :=
  let y p := beta0 - beta1 * fst p - snd p in
  let sel := filter (fun p => Rltb (ilim * i_sc) (y p)) curve in
  let coef := match sel with [] => (0, 0, 0) | _ => lstsq3 (map (fun p => (fst p, snd p, ln (y p))) sel) end in
  (snd (fst coef), snd coef).
(** sde.py:255-257 *)
Definition calc_I0 (voltage current iph gsh rs nNsVth : R) : fl :=
  (#(iph - current - gsh * (voltage + rs * current)) / #(exp ((voltage + rs * current) / nNsVth) - 1))%fl.
Record sde_params := SdeParams { sp_iph : R; sp_io : fl; sp_rs : R; sp_rsh : R; sp_nNsVth : R }.
(** sde.py:234-252; the coefficients are python floats, so 1.0 / 0.0 raises *)
Definition sandia_simple_params (beta0 beta1 beta3 beta4 v_mp i_mp v_oc : R) : res sde_params :=
  if Reqb beta3 0 then Err ZeroDivisionError else
  let nNsVth := 1 / beta3 in
  let rs := beta4 / beta3 in
  if Reqb (1 - rs * beta1) 0 then Err ZeroDivisionError else
  let gsh := beta1 / (1 - rs * beta1) in
  if Reqb gsh 0 then Err ZeroDivisionError else
  let rsh := 1 / gsh in
  let iph := (1 + gsh * rs) * beta0 in
  let io_vmp := calc_I0 v_mp i_mp iph gsh rs nNsVth in
  let io_voc := calc_I0 v_oc 0 iph gsh rs nNsVth in
  if (isnan io_vmp || isnan io_voc || (fleb io_vmp #0 && fleb io_voc #0))%bool then Err RuntimeError
  else
  let io := if (fltb #0 io_vmp && fltb #0 io_voc)%bool then (#0.5 * (io_vmp + io_voc))%fl
            else if fltb #0 io_vmp then io_vmp else io_voc in
  Ok (SdeParams iph io rs rsh nNsVth).
(** sde.py:13-165 *)
Definition fit_sandia_simple (curve : list (R * R)) (v_oc i_sc : option R) (v_mp_i_mp : option (R * R)) (vlim ilim : R) : res sde_params :=
  let* v_oc := match v_oc with Some v => Ok v | None => match curve with [] => Err IndexError | _ => Ok (fst (last curve (0, 0))) end end in
  let* i_sc := match i_sc with Some i => Ok i | None => match curve with [] => Err IndexError | p :: _ => Ok (snd p) end end in
  let* mp := match v_mp_i_mp with Some p => Ok p | None => find_mp curve end in
  let* b01 := sandia_beta0_beta1 curve vlim v_oc in
  let b34 := sandia_beta3_beta4 curve (fst b01) (snd b01) ilim i_sc in
  sandia_simple_params (fst b01) (snd b01) (fst b34) (snd b34) (fst mp) (snd mp) v_oc.
End Simple.

(** ** _fit_sandia_cocontent *)
(** sde.py:376-383: the integral of each polynomial piece, with a leading 0 *)
Definition piece_integral (k : knot) (h : R) : R := 1 / 3 * k_a k * h ^ 3 + 0.5 * k_b k * h ^ 2 + 1 * k_c k * h.
Definition tmpint (ks : list knot) : list R :=
  0 :: map (fun j => piece_integral (nth j ks (Knot 0 0 0 0 0 false)) (nth (S j) (map k_x ks) 0 - nth j (map k_x ks) 0)) (seq 0 (length ks - 1)).
Definition cumsum_at (l : list R) (i : nat) : R := fold_right Rplus 0 (firstn (S i) l).
(** sde.py:386-396: scc[i], assigned in three slices; i in 0 .. xn-1 *)
Definition scc_at (ks : list knot) (isc : R) (i : nat) : R :=
  let xn := length ks in
  let v j := nth j (map k_x ks) 0 in let t := tmpint ks in
  let first j := isc * v j - cumsum_at t j in
  let second j := if Nat.ltb j 5 then first j
                  else isc * (v j - v 4%nat) - cumsum_at (firstn (xn - 5 - 5) (skipn 5 t)) (j - 5) + first 4%nat in
  if Nat.ltb i (xn - 5) then second i
  else isc * (v i - v (xn - 6)%nat) - cumsum_at (skipn (xn - 5) t) (i - (xn - 5)) + second (xn - 6)%nat.
(** sde.py:370-401 *)
Definition cocontent (ks : list knot) (isc : R) : list R :=
  map (scc_at ks isc) (filter (fun i => negb (k_new (nth i ks (Knot 0 0 0 0 0 false)))) (seq 0 (length ks))).

Definition vec5 := (R * R * R * R * R)%type.
Definition dot5 (a b : vec5) : R :=
  let '(a1, a2, a3, a4, a5) := a in let '(b1, b2, b3, b4, b5) := b in a1 * b1 + a2 * b2 + a3 * b3 + a4 * b4 + a5 * b5.
(** sde.py:408 and 438-439 without the constant column: the predictors of two coordinates *)
Definition predictors_pc (a b : R) : vec5 := (a, b, a * b, a * a, b * b).
(** sde.py:412-431: z-scores rotated by r = [ev1, ev2], ev2 = (-ev1[1], ev1[0]) *)
Definition rotated (m1 m2 sd1 sd2 e0 e1 v d : R) : R * R :=
  let z0 := (v - m1) / sd1 in let z1 := (d - m2) / sd2 in
  (z0 * e0 + z1 * - e1, z0 * e1 + z1 * e0).
Definition mat5 := (vec5 * vec5 * vec5 * vec5 * vec5)%type.
Definition mulv (m : mat5) (x : vec5) : vec5 := let '(r1, r2, r3, r4, r5) := m in (dot5 r1 x, dot5 r2 x, dot5 r3 x, dot5 r4 x, dot5 r5 x).
(** sde.py:449-454 with r[0] = (e0, e1), r[1] = (-e1, e0) *)
Definition mb (e0 e1 : R) : mat5 :=
  let r00 := e0 in let r01 := e1 in let r10 := - e1 in let r11 := e0 in
  ((r00, r10, 0, 0, 0), (r01, r11, 0, 0, 0), (0, 0, r00 * r11 + r01 * r10, 2 * r00 * r01, 2 * r10 * r11),
   (0, 0, r00 * r10, r00 ^ 2, r10 ^ 2), (0, 0, r01 * r11, r01 ^ 2, r11 ^ 2)).
(** sde.py:458-466 *)
Definition ma (m1 m2 sd1 sd2 : R) : mat5 :=
  ((sd1, 0, sd1 * m2, 2 * sd1 * m1, 0), (0, sd2, sd2 * m1, 0, 2 * sd2 * m2), (0, 0, sd1 * sd2, 0, 0), (0, 0, 0, sd1 ^ 2, 0), (0, 0, 0, 0, sd2 ^ 2)).

Definition rmean (l : list R) : R := fold_right Rplus 0 l / INR (length l).
Definition rstd1 (l : list R) : R := let m := rmean l in sqrt (fold_right Rplus 0 (map (fun x => (x - m) ^ 2) l) / (INR (length l) - 1)).
Section Cocontent.
(** the eigenvector of the larger eigenvalue of the covariance of the z-scores *)
Variable eigvec : list (R * R) -> R * R.
(** lstsq of rows (predictors) plus a constant column: the five coefficients; and of a 5x5 system *)
Variable lstsq6 : list (vec5 * R) -> vec5.
Variable lstsq5 : (vec5 -> vec5) -> vec5 -> vec5.
(** sde.py:404-471 *)
Definition cocontent_regress (v i : list R) (isc : R) (cci : list R) : vec5 :=
  let d := map (fun c => isc - c) i in
  let m1 := rmean v in let m2 := rmean d in let sd1 := rstd1 v in let sd2 := rstd1 d in
  let e := eigvec (map (fun p => ((fst p - m1) / sd1, (snd p - m2) / sd2)) (combine v d)) in
  let s := map (fun p => rotated m1 m2 sd1 sd2 (fst e) (snd e) (fst p) (snd p)) (combine v d) in
  let mc := rmean cci in
  let gamma := lstsq6 (combine (map (fun p => predictors_pc (fst p) (snd p)) s) (map (fun c => c - mc) cci)) in
  lstsq5 (fun b => mulv (mb (fst e) (snd e)) (mulv (ma m1 m2 sd1 sd2) b)) gamma.
(** sde.py:343-367: parameters from the coefficients, for beta[3] <> 0, non-zero n and a real square root: (iph, io, rs, rsh, n) *)
Definition cocontent_params (beta : vec5) (isc voc nsvth : R) : R * R * R * R * R :=
  let '(b0, b1, _, b3, b4) := beta in
  let betagp := b3 * 2 in
  let betars := (sqrt (1 + 16 * b3 * b4) - 1) / (4 * b3) in
  let betan := (b0 * (sqrt (1 + 16 * b3 * b4) - 1) + 4 * b1 * b3) / (4 * b3 * nsvth) in
  let betaio := (isc - voc * betagp) / exp (voc / (betan * nsvth)) in
  let betaiph := isc - betaio + betaio * exp (isc / (betan * nsvth)) + isc * betars * betagp in
  (betaiph, betaio, betars, 1 / betagp, betan).
(** sde.py:260-367 *)
Definition fit_sandia_cocontent (voltage current : list R) (nsvth : R) : res (R * R * R * R * R) :=
  if negb (Nat.eqb (length current) (length voltage)) then Err ValueError
  else if Nat.ltb (length voltage) 6 then Err ValueError
  else
  let isc := nth 0 current 0 in
  let voc := last voltage 0 in
  let* ks := schumaker_qspline voltage current in
  let cci := cocontent ks isc in
  Ok (cocontent_params (cocontent_regress voltage current isc cci) isc voc nsvth).
End Cocontent.
