(** Specifications for ivtools *)
From Verif Require Import Base.Fl.
From Coq Require Import Reals List ZArith Permutation.
Import ListNotations.
Open Scope R_scope.

(** a polynomial of degree at most four with its first and second derivatives *)
Definition quartic (p0 p1 p2 p3 p4 x : R) : R := p0 + p1 * x + p2 * x ^ 2 + p3 * x ^ 3 + p4 * x ^ 4.
Definition quartic' (p1 p2 p3 p4 x : R) : R := p1 + 2 * p2 * x + 3 * p3 * x ^ 2 + 4 * p4 * x ^ 3.
Definition quartic'' (p2 p3 p4 x : R) : R := 2 * p2 + 6 * p3 * x + 12 * p4 * x ^ 2.

(** [a] and [b] are neighbours in the list *)
Definition adjacent {A} (l : list A) (a b : A) : Prop := exists p q, l = p ++ a :: b :: q.
(** strictly increasing *)
Definition increasing (x : list R) : Prop := forall i j, (i < j < length x)%nat -> nth i x 0 < nth j x 0.

(** the measured points that are complete and in the first quadrant; None is a missing value *)
Definition usable (points : list (option R * option R)) : list (R * R) :=
  flat_map (fun p => match p with
                     | (Some v, Some i) => if Rle_dec 0 v then if Rle_dec 0 i then [(v, i)] else [] else []
                     | _ => []
                     end) points.
Definition arithmetic_mean (l : list R) : R := fold_right Rplus 0 l / INR (length l).
(** the mean of the currents of all usable points whose voltage, rounded, is v *)
Definition mean_current (round : R -> R) (points : list (option R * option R)) (v : R) : R :=
  arithmetic_mean (map snd (filter (fun p => if Req_EM_T (round (fst p)) v then true else false) (usable points))).

(** slope between two successive samples *)
Definition chord (x y : list R) (i : nat) : R := (nth (S i) y 0 - nth i y 0) / (nth (S i) x 0 - nth i x 0).
(** harmonic mean of two slopes of one sign; 0 at an extremum *)
Definition harmonic_slope (a b : R) : R := if Rlt_dec 0 (a * b) then 2 * a * b / (a + b) else 0.

(** [k] is the first position of the list at which [f] is largest *)
Definition first_largest {A} (f : A -> R) (d : A) (l : list A) (k : nat) : Prop :=
  (k < length l)%nat /\ forall j, (j < length l)%nat -> f (nth j l d) <= f (nth k l d) /\ ((j < k)%nat -> f (nth j l d) < f (nth k l d)).
Definition first_smallest {A} (f : A -> R) (d : A) (l : list A) (k : nat) : Prop := first_largest (fun x => - f x) d l k.
(** [s] are n elements of the list with the smallest [f] (all of them if there are fewer) *)
Definition n_smallest {A} (f : A -> R) (n : nat) (l s : list A) : Prop :=
  exists rest, Permutation l (s ++ rest) /\ length s = Nat.min n (length l) /\ forall a b, In a s -> In b rest -> f a <= f b.

(** a point (voltage, current) on the curve of the single diode equation with photocurrent IL, saturation current I0, resistances Rs and Rsh, and a = n Ns Vth *)
Definition on_sde_curve (IL I0 Rs Rsh a v i : R) : Prop := i = IL - I0 * (exp ((v + Rs * i) / a) - 1) - (v + Rs * i) / Rsh.
(** sums of squared residuals of a straight line, of a plane, and of a quadratic form with a constant *)
Definition line_error (pts : list (R * R)) (slope intercept : R) : R := fold_right Rplus 0 (map (fun p => (snd p - (slope * fst p + intercept)) ^ 2) pts).
Definition plane_error (rows : list (R * R * R)) (c : R * R * R) : R :=
  fold_right Rplus 0 (map (fun r => let '(x1, x2, y) := r in let '(c0, c1, c2) := c in (y - (c0 + c1 * x1 + c2 * x2)) ^ 2) rows).
(** quadratic polynomial without constant term; coefficients of x, y, xy, x^2, y^2 *)
Definition quadratic (c : R * R * R * R * R) (x y : R) : R := let '(c1, c2, c3, c4, c5) := c in c1 * x + c2 * y + c3 * (x * y) + c4 * x ^ 2 + c5 * y ^ 2.
(** piecewise quadratic: pieces (start, a, b, c) in increasing order; a piece holds from its start to that of the next *)
Fixpoint piecewise (l : list (R * (R * R * R))) (x : R) : R :=
  match l with
  | [] => 0
  | (t, (a, b, c)) :: l' => match l' with
                            | (t', _) :: _ => if Rle_dec t' x then piecewise l' x else a * (x - t) ^ 2 + b * (x - t) + c
                            | [] => a * (x - t) ^ 2 + b * (x - t) + c
                            end
  end.

(** ** what is asked of an external linear solver (statsmodels' RLM, numpy's lstsq): rows of a design matrix, right hand sides, coefficients *)
Definition dot (b row : list R) : R := fold_right Rplus 0 (map (fun p => fst p * snd p) (combine b row)).
Definition fits (b : list R) (X : list (list R)) (y : list R) : Prop := Forall2 (fun row v => dot b row = v) X y.
(** data with exactly one exact solution are solved *)
Definition exact_solver (solver : list (list fl) -> list fl -> list fl) : Prop := forall X y b,
  Forall (fun row => length row = length b) X -> fits b X y -> (forall b', length b' = length b -> fits b' X y -> b' = b) -> solver (map (map Fin) X) (map Fin y) = map Fin b.
(** as many coefficients as columns *)
Definition solver_width (solver : list (list fl) -> list fl -> list fl) : Prop := forall X y w, X <> [] -> Forall (fun row => length row = w) X -> length (solver X y) = w.
(** least squares: the coefficients minimise the summed squared residuals *)
Definition sse (b : list R) (X : list (list R)) (y : list R) : R := fold_right Rplus 0 (map (fun p => (dot b (fst p) - snd p) ^ 2) (combine X y)).
Definition lsq_solver (solver : list (list fl) -> list fl -> list fl) : Prop := forall X y w, X <> [] -> length y = length X -> Forall (fun row => length row = w) X ->
  exists b, length b = w /\ solver (map (map Fin) X) (map Fin y) = map Fin b /\ forall b', length b' = w -> sse b X y <= sse b' X y.
(** a straight line through the points is found *)
Definition exact_line (polyfit : list (fl * fl) -> fl * fl) : Prop := forall (pts : list (R * R)) b0 b1, (exists p p', In p pts /\ In p' pts /\ fst p <> fst p') ->
  Forall (fun p => snd p = b0 + b1 * fst p) pts -> polyfit (map (fun p => (Fin (fst p), Fin (snd p))) pts) = (Fin b0, Fin b1).

(** ** a module that follows the PVsyst model exactly (version 6, R_sh_exp = 5.5, reference 1000 W/m2 and 25 C) *)
Record pvsyst_module := PvsystModule { p_IL : R; p_alpha : R; p_I0 : R; p_Eg : R; p_gamma : R; p_mu : R; p_Rs : R; p_Rsh : R; p_Rsh0 : R; p_cells : R }.
Definition shunt_pvsyst (P : pvsyst_module) (G : R) : R :=
  let base := Rmax 0 ((p_Rsh P - p_Rsh0 P * exp (Ropp 5.5)) / (1 - exp (Ropp 5.5))) in base + (p_Rsh0 P - base) * exp (Ropp 5.5 * G / 1000).
Definition photocurrent_pvsyst (P : pvsyst_module) (G T : R) : R := G / 1000 * (p_IL P + p_alpha P * (T - 25)).
Definition gamma_pvsyst (P : pvsyst_module) (T : R) : R := p_gamma P + p_mu P * (T - 25).
Definition saturation_pvsyst (k q : R) (P : pvsyst_module) (T : R) : R :=
  p_I0 P * ((T + 273.15) / (25 + 273.15)) ^ 3 * exp (q * p_Eg P / (k * gamma_pvsyst P T) * (1 / (25 + 273.15) - 1 / (T + 273.15))).
Definition thermal_pvsyst (k q : R) (P : pvsyst_module) (T : R) : R := gamma_pvsyst P T * k / q * p_cells P * (T + 273.15).
(** the point (v, i) is on the module's curve at irradiance G and cell temperature T *)
Definition on_pvsyst_curve (k q : R) (P : pvsyst_module) (G T v i : R) : Prop :=
  on_sde_curve (photocurrent_pvsyst P G T) (saturation_pvsyst k q P T) (p_Rs P) (shunt_pvsyst P G) (thermal_pvsyst k q P T) v i.
Definition sane_module (k q : R) (P : pvsyst_module) : Prop := 0 < k /\ 0 < q /\ 0 < p_I0 P /\ 0 <= p_Rs P /\ 0 < p_cells P /\ 0 < p_Rsh0 P.
