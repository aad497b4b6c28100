(** ivtools/utils.py: numerical differentiation, rectification of IV curves, Schumaker's quadratic spline, ASTM E1036.
    Arrays of finite numbers are lists of reals; [None] stands for nan in the input of [rectify_iv_curve]; infinite data are not modelled. *)
From Verif Require Import Base.Fl Base.Py Base.Round.
From Coq Require Import ZArith.
Open Scope R_scope.
Open Scope list_scope.

(** ** _numdiff *)
(** ivtools/utils.py:71-107: one row; a0..a4 are the displacements, f0..f4 the values *)
Definition diff5 (a0 a1 a2 a3 a4 f0 f1 f2 f3 f4 : R) : fl :=
  let u0 := a1 * a2 * a3 + a1 * a2 * a4 + a1 * a3 * a4 + a2 * a3 * a4 in
  let u1 := a0 * a2 * a3 + a0 * a2 * a4 + a0 * a3 * a4 + a2 * a3 * a4 in
  let u2 := a0 * a1 * a3 + a0 * a1 * a4 + a0 * a3 * a4 + a1 * a3 * a4 in
  let u3 := a0 * a1 * a2 + a0 * a1 * a4 + a0 * a2 * a4 + a1 * a2 * a4 in
  let u4 := a0 * a1 * a2 + a0 * a1 * a3 + a0 * a2 * a3 + a1 * a2 * a3 in
  let l0 := (a0 - a1) * (a0 - a2) * (a0 - a3) * (a0 - a4) in
  let l1 := (a1 - a0) * (a1 - a2) * (a1 - a3) * (a1 - a4) in
  let l2 := (a2 - a0) * (a2 - a1) * (a2 - a3) * (a2 - a4) in
  let l3 := (a3 - a0) * (a3 - a1) * (a3 - a2) * (a3 - a4) in
  let l4 := (a4 - a0) * (a4 - a1) * (a4 - a2) * (a4 - a3) in
  fsum [(- (#u0 / #l0) * #f0)%fl; (- (#u1 / #l1) * #f1)%fl; (- (#u2 / #l2) * #f2)%fl; (- (#u3 / #l3) * #f3)%fl; (- (#u4 / #l4) * #f4)%fl].
(** ivtools/utils.py:109-126 *)
Definition diff5_second (a0 a1 a2 a3 a4 f0 f1 f2 f3 f4 : R) : fl :=
  let u0 := a1 * a2 + a1 * a3 + a1 * a4 + a2 * a3 + a2 * a4 + a3 * a4 in
  let u1 := a0 * a2 + a0 * a3 + a0 * a4 + a2 * a3 + a2 * a4 + a3 * a4 in
  let u2 := a0 * a1 + a0 * a3 + a0 * a4 + a1 * a3 + a1 * a3 + a3 * a4 in
  let u3 := a0 * a1 + a0 * a2 + a0 * a4 + a1 * a2 + a1 * a4 + a2 * a4 in
  let u4 := a0 * a1 + a0 * a2 + a0 * a3 + a1 * a2 + a1 * a4 + a2 * a3 in
  (#2 * fsum [#(u0 * f0); #(u1 * f1); #(u2 * f2); #(u3 * f3); #(u4 * f4)])%fl.
Definition apply5 (g : R -> R -> R -> R -> R -> R -> R -> R -> R -> R -> fl) (x f : list R) (j : nat) : fl :=
  let X k := nth (j + k - 2) x 0 - nth j x 0 in let F k := nth (j + k - 2) f 0 in
  g (X 0%nat) (X 1%nat) (X 2%nat) (X 3%nat) (X 4%nat) (F 0%nat) (F 1%nat) (F 2%nat) (F 3%nat) (F 4%nat).
(** ivtools/utils.py:18-127, for x as long as f: the two points at either end are nan *)
Definition numdiff (x f : list R) : list fl * list fl :=
  let n := length f in
  let at_points g := map (fun j => if (Nat.ltb j 2 || Nat.leb (n - 2) j)%bool then NaN else apply5 g x f j) (seq 0 n) in
  (at_points diff5, at_points diff5_second).

(** ** rectify_iv_curve *)
(** np.round(v, decimals) *)
Definition np_round (decimals : Z) (v : R) : R := IZR (round_even (v * powerRZ 10 decimals)) / powerRZ 10 decimals.
(** ivtools/utils.py:161-164: dropna and the first quadrant *)
Fixpoint first_quadrant (l : list (option R * option R)) : list (R * R) :=
  match l with
  | [] => []
  | (Some v, Some i) :: l' => if (Rleb 0 v && Rleb 0 i)%bool then (v, i) :: first_quadrant l' else first_quadrant l'
  | _ :: l' => first_quadrant l'
  end.
(** sort_values(by=['v', 'i'], ascending=[True, False]) *)
Definition row_before (p q : R * R) : bool := (Rltb (fst p) (fst q) || (Reqb (fst p) (fst q) && Rleb (snd q) (snd p)))%bool.
Fixpoint insert_by {A} (before : A -> A -> bool) (p : A) (l : list A) : list A :=
  match l with [] => [p] | q :: l' => if before p q then p :: l else q :: insert_by before p l' end.
Definition sort_by {A} (before : A -> A -> bool) (l : list A) : list A := fold_right (insert_by before) [] l.
(** np.unique: sorted, without repetitions *)
Fixpoint drop_repeats (l : list R) : list R :=
  match l with x :: ((y :: _) as l') => if Reqb x y then drop_repeats l' else x :: drop_repeats l' | _ => l end.
Definition np_unique (l : list R) : list R := drop_repeats (sort_by Rleb l).
Definition average (l : list R) : R := fold_right Rplus 0 l / INR (length l).
(** ivtools/utils.py:130-178 -> (voltage, current) pairs *)
Definition rectify_iv_curve (points : list (option R * option R)) (decimals : option Z) : list (R * R) :=
  let df := sort_by row_before (first_quadrant points) in
  let df := match decimals with None => df | Some d => map (fun p => (np_round d (fst p), snd p)) df end in
  map (fun u => let group := filter (fun p => Reqb (fst p) u) df in (average (map fst group), average (map snd group))) (np_unique (map fst df)).

(** ** _schumaker_qspline *)
(** np.finfo('float').eps = 2^-52; ivtools/utils.py:13-15 *)
Definition EPS_val : R := / 2 ^ 52.
Definition EPS_slope : R := Rpower EPS_val (1 / 3).
(** np.isclose(a, b, atol=atol) with the default rtol *)
Definition isclose (a b atol : R) : bool := Rleb (Rabs (a - b)) (atol + 1e-5 * Rabs b).

Definition deltas (x y : list R) : list R :=
  map (fun i => (nth (S i) y 0 - nth i y 0) / (nth (S i) x 0 - nth i x 0)) (seq 0 (length x - 1)).
(** ivtools/utils.py:242-253 *)
Definition inner_slope (delta : list R) (i : nat) : R :=
  let left := match i with O => 0 | S j => nth j delta 0 end in
  let right := if Nat.ltb i (length delta) then nth i delta 0 else 0 in
  let pdelta := left * right in
  if Rltb 0 pdelta then pdelta / (0.5 * left + 0.5 * right) else 0.
(** ivtools/utils.py:255-263: s[0], then s[-1], which sees the new s[0] if there are only two points *)
Definition end_slope (delta_end neighbour own : R) : R :=
  let e := 2 * delta_end - neighbour in if Rltb 0 (delta_end * e) then e else own.
Definition slopes (x y : list R) : list R :=
  let n := length x in let delta := deltas x y in
  let s := map (inner_slope delta) (seq 0 n) in
  let s0 := end_slope (nth 0 delta 0) (nth 1 s 0) (nth 0 s 0) in
  let s := s0 :: tl s in
  let sn := end_slope (nth (n - 2) delta 0) (nth (n - 2) s 0) (nth (n - 1) s 0) in
  firstn (n - 1) s ++ [sn].

(** one row of uu: the data of an interval *)
Record seg := Seg { g_x1 : R; g_x2 : R; g_y1 : R; g_s1 : R; g_s2 : R; g_delta : R }.
Definition segments (x y : list R) : list seg :=
  let s := slopes x y in let delta := deltas x y in
  map (fun i => Seg (nth i x 0) (nth (S i) x 0) (nth i y 0) (nth i s 0) (nth (S i) s 0) (nth i delta 0)) (seq 0 (length x - 1)).
(** ivtools/utils.py:268-269: no internal knot *)
Definition seg_plain (g : seg) : bool := isclose (g_s1 g + g_s2 g) (2 * g_delta g) EPS_slope.
(** ivtools/utils.py:316-322 *)
Definition snap (a : R) : R := if isclose a 0 EPS_val then 0 else a.
Definition seg_aa (g : seg) : R := snap (g_s1 g - g_delta g).
Definition seg_b (g : seg) : R := snap (g_s2 g - g_delta g).
(** ivtools/utils.py:330-332, 341-343, 353-354: the three kinds of knots *)
Definition seg_v (g : seg) : bool := (negb (seg_plain g) && Rleb 0 (seg_aa g * seg_b g))%bool.
Definition seg_w (g : seg) : bool := (negb (seg_plain g) && negb (seg_v g) && Rltb (Rabs (seg_b g)) (Rabs (seg_aa g)))%bool.
Definition seg_z (g : seg) : bool := (negb (seg_plain g) && negb (seg_v g) && negb (seg_w g))%bool.
(** ivtools/utils.py:336, 347, 358-359: the location of the knot, xi *)
Definition seg_knot (g : seg) : R :=
  if seg_v g then 0.5 * (g_x1 g + g_x2 g)
  else if seg_w g then g_x2 g + seg_aa g * (g_x2 g - g_x1 g) / (g_s2 g - g_s1 g)
  else g_x1 g + seg_b g * (g_x2 g - g_x1 g) / (g_s2 g - g_s1 g).
(** ivtools/utils.py:367-389 *)
Definition seg_sbar (g : seg) : R := 2 * g_delta g - g_s2 g + (g_s2 g - g_s1 g) * (seg_knot g - g_x1 g) / (g_x2 g - g_x1 g).
Definition seg_eta (g : seg) : R := (seg_sbar g - g_s1 g) / (seg_knot g - g_x1 g).
(** a row of the result: knot, coefficients (of the square, linear, constant), value, inserted *)
Record knot := Knot { k_x : R; k_a : R; k_b : R; k_c : R; k_y : R; k_new : bool }.
(** ivtools/utils.py:304-309 and 392-394 *)
Definition row_data (g : seg) : knot :=
  Knot (g_x1 g) (if seg_plain g then 0.5 * (g_s2 g - g_s1 g) / (g_x2 g - g_x1 g) else 0.5 * seg_eta g) (g_s1 g) (g_y1 g) (g_y1 g) false.
(** ivtools/utils.py:396-411 *)
Definition row_knot (g : seg) : knot :=
  let d := seg_knot g - g_x1 g in
  let c := g_y1 g + g_s1 g * d + 0.5 * seg_eta g * d ^ 2 in
  Knot (seg_knot g) (0.5 * (g_s2 g - seg_sbar g) / (g_x2 g - g_x1 g)) (seg_sbar g) c c true.
(** ivtools/utils.py:181-426: the rows before sorting are the data points, the three kinds of knots and the last data point;
    delta[0] of fewer than two points raises IndexError; the last row has no polynomial (its coefficients are 0 and are cut off) *)
Definition schumaker_qspline (x y : list R) : res (list knot) :=
  if Nat.ltb (length x) 2 then Err IndexError else
  let g := segments x y in
  let rows := map row_data g ++ map row_knot (filter seg_v g) ++ map row_knot (filter seg_w g) ++ map row_knot (filter seg_z g)
              ++ [Knot (last x 0) 0 0 0 (last y 0) false] in
  Ok (sort_by (fun p q => Rleb (k_x p) (k_x q)) rows).

(** ** astm_e1036 *)
(** idxmin / idxmax: the first extremum *)
Fixpoint argmax_from (best : nat) (bv : R) (i : nat) (l : list R) : nat :=
  match l with [] => best | v :: l' => if Rltb bv v then argmax_from i v (S i) l' else argmax_from best bv (S i) l' end.
Definition argmax (l : list R) : res nat := match l with [] => Err ValueError | v :: l' => Ok (argmax_from 0 v 1 l') end.
Definition argmin (l : list R) : res nat := argmax (map Ropp l).
(** DataFrame.nsmallest(n, |.|), keep='first', on (x, y) rows by |x| *)
Definition nsmallest_abs (n : nat) (l : list (R * R)) : list (R * R) := firstn n (sort_by (fun p q => Rleb (Rabs (fst p)) (Rabs (fst q))) l).
Record astm := Astm { voc : R; isc : R; vmp : R; imp : fl; pmp : R; ff : fl }.
Section ASTM.
(** numpy's Poly.fit(x, y, 1) evaluated, and Poly.fit(x, y, order) with the real parts of the roots of its derivative whose imaginary
    part is below 1e-5 *)
Variable line_fit : list (R * R) -> R -> R.
Variable mp_fit : list (R * R) -> R -> R.
Variable mp_roots : list (R * R) -> list R.
(** ivtools/utils.py:429-546; the curve as (v, i) pairs *)
Definition astm_e1036 (curve : list (R * R)) (imax_limits vmax_limits : R * R) (voc_points isc_points : nat) : res astm :=
  let* i_min_ind := argmin (map (fun p => Rabs (snd p)) curve) in
  let* v_min_ind := argmin (map (fun p => Rabs (fst p)) curve) in
  let voc_est := fst (nth i_min_ind curve (0, 0)) in
  let isc_est := snd (nth v_min_ind curve (0, 0)) in
  let voc := if Rleb (Rabs (snd (nth i_min_ind curve (0, 0)))) (isc_est * 0.001) then voc_est
             else line_fit (nsmallest_abs voc_points (map (fun p => (snd p, fst p)) curve)) 0 in
  let isc := if Rleb (Rabs (fst (nth v_min_ind curve (0, 0)))) (voc_est * 0.005) then isc_est
             else line_fit (nsmallest_abs isc_points curve) 0 in
  let* max_index := argmax (map (fun p => fst p * snd p) curve) in
  let mp_est := nth max_index curve (0, 0) in
  let filtered := filter (fun p => Rleb (fst imax_limits * snd mp_est) (snd p) && Rleb (snd p) (snd imax_limits * snd mp_est) &&
                                   Rleb (fst vmax_limits * fst mp_est) (fst p) && Rleb (fst p) (snd vmax_limits * fst mp_est))%bool curve in
  let power := map (fun p => (fst p, fst p * snd p)) filtered in
  let roots := filter (fun r => (existsb (fun p => Rltb r (fst p)) filtered && existsb (fun p => Rltb (fst p) r) filtered)%bool) (mp_roots power) in
  let* k := argmax (map (mp_fit power) roots) in
  let vmp := nth k roots 0 in
  let pmp := mp_fit power vmp in
  Ok (Astm voc isc vmp (#pmp / #vmp)%fl pmp (#pmp / #(voc * isc))%fl).
End ASTM.
