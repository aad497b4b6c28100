(** scaling.py: the wavelet variability model and local coordinates. *)
From Verif Require Import Base.Fl Base.Py Base.Round Base.Trig Model.Clearsky.
From Coq Require Import ZArith.
Open Scope R_scope.
Open Scope list_scope.

(** the container of the clear sky index: a numpy array with the caller's dt, a series whose time index starts with a step of so many
    microseconds, or a series with a numeric index *)
Inductive container := Array (dt : option R) | TimeIndex (step_us : Z) | NumIndex (step : R).

(** scaling.py:248-259: the time step; a pandas index of fewer than two entries raises IndexError; dt.seconds and dt.microseconds leave
    out whole days *)
Definition time_step (c : container) (n : nat) : res R :=
  match c with
  | Array None => Err ValueError
  | Array (Some dt) => Ok dt
  | TimeIndex us => if Nat.ltb n 2 then Err IndexError else
      let us := Z.modulo us 86400000000 in
      Ok (IZR (Z.div us 1000000) + IZR (Z.modulo us 1000000) / 1e6)
  | NumIndex step => if Nat.ltb n 2 then Err IndexError else Ok step
  end.

(** scaling.py:262 np.pad(vals, (n, n), 'symmetric') *)
Definition sym_pad (v : list fl) : list fl := rev v ++ v ++ rev v.

(** scaling.py:266-267 -> int(13 - ceil(log2 dt)); np.log(0) is -inf, np.log of a negative number nan *)
Definition ceil (x : R) : Z := (- Int_part (- x))%Z.
Definition scale_count (dt : R) : res Z :=
  if Rltb dt 0 then Err ValueError
  else if Reqb dt 0 then Err OverflowError
  else Ok (13 - ceil (ln dt / ln 2))%Z.

(** scaling.py:280 rolling(window=2h, center=True, min_periods=1).mean(): at row t the rows t-h .. t+h-1, without missing and infinite values *)
Definition rolling_mean (h : nat) (l : list fl) : list fl :=
  map (fun t => match filter isfinite (firstn (t + h - (t - h)) (skipn (t - h) l)) with
                | [] => NaN
                | w => fmean w
                end) (seq 0 (length l)).
(** scaling.py:282 bfill().ffill() *)
Fixpoint bfill (l : list fl) : list fl :=
  match l with
  | [] => []
  | x :: l' => let r := bfill l' in (if isnan x then hd NaN r else x) :: r
  end.
Fixpoint ffill_fl (last : fl) (l : list fl) : list fl :=
  match l with
  | [] => []
  | x :: l' => let y := if isnan x then last else x in y :: ffill_fl y l'
  end.
(** scaling.py:286-287 np.roll(row, -1); row[-1] = row[-2] *)
Definition shift_left (l : list fl) : list fl := match l with [] => [] | _ :: l' => l' ++ [last l' NaN] end.
(** scaling.py:271-287 csi_mean[i, :] *)
Definition csi_mean (cs_long : list fl) (i : nat) : list fl :=
  match i with
  | O => cs_long
  | S j => shift_left (ffill_fl NaN (bfill (rolling_mean (2 ^ j) cs_long)))
  end.
Fixpoint zip_sub (l m : list fl) : list fl :=
  match l, m with x :: l', y :: m' => (x - y)%fl :: zip_sub l' m' | _, _ => [] end.
(** scaling.py:290-293 wavelet_long[i, :], 296-298 its middle third *)
Definition wavelet_row (vals : list fl) (k i : nat) : list fl :=
  let m := csi_mean (sym_pad vals) in
  let row := if Nat.ltb (S i) k then zip_sub (m i) (m (S i)) else m i in
  firstn (length vals) (skipn (length vals) row).

(** scaling.py:208-300 *)
Definition compute_wavelet (c : container) (vals : list fl) : res (list (list fl) * list R) :=
  let n := length vals in
  let* dt := time_step c n in
  if Nat.eqb n 0 then Err ValueError  (* np.pad of an empty array *)
  else
  let* max_tmscale := scale_count dt in
  if (max_tmscale <? 0)%Z then Err ValueError       (* np.zeros of a negative size *)
  else if (max_tmscale =? 0)%Z then Err IndexError  (* csi_mean[0, :] *)
  else
  let k := Z.to_nat max_tmscale in
  Ok (map (wavelet_row vals k) (seq 0 k), map (fun i => 2 ^ i * dt) (seq 0 k)).

(** scipy.spatial.distance.pdist: distances of all pairs i < j *)
Definition euclid (p q : R * R) : R := sqrt ((fst p - fst q) ^ 2 + (snd p - snd q) ^ 2).
Fixpoint pdist (pos : list (R * R)) : list R := match pos with [] => [] | p :: pos' => map (euclid p) pos' ++ pdist pos' end.

(** scaling.py:89-149; [fmin f x0] is scipy.optimize.fmin; -1 / A raises for python's 0.0 *)
Definition compute_vr (fmin : (R -> R) -> R -> R) (positions : list (R * R)) (cloud_speed : R) (tmscales : list R) : res (list fl) :=
  match positions with
  | [] => Err ValueError
  | _ =>
    let dist := pdist positions in
    let n_pairs := INR (length dist) in
    let fn x := Rabs ((x ^ 2 - x) / 2 - n_pairs) in
    let n_dist := IZR (round_even (fmin fn (sqrt n_pairs))) in
    let A := cloud_speed / 2 in
    mapM (fun tmscale =>
      if Reqb A 0 then Err ZeroDivisionError else
      let rho := map (fun d => fexp (#(-1 / A * d) / #tmscale)%fl) dist in
      let denominator := (#2 * fsum rho + #n_dist)%fl in
      Ok (#(n_dist ^ 2) / denominator)%fl) tmscales
  end.

(** scaling.py:71-79: every row but the last divided by sqrt(vr[i]), and the column sums *)
Definition smooth_column (k : nat) (vr : list fl) (rows : list (list fl)) (t : nat) : fl :=
  fsum (map (fun i => let w := nth t (nth i rows []) NaN in if Nat.ltb i (k - 1) then (w / fsqrt (nth i vr NaN))%fl else w) (seq 0 k)).
(** scaling.py:13-86 -> (smoothed, wavelet, tmscales) *)
Definition wvm (fmin : (R -> R) -> R -> R) (c : container) (clearsky_index : list fl) (positions : list (R * R)) (cloud_speed : R)
    : res (list fl * list (list fl) * list R) :=
  let* w := compute_wavelet c clearsky_index in
  let* vr := compute_vr fmin positions cloud_speed (snd w) in
  Ok (map (smooth_column (length (snd w)) vr (fst w)) (seq 0 (length clearsky_index)), fst w, snd w).

(** scaling.py:152-205; a list of (latitude, longitude) pairs, or a single pair *)
Definition r_earth : R := 6371008.7714.
Definition to_xy (meanlat : R) (c : R * R) : R * R :=
  let m_per_deg_lat := r_earth * PI / 180 in
  let m_per_deg_lon := r_earth * cos (PI / 180 * meanlat) * PI / 180 in
  (snd c * m_per_deg_lon, fst c * m_per_deg_lat).
Definition latlon_to_xy (coordinates : list (R * R)) : list (R * R) :=
  let meanlat := fold_right Rplus 0 (map fst coordinates) / INR (length coordinates) in
  map (to_xy meanlat) coordinates.
Definition latlon_to_xy_single (c : R * R) : R * R := to_xy (fst c) c.
