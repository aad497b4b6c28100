(** Specifications for scaling.py *)
From Coq Require Import Reals List ZArith Arith.
Import ListNotations.
Open Scope R_scope.

Definition total (l : list R) : R := fold_right Rplus 0 l.
Definition mean (l : list R) : R := total l / INR (length l).

(** the series reflected about both ends, positions 0 .. 3n-1 *)
Definition mirror (x : list R) (q : nat) : R :=
  let n := length x in
  nth (if Nat.ltb q n then n - 1 - q else if Nat.ltb q (2 * n) then q - n else 3 * n - 1 - q)%nat x 0.
(** moving average over 2^i samples around sample t of the reflected series, as far as it reaches *)
Definition moving_average (x : list R) (i t : nat) : R :=
  match i with
  | O => nth t x 0
  | S j => let p := (length x + t)%nat in
      mean (map (mirror x) (filter (fun q => Nat.ltb p (q + 2 ^ j) && Nat.leb q (p + 2 ^ j))%bool (seq 0 (3 * length x))))
  end.

(** variability reduction of n sites: n^2 over the sum of all n^2 correlations, where sites at distance d have correlation
    exp(-2 d / (speed * timescale)) *)
Definition correlation (speed scale : R) (p q : R * R) : R :=
  exp (- (2 * sqrt ((fst p - fst q) ^ 2 + (snd p - snd q) ^ 2)) / (speed * scale)).
Definition variability_reduction (speed scale : R) (sites : list (R * R)) : R :=
  INR (length sites) ^ 2 / total (map (fun p => total (map (correlation speed scale p) sites)) sites).

(** Length of the arc of the given number of degrees on a circle of that radius. *)
Definition arc_length (radius degrees : R) : R := radius * (degrees * PI / 180).
(** The IUGG mean radius of the Earth in metres. *)
Definition earth_radius : R := 6371008.7714.
