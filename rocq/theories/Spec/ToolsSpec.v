(** Specifications for tools.py *)
From Coq Require Import Reals ZArith.
Open Scope R_scope.
(** strictly increasing up to [m], strictly decreasing after it, on [lo, hi] *)
Definition unimodal (g : R -> R) (lo m hi : R) : Prop :=
  lo <= m <= hi /\
  (forall x y, lo <= x -> x < y -> y <= m -> g x < g y) /\
  (forall x y, m <= x -> x < y -> y <= hi -> g y < g x).
(** the golden ratio conjugate *)
Definition golden : R := (sqrt 5 - 1) / 2.
(** cell centres of the Linke turbidity grid (12 cells per degree) *)
Definition lat_centre (k : Z) : R := 90 - (IZR k + 1/2) / 12.
Definition lon_centre (k : Z) : R := -180 + (IZR k + 1/2) / 12.
