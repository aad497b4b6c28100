(** What fitting an incidence angle modifier model means. *)
From Coq Require Import Reals List.
Import ListNotations.
Open Scope R_scope.
(** weighted absolute misfit of the curve [f] to the points (angle, modifier); angles outside 0..90 degrees do not count *)
Fixpoint misfit (w f : R -> R) (pts : list (R * R)) : R :=
  match pts with
  | [] => 0
  | (a, m) :: r => (if Rle_dec 0 a then if Rle_dec a 90 then w a * Rabs (m - f a) else 0 else 0) + misfit w f r
  end.
(** [x] lies in the box [b] *)
Definition inside (x : list R) (b : list (R * R)) : Prop := Forall2 (fun v lh => fst lh <= v <= snd lh) x b.
