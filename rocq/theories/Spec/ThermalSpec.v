(** Lagged sums: sum over m = 1 .. W of F m (value m samples before sample j), skipping missing samples. *)
From Coq Require Import Reals List Arith.
Import ListNotations.
Open Scope R_scope.
Fixpoint lag_sum (F : nat -> R -> R) (vals : list (option R)) (j W : nat) : R :=
  match W with
  | O => 0
  | S W' => lag_sum F vals j W' +
      (if Nat.leb W j then match nth (j - W) vals None with Some t => F W t | None => 0 end else 0)
  end.
