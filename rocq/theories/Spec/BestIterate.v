(** Specification of a "keep the best iterate" loop, independent of pvlib's code.
    [d k] is the mismatch of iteration k at one point. *)
From Verif Require Import Base.Fl.

(** iteration [k] is the earliest one of smallest mismatch among the first [K]; mismatches that are
    nan or not below 9999 never count, and iteration 0 is kept when no mismatch counts. *)
Definition best_iter (d : nat -> fl) (K k : nat) : Prop :=
  (k < K)%nat /\
  ((fltb (d k) (Fin 9999) = true /\
    (forall j, (j < K)%nat -> fltb (d j) (d k) = false) /\
    (forall j, (j < k)%nat -> fleb (d j) (d k) = false))
   \/ (k = 0%nat /\ forall j, (j < K)%nat -> fltb (d j) (Fin 9999) = false)).
