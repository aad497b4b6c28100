(** Model of the shapes of arguments in pvlib/singlediode.py:719-754 _shape_of_max_size, _prepare_newton_inputs and the brackets of the chandrupatla method.
    Only the shapes are modelled: [Scalar] is what np.isscalar accepts, [Array s] an array of shape [s]; the options are in Model/SingleDiode.v. *)
From Coq Require Import List Arith.
From Verif Require Import Base.Fl Base.Py Model.Tmy.
Import ListNotations.
Local Open Scope nat_scope.

Inductive value := Scalar | Array (s : list nat).
(** np.shape *)
Definition shape (v : value) : list nat := match v with Scalar => [] | Array s => s end.
(** np.size *)
Definition size (s : list nat) : nat := fold_right Nat.mul 1 s.
(** python's max(..., key=...): the first of the largest *)
Fixpoint max_from (best : list nat) (l : list (list nat)) : list nat :=
  match l with [] => best | s :: l' => max_from (if size best <? size s then s else best) l' end.
(** singlediode.py:719-721 *)
Definition shape_of_max_size (args : list value) : res (list nat) :=
  match map shape args with [] => Err ValueError | s :: l => Ok (max_from s l) end.
(** np.broadcast_to(x, s): from the last axis on, every axis has the same length or length 1 *)
Fixpoint fits_reversed (x s : list nat) : bool :=
  match x, s with
  | [], _ => true
  | _ :: _, [] => false
  | a :: x', b :: s' => ((a =? b) || (a =? 1)) && fits_reversed x' s'
  end.
Definition broadcast_to (x s : list nat) : res value := if fits_reversed (rev x) (rev s) then Ok (Array s) else Err ValueError.
Definition isscalar (v : value) : bool := match v with Scalar => true | Array _ => false end.
(** 746-748 *)
Definition prepare_newton_inputs (x0 : value) (args : list value) : res (value * list value) :=
  if isscalar x0 && forallb isscalar args then Ok (x0, args)
  else
    let args := map (fun a => Array (shape a)) args in
    let* s := shape_of_max_size (x0 :: args) in
    let* x0 := broadcast_to (shape x0) s in
    Ok (x0, args).
(** 355-357, 526-528: the lower and upper ends of the bracket of bishop88_i_from_v and bishop88_v_from_i (the first argument and the estimated open-circuit voltage);
    np.full(shape, voc) broadcasts voc to the shape *)
Definition bracket (v voc : value) : res (value * value) :=
  let* s := shape_of_max_size [v; voc] in
  let* hi := broadcast_to (shape voc) s in
  Ok (Array s, hi).
(** 693-694: np.zeros_like(photocurrent), np.full_like(photocurrent, voc): shape and type of the photocurrent.  [integer]: the photocurrent is of an integer type *)
Definition mpp_bracket (photocurrent voc : value) : res (value * value) :=
  let* hi := broadcast_to (shape voc) (shape photocurrent) in
  Ok (Array (shape photocurrent), hi).
(** an element of the upper end; a finite float is cast to an integer towards zero *)
Definition mpp_upper (integer : bool) (voc : R) : R := if integer then IZR (trunc voc) else voc.
