(** Independent statements used by the pvsystem properties. *)
From Coq Require Import Reals ZArith List String Bool.
From Verif Require Import Base.Fl.
Import ListNotations.
Open Scope R_scope.

(** product of (1 - x) over a list of fractions *)
Fixpoint remaining (l : list R) : R := match l with [] => 1 | x :: l' => (1 - x) * remaining l' end.

(** what a module-level quantity is multiplied by at the array level *)
Definition array_factor (name : string) (modules strings : R) : option R :=
  if existsb (String.eqb name) ["v_mp"; "v_oc"]%string then Some modules
  else if existsb (String.eqb name) ["i_mp"; "i_x"; "i_xx"; "i_sc"]%string then Some strings
  else if String.eqb name "p_mp" then Some (modules * strings)
  else None.

(** Marion's low-light correction as a fraction of nameplate, Marion (2008) eq. *)
Definition marion_err (k G : R) : R :=
  if Rle_dec G 200 then k * (1 - (1 - G / 200) ^ 4) else k * (1000 - G) / 800.

(** [v] is the value in force at time [t]: that of the latest row not after t *)
Definition in_force {A} (s : list (Z * A)) (t : Z) (v : A) : Prop :=
  exists u, In (u, v) s /\ (u <= t)%Z /\ forall u' v', In (u', v') s -> (u' <= t)%Z -> (u' <= u)%Z.
(** the row at the first time not before t *)
Definition next_in {A} (s : list (Z * A)) (t : Z) (v : A) : Prop :=
  exists u, In (u, v) s /\ (t <= u)%Z /\ forall u' v', In (u', v') s -> (t <= u')%Z -> (u <= u')%Z.
(** times strictly increasing *)
Fixpoint increasing {A} (s : list (Z * A)) : Prop :=
  match s with
  | [] => True
  | (u, _) :: s' => Forall (fun p => (u < fst p)%Z) s' /\ increasing s'
  end.
