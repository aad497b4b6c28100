(** The Sandia Array Performance Model (King et al. 2004), written on real numbers. *)
From Coq Require Import Reals String List.
From Verif Require Import Base.Fl Base.Py.
Import ListNotations.
Open Scope R_scope.
Open Scope string_scope.

(** every key the DC model needs *)
Definition sapm_required : list string :=
  ["Isco"; "Impo"; "Voco"; "Vmpo"; "Aisc"; "Aimp"; "Bvoco"; "Mbvoc"; "Bvmpo"; "Mbvmp"; "N"; "Cells_in_Series"; "C0"; "C1"; "C2"; "C3"].
(** [p k] is the finite value of key [k] *)
Definition reads (m : list (string * fl)) (p : string -> R) : Prop :=
  forall k, In k sapm_required -> lookup k m = Some (Fin (p k)).

Section Equations.
  (** Boltzmann constant, elementary charge, module parameters, Ee in suns, cell and reference temperature *)
  Context (k q : R) (p : string -> R) (Ee T T0 : R).
  (** thermal voltage per cell *)
  Definition sapm_delta : R := p "N" * k * (T + 273.15) / q.
  Definition sapm_isc : R := p "Isco" * Ee * (1 + p "Aisc" * (T - T0)).
  Definition sapm_imp : R := p "Impo" * (p "C0" * Ee + p "C1" * Ee ^ 2) * (1 + p "Aimp" * (T - T0)).
  Definition sapm_voc : R :=
    p "Voco" + p "Cells_in_Series" * sapm_delta * ln Ee + (p "Bvoco" + p "Mbvoc" * (1 - Ee)) * (T - T0).
  Definition sapm_vmp : R :=
    p "Vmpo" + p "C2" * p "Cells_in_Series" * sapm_delta * ln Ee + p "C3" * p "Cells_in_Series" * (sapm_delta * ln Ee) ^ 2
    + (p "Bvmpo" + p "Mbvmp" * (1 - Ee)) * (T - T0).
End Equations.
