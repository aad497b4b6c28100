(** Documented parameter lookups of Array and PVSystem, written without the model's dictionary helpers. *)
From Coq Require Import String List.
From Verif Require Import Base.Fl Base.Py Model.Inverter Model.System.
Import ListNotations.
Open Scope string_scope.

(** the numeric value of a parameter: [d[k]], or [default] when absent *)
Definition number (d : pdict) (k : string) (x : fl) : Prop := lookup k d = Some (VNum x).
Definition number_or (d : pdict) (k : string) (default x : fl) : Prop :=
  number d k x \/ lookup k d = None /\ x = default.
Definition maybe_number (d : pdict) (k : string) (x : option fl) : Prop :=
  match x with Some v => number d k v | None => lookup k d = None end.

(** [x] occurs in [s] *)
Definition substring (x s : string) : Prop := exists pre post, s = pre ++ x ++ post.

(** SAPM parameters (a, b, deltaT) of the documented mounting types *)
Definition sapm_mountings : list (string * (R * R * R)) :=
  [ ("open_rack_glass_glass", (-3.47, -0.0594, 3)%R); ("close_mount_glass_glass", (-2.98, -0.0471, 1)%R);
    ("open_rack_glass_polymer", (-3.56, -0.0750, 3)%R); ("insulated_back_glass_polymer", (-2.81, -0.0455, 0)%R) ].
Definition sapm_dict (p : R * R * R) : pdict :=
  let '(a, b, dT) := p in [("a", VNum #a); ("b", VNum #b); ("deltaT", VNum #dT)].
Definition pvsyst_dict (u_c : R) : pdict := [("u_c", VNum #u_c); ("u_v", VNum #0)].

(** cell types by the name used for spectral corrections *)
Definition cell_types : list (string * list string) :=
  [ ("monosi", ["Mono-c-Si"; "HIT-Si"; "a-Si / mono-Si"]);
    ("multisi", ["Multi-c-Si"; "mc-Si"; "c-Si"; "EFG mc-Si"]);
    ("cigs", ["Thin Film"; "CIS"; "CIGS"]); ("cdte", ["CdTe"]);
    ("asi", ["a-Si/nc"; "1-a-Si"; "a-Si"; "Si-Film"]) ].
Definition no_cell_type : list string := ["2-a-Si"; "3-a-Si"; "GaAs"].
Definition cell_type (name : string) (t : res (option string)) : Prop :=
  (exists ty names, In (ty, names) cell_types /\ In name names /\ t = Ok (Some ty)) \/
  (In name no_cell_type /\ t = Ok None) \/
  ((forall ty names, In (ty, names) cell_types -> ~ In name names) /\ ~ In name no_cell_type /\ t = Err KeyError).

(** the entries of a Sandia inverter dictionary *)
Definition sandia_entries (d : pdict) (inv : Inverter.sandia_params) : Prop :=
  number d "Paco" (Inverter.Paco inv) /\ number d "Pdco" (Inverter.Pdco inv) /\ number d "Vdco" (Inverter.Vdco inv) /\
  number d "C0" (Inverter.C0 inv) /\ number d "C1" (Inverter.C1 inv) /\ number d "C2" (Inverter.C2 inv) /\ number d "C3" (Inverter.C3 inv) /\
  number d "Pso" (Inverter.Pso inv) /\ number d "Pnt" (Inverter.Pnt inv).
Definition adr_entries (d : pdict) (inv : Inverter.adr_params) : Prop :=
  number d "Pnom" (Inverter.a_Pnom inv) /\ number d "Vnom" (Inverter.a_Vnom inv) /\ number d "Pacmax" (Inverter.a_Pacmax inv) /\
  number d "Pnt" (Inverter.a_Pnt inv) /\ lookup "ADRCoefficients" d = Some (VList (Inverter.a_coef inv)) /\
  number d "Vmax" (Inverter.a_Vmax inv) /\ number d "Vmin" (Inverter.a_Vmin inv) /\ number d "Vdcmax" (Inverter.a_Vdcmax inv) /\
  number d "MPPTHi" (Inverter.a_MPPTHi inv) /\ number d "MPPTLow" (Inverter.a_MPPTLow inv).
