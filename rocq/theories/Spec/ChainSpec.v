(** Independent notions for the ModelChain properties. *)
From Coq Require Import List String Bool Arith.
From Verif Require Import Base.Fl Base.Py Model.System Model.ModelChain.
Import ListNotations.
Open Scope string_scope.

(** ** Inference: candidates in documented priority order *)
Definition dc_candidates : list (dc_kind * list string) :=
  [ (DC_sapm, ["A0"; "A1"; "C3"]);
    (DC_cec, ["a_ref"; "I_L_ref"; "I_o_ref"; "R_sh_ref"; "R_s"; "Adjust"]);
    (DC_desoto, ["a_ref"; "I_L_ref"; "I_o_ref"; "R_sh_ref"; "R_s"]);
    (DC_pvsyst, ["gamma_ref"; "mu_gamma"; "I_L_ref"; "I_o_ref"; "R_sh_ref"; "R_sh_0"; "R_sh_exp"; "R_s"]);
    (DC_pvwatts, ["pdc0"; "gamma_pdc"]) ].
Definition ac_candidates : list (ac_kind * list string) :=
  [ (AC_sandia, ["C0"; "C1"; "C2"]); (AC_adr, ["ADRCoefficients"]); (AC_pvwatts, ["pdc0"]) ].
Definition aoi_candidates : list (aoi_kind * list string) :=
  [ (AOI_physical, ["n"; "K"; "L"]); (AOI_sapm, ["B0"; "B1"; "B2"; "B3"; "B4"; "B5"]); (AOI_ashrae, ["b"]);
    (AOI_martin_ruiz, ["a_r"]); (AOI_interp, ["theta_ref"; "iam_ref"]) ].
Definition temperature_candidates : list (temp_kind * list string) :=
  [ (T_sapm, ["a"; "b"; "deltaT"]); (T_pvsyst, ["u_c"; "u_v"]); (T_faiman, ["u0"; "u1"]); (T_fuentes, ["noct_installed"]);
    (T_noct_sam, ["noct"; "module_efficiency"]) ].
(** [k] is the first candidate all of whose keys are present *)
Definition first_match {K} (cands : list (K * list string)) (present : string -> Prop) (k : K) : Prop :=
  exists pre keys post, cands = (pre ++ (k, keys) :: post)%list /\
    (forall key, In key keys -> present key) /\
    (forall k' keys', In (k', keys') pre -> exists key, In key keys' /\ ~ present key).
Definition no_match {K} (cands : list (K * list string)) (present : string -> Prop) : Prop :=
  forall k keys, In (k, keys) cands -> exists key, In key keys /\ ~ present key.
(** a key present in the dictionaries of every array *)
Definition in_every (get : array -> pdict) (s : pvsystem) (key : string) : Prop :=
  forall a, In a (arrays s) -> In key (map fst (get a)).

(** ** Names of the models *)
Definition dc_names : list (dc_kind * string) :=
  [(DC_sapm, "sapm"); (DC_desoto, "desoto"); (DC_cec, "cec"); (DC_pvsyst, "pvsyst"); (DC_pvwatts, "pvwatts")].
Definition ac_names : list (ac_kind * string) := [(AC_sandia, "sandia"); (AC_adr, "adr"); (AC_pvwatts, "pvwatts")].
Definition aoi_names : list (aoi_kind * string) :=
  [(AOI_ashrae, "ashrae"); (AOI_physical, "physical"); (AOI_sapm, "sapm"); (AOI_martin_ruiz, "martin_ruiz");
   (AOI_schlick, "schlick"); (AOI_interp, "interp"); (AOI_no_loss, "no_loss")].
Definition spectral_names : list (spectral_kind * string) :=
  [(SP_first_solar, "first_solar"); (SP_sapm, "sapm"); (SP_no_loss, "no_loss")].
Definition temperature_names : list (temp_kind * string) :=
  [(T_sapm, "sapm"); (T_pvsyst, "pvsyst"); (T_faiman, "faiman"); (T_fuentes, "fuentes"); (T_noct_sam, "noct_sam")].
Definition ohmic_names : list (ohmic_kind * string) :=
  [(OHM_from_percent, "dc_ohms_from_percent"); (OHM_no_loss, "no_loss")].
Definition losses_names : list (losses_kind * string) := [(LOSS_pvwatts, "pvwatts"); (LOSS_no_loss, "no_loss")].
(** parameters each DC model needs *)
Definition dc_required (k : dc_kind) : list string :=
  match k with
  | DC_sapm => ["C0"; "C1"; "C2"; "C3"; "Isco"; "Impo"; "Voco"; "Vmpo"; "Aisc"; "Aimp"; "Bvoco"; "Mbvoc"; "Bvmpo"; "Mbvmp"; "N";
                "Cells_in_Series"]
  | DC_desoto => ["alpha_sc"; "a_ref"; "I_L_ref"; "I_o_ref"; "R_sh_ref"; "R_s"]
  | DC_cec => ["alpha_sc"; "a_ref"; "I_L_ref"; "I_o_ref"; "R_sh_ref"; "R_s"; "Adjust"]
  | DC_pvsyst => ["gamma_ref"; "mu_gamma"; "I_L_ref"; "I_o_ref"; "R_sh_ref"; "R_sh_0"; "R_s"; "alpha_sc"; "EgRef"; "cells_in_series"]
  | DC_pvwatts => ["pdc0"; "gamma_pdc"]
  end.

(** ** The fields of the results object *)
Inductive field := F_solar_position | F_airmass | F_ac | F_losses | F_total_irrad | F_aoi | F_aoi_modifier
  | F_spectral_modifier | F_cell_temperature | F_effective_irradiance | F_dc | F_diode_params | F_dc_ohmic_losses
  | F_weather | F_times | F_albedo.
Definition same_field (f : field) (r1 r2 : results) : Prop :=
  match f with
  | F_solar_position => solar_position r1 = solar_position r2
  | F_airmass => airmass r1 = airmass r2
  | F_ac => ac r1 = ac r2
  | F_losses => losses r1 = losses r2
  | F_total_irrad => total_irrad r1 = total_irrad r2
  | F_aoi => r_aoi r1 = r_aoi r2
  | F_aoi_modifier => aoi_modifier r1 = aoi_modifier r2
  | F_spectral_modifier => spectral_modifier r1 = spectral_modifier r2
  | F_cell_temperature => cell_temperature r1 = cell_temperature r2
  | F_effective_irradiance => effective_irradiance r1 = effective_irradiance r2
  | F_dc => dc r1 = dc r2
  | F_diode_params => diode_params r1 = diode_params r2
  | F_dc_ohmic_losses => dc_ohmic_losses_ r1 = dc_ohmic_losses_ r2
  | F_weather => weather r1 = weather r2
  | F_times => times r1 = times r2
  | F_albedo => r_albedo r1 = r_albedo r2
  end.
(** fields assigned by the DC, ohmic and loss models of a chain *)
Definition dc_fields (c : chain) : list field :=
  app (match c_dc_model c with Some DC_desoto | Some DC_cec | Some DC_pvsyst => [F_diode_params] | _ => [] end)
      (match c_dc_ohmic_model c with OHM_from_percent => [F_dc_ohmic_losses] | OHM_no_loss => [] end).
(** fields computed by each run method *)
Definition eff_run_fields (c : chain) : list field :=
  app [F_weather; F_times; F_total_irrad; F_effective_irradiance; F_cell_temperature; F_dc; F_losses; F_ac] (dc_fields c).
Definition poa_run_fields (c : chain) : list field :=
  app [F_solar_position; F_airmass; F_aoi; F_aoi_modifier; F_spectral_modifier] (eff_run_fields c).
Definition run_fields (c : chain) : list field := F_albedo :: poa_run_fields c.

(** the calls a user can make on a chain *)
Inductive call := CallRun (i : input) | CallPoa (i : input) | CallEff (i : input) | CallComplete (i : input).
Definition do_call (E : env) (c : chain) (k : call) : M unit :=
  match k with
  | CallRun i => run_model E c i
  | CallPoa i => run_model_from_poa E c i
  | CallEff i => run_model_from_effective_irradiance E c i
  | CallComplete i => complete_irradiance E c i
  end.
(** the results object after a history of calls, whether or not each raised *)
Fixpoint after (E : env) (c : chain) (h : list call) (r : results) : results :=
  match h with [] => r | k :: h' => after E c h' (fst (do_call E c k r)) end.

(** the value that belongs to array number [i] *)
Definition at_array {A} (p : pyarg A) (i : nat) : option A :=
  match p with Tup l => nth_error l i | Bare x => if Nat.eqb i 0 then Some x else None end.
(** the data given for array [i]: its own frame, or the common one *)
Definition input_for (i : input) (k : nat) : option dframe :=
  match i with InFrame d => Some d | InTuple l | InList l => nth_error l k end.
(** the same value, bare in one run and a 1-tuple in the other *)
Definition wrapped {A} (x y : option (pyarg A)) : Prop := exists v, x = Some (Bare v) /\ y = Some (Tup [v]).
(** field by field; albedo taken from the arrays is a tuple in either case *)
Definition wfield (f : field) (r1 r2 : results) : Prop :=
  match f with
  | F_solar_position | F_airmass | F_ac | F_losses | F_times => same_field f r1 r2
  | F_total_irrad => wrapped (total_irrad r1) (total_irrad r2)
  | F_aoi => wrapped (r_aoi r1) (r_aoi r2)
  | F_aoi_modifier => wrapped (aoi_modifier r1) (aoi_modifier r2)
  | F_spectral_modifier => wrapped (spectral_modifier r1) (spectral_modifier r2)
  | F_cell_temperature => wrapped (cell_temperature r1) (cell_temperature r2)
  | F_effective_irradiance => wrapped (effective_irradiance r1) (effective_irradiance r2)
  | F_dc => wrapped (dc r1) (dc r2)
  | F_diode_params => wrapped (diode_params r1) (diode_params r2)
  | F_dc_ohmic_losses => wrapped (dc_ohmic_losses_ r1) (dc_ohmic_losses_ r2)
  | F_weather => wrapped (weather r1) (weather r2)
  | F_albedo => wrapped (r_albedo r1) (r_albedo r2) \/ exists v, r_albedo r1 = Some (Tup [v]) /\ r_albedo r2 = Some (Tup [v])
  end.

(** ** Outcomes *)
(** two executions end the same way, with the same values in the given fields when they succeed *)
Definition same_outcome {A} (l : list field) (x y : results * res A) : Prop :=
  match x, y with
  | (r1, Ok _), (r2, Ok _) => forall f, In f l -> same_field f r1 r2
  | (_, Err e1), (_, Err e2) => e1 = e2
  | _, _ => False
  end.
(** a bare run and a list run end the same way; the per-array fields hold [v] in one and [(v,)] in the other *)
Definition wrapped_outcome {A} (l : list field) (x y : results * res A) : Prop :=
  match x, y with
  | (r1, Ok _), (r2, Ok _) => forall f, In f l -> wfield f r1 r2
  | (_, Err e1), (_, Err e2) => e1 = e2
  | _, _ => False
  end.

(** ** Valid inputs *)
Definition frames (i : input) : list dframe := match i with InFrame d => [d] | InTuple l | InList l => l end.
Definition has_columns (keys : list string) (i : input) : Prop :=
  forall d k, In d (frames i) -> In k keys -> In k (map fst (df_cols d)).
Definition same_index (i : input) : Prop := forall d d', In d (frames i) -> In d' (frames i) -> df_index d = df_index d'.
Definition one_per_array (n : nat) (i : input) : Prop := match i with InFrame _ => True | InTuple l | InList l => length l = n end.
