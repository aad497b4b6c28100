(** Model of pvlib/modelchain.py: ModelChainResult, the model setters and inference, the run methods.

    Series are lists of numbers lined up by position with the index of the input data; data frames have an index and
    named columns.  What other modules compute (solar position, airmass, transposition, incidence-angle modifiers, cell
    temperature, DC and AC models) are functions in the record [env], over which the theorems quantify.  User-supplied callables as models are not modelled, nor are warnings, __repr__, the
    deprecated get_orientation, nor the unused _prep_inputs_tracking. *)
From Verif Require Import Base.Fl Base.Py Model.Tools Model.Pvsystem Model.System.
From Coq Require Import ZArith.
Open Scope string_scope.
Open Scope list_scope.

Definition ser := list fl.
(** a float or a Series *)
Inductive nser := Sc (x : fl) | Ser (l : ser).
(** an input data frame *)
Record dframe := DF { df_index : list Z; df_cols : frame }.
Definition has_col (k : string) (d : frame) : bool := mem k (map fst d).
(** results.dc of one array: a Series (pvwatts) or a frame *)
Inductive dcval := DcS (p : ser) | DcF (d : frame).
(** results.losses: the number 1 or a fraction *)

(** ** What the chain calls *)
Record env := Env {
  e_solarposition : list Z -> string -> option ser -> option ser -> res frame;   (* times, method, pressure, temperature *)
  e_airmass : frame -> string -> res frame;                                     (* solar_position, model *)
  e_clearsky : list Z -> string -> frame -> res frame;                          (* times, model, solar_position *)
  e_complete : ser -> option ser -> option ser -> option ser -> option ser -> res frame; (* zenith ghi dhi dni dni_clear *)
  e_aoi : array -> ser -> ser -> ser;                                           (* apparent_zenith, azimuth *)
  e_irradiance : list Z -> array -> ser -> ser -> ser -> ser -> ser -> ser -> nser -> string -> res frame;
      (* times, zenith, azimuth, dni, ghi, dhi, airmass, albedo, model *)
  e_iam : array -> ser -> string -> res ser;
  e_first_solar : array -> ser -> ser -> res ser;                               (* precipitable water, absolute airmass *)
  e_sapm_spectral : array -> ser -> res ser;
  e_cell_temperature : list Z -> array -> ser -> ser -> ser -> string -> option ser -> res ser;
      (* times, poa, temp_air, wind_speed, model, effective_irradiance *)
  e_cell_from_module : ser -> ser -> pval -> res ser;                           (* module_temperature, poa, deltaT *)
  e_sapm : array -> ser -> ser -> res frame;
  e_calcparams : string -> array -> ser -> ser -> res frame;                    (* 'desoto', 'cec' or 'pvsyst' *)
  e_singlediode : frame -> res frame;
  e_pvwatts_dc : array -> ser -> ser -> res ser;
  e_sandia : ser -> ser -> res ser;                                             (* v_dc, p_dc *)
  e_sandia_multi : list ser -> list ser -> res ser;
  e_adr : ser -> ser -> res ser;
  e_pvwatts : dcval -> res ser;
  e_pvwatts_multi : list dcval -> res ser }.

(** ** ModelChainResult, modelchain.py:135-257 *)
Record results := Results {
  singleton_tuples : bool;
  solar_position : option frame; airmass : option frame; ac : option ser; losses : option fl;
  total_irrad : option (pyarg frame); r_aoi : option (pyarg ser); aoi_modifier : option (pyarg nser);
  spectral_modifier : option (pyarg nser); cell_temperature : option (pyarg ser);
  effective_irradiance : option (pyarg ser); dc : option (pyarg dcval); diode_params : option (pyarg frame);
  dc_ohmic_losses_ : option (pyarg ser); weather : option (pyarg dframe); times : option (list Z);
  r_albedo : option (pyarg nser) }.
Definition fresh_results : results :=
  Results false None None None None None None None None None None None None None None None None.

(** modelchain.py:244-257 _result_type, __setattr__ on a per-array field *)
Definition wrap {A} (r : results) (v : pyarg A) : pyarg A :=
  match singleton_tuples r, v with true, Bare x => Tup [x] | _, _ => v end.

(** ** Computations on the results object: an exception keeps the assignments made so far *)
Definition M (A : Type) : Type := results -> results * res A.
Definition ret {A} (a : A) : M A := fun r => (r, Ok a).
Definition lift {A} (x : res A) : M A := fun r => (r, x).
Definition mbind {A B} (m : M A) (k : A -> M B) : M B :=
  fun r => let (r', x) := m r in match x with Ok a => k a r' | Err e => (r', Err e) end.
Notation "'let!' x ':=' m 'in' k" := (mbind m (fun x => k))
  (at level 200, x pattern, m at level 100, k at level 200, right associativity).
Notation "m1 ;; m2" := (mbind m1 (fun _ => m2)) (at level 100, m2 at level 200, right associativity).
Definition upd (f : results -> results) : M unit := fun r => (f r, Ok tt).
(** reading a field that holds None and using it *)
Definition need {A} (f : results -> option A) : M A :=
  fun r => (r, match f r with Some a => Ok a | None => Err TypeError end).

Definition set_flag b (r : results) := Results b (solar_position r) (airmass r) (ac r) (losses r) (total_irrad r) (r_aoi r)
  (aoi_modifier r) (spectral_modifier r) (cell_temperature r) (effective_irradiance r) (dc r) (diode_params r)
  (dc_ohmic_losses_ r) (weather r) (times r) (r_albedo r).
Definition set_solar_position v (r : results) := Results (singleton_tuples r) (Some v) (airmass r) (ac r) (losses r) (total_irrad r) (r_aoi r)
  (aoi_modifier r) (spectral_modifier r) (cell_temperature r) (effective_irradiance r) (dc r) (diode_params r)
  (dc_ohmic_losses_ r) (weather r) (times r) (r_albedo r).
Definition set_airmass v (r : results) := Results (singleton_tuples r) (solar_position r) (Some v) (ac r) (losses r) (total_irrad r) (r_aoi r)
  (aoi_modifier r) (spectral_modifier r) (cell_temperature r) (effective_irradiance r) (dc r) (diode_params r)
  (dc_ohmic_losses_ r) (weather r) (times r) (r_albedo r).
Definition set_ac v (r : results) := Results (singleton_tuples r) (solar_position r) (airmass r) (Some v) (losses r) (total_irrad r) (r_aoi r)
  (aoi_modifier r) (spectral_modifier r) (cell_temperature r) (effective_irradiance r) (dc r) (diode_params r)
  (dc_ohmic_losses_ r) (weather r) (times r) (r_albedo r).
Definition set_losses v (r : results) := Results (singleton_tuples r) (solar_position r) (airmass r) (ac r) (Some v) (total_irrad r) (r_aoi r)
  (aoi_modifier r) (spectral_modifier r) (cell_temperature r) (effective_irradiance r) (dc r) (diode_params r)
  (dc_ohmic_losses_ r) (weather r) (times r) (r_albedo r).
Definition set_total_irrad v (r : results) := Results (singleton_tuples r) (solar_position r) (airmass r) (ac r) (losses r) (Some (wrap r v)) (r_aoi r)
  (aoi_modifier r) (spectral_modifier r) (cell_temperature r) (effective_irradiance r) (dc r) (diode_params r)
  (dc_ohmic_losses_ r) (weather r) (times r) (r_albedo r).
Definition set_aoi v (r : results) := Results (singleton_tuples r) (solar_position r) (airmass r) (ac r) (losses r) (total_irrad r) (Some (wrap r v))
  (aoi_modifier r) (spectral_modifier r) (cell_temperature r) (effective_irradiance r) (dc r) (diode_params r)
  (dc_ohmic_losses_ r) (weather r) (times r) (r_albedo r).
Definition set_aoi_modifier v (r : results) := Results (singleton_tuples r) (solar_position r) (airmass r) (ac r) (losses r) (total_irrad r) (r_aoi r)
  (Some (wrap r v)) (spectral_modifier r) (cell_temperature r) (effective_irradiance r) (dc r) (diode_params r)
  (dc_ohmic_losses_ r) (weather r) (times r) (r_albedo r).
Definition set_spectral_modifier v (r : results) := Results (singleton_tuples r) (solar_position r) (airmass r) (ac r) (losses r) (total_irrad r) (r_aoi r)
  (aoi_modifier r) (Some (wrap r v)) (cell_temperature r) (effective_irradiance r) (dc r) (diode_params r)
  (dc_ohmic_losses_ r) (weather r) (times r) (r_albedo r).
(** None passes through unwrapped *)
Definition set_cell_temperature (v : option (pyarg ser)) (r : results) := Results (singleton_tuples r) (solar_position r) (airmass r) (ac r) (losses r) (total_irrad r) (r_aoi r)
  (aoi_modifier r) (spectral_modifier r) (option_map (wrap r) v) (effective_irradiance r) (dc r) (diode_params r)
  (dc_ohmic_losses_ r) (weather r) (times r) (r_albedo r).
Definition set_effective_irradiance v (r : results) := Results (singleton_tuples r) (solar_position r) (airmass r) (ac r) (losses r) (total_irrad r) (r_aoi r)
  (aoi_modifier r) (spectral_modifier r) (cell_temperature r) (Some (wrap r v)) (dc r) (diode_params r)
  (dc_ohmic_losses_ r) (weather r) (times r) (r_albedo r).
Definition set_dc v (r : results) := Results (singleton_tuples r) (solar_position r) (airmass r) (ac r) (losses r) (total_irrad r) (r_aoi r)
  (aoi_modifier r) (spectral_modifier r) (cell_temperature r) (effective_irradiance r) (Some (wrap r v)) (diode_params r)
  (dc_ohmic_losses_ r) (weather r) (times r) (r_albedo r).
Definition set_diode_params v (r : results) := Results (singleton_tuples r) (solar_position r) (airmass r) (ac r) (losses r) (total_irrad r) (r_aoi r)
  (aoi_modifier r) (spectral_modifier r) (cell_temperature r) (effective_irradiance r) (dc r) (Some (wrap r v))
  (dc_ohmic_losses_ r) (weather r) (times r) (r_albedo r).
Definition set_dc_ohmic_losses v (r : results) := Results (singleton_tuples r) (solar_position r) (airmass r) (ac r) (losses r) (total_irrad r) (r_aoi r)
  (aoi_modifier r) (spectral_modifier r) (cell_temperature r) (effective_irradiance r) (dc r) (diode_params r)
  (Some (wrap r v)) (weather r) (times r) (r_albedo r).
Definition set_weather v (r : results) := Results (singleton_tuples r) (solar_position r) (airmass r) (ac r) (losses r) (total_irrad r) (r_aoi r)
  (aoi_modifier r) (spectral_modifier r) (cell_temperature r) (effective_irradiance r) (dc r) (diode_params r)
  (dc_ohmic_losses_ r) (Some (wrap r v)) (times r) (r_albedo r).
Definition set_times v (r : results) := Results (singleton_tuples r) (solar_position r) (airmass r) (ac r) (losses r) (total_irrad r) (r_aoi r)
  (aoi_modifier r) (spectral_modifier r) (cell_temperature r) (effective_irradiance r) (dc r) (diode_params r)
  (dc_ohmic_losses_ r) (weather r) (Some v) (r_albedo r).
Definition set_albedo v (r : results) := Results (singleton_tuples r) (solar_position r) (airmass r) (ac r) (losses r) (total_irrad r) (r_aoi r)
  (aoi_modifier r) (spectral_modifier r) (cell_temperature r) (effective_irradiance r) (dc r) (diode_params r)
  (dc_ohmic_losses_ r) (weather r) (times r) (Some (wrap r v)).

(** ** The selectable models *)
Inductive dc_kind := DC_sapm | DC_desoto | DC_cec | DC_pvsyst | DC_pvwatts.
Inductive ac_kind := AC_sandia | AC_adr | AC_pvwatts.
Inductive aoi_kind := AOI_ashrae | AOI_physical | AOI_sapm | AOI_martin_ruiz | AOI_schlick | AOI_interp | AOI_no_loss.
Inductive spectral_kind := SP_first_solar | SP_sapm | SP_no_loss.
Inductive temp_kind := T_sapm | T_pvsyst | T_faiman | T_fuentes | T_noct_sam.
Inductive ohmic_kind := OHM_from_percent | OHM_no_loss.
Inductive losses_kind := LOSS_pvwatts | LOSS_no_loss.

(** [set(l) <= set(keys)] *)
Definition subset (l keys : list string) : bool := forallb (fun k => mem k keys) l.
(** modelchain.py:2049-2056 _common_keys of the dictionaries of a (non-empty) list of arrays *)
Definition common_keys (dicts : list pdict) : list string :=
  match dicts with
  | [] => []
  | d :: ds => filter (fun k => forallb (fun d' => haskey k d') ds) (map fst d)
  end.
Definition module_keys (s : pvsystem) : list string := common_keys (map ar_module_parameters (arrays s)).
Definition temperature_keys (s : pvsystem) : list string := common_keys (map ar_temperature_model_parameters (arrays s)).

(** modelchain.py:619-640 infer_dc_model *)
Definition infer_dc_model (s : pvsystem) : res (dc_kind * string) :=
  let params := module_keys s in
  if subset ["A0"; "A1"; "C3"] params then Ok (DC_sapm, "sapm")
  else if subset ["a_ref"; "I_L_ref"; "I_o_ref"; "R_sh_ref"; "R_s"; "Adjust"] params then Ok (DC_cec, "cec")
  else if subset ["a_ref"; "I_L_ref"; "I_o_ref"; "R_sh_ref"; "R_s"] params then Ok (DC_desoto, "desoto")
  else if subset ["gamma_ref"; "mu_gamma"; "I_L_ref"; "I_o_ref"; "R_sh_ref"; "R_sh_0"; "R_sh_exp"; "R_s"] params
       then Ok (DC_pvsyst, "pvsyst")
  else if subset ["pdc0"; "gamma_pdc"] params then Ok (DC_pvwatts, "pvwatts")
  else Err ValueError.
(** pvsystem.py:27-47 _DC_MODEL_PARAMS *)
Definition DC_MODEL_PARAMS : list (string * list string) :=
  [("sapm", ["C0"; "C1"; "C2"; "C3"; "Isco"; "Impo"; "Voco"; "Vmpo"; "Aisc"; "Aimp"; "Bvoco"; "Mbvoc"; "Bvmpo"; "Mbvmp"; "N";
             "Cells_in_Series"]);
   ("desoto", ["alpha_sc"; "a_ref"; "I_L_ref"; "I_o_ref"; "R_sh_ref"; "R_s"]);
   ("cec", ["alpha_sc"; "a_ref"; "I_L_ref"; "I_o_ref"; "R_sh_ref"; "R_s"; "Adjust"]);
   ("pvsyst", ["gamma_ref"; "mu_gamma"; "I_L_ref"; "I_o_ref"; "R_sh_ref"; "R_sh_0"; "R_s"; "alpha_sc"; "EgRef"; "cells_in_series"]);
   ("singlediode", ["alpha_sc"; "a_ref"; "I_L_ref"; "I_o_ref"; "R_sh_ref"; "R_s"]);
   ("pvwatts", ["pdc0"; "gamma_pdc"])].
(** modelchain.py:584-617 the dc_model setter: the new value of the attribute ([None]: never assigned), and the
    exception if one is raised.  The attribute is assigned by inference before the parameters are validated. *)
Definition set_dc_model (s : pvsystem) (current : option dc_kind) (model : option string) : option dc_kind * res unit :=
  let by_name cur (m : string) :=
    let m := lower m in
    match lookup m DC_MODEL_PARAMS with
    | None => (cur, Err ValueError)
    | Some required =>
        if negb (subset required (module_keys s)) then (cur, Err ValueError)
        else if String.eqb m "sapm" then (Some DC_sapm, Ok tt)
        else if String.eqb m "desoto" then (Some DC_desoto, Ok tt)
        else if String.eqb m "cec" then (Some DC_cec, Ok tt)
        else if String.eqb m "pvsyst" then (Some DC_pvsyst, Ok tt)
        else if String.eqb m "pvwatts" then (Some DC_pvwatts, Ok tt)
        else (cur, Ok tt)
    end in
  match model with
  | None => match infer_dc_model s with
            | Err e => (current, Err e)
            | Ok (k, name) => by_name (Some k) name
            end
  | Some m => by_name current m
  end.

(** modelchain.py:2013-2028 and 732-749 infer_ac_model *)
Definition infer_ac_model (s : pvsystem) : res ac_kind :=
  let params := map fst (inverter_parameters s) in
  if subset ["C0"; "C1"; "C2"] params then Ok AC_sandia
  else if subset ["ADRCoefficients"] params then
    if Nat.ltb 1 (num_arrays s) then Err ValueError else Ok AC_adr
  else if subset ["pdc0"] params then Ok AC_pvwatts
  else Err ValueError.
(** modelchain.py:715-730 the ac_model setter; line 723 tests substring membership *)
Definition set_ac_model (s : pvsystem) (model : option string) : res ac_kind :=
  match model with
  | None => infer_ac_model s
  | Some m => let m := lower m in
              if String.eqb m "sandia" then Ok AC_sandia
              else if contains m "adr" then Ok AC_adr
              else if String.eqb m "pvwatts" then Ok AC_pvwatts
              else Err ValueError
  end.

(** modelchain.py:801-826 infer_aoi_model; iam.py:21-27 *)
Definition infer_aoi_model (s : pvsystem) : res aoi_kind :=
  let params := module_keys s in
  if subset ["n"; "K"; "L"] params then Ok AOI_physical
  else if subset ["B0"; "B1"; "B2"; "B3"; "B4"; "B5"] params then Ok AOI_sapm
  else if subset ["b"] params then Ok AOI_ashrae
  else if subset ["a_r"] params then Ok AOI_martin_ruiz
  else if subset ["theta_ref"; "iam_ref"] params then Ok AOI_interp
  else Err ValueError.
(** modelchain.py:776-799 *)
Definition set_aoi_model (s : pvsystem) (model : option string) : res aoi_kind :=
  match model with
  | None => infer_aoi_model s
  | Some m => let m := lower m in
              if String.eqb m "ashrae" then Ok AOI_ashrae
              else if String.eqb m "physical" then Ok AOI_physical
              else if String.eqb m "sapm" then Ok AOI_sapm
              else if String.eqb m "martin_ruiz" then Ok AOI_martin_ruiz
              else if String.eqb m "schlick" then Ok AOI_schlick
              else if String.eqb m "interp" then Ok AOI_interp
              else if String.eqb m "no_loss" then Ok AOI_no_loss
              else Err ValueError
  end.
(** modelchain.py:879-895 *)
Definition set_spectral_model (model : option string) : res spectral_kind :=
  match model with
  | Some m => let m := lower m in
              if String.eqb m "first_solar" then Ok SP_first_solar
              else if String.eqb m "sapm" then Ok SP_sapm
              else if String.eqb m "no_loss" then Ok SP_no_loss
              else Err ValueError
  | None => Ok SP_no_loss
  end.
(** modelchain.py:955-979 infer_temperature_model *)
Definition infer_temperature_model (s : pvsystem) : res temp_kind :=
  let params := temperature_keys s in
  if subset ["a"; "b"; "deltaT"] params then Ok T_sapm
  else if subset ["u_c"; "u_v"] params then Ok T_pvsyst
  else if subset ["u0"; "u1"] params then Ok T_faiman
  else if subset ["noct_installed"] params then Ok T_fuentes
  else if subset ["noct"; "module_efficiency"] params then Ok T_noct_sam
  else Err ValueError.
Definition temp_name (k : temp_kind) : string :=
  match k with T_sapm => "sapm" | T_pvsyst => "pvsyst" | T_faiman => "faiman" | T_fuentes => "fuentes" | T_noct_sam => "noct_sam" end.
(** modelchain.py:921-953: the attribute is assigned before the consistency check at 939-951 *)
Definition set_temperature_model (s : pvsystem) (current : option temp_kind) (model : option string) : option temp_kind * res unit :=
  match model with
  | None => match infer_temperature_model s with Ok k => (Some k, Ok tt) | Err e => (current, Err e) end
  | Some m =>
      let m := lower m in
      let named := if String.eqb m "sapm" then Some T_sapm
                   else if String.eqb m "pvsyst" then Some T_pvsyst
                   else if String.eqb m "faiman" then Some T_faiman
                   else if String.eqb m "fuentes" then Some T_fuentes
                   else if String.eqb m "noct_sam" then Some T_noct_sam
                   else None in
      match named with
      | None => (current, Err ValueError)
      | Some k => (Some k, let* k' := infer_temperature_model s in
                           if String.eqb (temp_name k) (temp_name k') then Ok tt else Err ValueError)
      end
  end.
(** modelchain.py:1027-1038; None is not callable *)
Definition set_dc_ohmic_model (model : option string) : res ohmic_kind :=
  match model with
  | Some m => let m := lower m in
              if String.eqb m "dc_ohms_from_percent" then Ok OHM_from_percent
              else if String.eqb m "no_loss" then Ok OHM_no_loss
              else Err ValueError
  | None => Err TypeError
  end.
(** modelchain.py:1071-1087 *)
Definition set_losses_model (model : option string) : res losses_kind :=
  match model with
  | None => Err NotImplementedError
  | Some m => let m := lower m in
              if String.eqb m "pvwatts" then Ok LOSS_pvwatts
              else if String.eqb m "no_loss" then Ok LOSS_no_loss
              else Err ValueError
  end.

(** a chain; [dc_model = None] when the attribute was never assigned *)
Record chain := Chain {
  c_system : pvsystem; c_clearsky_model : string; c_transposition_model : string; c_solar_position_method : string;
  c_airmass_model : string; c_dc_model : option dc_kind; c_ac_model : ac_kind; c_aoi_model : aoi_kind;
  c_spectral_model : spectral_kind; c_temperature_model : temp_kind; c_dc_ohmic_model : ohmic_kind; c_losses_model : losses_kind }.
(** modelchain.py:370-399 __init__ (results start as fresh_results) *)
Definition chain_init (s : pvsystem) (clearsky transposition solpos airmass : string)
    (dc_model ac_model aoi_model spectral_model temperature_model dc_ohmic_model losses_model : option string) : res chain :=
  let '(dcm, r) := set_dc_model s None dc_model in
  let* _ := r in
  let* acm := set_ac_model s ac_model in
  let* aoim := set_aoi_model s aoi_model in
  let* spm := set_spectral_model spectral_model in
  let '(tm, r) := set_temperature_model s None temperature_model in
  let* _ := r in
  let* tm := match tm with Some k => Ok k | None => Err AttributeError end in
  let* ohm := set_dc_ohmic_model dc_ohmic_model in
  let* lm := set_losses_model losses_model in
  Ok (Chain s clearsky transposition solpos airmass dcm acm aoim spm tm ohm lm).

(** ** System methods on tuples of series: validation, one call per array, unwrapping (pvsystem.py:50-67, 254-272) *)
Definition unwrap_if {A} (b : bool) (l : list A) : pyarg A := if b then unwrap l else Tup l.
Definition tuple_of {A} (p : pyarg A) : list A := match p with Tup l => l | Bare x => [x] end.
(** modelchain.py:2059-2068 _tuple_from_dfs *)
Definition each {A B} (f : A -> res B) (p : pyarg A) : res (pyarg B) :=
  match p with Tup l => rmap Tup (mapM f l) | Bare x => rmap Bare (f x) end.
Definition col (name : string) (d : frame) : res ser := getitem d name.
Definition dcol (name : string) (d : dframe) : res ser := col name (df_cols d).
(** results.dc[name] of one array: a Series has no such label *)
Definition dccol (name : string) (d : dcval) : res ser := match d with DcS _ => Err KeyError | DcF d => col name d end.

Section Run.
Variable E : env.
Variable c : chain.
Let s := c_system c.
Let n := num_arrays s.

(** modelchain.py:2071-2074 _to_tuple: what the user passed *)
Inductive input := InFrame (d : dframe) | InTuple (l : list dframe) | InList (l : list dframe).
Definition to_tuple (i : input) : pyarg dframe := match i with InFrame d => Bare d | InTuple l | InList l => Tup l end.

(** index.equals on the same times *)
Definition index_eqb (a b : list Z) : bool := if list_eq_dec Z.eq_dec a b then true else false.
(** modelchain.py:2039-2046 _all_same_index *)
Definition all_same_index (l : list dframe) : bool :=
  match l with [] => true | d :: ds => forallb (fun d' => index_eqb (df_index d') (df_index d)) ds end.
(** modelchain.py:1445-1469 _check_multiple_input *)
Definition check_multiple_input (data : pyarg dframe) (strict : bool) : res unit :=
  match data with
  | Bare _ => if (negb strict || Nat.eqb n 1)%bool then Ok tt else Err TypeError
  | Tup l => if negb (Nat.eqb (length l) n) then Err ValueError
             else if all_same_index l then Ok tt else Err ValueError
  end.
(** modelchain.py:1289-1312 _verify_df *)
Definition verify_df (data : pyarg dframe) (required : list string) : res unit :=
  if forallb (fun d => subset required (map fst (df_cols d))) (tuple_of data) then Ok tt else Err ValueError.

Definition WEATHER_KEYS := ["ghi"; "dhi"; "dni"; "wind_speed"; "temp_air"; "precipitable_water"].
Definition POA_KEYS := ["poa_global"; "poa_direct"; "poa_diffuse"].
(** modelchain.py:1334-1341 _build_weather *)
Definition build_weather (d : dframe) : dframe :=
  let w := df_filter WEATHER_KEYS (df_cols d) in
  let w := if has_col "wind_speed" w then w else w ++ [("wind_speed", repeat #0 (length (df_index d)))] in
  let w := if has_col "temp_air" w then w else w ++ [("temp_air", repeat #20 (length (df_index d)))] in
  DF (df_index d) w.
(** modelchain.py:1364-1378 _assign_times *)
Definition assign_times : M unit :=
  let! w := need weather in
  match w with
  | Tup (d :: _) | Bare d => upd (set_times (df_index d))
  | Tup [] => lift (Err IndexError)
  end.
(** modelchain.py:1314-1350 _configure_results, _assign_weather *)
Definition assign_weather (data : pyarg dframe) : M unit :=
  upd (set_flag (Nat.eqb n 1 && match data with Tup _ => true | Bare _ => false end)) ;;
  upd (set_weather (match data with Tup l => Tup (map build_weather l) | Bare d => Bare (build_weather d) end)) ;;
  assign_times.
(** modelchain.py:1352-1362 _assign_total_irrad *)
Definition assign_total_irrad (data : pyarg dframe) : M unit :=
  let build d := df_filter POA_KEYS (df_cols d) in
  upd (set_total_irrad (match data with Tup l => Tup (map build l) | Bare d => Bare (build d) end)).
(** modelchain.py:1226-1242 _prep_inputs_solar_pos: reads the input data, not results.weather *)
Definition prep_inputs_solar_pos (data : pyarg dframe) : M unit :=
  let! d := lift (match data with Tup (d :: _) | Bare d => Ok d | Tup [] => Err IndexError end) in
  let! t := need times in
  let! sp := lift (e_solarposition E t (c_solar_position_method c) (lookup "pressure" (df_cols d)) (lookup "temp_air" (df_cols d))) in
  upd (set_solar_position sp).
(** modelchain.py:1255-1262 *)
Definition prep_inputs_airmass : M unit :=
  let! sp := need solar_position in
  let! am := lift (e_airmass E sp (c_airmass_model c)) in
  upd (set_airmass am).
(** modelchain.py:1244-1253 *)
Definition prep_inputs_albedo (data : pyarg dframe) : M unit :=
  match each (dcol "albedo") data with
  | Ok (Tup l) => upd (set_albedo (Tup (map Ser l)))
  | Ok (Bare a) => upd (set_albedo (Bare (Ser a)))
  | Err _ => upd (set_albedo (Tup (map (fun a => Sc (ar_albedo a)) (arrays s))))
  end.
(** modelchain.py:1280-1287; pvsystem.py:287-305 *)
Definition prep_inputs_fixed : M unit :=
  let! sp := need solar_position in
  let! z := lift (col "apparent_zenith" sp) in
  let! az := lift (col "azimuth" sp) in
  upd (set_aoi (unwrap (map (fun a => e_aoi E a z az) (arrays s)))).
(** pvsystem.py:307-380 on series; albedo is given *)
Definition sys_irradiance (t : list Z) (z az : ser) (dni ghi dhi : pyarg ser) (albedo : pyarg nser) (am : ser) (model : string) : res (pyarg frame) :=
  let* dni := validate_per_array s dni true in
  let* ghi := validate_per_array s ghi true in
  let* dhi := validate_per_array s dhi true in
  let* albedo := validate_per_array s albedo true in
  rmap unwrap (mapM (fun '(a, (dni, (ghi, (dhi, albedo)))) => e_irradiance E t a z az dni ghi dhi am albedo model)
    (combine (arrays s) (combine dni (combine ghi (combine dhi albedo))))).
(** modelchain.py:1380-1443 prepare_inputs *)
Definition prepare_inputs (data : pyarg dframe) : M unit :=
  lift (check_multiple_input data false) ;;
  lift (verify_df data ["ghi"; "dni"; "dhi"]) ;;
  assign_weather data ;;
  prep_inputs_solar_pos data ;;
  prep_inputs_airmass ;;
  prep_inputs_albedo data ;;
  prep_inputs_fixed ;;
  let! sp := need solar_position in
  let! z := lift (col "apparent_zenith" sp) in
  let! az := lift (col "azimuth" sp) in
  let! w := need weather in
  let! dni := lift (each (dcol "dni") w) in
  let! ghi := lift (each (dcol "ghi") w) in
  let! dhi := lift (each (dcol "dhi") w) in
  let! alb := need r_albedo in
  let! am := need airmass in
  let! amr := lift (col "airmass_relative" am) in
  let! t := need times in
  let! ti := lift (sys_irradiance t z az dni ghi dhi alb amr (c_transposition_model c)) in
  upd (set_total_irrad ti).
(** modelchain.py:1471-1517 prepare_inputs_from_poa *)
Definition prepare_inputs_from_poa (data : pyarg dframe) : M unit :=
  lift (check_multiple_input data true) ;;
  assign_weather data ;;
  lift (verify_df data ["poa_global"; "poa_direct"; "poa_diffuse"]) ;;
  assign_total_irrad data ;;
  prep_inputs_solar_pos data ;;
  prep_inputs_airmass ;;
  prep_inputs_fixed.

(** modelchain.py:828-873 the aoi models; pvsystem.py:382-412 *)
Definition sys_iam (aoi : pyarg ser) (model : string) : res (pyarg nser) :=
  let* aoi := validate_per_array s aoi false in
  rmap unwrap (mapM (fun '(a, x) => rmap Ser (e_iam E a x model)) (combine (arrays s) aoi)).
Definition ones : pyarg nser := if Nat.eqb n 1 then Bare (Sc #1) else Tup (repeat (Sc #1) n).
Definition run_aoi_model : M unit :=
  let named m := let! a := need r_aoi in let! x := lift (sys_iam a m) in upd (set_aoi_modifier x) in
  match c_aoi_model c with
  | AOI_ashrae => named "ashrae" | AOI_physical => named "physical" | AOI_sapm => named "sapm"
  | AOI_martin_ruiz => named "martin_ruiz" | AOI_schlick => named "schlick" | AOI_interp => named "interp"
  | AOI_no_loss => upd (set_aoi_modifier ones)
  end.
(** modelchain.py:897-915 the spectral models; pvsystem.py:625-735 *)
Definition sys_first_solar (pw : pyarg ser) (am : ser) : res (pyarg nser) :=
  let* pw := validate_per_array s pw true in
  rmap unwrap (mapM (fun '(a, w) => rmap Ser (e_first_solar E a w am)) (combine (arrays s) pw)).
Definition run_spectral_model : M unit :=
  match c_spectral_model c with
  | SP_first_solar =>
      let! w := need weather in
      let! pw := lift (each (dcol "precipitable_water") w) in
      let! am := need airmass in
      let! ama := lift (col "airmass_absolute" am) in
      let! x := lift (sys_first_solar pw ama) in
      upd (set_spectral_modifier x)
  | SP_sapm =>
      let! am := need airmass in
      let! ama := lift (col "airmass_absolute" am) in
      let! x := lift (rmap unwrap (mapM (fun a => rmap Ser (e_sapm_spectral E a ama)) (arrays s))) in
      upd (set_spectral_modifier x)
  | SP_no_loss => upd (set_spectral_modifier ones)
  end.

(** element-wise arithmetic with broadcasting of scalars *)
Fixpoint zipw (f : fl -> fl -> fl) (a b : ser) : ser :=
  match a, b with x :: a', y :: b' => f x y :: zipw f a' b' | _, _ => [] end.
Definition nmul (m : nser) (x : ser) : ser := match m with Sc k => map (fmul k) x | Ser l => zipw fmul l x end.
(** modelchain.py:1102-1120 effective_irradiance_model *)
Definition eff_irrad (mp : pdict) (ti : frame) (sm am : nser) : res ser :=
  let* fd := match lookup "FD" mp with Some v => as_num v | None => Ok #1 end in
  let* direct := col "poa_direct" ti in
  let* diffuse := col "poa_diffuse" ti in
  Ok (nmul sm (zipw fadd (nmul am direct) (map (fmul fd) diffuse))).
Definition effective_irradiance_model : M unit :=
  let! ti := need total_irrad in
  let! sm := need spectral_modifier in
  let! am := need aoi_modifier in
  match ti with
  | Tup ti =>
      match sm, am with
      | Tup sm, Tup am =>
          let! e := lift (mapM (fun '(a, (t, (x, y))) => eff_irrad (ar_module_parameters a) t x y)
                            (combine (arrays s) (combine ti (combine sm am)))) in
          upd (set_effective_irradiance (Tup e))
      | _, _ => lift (Err TypeError)   (* zip would iterate over a Series; not reachable from the run methods *)
      end
  | Bare ti =>
      match arrays s, sm, am with
      | a :: _, Bare sm, Bare am =>
          let! e := lift (eff_irrad (ar_module_parameters a) ti sm am) in
          upd (set_effective_irradiance (Bare e))
      | _, _, _ => lift (Err TypeError)
      end
  end.

(** modelchain.py:1990-2010 _irrad_for_celltemp *)
Definition irrad_for_celltemp (ti : pyarg frame) (eff : option (pyarg ser)) : res (pyarg ser) :=
  if forallb (has_col "poa_global") (tuple_of ti) then each (col "poa_global") ti
  else match eff with Some e => Ok e | None => Err TypeError end.
(** modelchain.py:981-1021 _set_celltemp; pvsystem.py:414-479 *)
Definition set_celltemp : M unit :=
  let model := temp_name (c_temperature_model c) in
  let! ti := need total_irrad in
  let! poa := (fun r => (r, irrad_for_celltemp ti (effective_irradiance r))) in
  let! w := need weather in
  let! temp_air := lift (each (dcol "temp_air") w) in
  let! wind := lift (each (dcol "wind_speed") w) in
  let! eff := match c_temperature_model c with
              | T_noct_sam => let! e := need effective_irradiance in ret (match e with Tup l => Tup (map Some l) | Bare x => Bare (Some x) end)
              | _ => ret (Bare None) end in
  let! t := need times in
  let! tc := lift (let* poa := validate_per_array s poa false in
                   let* ta := validate_per_array s temp_air true in
                   let* ws := validate_per_array s wind true in
                   let* ef := validate_per_array s eff true in
                   rmap unwrap (mapM (fun '(a, (p, (ta, (w, e)))) => e_cell_temperature E t a p ta w model e)
                     (combine (arrays s) (combine poa (combine ta (combine ws ef)))))) in
  upd (set_cell_temperature (Some tc)).
(** modelchain.py:1519-1549 _get_cell_temperature: None when it has to be modelled *)
Definition get_cell_temperature_given (d : dframe) (poa : ser) (tp : pdict) : res (option ser) :=
  if has_col "cell_temperature" (df_cols d) then rmap Some (dcol "cell_temperature" d)
  else match has_col "module_temperature" (df_cols d), c_temperature_model c with
       | true, T_sapm =>
           let* mt := dcol "module_temperature" d in
           let* dT := getitem tp "deltaT" in
           rmap Some (e_cell_from_module E mt poa dT)
       | _, _ => Ok None
       end.
(** modelchain.py:1551-1619 _prepare_temperature *)
Definition prepare_temperature (data : pyarg dframe) : M unit :=
  let! ti := need total_irrad in
  let! poa := (fun r => (r, irrad_for_celltemp ti (effective_irradiance r))) in
  match data, Nat.eqb n 1, arrays s with
  | Bare d, true, a :: _ =>
      let! poa := lift (match poa with Bare p => Ok p | Tup _ => Err TypeError end) in
      let! g := lift (get_cell_temperature_given d poa (ar_temperature_model_parameters a)) in
      upd (set_cell_temperature (option_map Bare g)) ;;
      match g with None => set_celltemp | Some _ => ret tt end
  | _, _, _ =>
      let data := match data with Tup l => l | Bare d => repeat d n end in
      let! poa := lift (match poa with Tup p => Ok p | Bare _ => Err TypeError end) in
      let! given := lift (mapM (fun '(d, (p, a)) => get_cell_temperature_given d p (ar_temperature_model_parameters a))
                            (combine data (combine poa (arrays s)))) in
      if forallb (fun g => match g with Some _ => true | None => false end) given then
        upd (set_cell_temperature (Some (Tup (flat_map (fun g => match g with Some x => [x] | None => [] end) given))))
      else
        set_celltemp ;;
        let! tc := need cell_temperature in
        let! tc := lift (match tc with Tup l => Ok l | Bare _ => Err TypeError end) in
        upd (set_cell_temperature (Some (Tup (map (fun '(g, m) => match g with Some x => x | None => m end) (combine given tc)))))
  end.

(** modelchain.py:642-646 sapm; pvsystem.py:597-623, 829-852 *)
Definition sys_scale (data : pyarg frame) (unw : bool) : res (pyarg frame) :=
  let* d := validate_per_array s data false in
  rmap (unwrap_if unw) (mapM (fun '(a, d) => scale_voltage_current_power d (ar_modules_per_string a) (ar_strings a)) (combine (arrays s) d)).
Definition sys2 {B} (f : array -> ser -> ser -> res B) (x y : pyarg ser) (unw : bool) : res (pyarg B) :=
  let* x := validate_per_array s x false in
  let* y := validate_per_array s y false in
  rmap (unwrap_if unw) (mapM (fun '(a, (x, y)) => f a x y) (combine (arrays s) (combine x y))).
Definition map_arg {A B} (f : A -> B) (p : pyarg A) : pyarg B := match p with Tup l => Tup (map f l) | Bare x => Bare (f x) end.
Definition dc_sapm : M unit :=
  let! e := need effective_irradiance in
  let! t := need cell_temperature in
  let! d := lift (sys2 (e_sapm E) e t true) in
  let! d := lift (sys_scale d true) in
  upd (set_dc (map_arg DcF d)).
(** DataFrame.fillna(0) *)
Definition fillna0 (d : frame) : frame := map (fun p => (fst p, map (nan_to #0) (snd p))) d.
(** modelchain.py:648-674 _singlediode (with its three assignments to results.dc collapsed into the last) *)
Definition dc_singlediode (which : string) : M unit :=
  let! e := need effective_irradiance in
  let! t := need cell_temperature in
  let! params := lift (sys2 (e_calcparams E which) e t false) in
  upd (set_diode_params params) ;;
  let! d := lift (mapM (e_singlediode E) (tuple_of params)) in
  let! d := lift (sys_scale (Tup d) false) in
  let d := map_arg (fun d => DcF (fillna0 d)) d in
  if Nat.eqb n 1 then
    upd (set_diode_params (unwrap (tuple_of params))) ;; upd (set_dc (unwrap (tuple_of d)))
  else upd (set_dc d).
(** modelchain.py:685-709 pvwatts_dc *)
Definition dc_pvwatts : M unit :=
  let! e := need effective_irradiance in
  let! t := need cell_temperature in
  let! p := lift (sys2 (e_pvwatts_dc E) e t false) in
  let! d := lift (sys_scale (map_arg (fun p => [("p_mp", p)]) p) true) in
  let! d := lift (each (col "p_mp") d) in
  upd (set_dc (map_arg DcS d)).
Definition run_dc_model : M unit :=
  match c_dc_model c with
  | None => lift (Err AttributeError)
  | Some DC_sapm => dc_sapm
  | Some DC_desoto => dc_singlediode "desoto"
  | Some DC_cec => dc_singlediode "cec"
  | Some DC_pvsyst => dc_singlediode "pvsyst"
  | Some DC_pvwatts => dc_pvwatts
  end.

(** df[name] = values *)
Definition setcol (name : string) (v : ser) (d : frame) : frame :=
  if has_col name d then map (fun p => if String.eqb (fst p) name then (fst p, v) else p) d else d ++ [(name, v)].
(** modelchain.py:1040-1065; pvsystem.py:892-901, 3144-3177 *)
Definition ohmic_loss (R_w : fl) (d : dcval) : res ser := let* i := dccol "i_mp" d in Ok (map (dc_ohmic_losses R_w) i).
Definition minus_loss (d : dcval) (loss : ser) : res dcval :=
  match d with
  | DcS _ => Err KeyError
  | DcF f => let* p := col "p_mp" f in Ok (DcF (setcol "p_mp" (zipw fsub p loss) f))
  end.
Definition run_dc_ohmic_model : M unit :=
  match c_dc_ohmic_model c with
  | OHM_no_loss => ret tt
  | OHM_from_percent =>
      let! d := need dc in
      let! rw := lift (mapM array_dc_ohms_from_percent (arrays s)) in
      match d with
      | Tup d =>
          let! l := lift (mapM (fun '(r, d) => ohmic_loss r d) (combine rw d)) in
          upd (set_dc_ohmic_losses (Tup l)) ;;
          let! d := lift (mapM (fun '(d, l) => minus_loss d l) (combine d l)) in
          upd (set_dc (Tup d))
      | Bare d =>
          let! r := lift (match rw with [r] => Ok r | _ => Err TypeError end) in
          let! l := lift (ohmic_loss r d) in
          upd (set_dc_ohmic_losses (Bare l)) ;;
          let! d := lift (minus_loss d l) in
          upd (set_dc (Bare d))
      end
  end.
(** modelchain.py:1089-1100: every column is multiplied *)
Definition dc_times (k : fl) (d : dcval) : dcval :=
  match d with DcS p => DcS (map (fun x => fmul x k) p) | DcF f => DcF (df_scale k f) end.
Definition run_losses_model : M unit :=
  match c_losses_model c with
  | LOSS_no_loss => upd (set_losses #1)
  | LOSS_pvwatts =>
      let k := fdiv (fsub #100 (sys_pvwatts_losses s)) #100 in
      upd (set_losses k) ;;
      let! d := need dc in
      upd (set_dc (map_arg (dc_times k) d))
  end.
(** modelchain.py:751-770 the inverter models; pvsystem.py:758-827 *)
Definition run_ac_model : M unit :=
  let! d := need dc in
  match c_ac_model c with
  | AC_sandia =>
      let! p := lift (each (dccol "p_mp") d) in
      let! v := lift (each (dccol "v_mp") d) in
      let! x := lift (let* p := validate_per_array s p false in
                      let* v := validate_per_array s v false in
                      if Nat.ltb 1 n then e_sandia_multi E v p else e_sandia E (nth 0 v []) (nth 0 p [])) in
      upd (set_ac x)
  | AC_adr =>
      let! d := lift (match d with Bare d => Ok d | Tup _ => Err TypeError end) in   (* tuple indices must be integers *)
      let! p := lift (dccol "p_mp" d) in
      let! v := lift (dccol "v_mp" d) in
      let! x := lift (if Nat.ltb 1 n then Err ValueError else e_adr E v p) in
      upd (set_ac x)
  | AC_pvwatts =>
      let! x := lift (let* p := validate_per_array s d false in
                      if Nat.ltb 1 n then e_pvwatts_multi E p else e_pvwatts E (nth 0 p (DcS []))) in
      upd (set_ac (map (nan_to #0) x))
  end.

(** modelchain.py:1824-1851 _run_from_effective_irrad *)
Definition run_from_effective_irrad (data : pyarg dframe) : M unit :=
  prepare_temperature data ;; run_dc_model ;; run_dc_ohmic_model ;; run_losses_model ;; run_ac_model.
(** modelchain.py:1621-1691 run_model *)
Definition run_model (i : input) : M unit :=
  let data := to_tuple i in
  prepare_inputs data ;; run_aoi_model ;; run_spectral_model ;; effective_irradiance_model ;; run_from_effective_irrad data.
(** modelchain.py:1693-1822 run_model_from_poa *)
Definition run_model_from_poa (i : input) : M unit :=
  let data := to_tuple i in
  prepare_inputs_from_poa data ;; run_aoi_model ;; run_spectral_model ;; effective_irradiance_model ;; run_from_effective_irrad data.
(** modelchain.py:1853-1987 run_model_from_effective_irradiance *)
Definition run_model_from_effective_irradiance (i : input) : M unit :=
  let data := to_tuple i in
  lift (check_multiple_input data true) ;;
  lift (verify_df data ["effective_irradiance"]) ;;
  assign_weather data ;;
  assign_total_irrad data ;;
  let! e := lift (each (dcol "effective_irradiance") data) in
  upd (set_effective_irradiance e) ;;
  run_from_effective_irrad data.

(** modelchain.py:1192-1224 _complete_irradiance of one frame: adds the missing column *)
Definition complete_one (t : list Z) (sp : frame) (w : dframe) : res dframe :=
  let f := df_cols w in
  let has k := has_col k f in
  let fill k (m : res frame) := let* r := m in let* v := col k r in Ok (DF (df_index w) (f ++ [(k, v)])) in
  if (has "ghi" && has "dhi" && negb (has "dni"))%bool then
    let* cs := e_clearsky E (df_index w) (c_clearsky_model c) sp in
    let* z := col "zenith" sp in
    let* cd := col "dni" cs in
    fill "dni" (e_complete E z (lookup "ghi" f) (lookup "dhi" f) None (Some cd))
  else if (has "dni" && has "dhi" && negb (has "ghi"))%bool then
    let* z := col "zenith" sp in
    fill "ghi" (e_complete E z None (lookup "dhi" f) (lookup "dni" f) None)
  else if (has "dni" && has "ghi" && negb (has "dhi"))%bool then
    let* z := col "zenith" sp in
    fill "dhi" (e_complete E z (lookup "ghi" f) None (lookup "dni" f) None)
  else Ok w.
(** modelchain.py:1122-1190 complete_irradiance.  results.weather is set under whatever singleton setting the last run left;
    a bare frame that got wrapped has no [columns] attribute. *)
Definition complete_irradiance (i : input) : M unit :=
  let data := to_tuple i in
  lift (check_multiple_input data true) ;;
  upd (set_weather data) ;;
  assign_times ;;
  let! t := need times in
  let! sp := lift (e_solarposition E t (c_solar_position_method c) None None) in
  upd (set_solar_position sp) ;;
  let! w := need weather in
  match data, w with
  | Tup _, Tup l => let! l := lift (mapM (complete_one t sp) l) in upd (set_weather (Tup l))
  | Tup _, Bare _ => lift (Err TypeError)
  | Bare _, Bare d => let! d := lift (complete_one t sp d) in upd (set_weather (Bare d))
  | Bare _, Tup _ => lift (Err AttributeError)
  end.
End Run.
