(** Model of the classes of pvlib/pvsystem.py: mounts, Array, PVSystem.
    Numbers are one sample unless a list is named; scipy's physical constants are arguments. *)
From Verif Require Import Base.Fl Base.Py Model.Tools Model.Atmosphere Model.Irradiance Model.Tracking Model.Iam
  Model.Temperature Model.Spectrum Model.Inverter Model.Pvsystem.
Open Scope R_scope.

(** values found in parameter dictionaries *)
Inductive pval := VNum (x : fl) | VStr (s : string) | VList (l : list fl) | VBool (b : bool).
Definition pdict := list (string * pval).
Definition as_num (v : pval) : res fl := match v with VNum x => Ok x | _ => Err TypeError end.
(** d[k] used as a number *)
Definition getnum (d : pdict) (k : string) : res fl := let* v := getitem d k in as_num v.
(** the numeric entries, for functions that read a whole module dictionary *)
Definition nums (d : pdict) : list (string * fl) :=
  flat_map (fun p => match snd p with VNum x => [(fst p, x)] | _ => [] end) d.
(** calling f( ..., **kw): a required argument that is absent is a TypeError, an optional one takes its default *)
Definition kw_req (kw : pdict) (k : string) : res fl :=
  match lookup k kw with Some v => as_num v | None => Err TypeError end.
Definition kw_opt (kw : pdict) (k : string) (d : R) : res fl :=
  match lookup k kw with Some v => as_num v | None => Ok #d end.
Definition kw_opt_none (kw : pdict) (k : string) : res (option fl) :=
  match lookup k kw with Some v => rmap Some (as_num v) | None => Ok None end.

(** ** Mounts, pvsystem.py:1392-1548 *)
Inductive mount_kind :=
| FixedMount (surface_tilt surface_azimuth : fl)
| SingleAxisTrackerMount (axis_tilt axis_azimuth : fl) (max_angle : angle_limit) (backtrack : bool)
    (gcr cross_axis_tilt : fl).
Record mount := Mount { m_kind : mount_kind; racking_model : option string; module_height : option fl }.
(** the dataclass defaults, 1448-1451 and 1530-1537 *)
Definition default_fixed_mount : mount := Mount (FixedMount #0 #180) None None.
Definition default_tracker_mount : mount :=
  Mount (SingleAxisTrackerMount #0 #0 (Lim #90) true #(2/7) #0) None None.
(** get_orientation, 1453-1458 and 1539-1548: (surface_tilt, surface_azimuth) *)
Definition get_orientation (m : mount) (solar_zenith solar_azimuth : fl) : fl * fl :=
  match m_kind m with
  | FixedMount t a => (t, a)
  | SingleAxisTrackerMount axis_tilt axis_azimuth max_angle backtrack gcr cross_axis_tilt =>
      let tr := singleaxis solar_zenith solar_azimuth axis_tilt axis_azimuth max_angle backtrack gcr cross_axis_tilt in
      (t_surface_tilt tr, t_surface_azimuth tr)
  end.

(** ** Array, pvsystem.py:909-1389 *)
Record array := MkArray {
  ar_mount : mount; ar_albedo : fl; ar_surface_type : option string; ar_module : option string; ar_module_type : option string;
  ar_module_parameters : pdict; ar_temperature_model_parameters : pdict;
  ar_modules_per_string : fl; ar_strings : fl; ar_array_losses_parameters : pdict }.

(** [x in s] for strings *)
Fixpoint contains (x s : string) : bool :=
  startswith x s || match s with EmptyString => false | String _ s' => contains x s' end.
(** f'{x}' of an optional string *)
Definition show_opt (o : option string) : string := match o with None => "None" | Some s => s end.
Definition rdict (d : list (string * R)) : pdict := map (fun p => (fst p, VNum #(snd p))) d.
(** pvsystem.py:1013-1029 _infer_temperature_model_params; the membership test at 1017 *)
Definition infer_temperature_model_params (racking module_type : option string) : res pdict :=
  let param_set := (show_opt racking ++ "_" ++ show_opt module_type)%string in
  let* sapm_sets := getitem temperature_model_parameters "sapm"%string in
  if mem param_set (map fst sapm_sets) then rmap rdict (temperature_model_params "sapm" param_set)
  else if contains "freestanding" param_set then rmap rdict (temperature_model_params "pvsyst" "freestanding")
  else if contains "insulated" param_set then rmap rdict (temperature_model_params "pvsyst" "insulated")
  else if contains "semi_integrated" param_set then rmap rdict (temperature_model_params "pvsyst" "semi_integrated")
  else Ok [].
(** pvsystem.py:963-1001 Array.__init__ *)
Definition array_init (m : mount) (albedo : option fl) (surface_type module_ module_type : option string)
    (module_parameters temperature_model_parameters : option pdict) (modules_per_string strings : fl)
    (array_losses_parameters : option pdict) : res array :=
  let alb := match albedo with
             | Some a => a
             | None => match surface_type with
                       | None => #0.25
                       | Some s => match lookup s SURFACE_ALBEDOS with Some a => a | None => #0.25 end
                       end
             end in
  let mp := match module_parameters with None => [] | Some d => d end in
  let* tp := match temperature_model_parameters with
             | None => infer_temperature_model_params (racking_model m) module_type
             | Some d => Ok d end in
  let lp := match array_losses_parameters with None => [] | Some d => d end in
  Ok (MkArray m alb surface_type module_ module_type mp tp modules_per_string strings lp).

(** pvsystem.py:1031-1071 _infer_cell_type *)
Definition cell_type_dict : list (string * option string) :=
  [("Multi-c-Si", Some "multisi"); ("Mono-c-Si", Some "monosi"); ("Thin Film", Some "cigs"); ("a-Si/nc", Some "asi");
   ("CIS", Some "cigs"); ("CIGS", Some "cigs"); ("1-a-Si", Some "asi"); ("CdTe", Some "cdte"); ("a-Si", Some "asi");
   ("2-a-Si", None); ("3-a-Si", None); ("HIT-Si", Some "monosi"); ("mc-Si", Some "multisi"); ("c-Si", Some "multisi");
   ("Si-Film", Some "asi"); ("EFG mc-Si", Some "multisi"); ("GaAs", None); ("a-Si / mono-Si", Some "monosi")]%string.
(** a non-string key is not in the dict *)
Definition cell_type_key (v : pval) : res (option string) :=
  match v with VStr s => getitem cell_type_dict s | _ => Err KeyError end.
Definition array_infer_cell_type (a : array) : res (option string) :=
  match lookup "Technology"%string (ar_module_parameters a) with
  | Some v => cell_type_key v
  | None => match lookup "Material"%string (ar_module_parameters a) with
            | Some v => cell_type_key v
            | None => Ok None
            end
  end.

(** pvsystem.py:1073-1092 Array.get_aoi *)
Definition array_get_aoi (a : array) (solar_zenith solar_azimuth : fl) : fl :=
  let '(t, az) := get_orientation (ar_mount a) solar_zenith solar_azimuth in
  aoi t az solar_zenith solar_azimuth.

(** pvsystem.py:1094-1172 Array.get_irradiance.  [index_extra] is get_extra_radiation of the sample's time when the
    inputs carry a DatetimeIndex.  The keyword arguments forwarded to get_total_irradiance are surface_type and
    model_perez; [f] is the table interpolator of perez_driesse. *)
Definition array_get_irradiance (f : nat -> nat -> fl -> fl) (index_extra : option fl) (a : array)
    (solar_zenith solar_azimuth dni ghi dhi : fl) (dni_extra airmass albedo : option fl) (model : string)
    (surface_type : option string) (model_perez : string) : res poa :=
  let albedo := match albedo with None => ar_albedo a | Some x => x end in
  let dni_extra := match dni_extra with
                   | Some x => x
                   | None => match index_extra with Some x => x | None => #1367.0 end
                   end in
  let* airmass := match airmass with
                  | Some x => Ok x
                  | None => get_relative_airmass solar_zenith "kastenyoung1989" end in
  let '(t, az) := get_orientation (ar_mount a) solar_zenith solar_azimuth in
  get_total_irradiance f t az solar_zenith solar_azimuth dni ghi dhi (Some dni_extra) (Some airmass) albedo surface_type
    model model_perez false.

(** pvsystem.py:1174-1214 Array.get_iam; [spline] is scipy's interpolation used by iam.interp *)
Definition array_get_iam (spline : string -> list fl -> list fl -> fl -> fl) (a : array) (aoi : fl) (iam_model : string) : res fl :=
  (let model := lower iam_model in
   let mp := ar_module_parameters a in
   if String.eqb model "ashrae" then
     let kw := build_kwargs ["b"] mp in
     let* b := kw_opt kw "b" 0.05 in Ok (ashrae aoi b)
   else if String.eqb model "physical" then
     let kw := build_kwargs ["n"; "K"; "L"; "n_ar"] mp in
     let* n := kw_opt kw "n" 1.526 in let* K := kw_opt kw "K" 4.0 in let* L := kw_opt kw "L" 0.002 in
     let* n_ar := kw_opt_none kw "n_ar" in Ok (physical aoi n K L n_ar)
   else if String.eqb model "martin_ruiz" then
     let kw := build_kwargs ["a_r"] mp in
     let* a_r := kw_opt kw "a_r" 0.16 in martin_ruiz aoi a_r
   else if String.eqb model "interp" then
     let kw := build_kwargs ["theta_ref"; "iam_ref"; "method"; "normalize"] mp in
     match lookup "theta_ref" kw, lookup "iam_ref" kw with
     | Some (VList t), Some (VList i) =>
         let* method := match lookup "method" kw with None => Ok "linear" | Some (VStr s) => Ok s | Some _ => Err TypeError end in
         let* norm := match lookup "normalize" kw with None => Ok true | Some (VBool b) => Ok b | Some _ => Err TypeError end in
         interp spline aoi t i method norm
     | _, _ => Err TypeError
     end
   else if String.eqb model "schlick" then Ok (schlick aoi)
   else if String.eqb model "sapm" then
     let* b := sapm_b_of (nums mp) in Ok (iam_sapm aoi b None)
   else Err ValueError)%string.

(** a sample of the inputs of get_cell_temperature *)
Record tsample := TS { ts_poa : fl; ts_temp : fl; ts_wind : fl; ts_eff : option fl; ts_lw : option fl }.
Definition nan_sample : tsample := TS NaN NaN NaN None None.
(** an element-wise function applied to a series; parameter errors occur for the empty series too *)
Definition elementwise (g : tsample -> res fl) (rows : list tsample) : res (list fl) :=
  let* _ := g nan_sample in mapM g rows.
(** pvsystem.py:1216-1325 Array.get_cell_temperature on a series with the given times (hours) *)
Definition array_get_cell_temperature (times : list R) (a : array) (rows : list tsample) (model : string) : res (list fl) :=
  (let tp := ar_temperature_model_parameters a in
   let args keys := let* l := build_args keys tp in mapM as_num l in
   if String.eqb model "sapm" then
     let* req := args ["a"; "b"; "deltaT"] in
     let opt := build_kwargs ["irrad_ref"] tp in
     let* irrad_ref := kw_opt opt "irrad_ref" 1000 in
     match req with
     | [pa; pb; dT] => elementwise (fun r => Ok (sapm_cell (ts_poa r) (ts_temp r) (ts_wind r) pa pb dT irrad_ref)) rows
     | _ => Err TypeError end
   else if String.eqb model "pvsyst" then
     let opt := app (build_kwargs ["module_efficiency"; "alpha_absorption"] (ar_module_parameters a)) (build_kwargs ["u_c"; "u_v"] tp) in
     let* u_c := kw_opt opt "u_c" 29.0 in let* u_v := kw_opt opt "u_v" 0.0 in
     let* e := kw_opt opt "module_efficiency" 0.1 in let* al := kw_opt opt "alpha_absorption" 0.9 in
     elementwise (fun r => Ok (pvsyst_cell (ts_poa r) (ts_temp r) (ts_wind r) u_c u_v e al)) rows
   else if String.eqb model "faiman" then
     let opt := build_kwargs ["u0"; "u1"] tp in
     let* u0 := kw_opt opt "u0" 25.0 in let* u1 := kw_opt opt "u1" 6.84 in
     elementwise (fun r => Ok (faiman (ts_poa r) (ts_temp r) (ts_wind r) u0 u1)) rows
   else if String.eqb model "faiman_rad" then
     let opt := build_kwargs ["u0"; "u1"; "sky_view"; "emissivity"] tp in
     let* u0 := kw_opt opt "u0" 25.0 in let* u1 := kw_opt opt "u1" 6.84 in
     let* sv := kw_opt opt "sky_view" 1.0 in let* em := kw_opt opt "emissivity" 0.88 in
     elementwise (fun r => Ok (faiman_rad (ts_poa r) (ts_temp r) (ts_wind r) (ts_lw r) u0 u1 sv em)) rows
   else if String.eqb model "fuentes" then
     let* req := args ["noct_installed"] in
     let opt := build_kwargs ["wind_height"; "emissivity"; "absorption"; "surface_tilt"; "module_width"; "module_length"] tp in
     let* mh := match module_height (ar_mount a) with Some h => Ok h | None => Ok #5 end in
     let* wh := kw_opt opt "wind_height" 9.144 in let* em := kw_opt opt "emissivity" 0.84 in
     let* ab := kw_opt opt "absorption" 0.83 in let* ti := kw_opt opt "surface_tilt" 30 in
     let* mw := kw_opt opt "module_width" 0.31579 in let* ml := kw_opt opt "module_length" 1.2 in
     match req with
     | [noct] => fuentes times (map ts_poa rows) (map ts_temp rows) (map ts_wind rows) noct mh wh em ab ti mw ml
     | _ => Err TypeError end
   else if String.eqb model "noct_sam" then
     let* req := args ["noct"; "module_efficiency"] in
     let opt := build_kwargs ["transmittance_absorptance"; "array_height"; "mount_standoff"] tp in
     let* ta := kw_opt opt "transmittance_absorptance" 0.9 in let* ah := kw_opt opt "array_height" 1 in
     let* ms := kw_opt opt "mount_standoff" 4 in
     match req with
     | [noct; e] => elementwise (fun r => noct_sam (ts_poa r) (ts_temp r) (ts_wind r) noct e (ts_eff r) ta ah ms) rows
     | _ => Err TypeError end
   else if String.eqb model "ross" then
     let opt := build_kwargs ["noct"; "k"] tp in
     let* noct := kw_opt_none opt "noct" in let* k := kw_opt_none opt "k" in
     elementwise (fun r => ross (ts_poa r) (ts_temp r) noct k) rows
   else Err ValueError)%string%list.

(** pvsystem.py:1327-1389 Array.dc_ohms_from_percent *)
Definition haskey (k : string) (d : pdict) : bool := mem k (map fst d).
Definition array_dc_ohms_from_percent (a : array) : res fl :=
  (let mp := ar_module_parameters a in
   let* vi :=
     if forallb (fun e => haskey e mp) ["V_mp_ref"; "I_mp_ref"] then
       let* v := getnum mp "V_mp_ref" in let* i := getnum mp "I_mp_ref" in Ok (v, i)
     else if forallb (fun e => haskey e mp) ["Vmpo"; "Impo"] then
       let* v := getnum mp "Vmpo" in let* i := getnum mp "Impo" in Ok (v, i)
     else if forallb (fun e => haskey e mp) ["Vmpp"; "Impp"] then
       let* v := getnum mp "Vmpp" in let* i := getnum mp "Impp" in Ok (v, i)
     else Err ValueError in
   let* p := getnum (ar_array_losses_parameters a) "dc_ohmic_percent" in
   Ok (dc_ohms_from_percent (fst vi) (snd vi) p (ar_modules_per_string a) (ar_strings a)))%string.

(** ** PVSystem *)
Record pvsystem := MkSystem { arrays : list array; inverter_parameters : pdict; losses_parameters : pdict }.
(** what is passed as [arrays] *)
Inductive arrays_arg := ArraysNone | OneArray (a : array) | ArrayList (l : list array).
(** pvsystem.py:193-244 PVSystem.__init__ *)
Definition pvsystem_init (arr : arrays_arg) (surface_tilt surface_azimuth : fl) (albedo : option fl)
    (surface_type module_ module_type : option string) (module_parameters temperature_model_parameters : option pdict)
    (modules_per_string strings_per_inverter : fl) (inverter_parameters : option pdict) (racking : option string)
    (losses_parameters : option pdict) : res pvsystem :=
  let* l := match arr with
            | ArraysNone =>
                let alp := match losses_parameters with None => [] | Some d => build_kwargs ["dc_ohmic_percent"%string] d end in
                let* a := array_init (Mount (FixedMount surface_tilt surface_azimuth) racking None) albedo surface_type
                            module_ module_type module_parameters temperature_model_parameters modules_per_string
                            strings_per_inverter (Some alp) in
                Ok [a]
            | OneArray a => Ok [a]
            | ArrayList [] => Err ValueError
            | ArrayList l => Ok l
            end in
  Ok (MkSystem l (match inverter_parameters with None => [] | Some d => d end)
                 (match losses_parameters with None => [] | Some d => d end)).

(** python arguments and results that may be a tuple or a bare value *)
Inductive pyarg (A : Type) := Tup (l : list A) | Bare (a : A).
Arguments Tup {A} l. Arguments Bare {A} a.
Definition num_arrays (s : pvsystem) : nat := length (arrays s).
(** pvsystem.py:254-272 _validate_per_array *)
Definition validate_per_array {A} (s : pvsystem) (values : pyarg A) (system_wide : bool) : res (list A) :=
  match values, system_wide with
  | Bare v, true => Ok (repeat v (num_arrays s))
  | _, _ =>
      let values := match values with Tup l => l | Bare v => [v] end in
      if Nat.eqb (length values) (num_arrays s) then Ok values else Err ValueError
  end.
(** pvsystem.py:50-67 _unwrap_single_value with unwrap=True *)
Definition unwrap {A} (l : list A) : pyarg A := match l with [x] => Bare x | _ => Tup l end.

(** pvsystem.py:274-285 *)
Definition sys_infer_cell_type (s : pvsystem) : res (pyarg (option string)) :=
  rmap unwrap (mapM array_infer_cell_type (arrays s)).
(** pvsystem.py:287-305 *)
Definition sys_get_aoi (s : pvsystem) (solar_zenith solar_azimuth : fl) : pyarg fl :=
  unwrap (map (fun a => array_get_aoi a solar_zenith solar_azimuth) (arrays s)).
(** pvsystem.py:307-380 *)
Definition sys_get_irradiance f index_extra (s : pvsystem) (solar_zenith solar_azimuth : fl) (dni ghi dhi : pyarg fl)
    (dni_extra airmass : option fl) (albedo : pyarg (option fl)) model surface_type model_perez : res (pyarg poa) :=
  let* dni := validate_per_array s dni true in
  let* ghi := validate_per_array s ghi true in
  let* dhi := validate_per_array s dhi true in
  let* albedo := validate_per_array s albedo true in
  rmap unwrap (mapM (fun '(a, (dni, (ghi, (dhi, albedo)))) =>
      array_get_irradiance f index_extra a solar_zenith solar_azimuth dni ghi dhi dni_extra airmass albedo model surface_type model_perez)
    (combine (arrays s) (combine dni (combine ghi (combine dhi albedo))))).
(** pvsystem.py:382-412 *)
Definition sys_get_iam spline (s : pvsystem) (aoi : pyarg fl) (iam_model : string) : res (pyarg fl) :=
  let* aoi := validate_per_array s aoi false in
  rmap unwrap (mapM (fun '(a, x) => array_get_iam spline a x iam_model) (combine (arrays s) aoi)).
(** pvsystem.py:414-479.  Each argument is a series; [zip_samples] lines the series up by position. *)
Definition zip_samples (poa temp wind : list fl) (eff lw : option (list fl)) : list tsample :=
  map (fun i => TS (nth i poa NaN) (nth i temp NaN) (nth i wind NaN)
                   (option_map (fun l => nth i l NaN) eff) (option_map (fun l => nth i l NaN) lw)) (seq 0 (length poa)).
Definition sys_get_cell_temperature (times : list R) (s : pvsystem) (poa_global temp_air wind_speed : pyarg (list fl)) (model : string)
    (effective_irradiance longwave_down : pyarg (option (list fl))) : res (pyarg (list fl)) :=
  let* poa_global := validate_per_array s poa_global false in
  let* temp_air := validate_per_array s temp_air true in
  let* wind_speed := validate_per_array s wind_speed true in
  let* effective_irradiance := validate_per_array s effective_irradiance true in
  let* longwave_down := validate_per_array s longwave_down true in
  rmap unwrap (mapM (fun '(a, (p, (t, (w, (e, l))))) => array_get_cell_temperature times a (zip_samples p t w e l) model)
    (combine (arrays s) (combine poa_global (combine temp_air (combine wind_speed (combine effective_irradiance longwave_down)))))).

(** calcparams_* called with keyword arguments built from the module parameters, pvsystem.py:481-595 *)
Definition desoto_kw (kB : R) (effective_irradiance temp_cell : fl) (kw : pdict) : res sdparams :=
  (let* alpha_sc := kw_req kw "alpha_sc" in let* a_ref := kw_req kw "a_ref" in let* I_L_ref := kw_req kw "I_L_ref" in
   let* I_o_ref := kw_req kw "I_o_ref" in let* R_sh_ref := kw_req kw "R_sh_ref" in let* R_s := kw_req kw "R_s" in
   let* EgRef := kw_opt kw "EgRef" 1.121 in let* dEgdT := kw_opt kw "dEgdT" (-0.0002677) in
   let* irrad_ref := kw_opt kw "irrad_ref" 1000 in let* temp_ref := kw_opt kw "temp_ref" 25 in
   Ok (calcparams_desoto kB effective_irradiance temp_cell alpha_sc a_ref I_L_ref I_o_ref R_sh_ref R_s EgRef dEgdT irrad_ref temp_ref))%string.
Definition cec_kw (kB : R) (effective_irradiance temp_cell : fl) (kw : pdict) : res sdparams :=
  (let* alpha_sc := kw_req kw "alpha_sc" in let* a_ref := kw_req kw "a_ref" in let* I_L_ref := kw_req kw "I_L_ref" in
   let* I_o_ref := kw_req kw "I_o_ref" in let* R_sh_ref := kw_req kw "R_sh_ref" in let* R_s := kw_req kw "R_s" in
   let* Adjust := kw_req kw "Adjust" in
   let* EgRef := kw_opt kw "EgRef" 1.121 in let* dEgdT := kw_opt kw "dEgdT" (-0.0002677) in
   let* irrad_ref := kw_opt kw "irrad_ref" 1000 in let* temp_ref := kw_opt kw "temp_ref" 25 in
   Ok (calcparams_cec kB effective_irradiance temp_cell alpha_sc a_ref I_L_ref I_o_ref R_sh_ref R_s Adjust EgRef dEgdT irrad_ref temp_ref))%string.
Definition pvsyst_kw (k q : R) (effective_irradiance temp_cell : fl) (kw : pdict) : res sdparams :=
  (let* alpha_sc := kw_req kw "alpha_sc" in let* gamma_ref := kw_req kw "gamma_ref" in let* mu_gamma := kw_req kw "mu_gamma" in
   let* I_L_ref := kw_req kw "I_L_ref" in let* I_o_ref := kw_req kw "I_o_ref" in let* R_sh_ref := kw_req kw "R_sh_ref" in
   let* R_sh_0 := kw_req kw "R_sh_0" in let* R_s := kw_req kw "R_s" in let* cells := kw_req kw "cells_in_series" in
   let* R_sh_exp := kw_opt kw "R_sh_exp" 5.5 in let* EgRef := kw_opt kw "EgRef" 1.121 in
   let* irrad_ref := kw_opt kw "irrad_ref" 1000 in let* temp_ref := kw_opt kw "temp_ref" 25 in
   Ok (calcparams_pvsyst k q effective_irradiance temp_cell alpha_sc gamma_ref mu_gamma I_L_ref I_o_ref R_sh_ref R_sh_0 R_s
         cells R_sh_exp EgRef irrad_ref temp_ref))%string.
Definition desoto_keys := ["a_ref"; "I_L_ref"; "I_o_ref"; "R_sh_ref"; "R_s"; "alpha_sc"; "EgRef"; "dEgdT"; "irrad_ref"; "temp_ref"]%string.
Definition cec_keys := ["a_ref"; "I_L_ref"; "I_o_ref"; "R_sh_ref"; "R_s"; "alpha_sc"; "Adjust"; "EgRef"; "dEgdT"; "irrad_ref"; "temp_ref"]%string.
Definition pvsyst_keys := ["gamma_ref"; "mu_gamma"; "I_L_ref"; "I_o_ref"; "R_sh_ref"; "R_sh_0"; "R_sh_exp"; "R_s"; "alpha_sc";
   "EgRef"; "irrad_ref"; "temp_ref"; "cells_in_series"]%string.
Definition sys_calcparams_desoto kB (s : pvsystem) (effective_irradiance temp_cell : pyarg fl) : res (pyarg sdparams) :=
  let* e := validate_per_array s effective_irradiance false in
  let* t := validate_per_array s temp_cell false in
  rmap unwrap (mapM (fun '(a, (e, t)) => desoto_kw kB e t (build_kwargs desoto_keys (ar_module_parameters a)))
    (combine (arrays s) (combine e t))).
Definition sys_calcparams_cec kB (s : pvsystem) (effective_irradiance temp_cell : pyarg fl) : res (pyarg sdparams) :=
  let* e := validate_per_array s effective_irradiance false in
  let* t := validate_per_array s temp_cell false in
  rmap unwrap (mapM (fun '(a, (e, t)) => cec_kw kB e t (build_kwargs cec_keys (ar_module_parameters a)))
    (combine (arrays s) (combine e t))).
Definition sys_calcparams_pvsyst k q (s : pvsystem) (effective_irradiance temp_cell : pyarg fl) : res (pyarg sdparams) :=
  let* e := validate_per_array s effective_irradiance false in
  let* t := validate_per_array s temp_cell false in
  rmap unwrap (mapM (fun '(a, (e, t)) => pvsyst_kw k q e t (build_kwargs pvsyst_keys (ar_module_parameters a)))
    (combine (arrays s) (combine e t))).
(** pvsystem.py:597-623 *)
Definition sys_sapm k q (s : pvsystem) (effective_irradiance temp_cell : pyarg fl) : res (pyarg (list (string * fl))) :=
  let* e := validate_per_array s effective_irradiance false in
  let* t := validate_per_array s temp_cell false in
  rmap unwrap (mapM (fun '(a, (e, t)) => sapm k q e t (nums (ar_module_parameters a)) #25 #1000)
    (combine (arrays s) (combine e t))).
(** pvsystem.py:625-645 *)
Definition sys_sapm_spectral_loss (s : pvsystem) (airmass_absolute : fl) : res (pyarg fl) :=
  rmap unwrap (mapM (fun a => let* c := sapm_a_of (nums (ar_module_parameters a)) in Ok (spectral_factor_sapm airmass_absolute c)) (arrays s)).
(** pvsystem.py:647-684 *)
Definition sys_sapm_effective_irradiance (s : pvsystem) (poa_direct poa_diffuse : pyarg fl) (airmass_absolute : fl) (aoi : pyarg fl)
    : res (pyarg fl) :=
  let* pd := validate_per_array s poa_direct false in
  let* pf := validate_per_array s poa_diffuse false in
  let* ao := validate_per_array s aoi false in
  rmap unwrap (mapM (fun '(a, (d, (f, o))) => sapm_effective_irradiance d f airmass_absolute o (nums (ar_module_parameters a)))
    (combine (arrays s) (combine pd (combine pf ao)))).
(** pvsystem.py:686-735; the coefficients entry is a list of numbers *)
Fixpoint fins (l : list fl) : option (list R) :=
  match l with [] => Some [] | Fin r :: l' => option_map (cons r) (fins l') | _ => None end.
Definition sys_first_solar_spectral_loss (s : pvsystem) (pw : pyarg fl) (airmass_absolute : fl) : res (pyarg fl) :=
  let* pw := validate_per_array s pw true in
  let corr (a : array) (pw : fl) : res fl :=
    match lookup "first_solar_spectral_coefficients"%string (ar_module_parameters a) with
    | Some (VList c) => match fins c with
                        | Some c => firstsolar_default pw airmass_absolute None (Some c)
                        | None => Err TypeError   (* non-finite coefficients are outside the model *)
                        end
    | Some _ => Err TypeError
    | None => let* m := array_infer_cell_type a in firstsolar_default pw airmass_absolute m None
    end in
  rmap unwrap (mapM (fun '(a, pw) => corr a pw) (combine (arrays s) pw)).

(** the inverter dictionaries *)
Definition sandia_of (d : pdict) : res sandia_params :=
  (let* paco := getnum d "Paco" in let* pdco := getnum d "Pdco" in let* vdco := getnum d "Vdco" in
   let* c0 := getnum d "C0" in let* c1 := getnum d "C1" in let* c2 := getnum d "C2" in let* c3 := getnum d "C3" in
   let* pso := getnum d "Pso" in let* pnt := getnum d "Pnt" in Ok (SandiaParams paco pdco vdco c0 c1 c2 c3 pso pnt))%string.
Definition adr_of (d : pdict) : res adr_params :=
  (let* pnom := getnum d "Pnom" in let* vnom := getnum d "Vnom" in let* pacmax := getnum d "Pacmax" in
   let* pnt := getnum d "Pnt" in
   let* ce := (let* v := getitem d "ADRCoefficients" in match v with VList l => Ok l | _ => Err TypeError end) in
   let* vmax := getnum d "Vmax" in let* vmin := getnum d "Vmin" in let* vdcmax := getnum d "Vdcmax" in
   let* hi := getnum d "MPPTHi" in let* lo := getnum d "MPPTLow" in
   Ok (AdrParams pnom vnom pacmax pnt ce vmax vmin vdcmax hi lo))%string.
(** a tuple of voltages with None inside makes the inverter functions raise TypeError *)
Definition volts (l : list (option fl)) : res (list fl) :=
  mapM (fun o => match o with Some v => Ok v | None => Err TypeError end) l.
(** pvsystem.py:758-827 PVSystem.get_ac; v_dc=None is [Bare None].  When voltages and parameters are both missing,
    which of the two errors comes first is not modelled. *)
Definition sys_get_ac (s : pvsystem) (model : string) (p_dc : pyarg fl) (v_dc : pyarg (option fl)) : res fl :=
  (let model := lower model in
   let multiple_arrays := Nat.ltb 1 (num_arrays s) in
   let ip := inverter_parameters s in
   if String.eqb model "sandia" then
     let* p := validate_per_array s p_dc false in
     let* v := validate_per_array s v_dc false in
     if multiple_arrays then
       let* inv := sandia_of ip in let* v := volts v in sandia_multi v p inv
     else let* inv := sandia_of ip in let* v := volts v in Ok (sandia (nth 0 v NaN) (nth 0 p NaN) inv)
   else if String.eqb model "pvwatts" then
     let kw := build_kwargs ["eta_inv_nom"; "eta_inv_ref"] ip in
     let* p := validate_per_array s p_dc false in
     let* pdc0 := getnum ip "pdc0" in
     let* nom := kw_opt kw "eta_inv_nom" 0.96 in let* ref := kw_opt kw "eta_inv_ref" 0.9637 in
     if multiple_arrays then Ok (pvwatts_multi p pdc0 nom ref)
     else Ok (pvwatts (nth 0 p NaN) pdc0 nom ref)
   else if String.eqb model "adr" then
     if multiple_arrays then Err ValueError else
     let* p := validate_per_array s p_dc false in
     let* v := validate_per_array s v_dc false in
     let* inv := adr_of ip in
     let* v := volts v in
     Ok (adr (nth 0 v NaN) (nth 0 p NaN) inv #0.10)
   else Err ValueError)%string.
(** pvsystem.py:829-852 *)
Definition sys_scale_voltage_current_power (s : pvsystem) (data : pyarg frame) : res (pyarg frame) :=
  let* d := validate_per_array s data false in
  rmap unwrap (mapM (fun '(a, d) => scale_voltage_current_power d (ar_modules_per_string a) (ar_strings a)) (combine (arrays s) d)).
(** pvsystem.py:854-876 *)
Definition array_pvwatts_dc (a : array) (e t : fl) : res fl :=
  (let mp := ar_module_parameters a in
   let* pdc0 := getnum mp "pdc0" in
   let* gamma := getnum mp "gamma_pdc" in
   let kw := build_kwargs ["temp_ref"; "k"; "cap_adjustment"] mp in
   let* temp_ref := kw_opt kw "temp_ref" 25 in
   let* k := kw_opt_none kw "k" in
   let* cap := match lookup "cap_adjustment" kw with None => Ok false | Some (VBool b) => Ok b | Some _ => Err TypeError end in
   Ok (pvwatts_dc e t pdc0 gamma temp_ref k cap))%string.
Definition sys_pvwatts_dc (s : pvsystem) (effective_irradiance temp_cell : pyarg fl) : res (pyarg fl) :=
  let* e := validate_per_array s effective_irradiance false in
  let* t := validate_per_array s temp_cell false in
  rmap unwrap (mapM (fun '(a, (e, t)) => array_pvwatts_dc a e t) (combine (arrays s) (combine e t))).
(** pvsystem.py:878-890 *)
Definition sys_pvwatts_losses (s : pvsystem) : fl :=
  pvwatts_losses (build_kwargs (map fst pvwatts_losses_defaults) (nums (losses_parameters s))).
(** pvsystem.py:892-901 *)
Definition sys_dc_ohms_from_percent (s : pvsystem) : res (pyarg fl) :=
  rmap unwrap (mapM array_dc_ohms_from_percent (arrays s)).
