(** Model of the functions of pvlib/pvsystem.py (module-level functions; the classes are in Model/System.v). *)
From Verif Require Import Base.Fl Base.Py Model.Tools Model.Iam Model.Spectrum.
From Coq Require Import ZArith.
Open Scope R_scope.

(** single-diode parameters (IL, I0, Rs, Rsh, nNsVth), pvsystem.py:1753 *)
Record sdparams := SD { sd_IL : fl; sd_I0 : fl; sd_Rs : fl; sd_Rsh : fl; sd_nNsVth : fl }.

(** pvsystem.py:1551-1763 calcparams_desoto on one sample; [kB] is scipy's Boltzmann constant in eV/K *)
Definition calcparams_desoto (kB : R) (effective_irradiance temp_cell alpha_sc a_ref I_L_ref I_o_ref R_sh_ref R_s
    EgRef dEgdT irrad_ref temp_ref : fl) : sdparams :=
  (let Tref_K := temp_ref + #273.15 in
   let Tcell_K := temp_cell + #273.15 in
   let E_g := EgRef * (#1 + dEgdT * (Tcell_K - Tref_K)) in
   let nNsVth := a_ref * (Tcell_K / Tref_K) in
   let IL := effective_irradiance / irrad_ref * (I_L_ref + alpha_sc * (Tcell_K - Tref_K)) in
   let I0 := I_o_ref * ((Tcell_K / Tref_K) ^ 3) * fexp (EgRef / (#kB * Tref_K) - (E_g / (#kB * Tcell_K))) in
   let Rsh := R_sh_ref * (irrad_ref / effective_irradiance) in
   SD IL I0 R_s Rsh nNsVth)%fl.

(** pvsystem.py:1766-1879 calcparams_cec *)
Definition calcparams_cec (kB : R) (effective_irradiance temp_cell alpha_sc a_ref I_L_ref I_o_ref R_sh_ref R_s Adjust
    EgRef dEgdT irrad_ref temp_ref : fl) : sdparams :=
  calcparams_desoto kB effective_irradiance temp_cell (alpha_sc * (#1 - Adjust / #100))%fl a_ref I_L_ref I_o_ref
    R_sh_ref R_s EgRef dEgdT irrad_ref temp_ref.

(** pvsystem.py:2020-2029 _pvsyst_Rsh *)
Definition pvsyst_Rsh (effective_irradiance R_sh_ref R_sh_0 R_sh_exp irrad_ref : fl) : fl :=
  (let Rsh_tmp := (R_sh_ref - R_sh_0 * fexp (- R_sh_exp)) / (#1 - fexp (- R_sh_exp)) in
   let Rsh_base := fmax #0 Rsh_tmp in
   Rsh_base + (R_sh_0 - Rsh_base) * fexp (- R_sh_exp * effective_irradiance / irrad_ref))%fl.
(** pvsystem.py:2032-2038 _pvsyst_IL *)
Definition pvsyst_IL (effective_irradiance temp_cell I_L_ref alpha_sc irrad_ref temp_ref : fl) : fl :=
  (let Tref_K := temp_ref + #273.15 in
   let Tcell_K := temp_cell + #273.15 in
   effective_irradiance / irrad_ref * (I_L_ref + alpha_sc * (Tcell_K - Tref_K)))%fl.
(** pvsystem.py:2041-2051 _pvsyst_Io; [k] and [q] are scipy.constants.k and scipy.constants.e *)
Definition pvsyst_Io (k q : R) (temp_cell gamma I_o_ref EgRef temp_ref : fl) : fl :=
  (let Tref_K := temp_ref + #273.15 in
   let Tcell_K := temp_cell + #273.15 in
   I_o_ref * ((Tcell_K / Tref_K) ^ 3) * fexp ((#q * EgRef) / (#k * gamma) * (#1 / Tref_K - #1 / Tcell_K)))%fl.
(** pvsystem.py:2054-2056 _pvsyst_gamma *)
Definition pvsyst_gamma (temp_cell gamma_ref mu_gamma temp_ref : fl) : fl :=
  (gamma_ref + mu_gamma * (temp_cell - temp_ref))%fl.
(** pvsystem.py:2059-2065 _pvsyst_nNsVth *)
Definition pvsyst_nNsVth (k q : R) (temp_cell gamma cells_in_series : fl) : fl :=
  (gamma * #k / #q * cells_in_series * (temp_cell + #273.15))%fl.
(** pvsystem.py:1882-2017 calcparams_pvsyst *)
Definition calcparams_pvsyst (k q : R) (effective_irradiance temp_cell alpha_sc gamma_ref mu_gamma I_L_ref I_o_ref
    R_sh_ref R_sh_0 R_s cells_in_series R_sh_exp EgRef irrad_ref temp_ref : fl) : sdparams :=
  let gamma := pvsyst_gamma temp_cell gamma_ref mu_gamma temp_ref in
  SD (pvsyst_IL effective_irradiance temp_cell I_L_ref alpha_sc irrad_ref temp_ref)
     (pvsyst_Io k q temp_cell gamma I_o_ref EgRef temp_ref)
     R_s
     (pvsyst_Rsh effective_irradiance R_sh_ref R_sh_0 R_sh_exp irrad_ref)
     (pvsyst_nNsVth k q temp_cell gamma cells_in_series).

(** pvsystem.py:2237-2407 sapm.  The module is a dict; the output an ordered dict. *)
Definition sapm (k q : R) (effective_irradiance temp_cell : fl) (m : list (string * fl))
    (temperature_ref irradiance_ref : fl) : res (list (string * fl)) :=
  (let Ee := effective_irradiance / irradiance_ref in
   let* bvmpo := getitem m "Bvmpo" in let* mbvmp := getitem m "Mbvmp" in
   let Bvmpo := bvmpo + mbvmp * (#1 - Ee) in
   let* bvoco := getitem m "Bvoco" in let* mbvoc := getitem m "Mbvoc" in
   let Bvoco := bvoco + mbvoc * (#1 - Ee) in
   let* n := getitem m "N" in
   let delta := n * #k * (temp_cell + #273.15) / #q in
   (* 2354-2368: log of the positive entries, -inf for zero, nan for negative ones and nan *)
   let logEe := if fgtb Ee #0 then fln Ee else if feqb Ee #0 then NInf else NaN in
   let* cells_in_series := getitem m "Cells_in_Series" in
   let* isco := getitem m "Isco" in let* aisc := getitem m "Aisc" in
   let i_sc := isco * Ee * (#1 + aisc * (temp_cell - temperature_ref)) in
   let* impo := getitem m "Impo" in let* c0 := getitem m "C0" in let* c1 := getitem m "C1" in
   let* aimp := getitem m "Aimp" in
   let i_mp := impo * (c0 * Ee + c1 * Ee ^ 2) * (#1 + aimp * (temp_cell - temperature_ref)) in
   let* voco := getitem m "Voco" in
   let v_oc := fmax #0 (voco + cells_in_series * delta * logEe + Bvoco * (temp_cell - temperature_ref)) in
   let* vmpo := getitem m "Vmpo" in let* c2 := getitem m "C2" in let* c3 := getitem m "C3" in
   let v_mp := fmax #0 (vmpo + c2 * cells_in_series * delta * logEe + c3 * cells_in_series * (delta * logEe) ^ 2
                        + Bvmpo * (temp_cell - temperature_ref)) in
   let p_mp := i_mp * v_mp in
   let i_x := match lookup "IXO" m, lookup "C4" m, lookup "C5" m with
              | Some ixo, Some c4, Some c5 => [("i_x", ixo * (c4 * Ee + c5 * Ee ^ 2) * (#1 + aisc * (temp_cell - temperature_ref)))]
              | _, _, _ => [] end in
   let i_xx := match lookup "IXXO" m, lookup "C6" m, lookup "C7" m with
               | Some ixxo, Some c6, Some c7 => [("i_xx", ixxo * (c6 * Ee + c7 * Ee ^ 2) * (#1 + aimp * (temp_cell - temperature_ref)))]
               | _, _, _ => [] end in
   Ok ([("i_sc", i_sc); ("i_mp", i_mp); ("v_oc", v_oc); ("v_mp", v_mp); ("p_mp", p_mp)] ++ i_x ++ i_xx)%list)%string%fl.

(** the dictionary entries read by spectral_factor_sapm and iam.sapm *)
Definition sapm_a_of (m : list (string * fl)) : res sapm_a :=
  (let* a4 := getitem m "A4" in let* a3 := getitem m "A3" in let* a2 := getitem m "A2" in
   let* a1 := getitem m "A1" in let* a0 := getitem m "A0" in Ok (SapmA a0 a1 a2 a3 a4))%string.
Definition sapm_b_of (m : list (string * fl)) : res sapm_b :=
  (let* b5 := getitem m "B5" in let* b4 := getitem m "B4" in let* b3 := getitem m "B3" in
   let* b2 := getitem m "B2" in let* b1 := getitem m "B1" in let* b0 := getitem m "B0" in
   Ok (SapmB b0 b1 b2 b3 b4 b5))%string.
(** pvsystem.py:2410-2477 sapm_effective_irradiance *)
Definition sapm_effective_irradiance (poa_direct poa_diffuse airmass_absolute aoi : fl) (m : list (string * fl)) : res fl :=
  let* a := sapm_a_of m in
  let F1 := spectral_factor_sapm airmass_absolute a in
  let* b := sapm_b_of m in
  let F2 := iam_sapm aoi b None in
  let* fd := getitem m "FD"%string in
  Ok (F1 * (poa_direct * F2 + fd * poa_diffuse))%fl.

(** a pandas DataFrame: named columns in order (unique names), values by row *)
Definition frame := list (string * list fl).
(** DataFrame.filter(items): the columns named, in the order of [items] *)
Definition df_filter (items : list string) (d : frame) : frame :=
  flat_map (fun k => match lookup k d with Some v => [(k, v)] | None => [] end) items.
Definition df_scale (c : fl) (d : frame) : frame := map (fun p => (fst p, map (fun x => fmul x c) (snd p))) d.
(** df[columns]: KeyError when a column is missing *)
Definition df_select (columns : list string) (d : frame) : res frame :=
  mapM (fun k => let* v := getitem d k in Ok (k, v)) columns.
(** pvsystem.py:2886-2918 scale_voltage_current_power *)
Definition scale_voltage_current_power (data : frame) (voltage current : fl) : res frame :=
  let voltage_df := df_scale voltage (df_filter ["v_mp"; "v_oc"]%string data) in
  let current_df := df_scale current (df_filter ["i_mp"; "i_x"; "i_xx"; "i_sc"]%string data) in
  let power_df := df_scale current (df_scale voltage (df_filter ["p_mp"]%string data)) in
  df_select (map fst data) (voltage_df ++ current_df ++ power_df).

(** pvsystem.py:2921-3032 pvwatts_dc *)
Definition pvwatts_dc (effective_irradiance temp_cell pdc0 gamma_pdc temp_ref : fl) (k : option fl) (cap_adjustment : bool) : fl :=
  (let pdc := effective_irradiance * #0.001 * pdc0 * (#1 + gamma_pdc * (temp_cell - temp_ref)) in
   match k with
   | None => pdc
   | Some k =>
       let err_1 := k * (#1 - (#1 - effective_irradiance / #200) ^ 4) in
       let err_2 := k * (#1000 - effective_irradiance) / (#1000 - #200) in
       let err := where_ (fleb effective_irradiance #200) err_1 err_2 in
       let err := if cap_adjustment then where_ (fgeb effective_irradiance #1000) #0 err else err in
       let pdc := pdc - pdc0 * err in
       where_ (fltb pdc #0) #0 pdc
   end)%fl.

(** pvsystem.py:3074-3085: the product over the loss list *)
Definition losses_of (params : list fl) : fl :=
  (let perf := fold_left (fun perf param => perf * (#1 - param / #100)) params #1 in
   (#1 - perf) * #100)%fl.
(** pvsystem.py:3035-3037: the defaults *)
Definition pvwatts_losses_defaults : list (string * R) :=
  [("soiling", 2); ("shading", 3); ("snow", 0); ("mismatch", 2); ("wiring", 2); ("connections", 0.5); ("lid", 1.5);
   ("nameplate_rating", 1); ("age", 0); ("availability", 3)]%string.
(** pvsystem.py:3035-3085 pvwatts_losses called with the keyword arguments [kw] (names from the signature) *)
Definition pvwatts_losses (kw : list (string * fl)) : fl :=
  losses_of (map (fun p => match lookup (fst p) kw with Some v => v | None => #(snd p) end) pvwatts_losses_defaults).

(** pvsystem.py:3088-3141 dc_ohms_from_percent *)
Definition dc_ohms_from_percent (vmp_ref imp_ref dc_ohmic_percent modules_per_string strings : fl) : fl :=
  (let vmp := modules_per_string * vmp_ref in
   let imp := strings * imp_ref in
   dc_ohmic_percent / #100 * (vmp / imp))%fl.
(** pvsystem.py:3144-3177 dc_ohmic_losses *)
Definition dc_ohmic_losses (resistance current : fl) : fl := (resistance * current * current)%fl.

(** ** combine_loss_factors.  A Series: (time, value) rows with increasing times. *)
Inductive fill := Ffill | Bfill | NoFill.
(** Series.reindex([t], method): ffill takes the last row at or before t, bfill the first at or after, none the exact row *)
Fixpoint last_le (t : Z) (acc : fl) (s : list (Z * fl)) : fl :=
  match s with [] => acc | (u, v) :: s' => if Z.leb u t then last_le t v s' else acc end.
Fixpoint first_ge (t : Z) (s : list (Z * fl)) : fl :=
  match s with [] => NaN | (u, v) :: s' => if Z.leb t u then v else first_ge t s' end.
Fixpoint exact_at (t : Z) (s : list (Z * fl)) : fl :=
  match s with [] => NaN | (u, v) :: s' => if Z.eqb u t then v else exact_at t s' end.
Definition reindex1 (m : fill) (s : list (Z * fl)) (t : Z) : fl :=
  match m with Ffill => last_le t NaN s | Bfill => first_ge t s | NoFill => exact_at t s end.
(** pvsystem.py:3180-3219 combine_loss_factors; with no losses python returns the scalar 0 *)
Definition combine_loss_factors (index : list Z) (losses : list (list (Z * fl))) (fill_method : fill) : list fl :=
  map (fun t => (#1 - fold_left (fun acc loss => acc * (#1 - reindex1 fill_method loss t)) losses #1)%fl) index.

(** ** retrieve_sam and the name normalisation *)
(** pvsystem.py:2163-2171 *)
Definition sam_databases : list (string * string) :=
  [("cecmod", "sam-library-cec-modules-2019-03-05.csv"); ("sandiamod", "sam-library-sandia-modules-2015-6-30.csv");
   ("adrinverter", "adr-library-cec-inverters-2019-03-05.csv"); ("cecinverter", "sam-library-cec-inverters-2019-03-05.csv");
   ("sandiainverter", "sam-library-cec-inverters-2019-03-05.csv")]%string.
Inductive sam_source := BundledFile (file : string) | FromURL (url : string) | FromPath (path : string).
Fixpoint startswith (p s : string) : bool :=
  match p, s with
  | EmptyString, _ => true
  | String a p', String b s' => Ascii.eqb a b && startswith p' s'
  | String _ _, EmptyString => false
  end.
(** pvsystem.py:2068-2187 retrieve_sam: which data are parsed (the csv parser itself is pandas) *)
Definition retrieve_sam (name path : option string) : res sam_source :=
  match name, path with
  | Some _, Some _ => Err ValueError
  | None, None => Err ValueError
  | Some n, None => let* f := getitem sam_databases (lower n) in Ok (BundledFile f)
  | None, Some p => Ok (if startswith "http" (lower p) then FromURL p else FromPath p)
  end.
(** pvsystem.py:2199-2204 *)
Definition bad_chars : list ascii := [" "; "-"; "."; "("; ")"; "["; "]"; ":"; "+"; "/"; """"; ","]%char.
Definition normalize_char (c : ascii) : ascii := if existsb (Ascii.eqb c) bad_chars then "_"%char else c.
Fixpoint normalize_name (s : string) : string :=
  match s with EmptyString => EmptyString | String c s' => String (normalize_char c) (normalize_name s') end.
(** pvsystem.py:2190-2215 _normalize_sam_product_names: the names and whether each of the two warnings is issued *)
Fixpoint has_dup (l : list string) : bool :=
  match l with [] => false | x :: l' => mem x l' || has_dup l' end.
Definition normalize_sam_product_names (names : list string) : list string * bool * bool :=
  let norm := map normalize_name names in (norm, has_dup names, has_dup norm).
