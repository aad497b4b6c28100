(** ivtools/sdm: fit_desoto, fit_desoto_batzelis (desoto.py) and fit_cec_sam (cec.py).
    scipy.optimize.root and PySAM are arguments; the texts of error messages are not modelled. *)
From Verif Require Import Base.Fl Base.Py Model.SingleDiode.
From Coq Require Import String.
Open Scope R_scope.
Open Scope list_scope.

(** parameters in the order of desoto.py:118: IL, Io, Rs, Rsh, a *)
Definition vec := (fl * fl * fl * fl * fl)%type.
(** desoto.py:137: i_sc, v_oc, i_mp, v_mp, beta_voc, alpha_sc, EgRef, dEgdT, Tref, k *)
Record specs := Specs { s_isc : fl; s_voc : fl; s_imp : fl; s_vmp : fl; s_beta : fl; s_alpha : fl; s_Eg : fl; s_dEg : fl; s_Tref : fl; s_k : fl }.

(** desoto.py:164-217 _system_of_equations_desoto *)
Definition desoto_system (p : vec) (s : specs) : vec :=
  let '(IL, Io, Rs, Rsh, a) := p in
  let (Isc, Voc, Imp, Vmp, beta_oc, alpha_sc, EgRef, dEgdT, Tref, k) := s in
  (let y0 := Isc - IL + Io * fexpm1 (Isc * Rs / a) + Isc * Rs / Rsh in
   let y1 := - IL + Io * fexpm1 (Voc / a) + Voc / Rsh in
   let y2 := Imp - IL + Io * fexpm1 ((Vmp + Imp * Rs) / a) + (Vmp + Imp * Rs) / Rsh in
   let y3 := Imp - Vmp * ((Io / a) * fexp ((Vmp + Imp * Rs) / a) + #1 / Rsh)
               / (#1 + (Io * Rs / a) * fexp ((Vmp + Imp * Rs) / a) + Rs / Rsh) in
   let T2 := Tref + #2 in
   let Voc2 := (T2 - Tref) * beta_oc + Voc in
   let a2 := a * T2 / Tref in
   let IL2 := IL + alpha_sc * (T2 - Tref) in
   let Eg2 := EgRef * (#1 + dEgdT * (T2 - Tref)) in
   let Io2 := Io * (T2 / Tref) ^ 3 * fexp (#1 / k * (EgRef / Tref - Eg2 / T2)) in
   let y4 := - IL2 + Io2 * fexpm1 (Voc2 / a2) + Voc2 / Rsh in
   (y0, y1, y2, y3, y4))%fl.

(** the fields of scipy's OptimizeResult that pvlib reads *)
Record opt_result := OptResult { o_x : vec; o_success : bool }.

Definition init_guess_keys : list string := ["IL_0"; "Io_0"; "Rs_0"; "Rsh_0"; "a_0"]%string.
(** desoto.py:119-125: the defaults *)
Definition desoto_defaults (k v_mp i_mp v_oc i_sc cells_in_series Tref : fl) : list (string * fl) :=
  (let a_0 := #1.5 * k * Tref * cells_in_series in
   let Io_0 := i_sc * fexp (- v_oc / a_0) in
   let Rs_0 := (a_0 * flog1p ((i_sc - i_mp) / Io_0) - v_mp) / i_mp in
   [("IL_0", i_sc); ("Io_0", Io_0); ("Rs_0", Rs_0); ("Rsh_0", #100); ("a_0", a_0)]%string)%fl.
(** d[key] = v for a key that is there *)
Fixpoint set_key (key : string) (v : fl) (d : list (string * fl)) : list (string * fl) :=
  match d with [] => [] | (x, w) :: d' => if String.eqb x key then (x, v) :: d' else (x, w) :: set_key key v d' end.
(** desoto.py:127-132 *)
Fixpoint overwrite (init guess : list (string * fl)) : res (list (string * fl)) :=
  match guess with
  | [] => Ok init
  | (key, v) :: guess' => if mem key init_guess_keys then overwrite (set_key key v init) guess' else Err ValueError
  end.
Section Desoto.
(** optimize.root(f, x0, **root_kwargs) *)
Variable root : (vec -> vec) -> vec -> list (string * fl) -> opt_result.
(** scipy's Boltzmann constant in eV/K *)
Variable kB : R.
(** desoto.py:16-161 fit_desoto *)
Definition fit_desoto (v_mp i_mp v_oc i_sc alpha_sc beta_voc cells_in_series EgRef dEgdT temp_ref irrad_ref : fl)
    (init_guess root_kwargs : list (string * fl)) : res (list (string * fl) * opt_result) :=
  let Tref := (temp_ref + #273.15)%fl in
  let* init := overwrite (desoto_defaults #kB v_mp i_mp v_oc i_sc cells_in_series Tref) init_guess in
  let* x0 := getitem init "IL_0" in let* x1 := getitem init "Io_0" in let* x2 := getitem init "Rs_0" in
  let* x3 := getitem init "Rsh_0" in let* x4 := getitem init "a_0" in
  let s := Specs i_sc v_oc i_mp v_mp beta_voc alpha_sc EgRef dEgdT Tref #kB in
  let r := root (fun p => desoto_system p s) (x0, x1, x2, x3, x4) root_kwargs in
  if o_success r then
    let '(IL, Io, Rs, Rsh, a) := o_x r in
    Ok ([("I_L_ref", IL); ("I_o_ref", Io); ("R_s", Rs); ("R_sh_ref", Rsh); ("a_ref", a); ("alpha_sc", alpha_sc);
         ("EgRef", EgRef); ("dEgdT", dEgdT); ("irrad_ref", irrad_ref); ("temp_ref", temp_ref)]%string, r)
  else Err RuntimeError.
End Desoto.

(** desoto.py:404-472 fit_desoto_batzelis *)
Definition fit_desoto_batzelis (v_mp i_mp v_oc i_sc alpha_sc beta_voc : fl) : list (string * fl) :=
  (let alpha_sc := alpha_sc / i_sc in
   let beta_voc := beta_voc / v_oc in
   let t0 := #298.15 in
   let del0 := (#1 - beta_voc * t0) / (#50.1 - alpha_sc * t0) in
   let w0 := lambertw_pvlib (fexp (#1 / del0 + #1)) in
   let a0 := del0 * v_oc in
   let Rs0 := (a0 * (w0 - #1) - v_mp) / i_mp in
   let Rsh0 := a0 * (w0 - #1) / (i_sc * (#1 - #1 / w0) - i_mp) in
   let Iph0 := (#1 + Rs0 / Rsh0) * i_sc in
   let Isat0 := Iph0 * fexp (#(-1) / del0) in
   [("alpha_sc", alpha_sc * i_sc); ("a_ref", a0); ("I_L_ref", Iph0); ("I_o_ref", Isat0); ("R_sh_ref", Rsh0); ("R_s", Rs0)]%string)%fl.

(** cec.py:2-93 fit_cec_sam: [ssc] is PySSC.ssc_sim_from_dict, [None] when PySAM is not installed; the dict it gets has these
    numeric entries and the text entries tech_model='6parsolve', financial_model=None, celltype *)
Definition fit_cec_sam (ssc : option (string -> list (string * fl) -> list (string * fl))) (celltype : string)
    (v_mp i_mp v_oc i_sc alpha_sc beta_voc gamma_pmp cells_in_series temp_ref : fl) : res (list fl) :=
  match ssc with
  | None => Err ImportError
  | Some ssc =>
      let result := ssc celltype [("Vmp", v_mp); ("Imp", i_mp); ("Voc", v_oc); ("Isc", i_sc); ("alpha_isc", alpha_sc);
        ("beta_voc", beta_voc); ("gamma_pmp", gamma_pmp); ("Nser", cells_in_series); ("Tref", temp_ref)]%string in
      let* success := getitem result "cmod_success" in
      if feqb success #1 then mapM (getitem result) ["Il"; "Io"; "Rs"; "Rsh"; "a"; "Adj"]%string else Err RuntimeError
  end.
