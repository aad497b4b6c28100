(** Model of the named configurations of pvlib/modelchain.py: with_pvwatts, with_sapm, get_orientation. *)
From Verif Require Import Base.Fl Base.Py Base.PyStr Model.System Model.ModelChain.
Open Scope list_scope.
Open Scope string_scope.

(** keyword arguments: a string or None (functions are not modelled) *)
Definition kwargs := list (string * option string).
(** modelchain.py:52-61 *)
Definition PVWATTS_CONFIG : kwargs :=
  [("dc_model", Some "pvwatts"); ("ac_model", Some "pvwatts"); ("losses_model", Some "pvwatts"); ("transposition_model", Some "perez");
   ("aoi_model", Some "physical"); ("spectral_model", Some "no_loss"); ("temperature_model", Some "sapm")].
Definition SAPM_CONFIG : kwargs :=
  [("dc_model", Some "sapm"); ("ac_model", Some "sandia"); ("losses_model", Some "no_loss"); ("aoi_model", Some "sapm");
   ("spectral_model", Some "sapm"); ("temperature_model", Some "sapm")].
(** python's dict.update; the source updates a copy, so the module-level dictionaries keep their values *)
Definition update (d e : kwargs) : kwargs := fold_left (fun d kv => dict_set (fst kv) (snd kv) d) e d.
(** modelchain.py:370-378 the call ModelChain(system, location, ...): keyword arguments over the defaults, TypeError for an unknown one.  [name] does not
    affect the models; None for one of the four names that are stored unchecked is stored as the text None. *)
Definition modelchain_arguments : list string :=
  ["clearsky_model"; "transposition_model"; "solar_position_method"; "airmass_model"; "dc_model"; "ac_model"; "aoi_model"; "spectral_model";
   "temperature_model"; "dc_ohmic_model"; "losses_model"; "name"].
Definition argument (kw : kwargs) (key : string) (default : option string) : option string := match lookup key kw with Some v => v | None => default end.
Definition stored (o : option string) : string := match o with Some t => t | None => "None" end.
Definition modelchain (s : pvsystem) (kw : kwargs) : res chain :=
  if negb (forallb (fun kv => mem (fst kv) modelchain_arguments) kw) then Err TypeError
  else chain_init s (stored (argument kw "clearsky_model" (Some "ineichen"))) (stored (argument kw "transposition_model" (Some "haydavies")))
    (stored (argument kw "solar_position_method" (Some "nrel_numpy"))) (stored (argument kw "airmass_model" (Some "kastenyoung1989")))
    (argument kw "dc_model" None) (argument kw "ac_model" None) (argument kw "aoi_model" None) (argument kw "spectral_model" None)
    (argument kw "temperature_model" None) (argument kw "dc_ohmic_model" (Some "no_loss")) (argument kw "losses_model" (Some "no_loss")).
(** python's f(a=.., b=.., **kw): a repeated keyword is a TypeError *)
Definition with_keywords (explicit kw : kwargs) : res kwargs := if existsb (fun kv => mem (fst kv) (map fst explicit)) kw then Err TypeError else Ok (explicit ++ kw)%list.
(** the binding of a method's own named parameters out of the call's keywords: named ones, and the rest as **kwargs *)
Definition rest_kwargs (names : list string) (kw : kwargs) : kwargs := filter (fun kv => negb (mem (fst kv) names)) kw.
(** modelchain.py:401-488 with_pvwatts *)
Definition with_pvwatts (s : pvsystem) (call : kwargs) : res chain :=
  let rest := rest_kwargs ["clearsky_model"; "airmass_model"; "name"] call in
  let config := update PVWATTS_CONFIG rest in
  let* kw := with_keywords [("clearsky_model", argument call "clearsky_model" (Some "ineichen"));
                            ("airmass_model", argument call "airmass_model" (Some "kastenyoung1989")); ("name", argument call "name" None)] config in
  modelchain s kw.
(** modelchain.py:490-568 with_sapm *)
Definition with_sapm (s : pvsystem) (call : kwargs) : res chain :=
  let rest := rest_kwargs ["clearsky_model"; "transposition_model"; "solar_position_method"; "airmass_model"; "name"] call in
  let config := update SAPM_CONFIG rest in
  let* kw := with_keywords [("clearsky_model", argument call "clearsky_model" (Some "ineichen"));
                            ("transposition_model", argument call "transposition_model" (Some "haydavies"));
                            ("solar_position_method", argument call "solar_position_method" (Some "nrel_numpy"));
                            ("airmass_model", argument call "airmass_model" (Some "kastenyoung1989")); ("name", argument call "name" None)] config in
  modelchain s kw.
(** modelchain.py:64-104 get_orientation: (surface_tilt, surface_azimuth) *)
Definition get_orientation (strategy : string) (kw : list (string * fl)) : res (fl * fl) :=
  if String.eqb strategy "south_at_latitude_tilt" then let* latitude := getitem kw "latitude" in Ok (latitude, Fin 180)
  else if String.eqb strategy "flat" then Ok (Fin 0, Fin 180)
  else Err ValueError.
