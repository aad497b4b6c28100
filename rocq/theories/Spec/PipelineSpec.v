(** What a successful run of a ModelChain computes, array by array.  [E] are the functions of the other modules; the
    equations say which of them is called on which data and where its value is stored. *)
From Coq Require Import List String Bool Arith ZArith.
From Verif Require Import Base.Fl Base.Py Model.Pvsystem Model.System Model.ModelChain Spec.ChainSpec Spec.PerArraySpec.
Import ListNotations.
Open Scope string_scope.

(** the value of a result field for array [k] *)
Definition at_k {A} (p : option (pyarg A)) (k : nat) : option A := match p with Some q => value_for q k | None => None end.
Definition column (d : frame) (k : string) : option ser := lookup k d.
(** a column of the input, or a constant one *)
Definition column_or (d : dframe) (k : string) (x : fl) : ser :=
  match lookup k (df_cols d) with Some v => v | None => repeat x (length (df_index d)) end.
(** entry [j] of a float or Series *)
Definition entry (v : nser) (j : nat) : option fl := match v with Sc x => Some x | Ser l => nth_error l j end.

(** how a per-array result is stored: bare for a single array given bare data, a tuple with one entry per array otherwise *)
Definition stored {A} (n : nat) (i : input) (p : option (pyarg A)) : Prop :=
  match i, n with
  | InFrame _, 1 => exists v, p = Some (Bare v)
  | _, _ => exists l, p = Some (Tup l) /\ length l = n
  end.

(** the weather kept in the results: the known columns, 20 C and no wind when not given *)
Definition weather_kept (i : input) (n : nat) (r : results) : Prop :=
  forall k d, (k < n)%nat -> input_for i k = Some d -> exists w, at_k (weather r) k = Some w /\ df_index w = df_index d /\
    column (df_cols w) "temp_air" = Some (column_or d "temp_air" #20) /\
    column (df_cols w) "wind_speed" = Some (column_or d "wind_speed" #0) /\
    forall key, In key ["ghi"; "dhi"; "dni"; "precipitable_water"] -> column (df_cols w) key = column (df_cols d) key.
(** per-array fields of a run *)
Definition stored_back (n : nat) (i : input) (r : results) : Prop :=
  stored n i (total_irrad r) /\ stored n i (effective_irradiance r) /\ stored n i (cell_temperature r) /\ stored n i (dc r).
Definition stored_all (n : nat) (i : input) (r : results) : Prop :=
  stored n i (r_aoi r) /\ stored n i (aoi_modifier r) /\ stored n i (spectral_modifier r) /\ stored_back n i r.

Section Stages.
Variable E : env.
Variable c : chain.

Definition transposed (t : list Z) (sp am : frame) (alb : nser) (a : array) (d : dframe) (ti : frame) : Prop :=
  exists z az amr dni ghi dhi,
    column sp "apparent_zenith" = Some z /\ column sp "azimuth" = Some az /\ column am "airmass_relative" = Some amr /\
    column (df_cols d) "dni" = Some dni /\ column (df_cols d) "ghi" = Some ghi /\ column (df_cols d) "dhi" = Some dhi /\
    e_irradiance E t a z az dni ghi dhi amr alb (c_transposition_model c) = Ok ti.
Definition incidence (sp : frame) (a : array) (x : ser) : Prop :=
  exists z az, column sp "apparent_zenith" = Some z /\ column sp "azimuth" = Some az /\ x = e_aoi E a z az.
Definition modified (a : array) (aoi : ser) (v : nser) : Prop :=
  match c_aoi_model c with
  | AOI_no_loss => v = Sc #1
  | k => exists nm x, In (k, nm) aoi_names /\ e_iam E a aoi nm = Ok x /\ v = Ser x
  end.
Definition spectral (am : frame) (a : array) (d : dframe) (v : nser) : Prop :=
  match c_spectral_model c with
  | SP_no_loss => v = Sc #1
  | SP_sapm => exists ama x, column am "airmass_absolute" = Some ama /\ e_sapm_spectral E a ama = Ok x /\ v = Ser x
  | SP_first_solar => exists ama pw x, column am "airmass_absolute" = Some ama /\ column (df_cols d) "precipitable_water" = Some pw /\
      e_first_solar E a pw ama = Ok x /\ v = Ser x
  end.
(** spectral modifier * (AOI modifier * direct + FD * diffuse), FD = 1 when the module has none *)
Definition effective (a : array) (ti : frame) (sm iam : nser) (eff : ser) : Prop :=
  exists fd direct diffuse,
    (lookup "FD" (ar_module_parameters a) = Some (VNum fd) \/ lookup "FD" (ar_module_parameters a) = None /\ fd = #1) /\
    column ti "poa_direct" = Some direct /\ column ti "poa_diffuse" = Some diffuse /\
    forall j, nth_error eff j =
      match entry sm j, entry iam j, nth_error direct j, nth_error diffuse j with
      | Some s, Some m, Some x, Some y => Some (fmul s (fadd (fmul m x) (fmul fd y)))
      | _, _, _, _ => None
      end.
(** the irradiance that heats the cells: poa_global when every array has it, else the effective irradiance *)
Definition heating (ti : list frame) (k : nat) (eff : option ser) (p : ser) : Prop :=
  (forall f, In f ti -> column f "poa_global" <> None) /\ (exists f, nth_error ti k = Some f /\ column f "poa_global" = Some p) \/
  (exists f, In f ti /\ column f "poa_global" = None) /\ eff = Some p.
(** measured cell temperature, else SAPM from measured module temperature, else the temperature model *)
Definition cell_temp (t : list Z) (a : array) (d : dframe) (poa eff : ser) (tc : ser) : Prop :=
  match column (df_cols d) "cell_temperature", column (df_cols d) "module_temperature", c_temperature_model c with
  | Some measured, _, _ => tc = measured
  | None, Some mt, T_sapm => exists dT, lookup "deltaT" (ar_temperature_model_parameters a) = Some dT /\ e_cell_from_module E mt poa dT = Ok tc
  | None, _, k => exists nm, In (k, nm) temperature_names /\
      e_cell_temperature E t a poa (column_or d "temp_air" #20) (column_or d "wind_speed" #0) nm
        (match k with T_noct_sam => Some eff | _ => None end) = Ok tc
  end.
(** NaN replaced by zero everywhere *)
Definition nan_zeroed (d d' : frame) : Prop :=
  map fst d' = map fst d /\ forall k v, nth_error (map snd d) k = Some v ->
    exists v', nth_error (map snd d') k = Some v' /\ length v' = length v /\
      forall j x, nth_error v j = Some x -> nth_error v' j = Some (match x with NaN => #0 | _ => x end).
Definition wired_up (a : array) (d d' : frame) : Prop :=
  scale_voltage_current_power d (ar_modules_per_string a) (ar_strings a) = Ok d'.
Definition dc_power (dp : option frame) (a : array) (eff tc : ser) (out : dcval) : Prop :=
  let single w := exists p d d' z, e_calcparams E w a eff tc = Ok p /\ dp = Some p /\ e_singlediode E p = Ok d /\
                    wired_up a d d' /\ nan_zeroed d' z /\ out = DcF z in
  match c_dc_model c with
  | None => False
  | Some DC_sapm => exists d d', e_sapm E a eff tc = Ok d /\ wired_up a d d' /\ out = DcF d'
  | Some DC_desoto => single "desoto" | Some DC_cec => single "cec" | Some DC_pvsyst => single "pvsyst"
  | Some DC_pvwatts => exists p d' q, e_pvwatts_dc E a eff tc = Ok p /\ wired_up a [("p_mp", p)] d' /\ column d' "p_mp" = Some q /\ out = DcS q
  end.
(** wiring losses R*i^2 taken off p_mp *)
Definition after_wiring (loss : option ser) (a : array) (x y : dcval) : Prop :=
  match c_dc_ohmic_model c with
  | OHM_no_loss => y = x
  | OHM_from_percent => exists R f f' i p q l, x = DcF f /\ y = DcF f' /\ array_dc_ohms_from_percent a = Ok R /\
      column f "i_mp" = Some i /\ column f "p_mp" = Some p /\ column f' "p_mp" = Some q /\ loss = Some l /\ length l = length i /\
      (forall j v, nth_error i j = Some v -> nth_error l j = Some (fmul (fmul R v) v)) /\
      (forall j, nth_error q j = match nth_error p j, nth_error l j with Some u, Some w => Some (fsub u w) | _, _ => None end) /\
      (forall k, k <> "p_mp" -> column f' k = column f k)
  end.
(** every DC value times the remaining fraction *)
Definition scaled_by (k : fl) (x y : dcval) : Prop :=
  match x, y with
  | DcS p, DcS q => length q = length p /\ forall j v, nth_error p j = Some v -> nth_error q j = Some (fmul v k)
  | DcF f, DcF g => map fst g = map fst f /\ forall n p, column f n = Some p -> exists q, column g n = Some q /\
      length q = length p /\ forall j v, nth_error p j = Some v -> nth_error q j = Some (fmul v k)
  | _, _ => False
  end.
Definition after_losses (ls : option fl) (x y : dcval) : Prop :=
  match c_losses_model c with
  | LOSS_no_loss => y = x /\ ls = Some #1
  | LOSS_pvwatts => let k := fdiv (fsub #100 (sys_pvwatts_losses (c_system c))) #100 in scaled_by k x y /\ ls = Some k
  end.
Definition dc_column (k : string) (x : dcval) (v : ser) : Prop := exists f, x = DcF f /\ column f k = Some v.
(** the inverter model on the DC results of all arrays *)
Definition inverted (dcs : list dcval) (out : ser) : Prop :=
  match c_ac_model c, dcs with
  | AC_sandia, [x] => exists v p, dc_column "v_mp" x v /\ dc_column "p_mp" x p /\ e_sandia E v p = Ok out
  | AC_sandia, _ => exists vs ps, Forall2 (dc_column "v_mp") dcs vs /\ Forall2 (dc_column "p_mp") dcs ps /\ e_sandia_multi E vs ps = Ok out
  | AC_adr, [x] => exists v p, dc_column "v_mp" x v /\ dc_column "p_mp" x p /\ e_adr E v p = Ok out
  | AC_adr, _ => False
  | AC_pvwatts, [x] => exists y, e_pvwatts E x = Ok y /\ out = map (fun v => match v with NaN => #0 | _ => v end) y
  | AC_pvwatts, _ => exists y, e_pvwatts_multi E dcs = Ok y /\ out = map (fun v => match v with NaN => #0 | _ => v end) y
  end.

(** from the effective irradiance to AC power *)
Definition back (i : input) (r : results) : Prop :=
  exists t tis dcs out, times r = Some t /\ ac r = Some out /\ length dcs = length (arrays (c_system c)) /\
    length tis = length (arrays (c_system c)) /\
    (forall k, (k < length (arrays (c_system c)))%nat -> nth_error tis k = at_k (total_irrad r) k) /\
    (forall k a d, nth_error (arrays (c_system c)) k = Some a -> input_for i k = Some d ->
       exists eff poa tc x y z,
         at_k (effective_irradiance r) k = Some eff /\
         heating tis k (Some eff) poa /\
         at_k (cell_temperature r) k = Some tc /\ cell_temp t a d poa eff tc /\
         dc_power (at_k (diode_params r) k) a eff tc x /\
         after_wiring (at_k (dc_ohmic_losses_ r) k) a x y /\
         after_losses (losses r) y z /\
         at_k (dc r) k = Some z /\ nth_error dcs k = Some z) /\
    inverted dcs out.
(** sun position, airmass, angle of incidence and its modifier, spectral modifier *)
Definition sun (i : input) (r : results) (sp am : frame) : Prop :=
  exists d0, input_for i 0 = Some d0 /\ times r = Some (df_index d0) /\
    solar_position r = Some sp /\ airmass r = Some am /\
    e_solarposition E (df_index d0) (c_solar_position_method c) (column (df_cols d0) "pressure") (column (df_cols d0) "temp_air") = Ok sp /\
    e_airmass E sp (c_airmass_model c) = Ok am.
Definition middle (i : input) (r : results) (sp am : frame) : Prop :=
  forall k a d, nth_error (arrays (c_system c)) k = Some a -> input_for i k = Some d ->
    exists ti aoi iam sm eff,
      at_k (total_irrad r) k = Some ti /\
      at_k (r_aoi r) k = Some aoi /\ incidence sp a aoi /\
      at_k (aoi_modifier r) k = Some iam /\ modified a aoi iam /\
      at_k (spectral_modifier r) k = Some sm /\ spectral am a d sm /\
      at_k (effective_irradiance r) k = Some eff /\ effective a ti sm iam eff.
(** the albedo columns when every frame has one, else the albedo of the arrays *)
Definition albedo_used (i : input) (k : nat) (a : array) (alb : nser) : Prop :=
  (forall d, In d (frames i) -> column (df_cols d) "albedo" <> None) /\
     (exists d v, input_for i k = Some d /\ column (df_cols d) "albedo" = Some v /\ alb = Ser v) \/
  (exists d, In d (frames i) /\ column (df_cols d) "albedo" = None) /\ alb = Sc (ar_albedo a).
Definition run_model_computes (i : input) (r : results) : Prop :=
  exists sp am t, sun i r sp am /\ times r = Some t /\
    (forall k a d, nth_error (arrays (c_system c)) k = Some a -> input_for i k = Some d ->
       exists ti alb, at_k (total_irrad r) k = Some ti /\ at_k (r_albedo r) k = Some alb /\ albedo_used i k a alb /\
         transposed t sp am alb a d ti) /\
    middle i r sp am /\ back i r.
(** total irradiance taken from the input *)
Definition poa_given (i : input) (r : results) : Prop :=
  forall k d, (k < length (arrays (c_system c)))%nat -> input_for i k = Some d ->
    exists ti, at_k (total_irrad r) k = Some ti /\
      forall key, column ti key = if mem key ["poa_global"; "poa_direct"; "poa_diffuse"] then column (df_cols d) key else None.
Definition run_from_poa_computes (i : input) (r : results) : Prop :=
  exists sp am, sun i r sp am /\ poa_given i r /\ middle i r sp am /\ back i r.
Definition run_from_effective_computes (i : input) (r : results) : Prop :=
  (exists d0, input_for i 0 = Some d0 /\ times r = Some (df_index d0)) /\ poa_given i r /\
  (forall k d, (k < length (arrays (c_system c)))%nat -> input_for i k = Some d ->
     exists eff, at_k (effective_irradiance r) k = Some eff /\ column (df_cols d) "effective_irradiance" = Some eff) /\
  back i r.

(** complete_irradiance: the missing one of ghi, dni and dhi computed from the other two; other data left as they are *)
Definition given (d : dframe) (k : string) : Prop := column (df_cols d) k <> None.
Definition added (d w : dframe) (k : string) (out : frame) : Prop :=
  df_index w = df_index d /\ exists v, column out k = Some v /\ column (df_cols w) k = Some v /\
    forall k', k' <> k -> column (df_cols w) k' = column (df_cols d) k'.
Definition completed (sp : frame) (d w : dframe) : Prop :=
  (given d "ghi" /\ given d "dhi" /\ ~ given d "dni" /\
     exists cs z cd out, e_clearsky E (df_index d) (c_clearsky_model c) sp = Ok cs /\ column sp "zenith" = Some z /\ column cs "dni" = Some cd /\
       e_complete E z (column (df_cols d) "ghi") (column (df_cols d) "dhi") None (Some cd) = Ok out /\ added d w "dni" out) \/
  (given d "dni" /\ given d "dhi" /\ ~ given d "ghi" /\
     exists z out, column sp "zenith" = Some z /\
       e_complete E z None (column (df_cols d) "dhi") (column (df_cols d) "dni") None = Ok out /\ added d w "ghi" out) \/
  (given d "dni" /\ given d "ghi" /\ ~ given d "dhi" /\
     exists z out, column sp "zenith" = Some z /\
       e_complete E z (column (df_cols d) "ghi") None (column (df_cols d) "dni") None = Ok out /\ added d w "dhi" out) \/
  ((given d "ghi" /\ given d "dni" /\ given d "dhi" \/
    (~ given d "ghi" /\ ~ given d "dni") \/ (~ given d "ghi" /\ ~ given d "dhi") \/ (~ given d "dni" /\ ~ given d "dhi")) /\ w = d).
Definition complete_computes (i : input) (r : results) : Prop :=
  exists d0 sp, input_for i 0 = Some d0 /\ times r = Some (df_index d0) /\ solar_position r = Some sp /\
    e_solarposition E (df_index d0) (c_solar_position_method c) None None = Ok sp /\
    forall k d, (k < length (arrays (c_system c)))%nat -> input_for i k = Some d ->
      exists w, at_k (weather r) k = Some w /\ completed sp d w.
End Stages.
