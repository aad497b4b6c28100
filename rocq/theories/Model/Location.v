(** location.py: the Location object.  Time stamps are one at a time ([T]); the solar position back end, the extraterrestrial
    irradiance of a time stamp and the two HDF5 maps are arguments. *)
From Verif Require Import Base.Fl Base.Py Model.Tools Model.Atmosphere Model.Clearsky Model.SolarPosition Model.Spa.
From Coq Require Import ZArith Decimal DecimalString.
Open Scope fl_scope.
Open Scope list_scope.

(** what a caller may assign to [tz]: a str, an int (bool is an int), a float, a datetime.tzinfo with its str(), anything else *)
Inductive tzspec := TzStr (name : string) | TzInt (n : Z) | TzFloat (x : fl) | TzInfo (str_of : string) | TzOther.

(** python's format(n, "+d") *)
Definition plus_d (n : Z) : string :=
  match Z.to_int n with
  | Pos u => String "+" (NilZero.string_of_uint u)
  | Neg u => String "-" (NilZero.string_of_uint u)
  end.
(** location.py:110,119; [n] is the offset, the name has the opposite sign *)
Definition etc_gmt (n : Z) : string := ("Etc/GMT" ++ plus_d (- n))%string.

(** location.py:104-129 the setter of [tz]: the name handed to zoneinfo.ZoneInfo; [zi name] is what ZoneInfo does with a name
    (Ok or the exception raised; ZoneInfoNotFoundError is a KeyError) *)
Definition zone_name (tz : tzspec) : res string :=
  match tz with
  | TzStr s => Ok s
  | TzInt n => Ok (etc_gmt n)
  | TzFloat x => match x with
                 | Fin r => if negb (Reqb (Rmodp r 1) 0) then Err TypeError else Ok (etc_gmt (ftrunc r))
                 | _ => Err TypeError  (* inf % 1 and nan % 1 are nan, which differs from 0 *)
                 end
  | TzInfo s => Ok s
  | TzOther => Err TypeError
  end.
Definition set_tz (zi : string -> res unit) (tz : tzspec) : res string :=
  let* name := zone_name tz in
  let* _ := zi name in
  Ok name.

(** the attributes; [l_zone] is str(self._zoneinfo), which the property tz returns (99-102); [l_weather] / [l_tmy] are the optional
    attributes set by from_tmy and from_epw *)
Record location (W : Type) := Loc { l_latitude : fl; l_longitude : fl; l_zone : string; l_altitude : fl; l_name : option string;
  l_weather : option W; l_tmy : option W }.
Arguments Loc {W}. Arguments l_latitude {W}. Arguments l_longitude {W}. Arguments l_zone {W}. Arguments l_altitude {W}. Arguments l_name {W}.
Arguments l_weather {W}. Arguments l_tmy {W}.

(** location.py:425-509 lookup_altitude; [alt_map] is the uint8 table *)
Definition lookup_altitude (alt_map : Z -> Z -> Z) (latitude longitude : fl) : res fl :=
  let* latitude_index := degrees_to_index latitude Latitude in
  let* longitude_index := degrees_to_index longitude Longitude in
  let alt := alt_map latitude_index longitude_index in
  if (alt =? 255)%Z then Ok #0
  else Ok (#(IZR alt) * #28 - #450).

(** location.py:79-90 *)
Definition location_init {W} (zi : string -> res unit) (alt_map : Z -> Z -> Z) (latitude longitude : fl) (tz : tzspec) (altitude : option fl)
    (name : option string) : res (location W) :=
  let* z := set_tz zi tz in
  let* a := match altitude with Some a => Ok a | None => lookup_altitude alt_map latitude longitude end in
  Ok (Loc latitude longitude z a name None None).
(** assignment to the property [tz] of an existing object (104-129): nothing is changed unless the whole setter succeeds.
    Returns the object afterwards and the exception raised, if any. *)
Definition assign_tz {W} (zi : string -> res unit) (tz : tzspec) (l : location W) : location W * option exc :=
  match set_tz zi tz with
  | Ok z => (Loc (l_latitude l) (l_longitude l) z (l_altitude l) (l_name l) (l_weather l) (l_tmy l), None)
  | Err e => (l, Some e)
  end.

(** metadata values *)
Inductive meta := MNum (x : fl) | MStr (s : string) | MTz (t : tzspec).
Definition meta_num (m : meta) : fl := match m with MNum x => x | _ => NaN end.   (* metadata is assumed to have the documented types *)
Definition meta_str (m : meta) : string := match m with MStr s => s | _ => EmptyString end.
Definition meta_tz (m : meta) : tzspec := match m with MTz t => t | MStr s => TzStr s | MNum x => TzFloat x end.
(** truth value of tmy_metadata.get('City', False) *)
Definition truthy_meta (m : option meta) : bool :=
  match m with None => false | Some (MStr s) => negb (String.eqb s EmptyString) | Some (MNum x) => negb (feqb x #0) | Some (MTz _) => true end.

(** location.py:148-191 from_tmy without **kwargs *)
Definition from_tmy {W} (zi : string -> res unit) (alt_map : Z -> Z -> Z) (metadata : list (string * meta)) (data : option W) : res (location W) :=
  let tmy2 := truthy_meta (lookup "City" metadata) in
  let* latitude := getitem metadata "latitude" in
  let* longitude := getitem metadata "longitude" in
  let* name := if tmy2 then getitem metadata "City" else getitem metadata "Name" in
  let* tz := getitem metadata "TZ" in
  let* altitude := getitem metadata "altitude" in
  let* l := location_init zi alt_map (meta_num latitude) (meta_num longitude) (meta_tz tz) (Some (meta_num altitude)) (Some (meta_str name)) in
  Ok (match data with None => l | Some d => Loc (l_latitude l) (l_longitude l) (l_zone l) (l_altitude l) (l_name l) (Some d) (Some d) end).
(** location.py:193-225 from_epw without **kwargs *)
Definition from_epw {W} (zi : string -> res unit) (alt_map : Z -> Z -> Z) (metadata : list (string * meta)) (data : option W) : res (location W) :=
  let* latitude := getitem metadata "latitude" in
  let* longitude := getitem metadata "longitude" in
  let* name := getitem metadata "city" in
  let* tz := getitem metadata "TZ" in
  let* altitude := getitem metadata "altitude" in
  let* l := location_init zi alt_map (meta_num latitude) (meta_num longitude) (meta_tz tz) (Some (meta_num altitude)) (Some (meta_str name)) in
  Ok (match data with None => l | Some d => Loc (l_latitude l) (l_longitude l) (l_zone l) (l_altitude l) (l_name l) (Some d) (l_tmy l) end).

(** ** methods *)
(** columns of a solar position table at one time *)
Record position := Pos { p_apparent_zenith : fl; p_zenith : fl; p_apparent_elevation : fl }.
(** the world at one time stamp: what the back end selected by get_solarposition returns, get_extra_radiation(times), and the calendar
    fields and map used by lookup_linke_turbidity *)
Record sky := Sky { backend : spcall fl -> res position; extra : fl; turbidity_map : Z -> Z -> list R; leap_year : bool; day_of_year : R; month : nat }.

(** location.py:227-259; **kwargs is the method *)
Definition loc_solarposition {W} (l : location W) (k : sky) (pressure : option fl) (temperature : fl) (method : string) : res position :=
  let pressure := match pressure with None => alt2pres (l_altitude l) | Some p => p end in
  let* call := get_solarposition (l_latitude l) (l_longitude l) (Some (l_altitude l)) (Some pressure) method temperature in
  backend k call.
Definition default_method : string := "nrel_numpy".

(** location.py:333-382 -> (airmass_relative, airmass_absolute) *)
Definition APPARENT_ZENITH_MODELS : list string := ["simple"; "kasten1966"; "kastenyoung1989"; "gueymard1993"; "pickering2002"].
Definition TRUE_ZENITH_MODELS : list string := ["youngirvine1967"; "young1994"].
Definition loc_airmass {W} (l : location W) (k : sky) (solar_position : option position) (model : string) : res (fl * fl) :=
  let* sp := match solar_position with Some p => Ok p | None => loc_solarposition l k None #12 default_method end in
  let* zenith := if mem model APPARENT_ZENITH_MODELS then Ok (p_apparent_zenith sp)
                 else if mem model TRUE_ZENITH_MODELS then Ok (p_zenith sp)
                 else Err ValueError in
  let* airmass_relative := get_relative_airmass zenith model in
  let pressure := alt2pres (l_altitude l) in
  Ok (airmass_relative, get_absolute_airmass airmass_relative pressure).

(** keyword arguments; booleans are 0 and 1 *)
Definition kwargs := list (string * fl).
Definition without (key : string) (kw : kwargs) : kwargs := filter (fun p => negb (String.eqb (fst p) key)) kw.
Definition truthy (x : fl) : bool := negb (feqb x #0).
Definition default {A} (d : A) (o : option A) : A := match o with Some x => x | None => d end.
(** a call f(..., **kw) of a function whose remaining parameters are [allowed] *)
Definition check_kw (allowed : list string) (kw : kwargs) : res unit :=
  if forallb (fun p => mem (fst p) allowed) kw then Ok tt else Err TypeError.

Inductive cs_table := CsAll (o : clear_out) | CsGhi (ghi : fl).
(** location.py:261-331 *)
Definition loc_clearsky {W} (l : location W) (k : sky) (model : string) (solar_position : option position) (dni_extra : option fl) (kw : kwargs)
    : res cs_table :=
  let dni_extra := default (extra k) dni_extra in
  let pressure := default (alt2pres (l_altitude l)) (lookup "pressure" kw) in
  let kw := without "pressure" kw in
  let* sp := match solar_position with Some p => Ok p | None => loc_solarposition l k (Some pressure) #12 default_method end in
  let apparent_zenith := p_apparent_zenith sp in
  let apparent_elevation := p_apparent_elevation sp in
  if String.eqb model "ineichen" then
    let* (linke_turbidity, kw) :=
      match lookup "linke_turbidity" kw with
      | Some lt => Ok (lt, without "linke_turbidity" kw)
      | None =>
          let interp_turbidity := default #1 (lookup "interp_turbidity" kw) in
          let* lt := lookup_linke_turbidity (turbidity_map k) (l_latitude l) (l_longitude l) (truthy interp_turbidity) (leap_year k) (day_of_year k) (month k) in
          Ok (#lt, without "interp_turbidity" kw)
      end in
    let* (airmass_absolute, kw) :=
      match lookup "airmass_absolute" kw with
      | Some am => Ok (am, without "airmass_absolute" kw)
      | None => let* am := loc_airmass l k (Some sp) "kastenyoung1989" in Ok (snd am, kw)
      end in
    let* _ := check_kw ["perez_enhancement"] kw in
    Ok (CsAll (ineichen apparent_zenith airmass_absolute linke_turbidity (l_altitude l) dni_extra
                 (truthy (default #0 (lookup "perez_enhancement" kw)))))
  else if String.eqb model "haurwitz" then Ok (CsGhi (haurwitz apparent_zenith))
  else if String.eqb model "simplified_solis" then
    let* _ := check_kw ["aod700"; "precipitable_water"] kw in
    Ok (CsAll (simplified_solis apparent_elevation (default #0.1 (lookup "aod700" kw)) (default #1 (lookup "precipitable_water" kw)) pressure dni_extra))
  else Err ValueError.

(** location.py:384-422; [ephem] is the table of the external back end, [decl_eot] the keyword arguments declination and equation_of_time
    (both are required by the geometric method), [delta_t] that of the spa method.  Returns the three columns in nanoseconds. *)
Record srs := Srs { c_sunrise : fl; c_sunset : fl; c_transit : fl }.
Definition loc_sun_rise_set_transit {W} (l : location W) (tz : option SolarPosition.zone) (t : Z) (method : string) (ephem : res srs) (delta_t : option R)
    (utc_year : Z) (utc_month : R) (decl_eot : option (fl * fl)) : res srs :=
  if String.eqb method "pyephem" then ephem
  else if String.eqb method "spa" then
    let* r := sun_rise_set_transit_spa tz t (l_latitude l) (l_longitude l) delta_t utc_year utc_month in
    (let '(sunrise, sunset, transit) := r in Ok (Srs sunrise sunset transit))
  else if String.eqb method "geometric" then
    match decl_eot with
    | None => Err TypeError
    | Some (declination, eot) =>
        let* r := sun_rise_set_transit_geometric tz t (l_latitude l) (l_longitude l) declination eot in
        (let '(sr, ss, tr) := r in Ok (Srs sr ss tr))
    end
  else Err ValueError.
