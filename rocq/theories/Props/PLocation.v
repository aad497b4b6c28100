(** C114-C116: Location. *)
From Verif Require Import Base.Fl Base.FlFacts Base.Py Base.Trig Model.Tools Model.Atmosphere Model.Clearsky Model.SolarPosition Model.Spa Model.Location
  Spec.ToolsSpec Spec.LocationSpec Proofs.Atmos Proofs.SolarP Proofs.SpaRise Proofs.ClearskyT Proofs.ClearskyB Props.PTools Props.PAtmosphere Props.PClearsky.
From Coq Require Import ZArith Psatz Decimal DecimalString DecimalZ DecimalFacts.
Open Scope R_scope.
Open Scope list_scope.

Lemma Ok_inj {A} (a b : A) : Ok a = Ok b -> a = b. Proof. congruence. Qed.

(** ** printing of integers *)
Lemma to_int_nonnil n : match Z.to_int n with Pos u => u <> Nil | Neg u => u <> Nil end.
Proof. destruct n; cbn; [discriminate | apply DecimalPos.Unsigned.to_uint_nonnil | apply DecimalPos.Unsigned.to_uint_nonnil]. Qed.
Lemma plus_d_inj n m : plus_d n = plus_d m -> n = m.
Proof.
  intros H. rewrite <- (of_to n), <- (of_to m). pose proof (to_int_nonnil n) as A. pose proof (to_int_nonnil m) as B. unfold plus_d in H.
  destruct (Z.to_int n) as [u|u], (Z.to_int m) as [v|v]; try discriminate H; injection H as H; apply (f_equal NilZero.uint_of_string) in H; rewrite !NilZero.usu in H by assumption; congruence.
Qed.
Lemma plus_d_head n : exists c s, plus_d n = String c s /\ (c = "+" \/ c = "-")%char.
Proof. unfold plus_d. destruct (Z.to_int n); eexists; eexists; split; eauto. Qed.
Lemma plus_d_zero n : plus_d n <> "-0"%string.
Proof.
  intros H. unfold plus_d in H. pose proof (to_int_nonnil n) as A. pose proof (of_to n) as T. destruct (Z.to_int n) as [u|u] eqn:E; [discriminate H|].
  injection H as H. assert (U : u = D0 Nil). { apply (f_equal NilZero.uint_of_string) in H. rewrite NilZero.usu in H by assumption. cbn in H. congruence. }
  subst u. cbn in T. subst n. discriminate E.
Qed.
Lemma append_inj (a b c : string) : (a ++ b = a ++ c)%string -> b = c.
Proof. induction a as [|x a IH]; cbn; [auto|]. intros H. injection H as H. auto. Qed.

Lemma Int_part_int n : Int_part (IZR n) = n.
Proof. unfold Int_part. rewrite <- (tech_up (IZR n) (n + 1)); rewrite ?plus_IZR; [lia | lra | lra]. Qed.
Lemma ftrunc_int n : ftrunc (IZR n) = n.
Proof. unfold ftrunc. rewrite <- opp_IZR, !Int_part_int. destruct (Rltb (IZR n) 0); lia. Qed.

(** ** C114: time zones *)
Theorem C114_offset : forall zi n name, In (n, name) fixed_zones -> zi name = Ok tt ->
  set_tz zi (TzInt n) = Ok name /\ set_tz zi (TzFloat #(IZR n)) = Ok name.
Proof.
  intros zi n name I Z.
  assert (A : etc_gmt n = name). { cbn in I. repeat (destruct I as [I|I]; [injection I as <- <-; reflexivity|]). destruct I. }
  unfold set_tz, zone_name.
  assert (M : Rmodp (IZR n) 1 = 0). { symmetry. apply mod_unique; [lra|lra|]. exists (- n)%Z. rewrite opp_IZR. lra. }
  rewrite M. replace (Reqb 0 0) with true by (symmetry; apply Reqb_true; reflexivity). cbn [negb bind].
  rewrite ftrunc_int, A, Z. split; reflexivity.
Qed.
Print Assumptions C114_offset.
(** an integer is accepted only if it is the offset of a zone of the database *)
Theorem C114_offset_only : forall zi n z, (forall name, zi name = Ok tt -> String.prefix "Etc/GMT" name = true -> In name gmt_names) ->
  set_tz zi (TzInt n) = Ok z -> In (n, z) fixed_zones.
Proof.
  intros zi n z H E. unfold set_tz, zone_name in E. cbn [bind] in E. destruct (zi (etc_gmt n)) as [[]|] eqn:Z; [|discriminate]. cbn [bind] in E. apply Ok_inj in E. subst z.
  assert (I : In (etc_gmt n) gmt_names). { apply H; [exact Z|]. unfold etc_gmt. generalize (plus_d (- n)). intros s. cbn. destruct s; reflexivity. }
  assert (K : forall m, etc_gmt n = etc_gmt m -> n = m). { intros m Q. unfold etc_gmt in Q. apply append_inj, plus_d_inj in Q. lia. }
  unfold gmt_names in I. apply in_app_iff in I. destruct I as [I|I].
  - apply in_map_iff in I. destruct I as ((m & nm) & Q & I). cbn [snd] in Q. assert (A : etc_gmt m = nm).
    { clear - I. cbn in I. repeat (destruct I as [I|I]; [injection I as <- <-; reflexivity|]). destruct I. }
    assert (n = m) by (apply K; congruence). subst m. rewrite <- Q. exact I.
  - exfalso. destruct (plus_d_head (- n)) as (c & s & P & C). pose proof (plus_d_zero (- n)) as N. unfold etc_gmt in I.
    cbn in I. destruct I as [I|[I|[I|[]]]]; rewrite P in I, N; injection I as I; subst; try discriminate; destruct C; discriminate || (subst; apply N; reflexivity).
Qed.
Print Assumptions C114_offset_only.
(** a float is an integer offset or refused *)
Theorem C114_float : forall zi x, (forall name, zi name <> Err TypeError) ->
  (set_tz zi (TzFloat x) = Err TypeError <-> ~ exists n, x = #(IZR n)) /\ forall n, x = #(IZR n) -> set_tz zi (TzFloat x) = set_tz zi (TzInt n).
Proof.
  intros zi x H.
  assert (W : forall n, zone_name (TzFloat #(IZR n)) = Ok (etc_gmt n)).
  { intros n. unfold zone_name. assert (M : Rmodp (IZR n) 1 = 0). { symmetry. apply mod_unique; [lra|lra|]. exists (- n)%Z. rewrite opp_IZR. lra. }
    rewrite M. replace (Reqb 0 0) with true by (symmetry; apply Reqb_true; reflexivity). cbn [negb]. rewrite ftrunc_int. reflexivity. }
  split; [|intros n ->; unfold set_tz; rewrite W; reflexivity]. split.
  - intros E (n & ->). unfold set_tz in E. rewrite W in E. cbn [bind] in E. destruct (zi (etc_gmt n)) as [[]|e] eqn:Z; [discriminate|]. cbn [bind] in E. injection E as ->. exact (H _ Z).
  - intros N. unfold set_tz, zone_name. destruct x as [r| | |]; try reflexivity. destruct (Reqb_spec (Rmodp r 1) 0) as [M|M]; [|reflexivity]. exfalso. apply N.
    destruct (Rmodp_spec r 1) as (_ & k & K); [lra|]. exists k. f_equal. lra.
Qed.
Print Assumptions C114_float.
Theorem C114_other : forall zi, set_tz zi TzOther = Err TypeError /\ forall s, set_tz zi (TzInfo s) = set_tz zi (TzStr s) /\ (set_tz zi (TzStr s) = Ok s <-> zi s = Ok tt).
Proof.
  intros zi. split; [reflexivity|]. intros s. split; [reflexivity|]. unfold set_tz. cbn [zone_name bind]. destruct (zi s) as [[]|]; cbn [bind]; split; congruence.
Qed.
Print Assumptions C114_other.
(** through any history of assignments, failed or not, tz is a zone of the database, the one assigned last with success; nothing else changes *)
Definition history {W} (zi : string -> res unit) (l : location W) (h : list tzspec) : location W := fold_left (fun l t => fst (assign_tz zi t l)) h l.
Fixpoint last_success (zi : string -> res unit) (start : string) (h : list tzspec) : string :=
  match h with [] => start | t :: h' => last_success zi (match set_tz zi t with Ok z => z | Err _ => start end) h' end.
Theorem C114_history : forall W zi alt_map lat lon tz alt name (l : location W) h, location_init zi alt_map lat lon tz alt name = Ok l ->
  let l' := history zi l h in
  zi (l_zone l') = Ok tt /\ l_zone l' = last_success zi (l_zone l) h /\ l_latitude l' = l_latitude l /\ l_longitude l' = l_longitude l /\ l_altitude l' = l_altitude l /\ l_name l' = l_name l.
Proof.
  intros W zi am lat lon tz alt name l h E. assert (Z : zi (l_zone l) = Ok tt).
  { unfold location_init, set_tz in E. destruct (zone_name tz) as [z|] eqn:N; [|discriminate]. cbn [bind] in E. destruct (zi z) as [[]|] eqn:Z; [|discriminate]. cbn [bind] in E.
    destruct (match alt with Some a => Ok a | None => lookup_altitude am lat lon end); [|discriminate]. cbn [bind] in E. apply Ok_inj in E. subst l. exact Z. }
  clear E. cbv zeta. revert l Z. induction h as [|t h IH]; intros l Z; [cbn; tauto|]. cbn [history fold_left last_success]. unfold history in IH |- *.
  unfold assign_tz at 2 4 6 8 10 12. unfold assign_tz in IH at 1. 
  destruct (set_tz zi t) as [z|e] eqn:S; cbn [fst].
  - assert (Z' : zi z = Ok tt). { unfold set_tz in S. destruct (zone_name t) as [z'|]; [|discriminate]. cbn [bind] in S. destruct (zi z') as [[]|] eqn:Q; [|discriminate]. cbn [bind] in S. apply Ok_inj in S. subst z'. exact Q. }
    apply (IH (Loc (l_latitude l) (l_longitude l) z (l_altitude l) (l_name l) (l_weather l) (l_tmy l)) Z').
  - apply (IH l Z).
Qed.
Print Assumptions C114_history.
(** reading tz and assigning it back changes nothing *)
Theorem C114_read_back : forall W zi (l : location W), zi (l_zone l) = Ok tt -> assign_tz zi (TzStr (l_zone l)) l = (l, None).
Proof. intros W zi [a b z d e f g] H. unfold assign_tz, set_tz. cbn [zone_name bind l_zone] in *. rewrite H. reflexivity. Qed.
Print Assumptions C114_read_back.
(** documented: ValueError when the time zone cannot be converted.  Fractional offsets and unsupported types raise TypeError *)
Theorem C114_value_error_refuted : ~ (forall zi tz e, (forall name, zi name = Ok tt) -> set_tz zi tz = Err e -> e = ValueError).
Proof. intros H. specialize (H (fun _ => Ok tt) TzOther TypeError (fun _ => eq_refl) eq_refl). discriminate H. Qed.
Print Assumptions C114_value_error_refuted.
(** a database with exactly the fixed-offset zones meets the hypotheses above *)
Example C114_database : let zi name := if mem name gmt_names then Ok tt else Err KeyError in
  (forall n name, In (n, name) fixed_zones -> zi name = Ok tt) /\ (forall name, zi name = Ok tt -> String.prefix "Etc/GMT" name = true -> In name gmt_names)
  /\ (forall name, zi name <> Err TypeError).
Proof.
  cbv zeta. split; [|split].
  - intros n name I. assert (M : mem name gmt_names = true). { apply mem_In. unfold gmt_names. apply in_app_iff. left. apply in_map_iff. exists (n, name). split; [reflexivity|exact I]. }
    rewrite M. reflexivity.
  - intros name H _. destruct (mem name gmt_names) eqn:M; [apply mem_In, M | discriminate].
  - intros name. destruct (mem name gmt_names); discriminate.
Qed.

(** ** C115: construction *)
Theorem C115_lookup_altitude : forall alt_map lat lon, -90 <= lat <= 90 -> -180 <= lon <= 180 ->
  exists i j, (0 <= i <= 2159)%Z /\ (0 <= j <= 4319)%Z /\ Rabs (lat_centre i - lat) <= 1/24 /\ Rabs (lon_centre j - lon) <= 1/24 /\
    lookup_altitude alt_map #lat #lon = Ok #(stored_altitude (alt_map i j)) /\
    ((0 <= alt_map i j <= 255)%Z -> -450 <= stored_altitude (alt_map i j) <= 6662).
Proof.
  intros am lat lon A B. destruct (C35_latitude_nearest_cell lat A) as (i & I & I1 & I2). destruct (C35_longitude_nearest_cell lon B) as (j & J & J1 & J2).
  exists i, j. repeat (split; [assumption|]). unfold lookup_altitude. rewrite I, J. cbn [bind]. unfold stored_altitude.
  destruct (Z.eqb_spec (am i j) 255) as [E|E]; destruct (Z.eq_dec (am i j) 255) as [E'|E']; try congruence; (split; [fin; try reflexivity|]); intros C; [lra|].
  assert (0 <= IZR (am i j) <= 254) by (split; apply IZR_le; lia). lra.
Qed.
Print Assumptions C115_lookup_altitude.
Theorem C115_lookup_error : forall alt_map lat lon e, lookup_altitude alt_map #lat #lon = Err e <->
  e = ValueError /\ ((lat < -90 - 0.000001 / 12 \/ 90 + 0.000001 / 12 < lat) \/ (lon < -180 - 0.000001 / 12 \/ 180 + 0.000001 / 12 < lon)).
Proof.
  intros am lat lon e. destruct (C35_out_of_range_raises lat) as [A _]. destruct (C35_out_of_range_raises lon) as [_ B]. rewrite <- A, <- B. unfold lookup_altitude.
  destruct (degrees_to_index #lat Latitude) as [i|e1] eqn:E1; cbn [bind]; [destruct (degrees_to_index #lon Longitude) as [j|e2] eqn:E2; cbn [bind]|].
  - destruct (am i j =? 255)%Z; split; [discriminate | intros [_ [H|H]]; discriminate | discriminate | intros [_ [H|H]]; discriminate].
  - apply degrees_index_error in E2. subst e2. split; [intros H; injection H as <-; tauto | intros [-> _]; reflexivity].
  - apply degrees_index_error in E1. subst e1. split; [intros H; injection H as <-; tauto | intros [-> _]; reflexivity].
Qed.
Print Assumptions C115_lookup_error.
(** the object holds what it was given; the map is consulted only without an altitude *)
Theorem C115_init : forall W zi alt_map lat lon tz altitude name,
  (forall e, set_tz zi tz = Err e -> location_init (W := W) zi alt_map lat lon tz altitude name = Err e) /\
  forall z, set_tz zi tz = Ok z ->
    (forall a, altitude = Some a -> location_init (W := W) zi alt_map lat lon tz altitude name = Ok (Loc lat lon z a name None None)) /\
    (altitude = None -> forall e, lookup_altitude alt_map lat lon = Err e -> location_init (W := W) zi alt_map lat lon tz altitude name = Err e) /\
    (altitude = None -> forall a, lookup_altitude alt_map lat lon = Ok a -> location_init (W := W) zi alt_map lat lon tz altitude name = Ok (Loc lat lon z a name None None)).
Proof.
  intros. unfold location_init. split; [intros e ->; reflexivity|]. intros z ->. cbn [bind]. split; [intros a ->; reflexivity|]. split; [intros -> e ->; reflexivity | intros -> a ->; reflexivity].
Qed.
Print Assumptions C115_init.
(** metadata of weather files: TMY2 files have a non-empty 'City', TMY3 files a 'Name', EPW files a 'city' *)
Definition site_of {W} (zi : string -> res unit) (lat lon : fl) (tz : tzspec) (alt : fl) (name : string) (weather tmy : option W) : res (location W) :=
  match set_tz zi tz with Ok z => Ok (Loc lat lon z alt (Some name) weather tmy) | Err e => Err e end.
Theorem C115_from_tmy : forall W zi am md (data : option W) lat lon tz alt,
  lookup "latitude" md = Some (MNum lat) -> lookup "longitude" md = Some (MNum lon) -> lookup "TZ" md = Some (MTz tz) -> lookup "altitude" md = Some (MNum alt) ->
  (forall c s, lookup "City" md = Some (MStr (String c s)) -> from_tmy zi am md data = site_of zi lat lon tz alt (String c s) data data) /\
  (forall s, lookup "City" md = None \/ lookup "City" md = Some (MStr "") -> lookup "Name" md = Some (MStr s) -> from_tmy zi am md data = site_of zi lat lon tz alt s data data).
Proof.
  intros W zi am md data lat lon tz alt A B C D. unfold from_tmy, getitem, site_of, location_init. rewrite A, B, C, D. split.
  - intros c s E. rewrite E. cbn [truthy_meta String.eqb negb bind meta_num meta_str meta_tz]. destruct (set_tz zi tz); cbn [bind]; [|reflexivity]. destruct data; reflexivity.
  - intros s E F. assert (T : truthy_meta (lookup "City" md) = false) by (destruct E as [-> | ->]; reflexivity). rewrite T, F. cbn [bind meta_num meta_str meta_tz].
    destruct (set_tz zi tz); cbn [bind]; [|reflexivity]. destruct data; reflexivity.
Qed.
Print Assumptions C115_from_tmy.
Theorem C115_from_epw : forall W zi am md (data : option W) lat lon tz alt s,
  lookup "latitude" md = Some (MNum lat) -> lookup "longitude" md = Some (MNum lon) -> lookup "TZ" md = Some (MTz tz) -> lookup "altitude" md = Some (MNum alt) ->
  lookup "city" md = Some (MStr s) -> from_epw zi am md data = site_of zi lat lon tz alt s data None.
Proof.
  intros W zi am md data lat lon tz alt s A B C D E. unfold from_epw, getitem, site_of, location_init. rewrite A, B, C, D, E. cbn [bind meta_num meta_str meta_tz].
  destruct (set_tz zi tz); cbn [bind]; [|reflexivity]. destruct data; reflexivity.
Qed.
Print Assumptions C115_from_epw.
(** a missing entry is a KeyError *)
Theorem C115_missing_metadata : forall W zi am md (data : option W) key, In key ["latitude"; "longitude"; "TZ"; "altitude"]%string -> lookup key md = None ->
  from_tmy zi am md data = Err KeyError /\ from_epw zi am md data = Err KeyError.
Proof.
  intros W zi am md data key I N. unfold from_tmy, from_epw, getitem. cbn in I.
  destruct I as [<-|[<-|[<-|[<-|[]]]]]; rewrite N.
  - split; reflexivity.
  - destruct (lookup "latitude" md); split; reflexivity.
  - destruct (lookup "latitude" md), (lookup "longitude" md), (truthy_meta (lookup "City" md)), (lookup "City" md), (lookup "Name" md), (lookup "city" md); split; reflexivity.
  - destruct (lookup "latitude" md), (lookup "longitude" md), (truthy_meta (lookup "City" md)), (lookup "City" md), (lookup "Name" md), (lookup "city" md), (lookup "TZ" md); split; reflexivity.
Qed.
Print Assumptions C115_missing_metadata.

(** ** C116: methods *)
(** the position is asked for at the site, with the pressure of its altitude unless one is given *)
Theorem C116_solarposition : forall W (l : location W) k pressure temperature method,
  let p := match pressure with Some p => p | None => alt2pres (l_altitude l) end in
  let lat := l_latitude l in let lon := l_longitude l in let alt := l_altitude l in
  (lower method = "nrel_numpy"%string -> loc_solarposition l k pressure temperature method = backend k (Call_spa_python lat lon alt p temperature "numpy")) /\
  (lower method = "nrel_numba"%string -> loc_solarposition l k pressure temperature method = backend k (Call_spa_python lat lon alt p temperature "numba")) /\
  (lower method = "pyephem"%string -> loc_solarposition l k pressure temperature method = backend k (Call_pyephem lat lon alt p temperature)) /\
  (lower method = "ephemeris"%string -> loc_solarposition l k pressure temperature method = backend k (Call_ephemeris lat lon p temperature)) /\
  (~ In (lower method) ["nrel_numpy"; "nrel_numba"; "pyephem"; "ephemeris"; "nrel_c"]%string -> loc_solarposition l k pressure temperature method = Err ValueError).
Proof.
  intros W l k pressure temperature method p lat lon alt. unfold loc_solarposition, get_solarposition. fold p lat lon alt. cbv zeta.
  split; [intros ->; reflexivity|]. split; [intros ->; reflexivity|]. split; [intros ->; reflexivity|]. split; [intros ->; reflexivity|].
  intros N. repeat match goal with |- context [String.eqb (lower method) ?x] => destruct (String.eqb_spec (lower method) x) as [E|_]; [exfalso; apply N; rewrite E; cbn; tauto|] end.
  reflexivity.
Qed.
Print Assumptions C116_solarposition.
(** airmass from the kind of zenith the model was fitted to, scaled to the site's pressure *)
Theorem C116_airmass : forall W (l : location W) k sp model,
  (In model ["simple"; "kasten1966"; "kastenyoung1989"; "gueymard1993"; "pickering2002"]%string ->
    exists r, get_relative_airmass (p_apparent_zenith sp) model = Ok r /\ loc_airmass l k (Some sp) model = Ok (r, (r * alt2pres (l_altitude l) / #101325)%fl)) /\
  (In model ["youngirvine1967"; "young1994"]%string ->
    exists r, get_relative_airmass (p_zenith sp) model = Ok r /\ loc_airmass l k (Some sp) model = Ok (r, (r * alt2pres (l_altitude l) / #101325)%fl)) /\
  (~ In model ["simple"; "kasten1966"; "kastenyoung1989"; "gueymard1993"; "pickering2002"; "youngirvine1967"; "young1994"]%string -> loc_airmass l k (Some sp) model = Err ValueError).
Proof.
  intros W l k sp model. unfold loc_airmass. cbn [bind].
  assert (R : forall z, In model (APPARENT_ZENITH_MODELS ++ TRUE_ZENITH_MODELS) -> exists r, get_relative_airmass z model = Ok r).
  { intros z I. cbn in I. unfold get_relative_airmass. repeat (destruct I as [<-|I]; [eexists; reflexivity|]). destruct I. }
  split; [|split].
  - intros I. destruct (R (p_apparent_zenith sp)) as [r E]; [apply in_app_iff; left; exact I|]. exists r. split; [exact E|].
    replace (mem model APPARENT_ZENITH_MODELS) with true by (symmetry; apply mem_In; exact I). cbn [bind]. rewrite E. reflexivity.
  - intros I. destruct (R (p_zenith sp)) as [r E]; [apply in_app_iff; right; exact I|]. exists r. split; [exact E|].
    assert (A : mem model APPARENT_ZENITH_MODELS = false). { clear - I. cbn in I. destruct I as [<-|[<-|[]]]; reflexivity. }
    rewrite A. replace (mem model TRUE_ZENITH_MODELS) with true by (symmetry; apply mem_In; exact I). cbn [bind]. rewrite E. reflexivity.
  - intros N. destruct (mem model APPARENT_ZENITH_MODELS) eqn:A; [exfalso; apply N; apply mem_In in A; cbn in *; tauto|].
    destruct (mem model TRUE_ZENITH_MODELS) eqn:B; [exfalso; apply N; apply mem_In in B; cbn in *; tauto|]. reflexivity.
Qed.
Print Assumptions C116_airmass.
(** not every model of atmosphere.get_relative_airmass is available: gueymard2003 is refused, and so are capital letters *)
Theorem C116_airmass_models_refuted : ~ (forall W (l : location W) k sp model z r, get_relative_airmass z model = Ok r -> exists a, loc_airmass l k (Some sp) model = Ok a).
Proof.
  intros H. destruct (H unit (Loc #0 #0 "UTC" #0 None None None) (Sky (fun _ => Err ValueError) #0 (fun _ _ => []) false 1 1%nat) (Location.Pos #0 #0 #0) "gueymard2003"%string #0 _ eq_refl) as [a E]. discriminate E.
Qed.
Print Assumptions C116_airmass_models_refuted.

Lemma without_in key kw p : In p (without key kw) <-> In p kw /\ fst p <> key.
Proof. unfold without. rewrite filter_In, negb_true_iff. rewrite String.eqb_neq. tauto. Qed.
Lemma lookup_without key key' kw : key <> key' -> lookup key (without key' kw) = lookup key kw.
Proof.
  intros N. induction kw as [|[a v] kw IH]; [reflexivity|]. cbn [without filter fst lookup]. destruct (String.eqb_spec a key') as [->|N'].
  - cbn [negb]. fold (without key' kw). rewrite IH. destruct (String.eqb_spec key key'); [congruence|reflexivity].
  - cbn [negb lookup]. fold (without key' kw). rewrite IH. reflexivity.
Qed.
Lemma check_ok allowed kw : check_kw allowed kw = Ok tt <-> forall p, In p kw -> In (fst p) allowed.
Proof.
  unfold check_kw. destruct (forallb (fun p => mem (fst p) allowed) kw) eqn:F.
  - split; [|reflexivity]. intros _ p I. rewrite forallb_forall in F. apply mem_In, F, I.
  - split; [discriminate|]. intros H. exfalso. apply not_true_iff_false in F. apply F. apply forallb_forall. intros p I. apply mem_In, H, I.
Qed.
Lemma check_err allowed kw e : check_kw allowed kw = Err e -> e = TypeError.
Proof. unfold check_kw. destruct (forallb _ kw); congruence. Qed.
Lemma lookup_some_in {A} key (kw : list (string * A)) : lookup key kw <> None <-> exists v, In (key, v) kw.
Proof.
  split.
  - destruct (lookup key kw) as [v|] eqn:E; [|congruence]. intros _. exists v. apply lookup_In, E.
  - intros (v & I) N. apply lookup_None in N. apply N. apply in_map_iff. exists (key, v). split; [reflexivity|exact I].
Qed.

Definition climatology {W} (l : location W) (k : sky) (interp : bool) : res R :=
  lookup_linke_turbidity (turbidity_map k) (l_latitude l) (l_longitude l) interp (leap_year k) (day_of_year k) (month k).
(** which keyword arguments the default model takes *)
Theorem C116_ineichen_arguments : forall W (l : location W) k sp dni_extra kw lt, (forall b, climatology l k b = Ok lt) ->
  ((exists o, loc_clearsky l k "ineichen" (Some sp) dni_extra kw = Ok o) <->
    (forall key v, In (key, v) kw -> In key ["pressure"; "linke_turbidity"; "interp_turbidity"; "airmass_absolute"; "perez_enhancement"]%string) /\
    ~ ((exists v, In ("linke_turbidity"%string, v) kw) /\ (exists v, In ("interp_turbidity"%string, v) kw))) /\
  (forall e, loc_clearsky l k "ineichen" (Some sp) dni_extra kw = Err e -> e = TypeError).
Proof.
  intros W l k sp dni kw lt HC. unfold climatology in HC. unfold loc_clearsky. cbn [bind String.eqb Ascii.eqb Bool.eqb].
  assert (AM : exists am, loc_airmass l k (Some sp) "kastenyoung1989" = Ok am).
  { destruct (C116_airmass W l k sp "kastenyoung1989") as (A & _). destruct A as (r & _ & E); [cbn; tauto|]. eexists. exact E. }
  destruct AM as [am AM]. set (kw1 := without "pressure" kw).
  assert (IFF : forall P Q : Prop, (P <-> Q) -> forall (R0 : res cs_table), (exists o, R0 = Ok o) <-> P -> (forall e, R0 = Err e -> e = TypeError) -> ((exists o, R0 = Ok o) <-> Q) /\ (forall e, R0 = Err e -> e = TypeError)) by (intros P Q E R0 H1 H2; tauto).
  assert (L1 : lookup "linke_turbidity" kw1 = lookup "linke_turbidity" kw) by (apply lookup_without; discriminate).
  assert (CK : forall kwx (f : bool -> cs_table) x, ((exists o, bind (check_kw ["perez_enhancement"%string] kwx) (fun _ => Ok (f x)) = Ok o) <-> (forall p, In p kwx -> In (fst p) ["perez_enhancement"%string])) /\
     (forall e, bind (check_kw ["perez_enhancement"%string] kwx) (fun _ => Ok (f x)) = Err e -> e = TypeError)).
  { intros kwx f x. rewrite <- check_ok. destruct (check_kw ["perez_enhancement"%string] kwx) as [[]|e0] eqn:CE; cbn [bind].
    - split; [split; [reflexivity | intros _; eexists; reflexivity] | discriminate].
    - apply check_err in CE. subst e0. split; [split; [intros [o O]; discriminate | discriminate] | congruence]. }
  rewrite L1. pose proof (lookup_some_in "linke_turbidity" kw) as PL. 
  destruct (lookup "linke_turbidity" kw) as [ltv|] eqn:LT.
  - cbn [bind]. set (kw2 := without "linke_turbidity" kw1).
    assert (X : exists v, In ("linke_turbidity"%string, v) kw) by (apply PL; discriminate).
    destruct (lookup "airmass_absolute" kw2) as [amv|] eqn:LA; cbn [bind]; rewrite ?AM; cbn [bind].
    + match goal with |- context [check_kw _ ?kwx] => pose proof (CK kwx (fun t => CsAll (ineichen (p_apparent_zenith sp) amv ltv (l_altitude l) (default (extra k) dni) t)) (truthy (default #0 (lookup "perez_enhancement" kwx)))) as [C1 C2] end.
      apply (IFF _ _) with (2 := C1) (3 := C2).
      split.
      * intros H. assert (K : forall key v, In (key, v) kw -> In key ["pressure"; "linke_turbidity"; "airmass_absolute"; "perez_enhancement"]%string).
        { intros key v I. destruct (String.string_dec key "pressure") as [->|N1]; [cbn; tauto|]. destruct (String.string_dec key "linke_turbidity") as [->|N2]; [cbn; tauto|]. destruct (String.string_dec key "airmass_absolute") as [->|N3]; [cbn; tauto|].
          specialize (H (key, v)). cbn [fst] in H. assert (In key ["perez_enhancement"%string]); [|cbn in *; tauto]. apply H. apply without_in. cbn [fst]. split; [|exact N3]. apply without_in. cbn [fst]. split; [|exact N2]. apply without_in. cbn [fst]. tauto. }
        split; [intros key v I; specialize (K key v I); cbn in *; tauto|]. intros [_ [v I]]. specialize (K _ _ I). cbn in K. repeat (destruct K as [K|K]; [discriminate|]). exact K.
      * intros [H1 H2] [key v] I. cbn [fst]. apply without_in in I. cbn [fst] in I. destruct I as [I N3]. apply without_in in I. cbn [fst] in I. destruct I as [I N2]. apply without_in in I. cbn [fst] in I. destruct I as [I N1].
        specialize (H1 key v I). cbn in H1 |- *. assert (key <> "interp_turbidity"%string) by (intros ->; apply H2; split; [exact X | exists v; exact I]). repeat (destruct H1 as [H1|H1]; [try (exfalso; congruence)|]); [left; exact H1|tauto].
    + match goal with |- context [check_kw _ ?kwx] => pose proof (CK kwx (fun t => CsAll (ineichen (p_apparent_zenith sp) (snd am) ltv (l_altitude l) (default (extra k) dni) t)) (truthy (default #0 (lookup "perez_enhancement" kwx)))) as [C1 C2] end.
      apply (IFF _ _) with (2 := C1) (3 := C2).
      assert (NA : ~ exists v, In ("airmass_absolute"%string, v) kw). { rewrite <- lookup_some_in. unfold kw2, kw1 in LA. rewrite !lookup_without in LA by discriminate. congruence. }
      split.
      * intros H. assert (K : forall key v, In (key, v) kw -> In key ["pressure"; "linke_turbidity"; "perez_enhancement"]%string).
        { intros key v I. destruct (String.string_dec key "pressure") as [->|N1]; [cbn; tauto|]. destruct (String.string_dec key "linke_turbidity") as [->|N2]; [cbn; tauto|].
          specialize (H (key, v)). cbn [fst] in H. assert (In key ["perez_enhancement"%string]); [|cbn in *; tauto]. apply H. apply without_in. cbn [fst]. split; [|exact N2]. apply without_in. cbn [fst]. tauto. }
        split; [intros key v I; specialize (K key v I); cbn in *; tauto|]. intros [_ [v I]]. specialize (K _ _ I). cbn in K. repeat (destruct K as [K|K]; [discriminate|]). exact K.
      * intros [H1 H2] [key v] I. cbn [fst]. apply without_in in I. cbn [fst] in I. destruct I as [I N2]. apply without_in in I. cbn [fst] in I. destruct I as [I N1].
        specialize (H1 key v I). cbn in H1 |- *. assert (key <> "interp_turbidity"%string) by (intros ->; apply H2; split; [exact X | exists v; exact I]).
        assert (key <> "airmass_absolute"%string) by (intros ->; apply NA; exists v; exact I). repeat (destruct H1 as [H1|H1]; [try (exfalso; congruence)|]); [left; exact H1|tauto].
  - unfold climatology in HC. rewrite HC. cbn [bind]. set (kw2 := without "interp_turbidity" kw1).
    assert (NL : ~ exists v, In ("linke_turbidity"%string, v) kw) by (rewrite <- lookup_some_in; congruence).
    destruct (lookup "airmass_absolute" kw2) as [amv|] eqn:LA; cbn [bind]; rewrite ?AM; cbn [bind].
    + match goal with |- context [check_kw _ ?kwx] => pose proof (CK kwx (fun t => CsAll (ineichen (p_apparent_zenith sp) amv #lt (l_altitude l) (default (extra k) dni) t)) (truthy (default #0 (lookup "perez_enhancement" kwx)))) as [C1 C2] end.
      apply (IFF _ _) with (2 := C1) (3 := C2).
      split.
      * intros H. split; [|tauto]. intros key v I. destruct (String.string_dec key "pressure") as [->|N1]; [cbn; tauto|]. destruct (String.string_dec key "interp_turbidity") as [->|N2]; [cbn; tauto|]. destruct (String.string_dec key "airmass_absolute") as [->|N3]; [cbn; tauto|].
        specialize (H (key, v)). cbn [fst] in H. assert (In key ["perez_enhancement"%string]); [|cbn in *; tauto]. apply H. apply without_in. cbn [fst]. split; [|exact N3]. apply without_in. cbn [fst]. split; [|exact N2]. apply without_in. cbn [fst]. tauto.
      * intros [H1 H2] [key v] I. cbn [fst]. apply without_in in I. cbn [fst] in I. destruct I as [I N3]. apply without_in in I. cbn [fst] in I. destruct I as [I N2]. apply without_in in I. cbn [fst] in I. destruct I as [I N1].
        specialize (H1 key v I). cbn in H1 |- *. assert (key <> "linke_turbidity"%string) by (intros ->; apply NL; exists v; exact I). repeat (destruct H1 as [H1|H1]; [try (exfalso; congruence)|]); [left; exact H1|tauto].
    + match goal with |- context [check_kw _ ?kwx] => pose proof (CK kwx (fun t => CsAll (ineichen (p_apparent_zenith sp) (snd am) #lt (l_altitude l) (default (extra k) dni) t)) (truthy (default #0 (lookup "perez_enhancement" kwx)))) as [C1 C2] end.
      apply (IFF _ _) with (2 := C1) (3 := C2).
      assert (NA : ~ exists v, In ("airmass_absolute"%string, v) kw). { rewrite <- lookup_some_in. unfold kw2, kw1 in LA. rewrite !lookup_without in LA by discriminate. congruence. }
      split.
      * intros H. split; [|tauto]. intros key v I. destruct (String.string_dec key "pressure") as [->|N1]; [cbn; tauto|]. destruct (String.string_dec key "interp_turbidity") as [->|N2]; [cbn; tauto|].
        specialize (H (key, v)). cbn [fst] in H. assert (In key ["perez_enhancement"%string]); [|cbn in *; tauto]. apply H. apply without_in. cbn [fst]. split; [|exact N2]. apply without_in. cbn [fst]. tauto.
      * intros [H1 H2] [key v] I. cbn [fst]. apply without_in in I. cbn [fst] in I. destruct I as [I N2]. apply without_in in I. cbn [fst] in I. destruct I as [I N1].
        specialize (H1 key v I). cbn in H1 |- *. assert (key <> "linke_turbidity"%string) by (intros ->; apply NL; exists v; exact I).
        assert (key <> "airmass_absolute"%string) by (intros ->; apply NA; exists v; exact I). repeat (destruct H1 as [H1|H1]; [try (exfalso; congruence)|]); [left; exact H1|tauto].
Qed.
Print Assumptions C116_ineichen_arguments.
(** the default model at the site: turbidity and airmass are the given ones, or those of the climatology and of the Kasten-Young model at the
    site's pressure; extraterrestrial irradiance is the given one or that of the day; a given pressure plays no role *)
Theorem C116_ineichen_value : forall W (l : location W) k sp dni_extra kw lt r o, loc_clearsky l k "ineichen" (Some sp) dni_extra kw = Ok o ->
  climatology l k (match lookup "interp_turbidity" kw with Some b => negb (feqb b #0) | None => true end) = Ok lt ->
  get_relative_airmass (p_apparent_zenith sp) "kastenyoung1989" = Ok r ->
  o = CsAll (ineichen (p_apparent_zenith sp)
    (match lookup "airmass_absolute" kw with Some a => a | None => (r * alt2pres (l_altitude l) / #101325)%fl end)
    (match lookup "linke_turbidity" kw with Some t => t | None => #lt end) (l_altitude l)
    (match dni_extra with Some d => d | None => extra k end) (match lookup "perez_enhancement" kw with Some b => negb (feqb b #0) | None => false end)).
Proof.
  intros W l k sp dni kw lt r o E HC HR. unfold climatology in HC. unfold loc_clearsky in E. cbn [bind String.eqb Ascii.eqb Bool.eqb] in E.
  destruct (C116_airmass W l k sp "kastenyoung1989") as (A & _). destruct A as (r' & R' & AM); [cbn; tauto|]. assert (r' = r) by congruence. subst r'.
  set (kw1 := without "pressure" kw) in E.
  assert (TB : truthy (default #0 (lookup "perez_enhancement" kw)) = match lookup "perez_enhancement" kw with Some b => negb (feqb b #0) | None => false end).
  { destruct (lookup "perez_enhancement" kw); cbn [default]; unfold truthy; [reflexivity|]. rewrite feqb_fin. replace (Reqb 0 0) with true by (symmetry; apply Reqb_true; reflexivity). reflexivity. }
  assert (IB : truthy (default #1 (lookup "interp_turbidity" kw1)) = match lookup "interp_turbidity" kw with Some b => negb (feqb b #0) | None => true end).
  { unfold kw1. rewrite lookup_without by discriminate. destruct (lookup "interp_turbidity" kw); cbn [default]; unfold truthy; [reflexivity|]. rewrite feqb_fin. replace (Reqb 1 0) with false by (symmetry; apply Reqb_false; lra). reflexivity. }
  assert (L1 : lookup "linke_turbidity" kw1 = lookup "linke_turbidity" kw) by (apply lookup_without; discriminate).
  rewrite L1, IB, HC in E. 
  assert (F : forall T kwx am, bind (check_kw ["perez_enhancement"%string] kwx) (fun _ => Ok (CsAll (ineichen (p_apparent_zenith sp) am T (l_altitude l) (default (extra k) dni) (truthy (default #0 (lookup "perez_enhancement" kwx)))))) = Ok o ->
     lookup "perez_enhancement" kwx = lookup "perez_enhancement" kw -> o = CsAll (ineichen (p_apparent_zenith sp) am T (l_altitude l) (match dni with Some d => d | None => extra k end) (match lookup "perez_enhancement" kw with Some b => negb (feqb b #0) | None => false end))).
  { intros T kwx am H1 H2. destruct (check_kw _ kwx); [|discriminate]. cbn [bind] in H1. apply Ok_inj in H1. rewrite H2, TB in H1. unfold default in H1. congruence. }
  destruct (lookup "linke_turbidity" kw) as [ltv|] eqn:LT; cbn [bind] in E.
  - assert (L2 : lookup "airmass_absolute" (without "linke_turbidity" kw1) = lookup "airmass_absolute" kw) by (unfold kw1; rewrite !lookup_without by discriminate; reflexivity).
    rewrite L2 in E. destruct (lookup "airmass_absolute" kw) as [amv|]; cbn [bind] in E.
    + apply (F _ _ _ E). unfold kw1. rewrite !lookup_without by discriminate. reflexivity.
    + rewrite AM in E. cbn [bind snd] in E. apply (F _ _ _ E). unfold kw1. rewrite !lookup_without by discriminate. reflexivity.
  - assert (L2 : lookup "airmass_absolute" (without "interp_turbidity" kw1) = lookup "airmass_absolute" kw) by (unfold kw1; rewrite !lookup_without by discriminate; reflexivity).
    rewrite L2 in E. destruct (lookup "airmass_absolute" kw) as [amv|]; cbn [bind] in E.
    + apply (F _ _ _ E). unfold kw1. rewrite !lookup_without by discriminate. reflexivity.
    + rewrite AM in E. cbn [bind snd] in E. apply (F _ _ _ E). unfold kw1. rewrite !lookup_without by discriminate. reflexivity.
Qed.
Print Assumptions C116_ineichen_value.
(** a keyword argument pressure is silently unused once the solar position is given: the airmass keeps the pressure of the altitude *)
Theorem C116_pressure_used_refuted : ~ (forall W (l : location W) k sp p, loc_clearsky l k "ineichen" (Some sp) None [("pressure"%string, p)] <> loc_clearsky l k "ineichen" (Some sp) None []).
Proof. intros H. apply (H unit (Loc #0 #0 "UTC" #0 None None None) (Sky (fun _ => Err ValueError) #0 (fun _ _ => []) false 1 1%nat) (Location.Pos #0 #0 #0) #50000). reflexivity. Qed.
Print Assumptions C116_pressure_used_refuted.
Theorem C116_ineichen_ignores_pressure : forall W (l : location W) k sp dni kw, loc_clearsky l k "ineichen" (Some sp) dni kw = loc_clearsky l k "ineichen" (Some sp) dni (without "pressure" kw).
Proof.
  intros. unfold loc_clearsky. cbn [bind String.eqb Ascii.eqb Bool.eqb].
  assert (E : without "pressure" (without "pressure" kw) = without "pressure" kw).
  { unfold without. induction kw as [|p kw IH]; [reflexivity|]. cbn [filter]. destruct (negb (String.eqb (fst p) "pressure")) eqn:N; [|exact IH]. cbn [filter]. rewrite N, IH. reflexivity. }
  rewrite E. reflexivity.
Qed.
Print Assumptions C116_ineichen_ignores_pressure.
(** the other models *)
Theorem C116_haurwitz : forall W (l : location W) k sp dni kw, loc_clearsky l k "haurwitz" (Some sp) dni kw = Ok (CsGhi (haurwitz (p_apparent_zenith sp))).
Proof. reflexivity. Qed.
Print Assumptions C116_haurwitz.
Theorem C116_simplified_solis : forall W (l : location W) k sp dni_extra kw,
  ((forall key v, In (key, v) kw -> In key ["pressure"; "aod700"; "precipitable_water"]%string) ->
     loc_clearsky l k "simplified_solis" (Some sp) dni_extra kw = Ok (CsAll (simplified_solis (p_apparent_elevation sp)
       (match lookup "aod700" kw with Some a => a | None => #0.1 end) (match lookup "precipitable_water" kw with Some w => w | None => #1 end)
       (match lookup "pressure" kw with Some p => p | None => alt2pres (l_altitude l) end) (match dni_extra with Some d => d | None => extra k end)))) /\
  (~ (forall key v, In (key, v) kw -> In key ["pressure"; "aod700"; "precipitable_water"]%string) -> loc_clearsky l k "simplified_solis" (Some sp) dni_extra kw = Err TypeError).
Proof.
  intros W l k sp dni kw. unfold loc_clearsky. cbn [bind String.eqb Ascii.eqb Bool.eqb].
  assert (IFF : check_kw ["aod700"; "precipitable_water"]%string (without "pressure" kw) = Ok tt <-> forall key v, In (key, v) kw -> In key ["pressure"; "aod700"; "precipitable_water"]%string).
  { rewrite check_ok. split.
    - intros H key v I. destruct (String.string_dec key "pressure") as [->|N]; [cbn; tauto|]. right. apply (H (key, v)). apply without_in. cbn [fst]. tauto.
    - intros H [key v] I. apply without_in in I. cbn [fst] in *. destruct (H key v (proj1 I)) as [Q|Q]; [exfalso; apply (proj2 I); symmetry; exact Q | exact Q]. }
  split.
  - intros H. apply IFF in H. rewrite H. cbn [bind]. rewrite !lookup_without by discriminate. reflexivity.
  - intros H. destruct (check_kw _ _) as [[]|e] eqn:C; [exfalso; apply H, IFF; reflexivity|]. apply check_err in C. subst e. reflexivity.
Qed.
Print Assumptions C116_simplified_solis.
Theorem C116_other_model : forall W (l : location W) k sp dni kw model, ~ In model ["ineichen"; "haurwitz"; "simplified_solis"]%string -> loc_clearsky l k model (Some sp) dni kw = Err ValueError.
Proof.
  intros W l k sp dni kw model N. unfold loc_clearsky. cbn [bind].
  repeat match goal with |- context [String.eqb model ?x] => destruct (String.eqb_spec model x) as [E|_]; [exfalso; apply N; rewrite E; cbn; tauto|] end. reflexivity.
Qed.
Print Assumptions C116_other_model.
(** without a solar position it is computed, at the given pressure or that of the site *)
Theorem C116_position_computed : forall W (l : location W) k model dni kw,
  let p := match lookup "pressure" kw with Some p => p | None => alt2pres (l_altitude l) end in
  loc_clearsky l k model None dni kw = match backend k (Call_spa_python (l_latitude l) (l_longitude l) (l_altitude l) p #12 "numpy") with
    | Ok sp => loc_clearsky l k model (Some sp) dni kw | Err e => Err e end.
Proof.
  intros W l k model dni kw p. unfold loc_clearsky. fold (default (alt2pres (l_altitude l)) (lookup "pressure" kw)). change (default (alt2pres (l_altitude l)) (lookup "pressure" kw)) with p.
  change (loc_solarposition l k (Some p) #12 default_method) with (backend k (Call_spa_python (l_latitude l) (l_longitude l) (l_altitude l) p #12 "numpy")).
  destruct (backend k _); reflexivity.
Qed.
Print Assumptions C116_position_computed.

Lemma alt2pres_fin a : a < 44331.514 -> exists p, alt2pres #a = #p /\ 0 < p.
Proof.
  intros H. unfold alt2pres. autorewrite with flfin. rewrite !fdiv_fin by lra. assert (0 < (44331.514 - a) / 11880.516) by (apply Rdiv_lt_0_compat; lra).
  unfold fpow. destruct (Reqb_spec (1 / 0.1902632) 0) as [E|E].
  - exfalso. assert (0 < 1 / 0.1902632) by (apply Rdiv_lt_0_compat; lra). lra.
  - unfold Rpos. replace (Rltb 0 ((44331.514 - a) / 11880.516)) with true by (symmetry; apply Rltb_true; assumption). eexists. split; [reflexivity|]. 
    apply Rmult_lt_0_compat; [lra|]. unfold Rpower. apply exp_pos.
Qed.
(** end to end: at every site on the globe below 44 km, with a climatology of turbidities between ln 2 and any bound, the default clear sky
    is physical by day and zero by night *)
Theorem C116_clearsky_physical : forall W (l : location W) k sp lat lon alt z i0 hi, l_latitude l = #lat -> l_longitude l = #lon -> l_altitude l = #alt ->
  -90 <= lat <= 90 -> -180 <= lon <= 180 -> -17000 <= alt < 44331 -> p_apparent_zenith sp = #z -> 0 <= z <= 180 -> extra k = #i0 -> 0 <= i0 ->
  (1 <= month k <= 12)%nat -> (forall i j, List.length (turbidity_map k i j) = 12%nat) -> (forall i j n, (n < 12)%nat -> 20 * ln 2 <= nth n (turbidity_map k i j) 0 <= hi) ->
  exists g n d, loc_clearsky l k "ineichen" (Some sp) None [] = Ok (CsAll {| cs_ghi := #g; cs_dni := #n; cs_dhi := #d |}) /\
    0 <= g /\ 0 <= n /\ 0 <= d /\ g = d + n * Rmax (cosD z) 0 /\ (90 <= z -> g = 0 /\ n = 0 /\ d = 0).
Proof.
  intros W l k sp lat lon alt z i0 hi La Lo Al Hlat Hlon Halt Z Hz X Hi Hm TL TB.
  assert (T : exists lt, forall b, b = true -> climatology l k b = Ok lt).
  { unfold climatology. rewrite La, Lo. destruct (C35_latitude_nearest_cell lat Hlat) as (i & I & _). destruct (C35_longitude_nearest_cell lon Hlon) as (j & J & _).
    unfold lookup_linke_turbidity. rewrite I, J. cbn [bind]. eexists. intros b ->. reflexivity. }
  destruct T as [lt T]. specialize (T true eq_refl).
  assert (LTB : ln 2 <= lt). { unfold climatology in T. apply (C96_within_stored_range _ _ _ _ _ _ _ (20 * ln 2) hi lt Hm TL TB) in T. lra. }
  assert (L2 : 0 < ln 2) by (rewrite <- ln_1; apply ln_increasing; lra).
  assert (EX : exists o, loc_clearsky l k "ineichen" (Some sp) None [] = Ok o).
  { unfold loc_clearsky. cbn [bind String.eqb Ascii.eqb Bool.eqb without filter lookup default].
    replace (truthy #1) with true by (unfold truthy; rewrite feqb_fin; replace (Reqb 1 0) with false by (symmetry; apply Reqb_false; lra); reflexivity).
    unfold climatology in T. rewrite T. cbn [bind lookup]. destruct (C116_airmass W l k sp "kastenyoung1989") as (A & _). destruct A as (r & _ & ->); [cbn; tauto|]. eexists. reflexivity. }
  destruct EX as [o EX]. assert (HR : get_relative_airmass (p_apparent_zenith sp) "kastenyoung1989" = Ok (am_kastenyoung1989 (airmass_z (p_apparent_zenith sp)))) by reflexivity.
  set (r := am_kastenyoung1989 (airmass_z (p_apparent_zenith sp))) in HR.
  pose proof (C116_ineichen_value W l k sp None [] lt r o EX T HR) as V. cbn [lookup] in V. rewrite EX, V, Z, Al, X.
  destruct (alt2pres_fin alt) as (p & P & Pp); [lra|]. rewrite P.
  assert (N : forall m, ((exists q, m = #q) \/ m = NaN) -> exists g n d, ineichen #z m #lt #alt #i0 false = {| cs_ghi := #g; cs_dni := #n; cs_dhi := #d |} /\
    0 <= g /\ 0 <= n /\ 0 <= d /\ g = d + n * Rmax (cosD z) 0 /\ (90 <= z -> g = 0 /\ n = 0 /\ d = 0)).
  { intros m [[q ->] | ->].
    - destruct (C95_not_negative z q lt alt i0 false (or_introl eq_refl) LTB Hi ltac:(lra)) as (g & n & d & G & NN & D & P1 & P2 & P3).
      destruct (C95_closure z q lt alt i0 false ltac:(lra) (or_introl eq_refl)) as (g' & n' & d' & G' & N' & D' & CL). rewrite G in G'. rewrite NN in N'. rewrite D in D'. apply Fin_inj in G', N', D'. subst g' n' d'.
      exists g, n, d. split; [destruct (ineichen #z #q #lt #alt #i0 false) as [a b c]; cbn [cs_ghi cs_dni cs_dhi] in *; congruence|]. repeat (split; [assumption|]). intros Z90.
      assert (C0 : cosD z <= 0). { unfold cosD. pose proof PI_RGT_0. apply cos_le_0; unfold Rrad; nra. }
      rewrite (C95_night z q lt alt i0 false ltac:(lra) (or_introl eq_refl) Hi C0) in G, NN, D. cbn in G, NN, D. apply Fin_inj in G, NN, D. auto.
    - rewrite C95_nan_airmass by lra. exists 0, 0, 0. split; [reflexivity|]. repeat split; lra. }
  destruct (N (r * #p / #101325)%fl) as (g & n & d & E & H).
  { destruct (Rle_lt_dec z 90) as [Z9|Z9].
    - left. unfold r. rewrite Z, airmass_z_up, ky_fin by lra. rewrite fmul_fin, fdiv_fin by lra. eexists. reflexivity.
    - right. assert (Q : r = NaN). { rewrite Z in HR. apply (C42_below_horizon_is_nan #z "kastenyoung1989"); [right; unfold fgtb, fltb; apply Rltb_true; lra | exact HR]. }
      rewrite Q. reflexivity. }
  exists g, n, d. rewrite E. split; [reflexivity|exact H].
Qed.
Print Assumptions C116_clearsky_physical.
(** sunrise, sunset and transit: the three columns under their own names *)
Theorem C116_rise_set : forall W (l : location W) tz t ephem delta_t year mon decl_eot,
  loc_sun_rise_set_transit l tz t "pyephem" ephem delta_t year mon decl_eot = ephem /\
  (forall r s tr, sun_rise_set_transit_spa tz t (l_latitude l) (l_longitude l) delta_t year mon = Ok (r, s, tr) ->
     exists c, loc_sun_rise_set_transit l tz t "spa" ephem delta_t year mon decl_eot = Ok c /\ c_sunrise c = r /\ c_sunset c = s /\ c_transit c = tr) /\
  (forall d q r s tr, decl_eot = Some (d, q) -> sun_rise_set_transit_geometric tz t (l_latitude l) (l_longitude l) d q = Ok (r, s, tr) ->
     exists c, loc_sun_rise_set_transit l tz t "geometric" ephem delta_t year mon decl_eot = Ok c /\ c_sunrise c = r /\ c_sunset c = s /\ c_transit c = tr) /\
  (tz = None -> loc_sun_rise_set_transit l tz t "spa" ephem delta_t year mon decl_eot = Err ValueError) /\
  (decl_eot = None -> loc_sun_rise_set_transit l tz t "geometric" ephem delta_t year mon decl_eot = Err TypeError) /\
  (forall method, ~ In method ["pyephem"; "spa"; "geometric"]%string -> loc_sun_rise_set_transit l tz t method ephem delta_t year mon decl_eot = Err ValueError).
Proof.
  intros W l tz t ephem dt year mon de. split; [reflexivity|]. split; [|split; [|split; [|split]]].
  - intros r s tr E. unfold loc_sun_rise_set_transit. cbn [String.eqb Ascii.eqb Bool.eqb]. rewrite E. cbn [bind]. eexists. split; [reflexivity|]. cbn. tauto.
  - intros d q r s tr -> E. unfold loc_sun_rise_set_transit. cbn [String.eqb Ascii.eqb Bool.eqb]. rewrite E. cbn [bind]. eexists. split; [reflexivity|]. cbn. tauto.
  - intros ->. reflexivity.
  - intros ->. reflexivity.
  - intros method N. unfold loc_sun_rise_set_transit.
    repeat match goal with |- context [String.eqb method ?x] => destruct (String.eqb_spec method x) as [E|_]; [exfalso; apply N; rewrite E; cbn; tauto|] end. reflexivity.
Qed.
Print Assumptions C116_rise_set.
Example C116_tucson : let l := Loc (W := unit) #32.2 #(-111) "America/Phoenix" #700 None None None in
  let k := Sky (fun _ => Err ValueError) #1361 (fun _ _ => repeat 60 12) false 172 6%nat in
  (forall b, exists lt, climatology l k b = Ok lt) /\ (1 <= month k <= 12)%nat /\ (forall i j, List.length (turbidity_map k i j) = 12%nat) /\
  (forall i j n, (n < 12)%nat -> 20 * ln 2 <= nth n (turbidity_map k i j) 0 <= 100).
Proof.
  cbv zeta. split; [|split; [|split]].
  - intros b. unfold climatology, lookup_linke_turbidity. cbn [l_latitude l_longitude turbidity_map]. destruct (C35_latitude_nearest_cell 32.2 ltac:(lra)) as (i & -> & _). destruct (C35_longitude_nearest_cell (-111) ltac:(lra)) as (j & -> & _). cbn [bind]. eexists. reflexivity.
  - cbn. lia.
  - reflexivity.
  - intros i j n N. cbn [turbidity_map]. assert (L : ln 2 <= 1). { pose proof (exp_ineq1 1 ltac:(lra)). rewrite <- (ln_exp 1). left. apply ln_increasing; lra. }
    assert (E : nth n (repeat 60 12) 0 = 60) by (do 12 (destruct n as [|n]; [reflexivity|]); lia). rewrite E. lra.
Qed.
