(** C174-C181: ACIS, SolarAnywhere, Meteonorm *)
From Verif Require Import Base.Fl Base.Py Base.PyStr Base.FlFacts Base.Calendar Base.Strptime Model.Bsrn Model.Tmy Model.Pvgis Model.Web Model.Cams Model.Services Props.PTmy Props.PStations Props.PBsrn Props.PPvgis Props.PWeb Props.PCams Props.PPsm4.
From Coq Require Import Reals List String Ascii Bool ZArith Lia Lra.
Import ListNotations.
Open Scope list_scope.
Open Scope Z_scope.

(** ** ACIS *)
(** pvlib's names *)
Definition acis_names : list (string * string) :=
  [("pcpn", "precipitation"); ("maxt", "temp_air_max"); ("mint", "temp_air_min"); ("avgt", "temp_air_average"); ("obst", "temp_air_observation"); ("cdd", "cooling_degree_days"); ("hdd", "heating_degree_days");
   ("gdd", "growing_degree_days"); ("snow", "snowfall"); ("snwd", "snowdepth"); ("lat", "latitude"); ("lon", "longitude"); ("elev", "altitude")]%string.
Definition in_pvlib (k : string) : string := match lookup k acis_names with Some n => n | None => k end.
(** the service's name of what pvlib calls n *)
Definition in_acis (n : string) : option string := option_map fst (find (fun kn => String.eqb (snd kn) n) acis_names).
Lemma acis_same k : lookup k acis_map = lookup k acis_names.
Proof. unfold acis_map, acis_names. cbn [lookup]. string_cases k. reflexivity. Qed.
Lemma acis_forth k n : lookup k acis_map = Some n -> in_acis n = Some k /\ in_acis k = None /\ lookup n acis_map = None.
Proof. intros H. apply lookup_In in H. unfold acis_map in H. cbn [In] in H. repeat (destruct H as [H|H]; [injection H as <- <-; repeat split; reflexivity|]). destruct H. Qed.
Lemma acis_back q k : in_acis q = Some k -> lookup k acis_map = Some q.
Proof.
  unfold in_acis. destruct (find _ acis_names) as [[a b]|] eqn:E; [|discriminate]. cbn [option_map fst]. intros H. injection H as <-. apply find_some in E. destruct E as [I Q]. apply String.eqb_eq in Q. cbn [snd] in Q. subst b.
  unfold acis_names in I. cbn [In] in I. repeat (destruct I as [I|I]; [injection I as <- <-; reflexivity|]). destruct I.
Qed.
Definition or_else {A} (a b : option A) : option A := match a with Some _ => a | None => b end.
(** the dictionary with pvlib's names *)
Definition renamed_dict (m : string -> option value) (q : string) : option value :=
  match in_acis q with Some k => or_else (m k) (m q) | None => if mem q (map fst acis_names) then None else m q end.
Lemma mem_false k l : ~ In k l -> mem k l = false.
Proof. intros H. destruct (mem k l) eqn:E; [|reflexivity]. apply mem_In in E. contradiction. Qed.
Lemma mem_cons q k l : mem q (k :: l) = String.eqb q k || mem q l.
Proof. reflexivity. Qed.
Lemma acis_keys_spec ks : forall d, NoDup ks -> (forall k, In k ks -> lookup k d <> None) ->
  exists d', acis_keys ks d = Ok d' /\ forall q, lookup q d' = match in_acis q with Some k => if mem k ks then lookup k d else lookup q d | None => if mem q ks && (match lookup q acis_map with Some _ => true | None => false end) then None else lookup q d end.
Proof.
  induction ks as [|k ks IH]; intros d ND AL; [exists d; split; [reflexivity|]; intros q; destruct (in_acis q); reflexivity|]. inversion ND as [|? ? NI ND']; subst. cbn [acis_keys].
  destruct (lookup k acis_map) as [n|] eqn:K.
  - destruct (lookup k d) as [v|] eqn:V; [|exfalso; exact (AL k (or_introl eq_refl) V)]. destruct (acis_forth k n K) as (F1 & F2 & F3).
    destruct (move_ok k n d v V) as (d1 & -> & L1). cbn [bind]. destruct (IH d1 ND') as (d' & -> & L).
    { intros k' I. rewrite L1. destruct (String.eqb k' n); [discriminate|]. destruct (String.eqb_spec k' k) as [->|_]; [contradiction|]. apply AL. right. exact I. }
    exists d'. split; [reflexivity|]. intros q. rewrite L. destruct (in_acis q) as [k'|] eqn:Q.
    + pose proof (acis_back q k' Q) as B. rewrite mem_cons. destruct (String.eqb_spec k' k) as [->|NK].
      * cbn [orb]. rewrite (mem_false k ks NI). rewrite L1. assert (q = n) by congruence. subst q. rewrite String.eqb_refl. symmetry. exact V.
      * cbn [orb]. rewrite !L1. destruct (String.eqb_spec k' n) as [->|_]; [congruence|]. destruct (String.eqb_spec k' k) as [?|_]; [contradiction|].
        destruct (String.eqb_spec q n) as [->|_]; [congruence|]. destruct (String.eqb_spec q k) as [->|_]; [congruence|]. reflexivity.
    + rewrite mem_cons. rewrite L1. destruct (String.eqb_spec q n) as [->|_]; [congruence|]. destruct (String.eqb_spec q k) as [->|_]; [rewrite K; cbn [orb andb]; destruct (mem k ks); reflexivity|reflexivity].
  - cbn [bind]. destruct (IH d ND') as (d' & -> & L); [intros k' I; apply AL; right; exact I|]. exists d'. split; [reflexivity|]. intros q. rewrite L. destruct (in_acis q) as [k'|] eqn:Q; rewrite mem_cons.
    + destruct (String.eqb_spec k' k) as [->|_]; [|reflexivity]. rewrite (acis_back q k Q) in K. discriminate.
    + destruct (String.eqb_spec q k) as [->|_]; [|reflexivity]. rewrite K. rewrite !andb_false_r. reflexivity.
Qed.
Lemma dict_set_keys {A} k (v : A) d : NoDup (map fst d) -> NoDup (map fst (dict_set k v d)) /\ forall q, In q (map fst (dict_set k v d)) -> q = k \/ In q (map fst d).
Proof.
  induction d as [|[a b] d IH]; intros ND; [split; [constructor; [intros []|constructor]|intros q [<-|[]]; left; reflexivity]|]. cbn [dict_set map fst] in *. inversion ND as [|? ? NI ND']; subst. destruct (String.eqb_spec k a) as [->|N].
  - cbn [map fst]. split; [constructor; assumption|]. intros q [<-|I]; [left; reflexivity|right; right; exact I].
  - cbn [map fst]. destruct (IH ND') as [A1 A2]. split; [constructor; [|exact A1]|].
    + intros I. destruct (A2 a I) as [->|I']; [contradiction|contradiction].
    + intros q [<-|I]; [right; left; reflexivity|]. destruct (A2 q I) as [->|I']; [left; reflexivity|right; right; exact I'].
Qed.
Lemma remove_keys {A} k (d : list (string * A)) : NoDup (map fst d) -> NoDup (map fst (remove_key k d)).
Proof.
  induction d as [|[a b] d IH]; intros ND; [constructor|]. inversion ND as [|? ? NI ND']; subst. unfold remove_key in *. cbn [filter fst]. destruct (negb (String.eqb a k)); [|exact (IH ND')]. cbn [map fst]. constructor; [|exact (IH ND')].
  intros I. apply NI. apply in_map_iff in I. destruct I as (x & E & I). apply filter_In in I. rewrite <- E. apply in_map. exact (proj1 I).
Qed.
(** what the service says of the place: a pair (longitude, latitude) and the elevation in feet, each of them if available *)
Record acis_place (meta : dict) : Prop := {
  p_keys : NoDup (map fst meta);
  p_ll : lookup "ll" meta = None \/ exists x y, lookup "ll" meta = Some (VList [x; y]);
  p_elev : lookup "elev" meta = None \/ (exists e, lookup "elev" meta = Some (VFloat e)) \/ exists n, lookup "elev" meta = Some (VInt n) }.
Definition feet_to_metres (v : value) : value := match v with VFloat e => VFloat (e * #0.3048) | VInt n => VFloat (#(IZR n) * #0.3048) | _ => v end.
Definition in_metres (meta : dict) (k : string) : option value :=
  match lookup "ll" meta with
  | Some (VList [x; y]) => if String.eqb k "ll" then None else if String.eqb k "lon" then Some (VFloat x) else if String.eqb k "lat" then Some (VFloat y)
                           else if String.eqb k "elev" then option_map feet_to_metres (lookup k meta) else lookup k meta
  | _ => if String.eqb k "elev" then option_map feet_to_metres (lookup k meta) else lookup k meta
  end.
Lemma acis_parse_ok elems dates cols meta mv : acis_place meta -> exists d, acis_parse elems (AcisData dates cols meta) mv = Ok (dates, combine (if mv then map in_pvlib elems else elems) cols, d) /\
  forall k, lookup k d = if mv then renamed_dict (in_metres meta) k else in_metres meta k.
Proof.
  intros [ND LL EL]. unfold acis_parse.
  assert (S1 : exists d1, unless_key_error (acis_ll "lon" "lat" meta) meta = Ok d1 /\ NoDup (map fst d1) /\
     forall k, lookup k d1 = match lookup "ll" meta with Some (VList [x; y]) => if String.eqb k "ll" then None else if String.eqb k "lon" then Some (VFloat x) else if String.eqb k "lat" then Some (VFloat y) else lookup k meta | _ => lookup k meta end).
  { unfold acis_ll. destruct LL as [E|(x & y & E)]; rewrite E.
    - exists meta. cbn. split; [reflexivity|]. split; [exact ND|reflexivity].
    - eexists. split; [reflexivity|]. split; [apply dict_set_keys, dict_set_keys, remove_keys, ND|]. intros k. rewrite !lookup_dict_set, lookup_remove.
      destruct (String.eqb_spec k "ll") as [->|_]; [reflexivity|]. destruct (String.eqb_spec k "lon") as [->|_]; [reflexivity|]. reflexivity. }
  destruct S1 as (d1 & -> & ND1 & L1). cbn [bind].
  assert (S2 : exists d2, unless_key_error (acis_elev d1) d1 = Ok d2 /\ NoDup (map fst d2) /\ forall k, lookup k d2 = in_metres meta k).
  { assert (E1 : lookup "elev" d1 = lookup "elev" meta) by (rewrite L1; destruct LL as [E|(x & y & E)]; rewrite E; reflexivity).
    unfold acis_elev. rewrite E1. destruct EL as [E|[(e & E)|(e & E)]]; rewrite E.
    - exists d1. cbn. split; [reflexivity|]. split; [exact ND1|]. intros k. rewrite L1. unfold in_metres. destruct LL as [F|(x & y & F)]; rewrite F.
      + destruct (String.eqb_spec k "elev") as [->|_]; [rewrite E; reflexivity|reflexivity].
      + destruct (String.eqb_spec k "elev") as [->|_]; [cbn [String.eqb Ascii.eqb Bool.eqb]; rewrite E; reflexivity|reflexivity].
    - eexists. split; [reflexivity|]. split; [apply dict_set_keys, ND1|]. intros k. rewrite lookup_dict_set, L1. unfold in_metres. destruct LL as [F|(x & y & F)]; rewrite F.
      + destruct (String.eqb_spec k "elev") as [->|_]; [rewrite E; reflexivity|reflexivity].
      + destruct (String.eqb_spec k "elev") as [->|_]; [cbn [String.eqb Ascii.eqb Bool.eqb]; rewrite E; reflexivity|reflexivity].
    - eexists. split; [reflexivity|]. split; [apply dict_set_keys, ND1|]. intros k. rewrite lookup_dict_set, L1. unfold in_metres. destruct LL as [F|(x & y & F)]; rewrite F.
      + destruct (String.eqb_spec k "elev") as [->|_]; [rewrite E; reflexivity|reflexivity].
      + destruct (String.eqb_spec k "elev") as [->|_]; [cbn [String.eqb Ascii.eqb Bool.eqb]; rewrite E; reflexivity|reflexivity]. }
  destruct S2 as (d2 & -> & ND2 & L2). cbn [bind]. destruct mv.
  - destruct (acis_keys_spec (map fst d2) d2 ND2) as (d3 & -> & L3). { intros k I E. apply lookup_None in E. contradiction. }
    cbn [bind]. exists d3. split.
    + f_equal. f_equal. f_equal. unfold to_cells. revert cols. induction elems as [|e elems IH]; intros [|c cols]; try reflexivity. cbn [combine map fst snd]. rewrite IH. unfold get_or, in_pvlib. rewrite acis_same. reflexivity.
    + intros k. rewrite L3. unfold renamed_dict. destruct (in_acis k) as [q|] eqn:Q.
      * destruct (mem q (map fst d2)) eqn:M.
        -- rewrite <- !L2. apply mem_In in M. destruct (lookup q d2) eqn:X; [reflexivity|]. apply lookup_None in X. contradiction.
        -- rewrite <- !L2. destruct (lookup q d2) eqn:X; [|reflexivity]. exfalso. apply lookup_In in X. apply (in_map fst) in X. apply mem_In in X. cbn [fst] in X. congruence.
      * rewrite L2. destruct (mem k (map fst acis_names)) eqn:M2.
        -- apply mem_In in M2. rewrite acis_same. destruct (lookup k acis_names) as [n|] eqn:X; [|apply lookup_None in X; contradiction]. rewrite andb_true_r. destruct (mem k (map fst d2)) eqn:M; [reflexivity|].
           rewrite <- L2. destruct (lookup k d2) eqn:Y; [|reflexivity]. apply lookup_In in Y. apply (in_map fst) in Y. apply mem_In in Y. cbn [fst] in Y. congruence.
        -- rewrite acis_same. destruct (lookup k acis_names) as [n|] eqn:X; [|rewrite andb_false_r; reflexivity]. apply lookup_In in X. apply (in_map fst) in X. apply mem_In in X. cbn [fst] in X. congruence.
  - exists d2. split; [reflexivity|exact L2].
Qed.
Lemma feqb_true x r : feqb x #r = true <-> x = #r.
Proof. destruct x as [a| | |]; cbn; split; intros H; try discriminate; unfold Reqb in *; [destruct (Req_EM_T a r) as [->|]; [reflexivity|discriminate]|injection H as ->; destruct (Req_EM_T r r); [reflexivity|contradiction]]. Qed.
(** -999 is a missing value *)
Definition missing_999 (c : Services.cell) (x : fl) : Prop := exists v, c = CNum v /\ ((v = #(-999) /\ x = NaN) \/ (v <> #(-999) /\ x = v)).
(** the columns of a grid in the order asked for, under pvlib's names; the metadata as [renamed_dict] says *)
Theorem C174_grid : forall elems dates cols outs meta mv, acis_place meta -> Forall2 (Forall2 missing_999) cols outs ->
  exists d, get_acis_grid elems (AcisData dates cols meta) mv = Ok (dates, combine (map (fun e => if mv then in_pvlib (fst e) else fst e) elems) (map (map CNum) outs), d) /\
    forall k, lookup k d = if mv then renamed_dict (in_metres meta) k else in_metres meta k.
Proof.
  intros elems dates cols outs meta mv P F. unfold get_acis_grid. destruct (acis_parse_ok (map fst elems) dates cols meta mv P) as (d & -> & L). cbn [bind]. exists d. split; [|exact L].
  f_equal. f_equal. f_equal. replace (if mv then map in_pvlib (map fst elems) else map fst elems) with (map (fun e => if mv then in_pvlib (fst e) else fst e) elems) by (destruct mv; [rewrite map_map; reflexivity|reflexivity]).
  generalize (map (fun e : string * string => if mv then in_pvlib (fst e) else fst e) elems). intros ns. revert ns. induction F as [|c o cols outs H F IH]; intros ns; [destruct ns; reflexivity|]. destruct ns as [|n ns]; [reflexivity|]. cbn [combine map fst snd]. rewrite IH. f_equal. f_equal.
  clear -H. induction H as [|x y c o E H IH]; [reflexivity|]. cbn [map]. rewrite IH. f_equal. destruct E as (v & -> & [[-> ->]|[N ->]]); unfold cell_nan.
  - replace (feqb #(-999) #(-999)) with true; [reflexivity|]. symmetry. apply feqb_true. reflexivity.
  - destruct (feqb v #(-999)) eqn:Q; [|reflexivity]. exfalso. apply N. apply feqb_true in Q. exact Q.
Qed.
Print Assumptions C174_grid.
(** in words: longitude before latitude, feet to metres, nothing else touched *)
Theorem C174_place : forall meta, acis_place meta ->
  (forall x y, lookup "ll" meta = Some (VList [x; y]) -> renamed_dict (in_metres meta) "longitude" = Some (VFloat x) /\ renamed_dict (in_metres meta) "latitude" = Some (VFloat y) /\ renamed_dict (in_metres meta) "ll" = None) /\
  (lookup "ll" meta = None -> forall v, (lookup "lon" meta = Some v -> renamed_dict (in_metres meta) "longitude" = Some v) /\ (lookup "lat" meta = Some v -> renamed_dict (in_metres meta) "latitude" = Some v)) /\
  (forall e, lookup "elev" meta = Some (VFloat e) -> renamed_dict (in_metres meta) "altitude" = Some (VFloat (e * #0.3048))) /\
  (forall n, lookup "elev" meta = Some (VInt n) -> renamed_dict (in_metres meta) "altitude" = Some (VFloat (#(IZR n) * #0.3048))) /\
  (forall k, ~ In k ["ll"%string] -> ~ In k (map fst acis_names) -> ~ In k (map snd acis_names) -> renamed_dict (in_metres meta) k = lookup k meta).
Proof.
  intros meta [ND LL EL]. split; [|split; [|split; [|split]]].
  - intros x y E. unfold renamed_dict, in_metres. rewrite E. repeat split; reflexivity.
  - intros E v. unfold renamed_dict, in_metres. rewrite E. split; intros H; cbn [in_acis option_map find acis_names fst snd String.eqb Ascii.eqb Bool.eqb]; rewrite H; reflexivity.
  - intros e E. unfold renamed_dict, in_metres. destruct LL as [L|(x & y & L)]; rewrite L; cbn [in_acis option_map find acis_names fst snd String.eqb Ascii.eqb Bool.eqb]; rewrite E; reflexivity.
  - intros e E. unfold renamed_dict, in_metres. destruct LL as [L|(x & y & L)]; rewrite L; cbn [in_acis option_map find acis_names fst snd String.eqb Ascii.eqb Bool.eqb]; rewrite E; reflexivity.
  - intros k N1 N2 N3. unfold renamed_dict. destruct (in_acis k) as [q|] eqn:Q.
    + exfalso. apply N3. apply acis_back in Q. rewrite acis_same in Q. apply lookup_In in Q. apply (in_map snd) in Q. exact Q.
    + rewrite (mem_false k _ N2). unfold in_metres. cbn [map fst acis_names In] in N1, N2.
      destruct LL as [L|(x & y & L)]; rewrite L; repeat match goal with |- context [String.eqb k ?s] => destruct (String.eqb_spec k s) as [->|_]; [exfalso; tauto|] end; reflexivity.
Qed.
Print Assumptions C174_place.
(** an answer with an error is an HTTPError, and no other answer is *)
Theorem C174_errors : forall elems mv answer e, get_acis_grid elems answer mv = Err e -> (e = HttpError <-> answer = AcisError) /\ (e = HttpError \/ e = TypeError \/ e = ValueError \/ e = KeyError).
Proof.
  assert (LE : forall a b m e, acis_ll a b m = Err e -> e = KeyError \/ e = ValueError \/ e = TypeError).
  { intros a b m e. unfold acis_ll. destruct (lookup "ll" m) as [[s| | |l]|]; try (intros E; injection E as <-; auto; fail). destruct l as [|x [|y [|z l]]]; intros E; try discriminate; injection E as <-; auto. }
  assert (EE : forall m e, acis_elev m = Err e -> e = KeyError \/ e = TypeError).
  { intros m e. unfold acis_elev. destruct (lookup "elev" m) as [[s| | |l]|]; intros E; try discriminate; injection E as <-; auto. }
  assert (UK : forall r d e, unless_key_error r d = Err e -> r = Err e /\ e <> KeyError) by (intros [?|[]] d e; cbn; intros E; try discriminate; injection E as <-; split; (reflexivity || discriminate)).
  assert (KE : forall ks d e, acis_keys ks d = Err e -> e = KeyError).
  { induction ks as [|k ks IH]; intros d e; [discriminate|]. cbn [acis_keys]. destruct (lookup k acis_map) as [n|]; [|exact (IH d e)]. unfold move. destruct (lookup k d); [cbn [bind]; apply IH|]. intros E. injection E as <-. reflexivity. }
  intros elems mv [|dates cols meta] e; unfold get_acis_grid, acis_parse.
  - intros E. injection E as <-. split; [split; reflexivity|left; reflexivity].
  - destruct (unless_key_error (acis_ll "lon" "lat" meta) meta) as [d1|x] eqn:A1; cbn [bind].
    2: { intros E. injection E as <-. apply UK in A1. destruct A1 as [A1 N]. apply LE in A1. split; [split; [intros ->; destruct A1 as [?|[?|?]]; discriminate|discriminate]|destruct A1 as [?|[?|?]]; auto]. }
    destruct (unless_key_error (acis_elev d1) d1) as [d2|x] eqn:A2; cbn [bind].
    2: { intros E. injection E as <-. apply UK in A2. destruct A2 as [A2 N]. apply EE in A2. split; [split; [intros ->; destruct A2 as [?|?]; discriminate|discriminate]|destruct A2 as [?|?]; auto]. }
    destruct mv; [|discriminate]. destruct (acis_keys (map fst d2) d2) as [d3|x] eqn:A3; cbn [bind]; [discriminate|]. intros E. injection E as <-. apply KE in A3. subst x. split; [split; discriminate|auto].
Qed.
Print Assumptions C174_errors.
Theorem C174_request : forall start end_ latitude longitude grid, let q := acis_grid_params start end_ latitude longitude grid in
  lookup "loc" q = Some (longitude ++ "," ++ latitude)%string /\ lookup "sdate" q = Some start /\ lookup "edate" q = Some end_ /\ lookup "grid" q = Some grid /\ lookup "output" q = Some "json"%string.
Proof. intros. repeat split. Qed.
Print Assumptions C174_request.
(** the elements asked for are those with a pvlib name, temperatures in degrees Celsius, rain in mm, snow in cm *)
Theorem C174_units : forall k u, In (k, u) (grid_elems ++ mpe_elems ++ station_elems) -> In k (map fst acis_names) /\ (u = "mm" <-> k = "pcpn")%string /\ (u = "cm" <-> k = "snow" \/ k = "snwd")%string /\ (u = "mm" \/ u = "cm" \/ u = "degreeC")%string.
Proof.
  intros k u I. cbn [grid_elems mpe_elems station_elems app In] in I.
  repeat (destruct I as [I|I]; [injection I as <- <-; split; [cbn; tauto|split; [split; (reflexivity || discriminate)|split; [split; (discriminate || intuition discriminate || tauto)|tauto]]]|]). destruct I.
Qed.
Print Assumptions C174_units.
Example C174_example : acis_place [("ll", VList [#(-80); #40]); ("elev", VFloat #1000)]%string.
Proof. split; [repeat constructor; cbn; intuition discriminate|right; exists #(-80), #40; reflexivity|right; left; exists #1000; reflexivity]. Qed.

(** ** C175 *)
Section StationData.
Variable py_float : string -> option fl.
(** M is missing, T a trace *)
Definition observed (trace_val : fl) (c : Services.cell) (x : fl) : Prop :=
  (c = CText "M" /\ x = NaN) \/ (c = CText "T" /\ x = trace_val) \/ (exists s, c = CText s /\ s <> "M"%string /\ s <> "T"%string /\ py_float s = Some x) \/ c = CNum x.
Lemma observed_cell tv c x : observed tv c x -> station_cell py_float tv c = Ok x.
Proof.
  unfold station_cell. intros [[-> ->]|[[-> ->]|[(s & -> & N1 & N2 & E)| ->]]]; try reflexivity. rewrite (proj2 (String.eqb_neq s "M") N1). rewrite (proj2 (String.eqb_neq s "T") N2). rewrite E. reflexivity.
Qed.
Theorem C175_data : forall dates cols outs meta trace_val mv, acis_place meta -> Forall2 (Forall2 (observed trace_val)) cols outs ->
  exists d, get_acis_station_data py_float (AcisData dates cols meta) trace_val mv = Ok (dates, combine (map (fun e => if mv then in_pvlib (fst e) else fst e) station_elems) outs, d) /\
    forall k, lookup k d = if mv then renamed_dict (in_metres meta) k else in_metres meta k.
Proof.
  intros dates cols outs meta tv mv P F. unfold get_acis_station_data. destruct (acis_parse_ok (map fst station_elems) dates cols meta mv P) as (d & -> & L). cbn [bind]. exists d.
  replace (if mv then map in_pvlib (map fst station_elems) else map fst station_elems) with (map (fun e => if mv then in_pvlib (fst e) else fst e) station_elems) by (destruct mv; [rewrite map_map; reflexivity|reflexivity]).
  generalize (map (fun e : string * string => if mv then in_pvlib (fst e) else fst e) station_elems). intros ns.
  assert (M : mapM (fun c => let* v := mapM (station_cell py_float tv) (snd c) in Ok (fst c, v)) (combine ns cols) = Ok (combine ns outs)).
  { revert ns. induction F as [|c o cols outs H F IH]; intros ns; [destruct ns; reflexivity|]. destruct ns as [|n ns]; [reflexivity|]. cbn [combine mapM fst snd]. rewrite IH.
    assert (MC : mapM (station_cell py_float tv) c = Ok o) by (clear -H; induction H as [|x y c o E H IH]; [reflexivity|]; cbn [mapM]; rewrite (observed_cell tv x y E), IH; reflexivity). rewrite MC. reflexivity. }
  rewrite M. split; [reflexivity|exact L].
Qed.
(** a text that is neither, nor a number, is an error *)
Theorem C175_not_a_number : forall dates cols meta trace_val mv c s i, acis_place meta -> nth_error cols i = Some c -> (i < List.length station_elems)%nat -> In (CText s) c -> s <> "M"%string -> s <> "T"%string -> py_float s = None ->
  get_acis_station_data py_float (AcisData dates cols meta) trace_val mv = Err ValueError.
Proof.
  intros dates cols meta tv mv c s i P NC LI IN N1 N2 PF. unfold get_acis_station_data. destruct (acis_parse_ok (map fst station_elems) dates cols meta mv P) as (d & -> & _). cbn [bind].
  set (ns := if mv then map in_pvlib (map fst station_elems) else map fst station_elems). assert (LN : (i < List.length ns)%nat) by (subst ns; destruct mv; rewrite ?map_length; exact LI). clearbody ns.
  set (f := fun c0 : string * list Services.cell => let* v := mapM (station_cell py_float tv) (snd c0) in Ok (fst c0, v)).
  assert (ONE : forall x e, station_cell py_float tv x = Err e -> e = ValueError).
  { intros x e. unfold station_cell. destruct x as [t|v]; [|discriminate]. destruct (String.eqb t "M"); [discriminate|]. destruct (String.eqb t "T"); [discriminate|]. destruct (py_float t); [discriminate|]. intros E. injection E as <-. reflexivity. }
  assert (ALL : forall l e, mapM (station_cell py_float tv) l = Err e -> e = ValueError).
  { induction l as [|x l IH]; intros e; [discriminate|]. cbn [mapM]. destruct (station_cell py_float tv x) eqn:X; [|intros E; injection E as <-; exact (ONE _ _ X)]. cbn [bind]. destruct (mapM _ l) eqn:Y; [discriminate|]. intros E. injection E as <-. exact (IH _ eq_refl). }
  assert (BAD : mapM (station_cell py_float tv) c = Err ValueError).
  { clear -IN N1 N2 PF ALL ONE. induction c as [|x c IH]; [destruct IN|]. cbn [mapM]. destruct IN as [->|IN].
    - unfold station_cell at 1. rewrite (proj2 (String.eqb_neq s "M") N1), (proj2 (String.eqb_neq s "T") N2), PF. reflexivity.
    - destruct (station_cell py_float tv x) eqn:X; [|rewrite (ONE _ _ X); reflexivity]. cbn [bind]. rewrite (IH IN). reflexivity. }
  assert (G : mapM f (combine ns cols) = Err ValueError); [|rewrite G; reflexivity].
  revert ns cols NC LN. clear LI. induction i as [|i IH]; intros [|n ns] [|a cols] NC LN; try discriminate; try (cbn in LN; lia).
  - injection NC as ->. cbn [combine mapM]. unfold f at 1. cbn [fst snd]. rewrite BAD. reflexivity.
  - cbn [combine mapM]. unfold f at 1. cbn [fst snd]. cbn [nth_error] in NC. cbn [List.length] in LN. destruct (mapM (station_cell py_float tv) a) eqn:A; [|rewrite (ALL _ _ A); reflexivity]. cbn [bind]. rewrite (IH ns cols NC) by lia. reflexivity.
Qed.
End StationData.
Print Assumptions C175_data.
Print Assumptions C175_not_a_number.
Example C175_example : Forall2 (observed (fun s => lookup s [("1.5", #1.5)]%string) #0.001) [CText "M"; CText "T"; CText "1.5"] [NaN; #0.001; #1.5].
Proof.
  constructor; [left; split; reflexivity|]. constructor; [right; left; split; reflexivity|]. constructor; [|constructor]. right; right; left. exists "1.5"%string. repeat split; discriminate.
Qed.
(** get_acis_available_stations: the place, and the elevation as it is; a record without one of them is a KeyError *)
Theorem C175_stations : forall d, NoDup (map fst d) ->
  (forall v x y, lookup "elev" d = Some v -> lookup "ll" d = Some (VList [x; y]) ->
     exists d', acis_station_record d = Ok d' /\ lookup "altitude" d' = Some v /\ lookup "longitude" d' = Some (VFloat x) /\ lookup "latitude" d' = Some (VFloat y) /\ lookup "elev" d' = None /\ lookup "ll" d' = None /\
       forall k, ~ In k ["altitude"; "longitude"; "latitude"; "elev"; "ll"]%string -> lookup k d' = lookup k d) /\
  (acis_station_record d = Err KeyError <-> lookup "elev" d = None \/ lookup "ll" d = None).
Proof.
  intros d ND. unfold acis_station_record. split.
  - intros v x y E1 E2. destruct (move_ok "elev" "altitude" d v E1) as (d1 & -> & L1). cbn [bind]. unfold acis_ll. rewrite (L1 "ll"%string). cbn [String.eqb Ascii.eqb Bool.eqb]. rewrite E2. eexists. split; [reflexivity|].
    repeat (split; [rewrite !lookup_dict_set, lookup_remove; cbn [String.eqb Ascii.eqb Bool.eqb]; rewrite ?L1; reflexivity|]). intros k N. cbn [In] in N. rewrite !lookup_dict_set, lookup_remove, L1.
    repeat match goal with |- context [String.eqb k ?s] => destruct (String.eqb_spec k s) as [->|_]; [exfalso; tauto|] end. reflexivity.
  - unfold move. destruct (lookup "elev" d) as [v|] eqn:E; [|cbn [bind]; split; [auto|reflexivity]]. cbn [bind]. unfold acis_ll. rewrite lookup_dict_set, lookup_remove. cbn [String.eqb Ascii.eqb Bool.eqb].
    destruct (lookup "ll" d) as [[s|n|x|l]|]; [| | |destruct l as [|x [|y [|z l]]]|]; split; try discriminate; try (intros [?|?]; discriminate); auto.
Qed.
Print Assumptions C175_stations.
(** the altitude is in feet: not what the data of the same station say *)
Theorem C175_altitude_refuted : exists d d1 d2 i t, acis_station_record d = Ok d1 /\ get_acis_station_data (fun _ => None) (AcisData [] [] d) #0.001 true = Ok (i, t, d2) /\ lookup "altitude" d1 <> lookup "altitude" d2.
Proof.
  pose (d := [("ll", VList [#(-80); #40]); ("elev", VFloat #1000)]%string). assert (P : acis_place d) by exact C174_example. exists d.
  destruct (C175_data (fun _ => None) [] [] [] d #0.001 true P (Forall2_nil _)) as (d2 & E2 & L2).
  assert (ND : NoDup (map fst d)) by apply P. destruct (proj1 (C175_stations d ND) (VFloat #1000) #(-80) #40 eq_refl eq_refl) as (d1 & E1 & L1 & _). exists d1, d2. eexists. eexists. split; [exact E1|]. split; [exact E2|].
  rewrite L1, L2. rewrite (proj1 (proj2 (proj2 (C174_place d P))) #1000 eq_refl). intros H. assert (Q : forall u v : fl, Some (VFloat u) = Some (VFloat v) -> u = v) by congruence. apply Q in H. rewrite fmul_fin in H. apply Fin_inj in H. lra.
Qed.
Print Assumptions C175_altitude_refuted.
Theorem C175_box : forall lat0 lat1 lon0 lon1 start end_, let q := acis_stations_params lat0 lat1 lon0 lon1 start end_ in
  lookup "bbox" q = Some (String.concat "," [lon0; lat0; lon1; lat1]) /\
  (forall s e, start = Some s -> end_ = Some e -> lookup "sdate" q = Some s /\ lookup "edate" q = Some e) /\ (start = None \/ end_ = None -> lookup "sdate" q = None /\ lookup "edate" q = None).
Proof. intros. subst q. split; [reflexivity|]. split; [intros s e -> ->; split; reflexivity|]. intros [-> | ->]; [split; reflexivity|destruct start; split; reflexivity]. Qed.
Print Assumptions C175_box.

(** ** C176: SolarAnywhere files *)
Fixpoint without (c : ascii) (s : string) : string := match s with EmptyString => EmptyString | String x s' => if Ascii.eqb x c then without c s' else String x (without c s') end.
(** the pieces between the slashes: a pair of texts around the only colon, or nothing of interest *)
Inductive pieces_read : list string -> list (string * string) -> Prop :=
| no_piece : pieces_read [] []
| other_piece p ps es : has_char ":" p = false -> pieces_read ps es -> pieces_read (p :: ps) es
| pair_piece k v ps es : has_char ":" k = false -> has_char ":" v = false -> pieces_read ps es -> pieces_read ((k ++ ":" ++ v)%string :: ps) ((strip k, strip v) :: es).
Lemma replace_without s : replace_char quote "" s = without dq s.
Proof. induction s as [|c s IH]; [reflexivity|]. cbn [replace_char without append]. change quote with dq in IH |- *. destruct (Ascii.eqb c dq); rewrite IH; reflexivity. Qed.
Lemma concat_two c a b l : String.concat c (a :: b :: l) = (a ++ c ++ String.concat c (b :: l))%string.
Proof. reflexivity. Qed.
Lemma join_split c s : String.concat (String c "") (split_on c s) = s.
Proof.
  induction s as [|x s IH]; [reflexivity|]. cbn [split_on]. destruct (Ascii.eqb_spec x c) as [->|N].
  - destruct (split_on c s) as [|p ps] eqn:E; [exfalso; exact (split_on_nonnil c s E)|]. rewrite concat_two, IH. reflexivity.
  - destruct (split_on c s) as [|p ps] eqn:E; [exfalso; exact (split_on_nonnil c s E)|]. destruct ps as [|q ps]; [cbn [String.concat] in *; rewrite IH; reflexivity|]. rewrite concat_two in *. cbn [append] in IH |- *. rewrite IH. reflexivity.
Qed.
Lemma find_app {A} (f : A -> bool) a b : find f (a ++ b) = match find f a with Some x => Some x | None => find f b end.
Proof. induction a as [|x a IH]; [reflexivity|]. cbn [app find]. destruct (f x); [reflexivity|exact IH]. Qed.
Lemma text_at_cons k e es : text_at k (e :: es) = or_else (text_at k es) (if String.eqb k (fst e) then Some (snd e) else None).
Proof. unfold text_at. cbn [rev]. rewrite find_app. cbn [find]. destruct (find _ (rev es)); [reflexivity|]. destruct (String.eqb k (fst e)); reflexivity. Qed.
Lemma pieces_ok ps es : pieces_read ps es -> forall d, exists d', sa_pieces ps d = Ok d' /\ forall k, lookup k d' = or_else (option_map VText (text_at k es)) (lookup k d).
Proof.
  intros H. induction H as [|p ps es N H IH|k v ps es N1 N2 H IH]; intros d.
  - exists d. split; [reflexivity|]. intros k. reflexivity.
  - destruct (IH d) as (d' & E & L). exists d'. split; [|exact L]. cbn [sa_pieces]. unfold sa_piece. rewrite N. cbn [bind]. exact E.
  - destruct (IH (dict_set (strip k) (VText (strip v)) d)) as (d' & E & L). exists d'. split.
    + cbn [sa_pieces]. unfold sa_piece. rewrite !has_char_app. cbn [has_char Ascii.eqb Bool.eqb orb]. rewrite orb_true_r. change (":" ++ v)%string with (String ":" v). rewrite split_on_app by exact N1. rewrite split_on_nosep by exact N2. cbn [bind]. exact E.
    + intros q. rewrite L, text_at_cons, lookup_dict_set. cbn [fst snd]. destruct (text_at q es); [reflexivity|]. cbn [or_else option_map]. destruct (String.eqb q (strip k)); reflexivity.
Qed.
Lemma seven (f1 f2 f3 f4 f5 f6 f7 extra : string) : Forall (fun f => has_char "," f = false) [f1; f2; f3; f4; f5; f6; f7] ->
  split_on "," (String.concat "," [f1; f2; f3; f4; f5; f6; f7; extra]) = f1 :: f2 :: f3 :: f4 :: f5 :: f6 :: f7 :: split_on "," extra.
Proof.
  intros F. repeat (inversion F as [|? ? ? F']; subst; clear F; rename F' into F). rewrite !concat_two. cbn [String.concat]. repeat match goal with |- context [("," ++ ?t)%string] => change ("," ++ t)%string with (String "," t) end.
  repeat (rewrite split_on_app by assumption). reflexivity.
Qed.
Section SolarAnywhereFile.
Variable py_int : string -> option Z.
Variable py_float : string -> option fl.
Definition station_fields (u : Z) (name state : string) (z la lo al : fl) : dict :=
  [("USAF", VInt u); ("name", VText name); ("state", VText state); ("TZ", VFloat z); ("latitude", VFloat la); ("longitude", VFloat lo); ("altitude", VFloat al)]%string.
Theorem C176_metadata : forall line usaf name state tz lat lon alt extra pieces es u z la lo al r x,
  strip line = String.concat "," [usaf; name; state; tz; lat; lon; alt; extra] -> Forall (fun f => has_char "," f = false) [usaf; name; state; tz; lat; lon; alt] ->
  py_int usaf = Some u -> py_float tz = Some z -> py_float lat = Some la -> py_float lon = Some lo -> py_float alt = Some al ->
  without dq extra = String.concat "/" pieces -> pieces <> [] -> Forall (fun p => has_char "/" p = false) pieces -> pieces_read pieces es ->
  text_at "LatLon Resolution" es = Some r -> py_float r = Some x ->
  exists d, sa_meta py_int py_float line = Ok d /\
    forall k, lookup k d = if String.eqb k "LatLon Resolution" then Some (VFloat x) else or_else (option_map VText (text_at k es)) (lookup k (station_fields u name state z la lo al)).
Proof.
  intros line usaf name state tz lat lon alt extra pieces es u z la lo al r x E F I1 I2 I3 I4 I5 W N1 N2 P T1 T2. unfold sa_meta. rewrite E, seven by exact F. cbn [pop bind fst snd]. unfold text_int, text_float. rewrite I1, I2, I3, I4, I5. cbn [bind].
  rewrite join_split, replace_without, W. rewrite split_join by assumption. fold (station_fields u name state z la lo al). destruct (pieces_ok pieces es P (station_fields u name state z la lo al)) as (d & -> & L). cbn [bind].
  unfold float_entry. rewrite (L "LatLon Resolution"%string), T1. cbn [or_else option_map]. rewrite T2. eexists. split; [reflexivity|]. intros k. rewrite lookup_dict_set, L. reflexivity.
Qed.
(** a colon in a value makes the file unreadable *)
Theorem C176_two_colons : forall line usaf name state tz lat lon alt extra pieces u z la lo al k v w,
  strip line = String.concat "," [usaf; name; state; tz; lat; lon; alt; extra] -> Forall (fun f => has_char "," f = false) [usaf; name; state; tz; lat; lon; alt] ->
  py_int usaf = Some u -> py_float tz = Some z -> py_float lat = Some la -> py_float lon = Some lo -> py_float alt = Some al ->
  without dq extra = String.concat "/" pieces -> Forall (fun p => has_char "/" p = false) pieces -> In (k ++ ":" ++ v ++ ":" ++ w)%string pieces ->
  sa_meta py_int py_float line = Err ValueError.
Proof.
  intros line usaf name state tz lat lon alt extra pieces u z la lo al k v w E F I1 I2 I3 I4 I5 W N2 I. unfold sa_meta. rewrite E, seven by exact F. cbn [pop bind fst snd]. unfold text_int, text_float. rewrite I1, I2, I3, I4, I5. cbn [bind].
  rewrite join_split, replace_without, W. rewrite split_join by (try assumption; intros ->; destruct I). generalize (station_fields u name state z la lo al). intros d0. match goal with |- context [sa_pieces pieces ?d] => generalize d end. clear -I.
  assert (Q : forall d, sa_pieces pieces d = Err ValueError); [|intros d; rewrite Q; reflexivity].
  assert (ONE : forall d p e, sa_piece d p = Err e -> e = ValueError) by (intros d p e; unfold sa_piece; destruct (has_char ":" p); [|discriminate]; destruct (split_on ":" p) as [|a [|b [|c l]]]; intros X; try discriminate; injection X as <-; reflexivity).
  induction pieces as [|p ps IH]; intros d; [destruct I|]. cbn [sa_pieces]. destruct I as [->|I].
  - replace (sa_piece d (k ++ ":" ++ v ++ ":" ++ w)) with (@Err dict ValueError); [reflexivity|]. unfold sa_piece. rewrite has_char_app. cbn [append has_char Ascii.eqb Bool.eqb orb]. rewrite orb_true_r.
    assert (G : forall s t, exists a l, split_on ":" (s ++ String ":" t) = a :: l ++ split_on ":" t).
    { clear. induction s as [|c s IH]; intros t; [exists ""%string, []; reflexivity|]. cbn [append split_on]. destruct (IH t) as (a & l & ->). destruct (Ascii.eqb c ":"); [exists ""%string, (a :: l); reflexivity|exists (String c a), l; reflexivity]. }
    destruct (G k (v ++ String ":" w)%string) as (a & l & ->). destruct (G v w) as (a' & l' & ->). destruct (split_on ":" w) as [|b m] eqn:B; [exfalso; exact (split_on_nonnil _ _ B)|]. destruct l as [|l0 l]; cbn [app]; [destruct l' as [|l1 l']; reflexivity|]. destruct l as [|l2 l]; reflexivity.
  - destruct (sa_piece d p) as [d'|e] eqn:X; [cbn [bind]; apply IH, I|]. rewrite (ONE _ _ _ X). reflexivity.
Qed.
Theorem C176_meta_errors : forall line e, sa_meta py_int py_float line = Err e -> e = ValueError \/ e = IndexError \/ e = KeyError.
Proof.
  assert (TI : forall s e, text_int py_int s = Err e -> e = ValueError) by (intros s e; unfold text_int; destruct (py_int s); [discriminate|intros X; injection X as <-; reflexivity]).
  assert (TF : forall s e, text_float py_float s = Err e -> e = ValueError) by (intros s e; unfold text_float; destruct (py_float s); [discriminate|intros X; injection X as <-; reflexivity]).
  assert (PO : forall l e, pop l = Err e -> e = IndexError) by (intros [|a l] e; [intros X; injection X as <-; reflexivity|discriminate]).
  assert (ONE : forall d p e, sa_piece d p = Err e -> e = ValueError) by (intros d p e; unfold sa_piece; destruct (has_char ":" p); [|discriminate]; destruct (split_on ":" p) as [|a [|b [|c l]]]; intros X; try discriminate; injection X as <-; reflexivity).
  assert (SP : forall ps d e, sa_pieces ps d = Err e -> e = ValueError).
  { induction ps as [|p ps IH]; intros d e; [discriminate|]. cbn [sa_pieces]. destruct (sa_piece d p) eqn:X; [cbn [bind]; apply IH|]. intros Y. injection Y as <-. exact (ONE _ _ _ X). }
  assert (FE : forall k d e, float_entry py_float k d = Err e -> e = ValueError \/ e = KeyError) by (intros k d e; unfold float_entry; destruct (lookup k d) as [[s|n|y|l]|]; try discriminate; [destruct (py_float s); [discriminate|]|]; intros X; injection X as <-; auto).
  intros line e. unfold sa_meta.
  repeat (match goal with |- bind ?m _ = Err _ -> _ => destruct m eqn:?; [cbn [bind]; cbv zeta|cbn [bind]; let X := fresh in intros X; injection X as <-; eauto using eq_sym] end).
  intros X. destruct (FE _ _ _ X); auto.
Qed.
(** the index in seconds, UTC: the local times less the offset of the time zone (any that is a whole number of seconds) *)
Definition sa_dictionary : dictionary :=
  [("Global Horizontal Irradiance (GHI) W/m2", ("ghi", kept)); ("Direct Normal Irradiance (DNI) W/m2", ("dni", kept)); ("Diffuse Horizontal Irradiance (DIF) W/m2", ("dhi", kept)); ("AmbientTemperature (deg C)", ("temp_air", kept));
   ("WindSpeed (m/s)", ("wind_speed", kept)); ("Relative Humidity (%)", ("relative_humidity", kept)); ("Clear Sky GHI", ("ghi_clear", kept)); ("Clear Sky DNI", ("dni_clear", kept)); ("Clear Sky DHI", ("dhi_clear", kept)); ("Albedo", ("albedo", kept));
   ("GlobalHorizontalIrradiance_WattsPerMeterSquared", ("ghi", kept)); ("DirectNormalIrradiance_WattsPerMeterSquared", ("dni", kept)); ("DiffuseHorizontalIrradiance_WattsPerMeterSquared", ("dhi", kept));
   ("AmbientTemperature_DegreesC", ("temp_air", kept)); ("WindSpeed_MetersPerSecond", ("wind_speed", kept)); ("RelativeHumidity_Percent", ("relative_humidity", kept)); ("ClearSkyGHI_WattsPerMeterSquared", ("ghi_clear", kept));
   ("ClearSkyDNI_WattsPerMeterSquared", ("dni_clear", kept)); ("ClearSkyDHI_WattsPerMeterSquared", ("dhi_clear", kept)); ("Albedo_Unitless", ("albedo", kept))]%string.
Lemma sa_renamed t : rename_columns sa_map t = map (translated sa_dictionary) t.
Proof.
  unfold rename_columns. apply map_ext. intros [n vs]. unfold translated. cbn [fst snd]. unfold sa_map, sa_dictionary. cbn [lookup].
  repeat match goal with |- context [String.eqb n ?x] => destruct (String.eqb_spec n x) as [->|?]; [cbn; rewrite ?map_kept; reflexivity|] end. reflexivity.
Qed.
Theorem C176_read : forall line times t mv d q, sa_meta py_int py_float line = Ok d -> lookup "TZ" d = Some (VFloat #(IZR q / 3600)) -> -86400 < q < 86400 ->
  read_solaranywhere py_int py_float line times t mv = Ok (map (fun m => 60 * m - q) times, map (fun c => let c := masked #(-999) c in if mv then translated sa_dictionary c else c) t, d).
Proof.
  intros line times t mv d q M Z0 B. unfold read_solaranywhere. rewrite M. cbn [bind]. unfold sa_offset. rewrite Z0. rewrite (proj1 (C146_utc_offset q)). rewrite (proj2 (Z.ltb_lt _ _)), (proj2 (Z.ltb_lt _ _)) by lia. cbn [andb bind].
  destruct mv; [rewrite sa_renamed|]; unfold replace_nan; rewrite ?map_map; reflexivity.
Qed.
Theorem C176_offset_errors : forall line times t mv d q, sa_meta py_int py_float line = Ok d -> lookup "TZ" d = Some (VFloat #(IZR q / 3600)) -> ~ (-86400 < q < 86400) -> read_solaranywhere py_int py_float line times t mv = Err ValueError.
Proof.
  intros line times t mv d q M Z0 B. unfold read_solaranywhere. rewrite M. cbn [bind]. unfold sa_offset. rewrite Z0. rewrite (proj1 (C146_utc_offset q)). destruct (Z.ltb_spec (-86400) q), (Z.ltb_spec q 86400); try lia; reflexivity.
Qed.
(** ** C178: the answer of the service *)
Definition value_number (v : value) (x : fl) : Prop := v = VFloat x \/ (exists n, v = VInt n /\ x = #(IZR n)) \/ exists s, v = VText s /\ py_float s = Some x.
Lemma value_float_ok v x : value_number v x -> value_float py_float v = Ok x.
Proof. intros [-> | [(n & -> & ->) | (s & -> & E)]]; cbn; try reflexivity. unfold text_float. rewrite E. reflexivity. Qed.
Lemma move_float_ok old new d v x : lookup old d = Some v -> value_number v x ->
  exists d', move_float py_float old new d = Ok d' /\ forall k, lookup k d' = if String.eqb k new then Some (VFloat x) else if String.eqb k old then None else lookup k d.
Proof. intros E V. unfold move_float. rewrite E, (value_float_ok v x V). cbn [bind]. eexists. split; [reflexivity|]. intros k. rewrite lookup_dict_set. destruct (String.eqb k new); [reflexivity|]. apply lookup_remove. Qed.
Theorem C178_result : forall info resolution spatial t mv v1 v2 v3 la lo al,
  lookup "Latitude" info = Some v1 -> value_number v1 la -> lookup "Longitude" info = Some v2 -> value_number v2 lo -> lookup "Elevation_Meters" info = Some v3 -> value_number v3 al ->
  exists d, sa_result py_float info resolution spatial t mv = Ok (if mv then map (translated sa_dictionary) t else t, d) /\
    lookup "latitude" d = Some (VFloat la) /\ lookup "longitude" d = Some (VFloat lo) /\ lookup "altitude" d = Some (VFloat al) /\ lookup "time_resolution" d = Some resolution /\ lookup "spatial_resolution" d = Some spatial /\
    lookup "Latitude" d = None /\ lookup "Longitude" d = None /\ lookup "Elevation_Meters" d = None /\
    forall k, ~ In k ["latitude"; "longitude"; "altitude"; "time_resolution"; "spatial_resolution"; "Latitude"; "Longitude"; "Elevation_Meters"]%string -> lookup k d = lookup k info.
Proof.
  intros info resolution spatial t mv v1 v2 v3 la lo al E1 V1 E2 V2 E3 V3. unfold sa_result. set (d0 := dict_set _ _ _).
  assert (L0 : forall k, lookup k d0 = if String.eqb k "spatial_resolution" then Some spatial else if String.eqb k "time_resolution" then Some resolution else lookup k info) by (intros k; subst d0; rewrite !lookup_dict_set; reflexivity). clearbody d0.
  destruct (move_float_ok "Latitude" "latitude" d0 v1 la) as (d1 & -> & L1); [rewrite L0; exact E1|exact V1|]. cbn [bind].
  destruct (move_float_ok "Longitude" "longitude" d1 v2 lo) as (d2 & -> & L2); [rewrite L1; cbn [String.eqb Ascii.eqb Bool.eqb]; rewrite L0; exact E2|exact V2|]. cbn [bind].
  destruct (move_float_ok "Elevation_Meters" "altitude" d2 v3 al) as (d3 & -> & L3); [rewrite L2; cbn [String.eqb Ascii.eqb Bool.eqb]; rewrite L1; cbn [String.eqb Ascii.eqb Bool.eqb]; rewrite L0; exact E3|exact V3|]. cbn [bind].
  exists d3. rewrite sa_renamed. split; [reflexivity|]. repeat (split; [rewrite L3, ?L2, ?L1, ?L0; reflexivity|]). intros k N. cbn [In] in N. rewrite L3, L2, L1, L0.
  repeat match goal with |- context [String.eqb k ?s] => destruct (String.eqb_spec k s) as [->|_]; [exfalso; tauto|] end. reflexivity.
Qed.
Theorem C178_missing : forall info resolution spatial t mv, lookup "Latitude" info = None -> sa_result py_float info resolution spatial t mv = Err KeyError.
Proof. intros. unfold sa_result, move_float. rewrite !lookup_dict_set. cbn [String.eqb Ascii.eqb Bool.eqb]. rewrite H. reflexivity. Qed.
(** what is there but is no number: a text float() refuses, a list *)
Theorem C178_not_a_number : forall info resolution spatial t mv,
  (forall s, lookup "Latitude" info = Some (VText s) -> py_float s = None -> sa_result py_float info resolution spatial t mv = Err ValueError) /\
  (forall l, lookup "Latitude" info = Some (VList l) -> sa_result py_float info resolution spatial t mv = Err TypeError).
Proof.
  intros. unfold sa_result, move_float. rewrite !lookup_dict_set. cbn [String.eqb Ascii.eqb Bool.eqb].
  split; [intros s -> F; cbn [value_float]; unfold text_float; rewrite F; reflexivity|intros l ->; reflexivity].
Qed.
End SolarAnywhereFile.
Print Assumptions C176_metadata.
Print Assumptions C176_two_colons.
Print Assumptions C176_meta_errors.
Print Assumptions C176_read.
Print Assumptions C176_offset_errors.
Print Assumptions C178_result.
Print Assumptions C178_missing.
Print Assumptions C178_not_a_number.
Definition sa_int (s : string) : option Z := lookup s [("0", 0)]%string.
Definition sa_float (s : string) : option fl := lookup s [("-5", #(IZR (-18000) / 3600)); ("44.5", #44.5); ("-72", #(-72)); ("41", #41); ("0.01", #0.01)]%string.
Example C176_example : exists d, sa_meta sa_int sa_float ("0,Burlington, United States,-5,44.5,-72,41,Data Version: 3.4 / Type: Typical, GHI / LatLon Resolution: 0.01 / Notes" ++ newline)%string = Ok d /\
  lookup "Type" d = Some (VText "Typical, GHI") /\ lookup "LatLon Resolution" d = Some (VFloat #0.01) /\ lookup "longitude" d = Some (VFloat #(-72)).
Proof.
  destruct (C176_metadata sa_int sa_float ("0,Burlington, United States,-5,44.5,-72,41,Data Version: 3.4 / Type: Typical, GHI / LatLon Resolution: 0.01 / Notes" ++ newline)%string "0" "Burlington" " United States" "-5" "44.5" "-72" "41"
    "Data Version: 3.4 / Type: Typical, GHI / LatLon Resolution: 0.01 / Notes" ["Data Version: 3.4 "; " Type: Typical, GHI "; " LatLon Resolution: 0.01 "; " Notes"]%string
    [(strip "Data Version", strip " 3.4 "); (strip " Type", strip " Typical, GHI "); (strip " LatLon Resolution", strip " 0.01 ")]%string 0 #(IZR (-18000) / 3600) #44.5 #(-72) #41 "0.01" #0.01) as (d & E & L); try reflexivity; try discriminate.
  - repeat constructor.
  - repeat constructor.
  - apply (pair_piece "Data Version" " 3.4 "); [reflexivity|reflexivity|]. apply (pair_piece " Type" " Typical, GHI "); [reflexivity|reflexivity|]. apply (pair_piece " LatLon Resolution" " 0.01 "); [reflexivity|reflexivity|].
    apply other_piece; [reflexivity|constructor].
  - exists d. split; [exact E|]. rewrite !L. repeat split.
Qed.

(** ** C177: the request *)
(** start and end are either both given or both absent; a time without zone is in UTC *)
Theorem C177_times : forall bad start end_,
  (sa_times bad start end_ = Err ValueError <-> bad = true) /\
  (sa_times bad start end_ = Err AttributeError <-> bad = false /\ (start = None <-> end_ <> None)) /\
  (bad = false -> start = None -> end_ = None -> sa_times bad start end_ = Ok None) /\
  (forall s so e eo, bad = false -> start = Some (s, so) -> end_ = Some (e, eo) ->
     exists s' e', sa_times bad start end_ = Ok (Some ((s, s'), (e, e'))) /\ (so = Some s' \/ so = None /\ s' = 0) /\ (eo = Some e' \/ eo = None /\ e' = 0)).
Proof.
  intros bad start end_. split; [|split; [|split]].
  - destruct bad, start, end_; cbn; split; congruence.
  - destruct bad, start, end_; cbn; split; try discriminate; try (intros [A B]; try discriminate A; exfalso; destruct B as [B1 B2]; try (apply B1; reflexivity); specialize (B2 ltac:(discriminate)); discriminate B2); try reflexivity;
      intros _; (split; [reflexivity|split; [intros; discriminate|intros H; try reflexivity; exfalso; apply H; reflexivity]]).
  - intros -> -> ->. reflexivity.
  - intros s so e eo -> -> ->. cbn [sa_times]. unfold localized. cbn [fst snd]. eexists. eexists. split; [reflexivity|]. destruct so, eo; auto.
Qed.
Print Assumptions C177_times.
Section Poll.
Variable timeout : R.
Variable answer : nat -> string * string.
Variable elapsed : nat -> R.
Definition done (k : nat) : Prop := fst (answer k) = "Done"%string.
Lemma poll_from fuel k n : (forall j, (k <= j < n)%nat -> ~ done j /\ (elapsed j <= timeout)%R) -> (k <= n)%nat -> (n - k < fuel)%nat ->
  sa_poll timeout answer elapsed fuel k = sa_poll timeout answer elapsed (fuel - (n - k)) n.
Proof.
  revert k. induction fuel as [|f IH]; intros k H L F; [lia|]. destruct (Nat.eq_dec k n) as [->|NE]; [rewrite Nat.sub_diag, Nat.sub_0_r; reflexivity|].
  destruct (H k) as [D E]; [lia|]. cbn [sa_poll]. destruct (String.eqb_spec (fst (answer k)) "Done") as [B|_]; [contradiction|]. destruct (Rlt_dec timeout (elapsed k)) as [B|_]; [exfalso; apply (Rlt_not_le _ _ B E)|].
  rewrite (IH (S k)) by (try lia; intros j J; apply H; lia). f_equal. lia.
Qed.
(** the first answer that is done decides, if the time is not exceeded before; the time is looked at only after an answer that is not done *)
Theorem C177_poll : forall n fuel, (forall j, (j < n)%nat -> ~ done j /\ (elapsed j <= timeout)%R) -> (n < fuel)%nat ->
  (done n -> snd (answer n) <> "Failure"%string -> sa_poll timeout answer elapsed fuel 0 = Some (Ok n)) /\
  (done n -> snd (answer n) = "Failure"%string -> sa_poll timeout answer elapsed fuel 0 = Some (Err RuntimeError)) /\
  (~ done n -> (elapsed n > timeout)%R -> sa_poll timeout answer elapsed fuel 0 = Some (Err TimeoutError)).
Proof.
  intros n fuel H F. rewrite (poll_from fuel 0 n) by (try lia; intros j J; apply H; lia). replace (fuel - (n - 0))%nat with (S (fuel - n - 1)) by lia. cbn [sa_poll]. unfold done. split; [|split].
  - intros -> N. cbn [String.eqb Ascii.eqb Bool.eqb]. rewrite (proj2 (String.eqb_neq _ _) N). reflexivity.
  - intros -> ->. reflexivity.
  - intros D T. rewrite (proj2 (String.eqb_neq _ _) D). destruct (Rlt_dec timeout (elapsed n)); [reflexivity|contradiction].
Qed.
(** five seconds pass between two requests: the loop ends, after at most n + 1 requests if n times five seconds exceed the timeout *)
Theorem C177_terminates : forall n fuel, (forall k, (5 * INR k <= elapsed k)%R) -> (timeout < 5 * INR n)%R -> (n < fuel)%nat ->
  exists m r, (m <= n)%nat /\ sa_poll timeout answer elapsed fuel 0 = Some r /\ sa_poll timeout answer elapsed (S m) 0 = Some r.
Proof.
  intros n fuel W T F.
  assert (G : forall k, (k <= n)%nat -> (exists m, (m <= k)%nat /\ (forall j, (j < m)%nat -> ~ done j /\ (elapsed j <= timeout)%R) /\ (done m \/ (~ done m /\ (elapsed m > timeout)%R))) \/ (forall j, (j <= k)%nat -> ~ done j /\ (elapsed j <= timeout)%R)).
  { assert (D : forall k, {done k} + {~ done k}) by (intros k; apply string_dec).
    induction k as [|k IH]; intros L.
    - destruct (D 0%nat) as [A|A]; [left; exists 0%nat; split; [lia|split; [intros j J; lia|left; exact A]]|]. destruct (Rlt_dec timeout (elapsed 0)) as [B|B]; [left; exists 0%nat; split; [lia|split; [intros j J; lia|right; split; [exact A|exact B]]]|].
      right. intros j J. replace j with 0%nat by lia. split; [exact A|apply Rnot_lt_le; exact B].
    - destruct (IH ltac:(lia)) as [(m & M1 & M2)|H]; [left; exists m; split; [lia|exact M2]|].
      assert (HS : forall j, (j < S k)%nat -> ~ done j /\ (elapsed j <= timeout)%R) by (intros j J; apply H; lia).
      destruct (D (S k)) as [A|A]; [left; exists (S k); split; [lia|split; [exact HS|left; exact A]]|]. destruct (Rlt_dec timeout (elapsed (S k))) as [B|B]; [left; exists (S k); split; [lia|split; [exact HS|right; split; [exact A|exact B]]]|].
      right. intros j J. destruct (Nat.eq_dec j (S k)) as [->|N]; [split; [exact A|apply Rnot_lt_le; exact B]|apply HS; lia]. }
  destruct (G n (le_n n)) as [(m & M & H & Q)|H].
  - exists m. assert (P1 := C177_poll m fuel H ltac:(lia)). assert (P2 := C177_poll m (S m) H ltac:(lia)). destruct P1 as (A1 & A2 & A3), P2 as (B1 & B2 & B3). destruct Q as [Q|[Q1 Q2]].
    + destruct (string_dec (snd (answer m)) "Failure") as [X|X]; eexists; split; [exact M|split; [apply A2; assumption|apply B2; assumption]|exact M|split; [apply A1; assumption|apply B1; assumption]].
    + eexists. split; [exact M|]. split; [apply A3; assumption|apply B3; assumption].
  - exfalso. destruct (H n (le_n n)) as [_ H2]. specialize (W n). lra.
Qed.
End Poll.
Print Assumptions C177_poll.
Print Assumptions C177_terminates.
Example C177_example : sa_poll 300 (fun k => if Nat.eqb k 2 then ("Done", "Success") else ("Pending", ""))%string (fun k => 5 * INR k)%R 3 0 = Some (Ok 2%nat).
Proof.
  apply (C177_poll 300 _ _ 2 3); [|lia|reflexivity|discriminate]. intros j J. destruct j as [|[|j]]; [| |lia]; (split; [discriminate|cbn; lra]).
Qed.

(** ** C179: the request to Meteonorm *)
Definition mn_names : list (string * string) :=
  [("ghi", "global_horizontal_irradiance"); ("dhi", "diffuse_horizontal_irradiance"); ("dni", "direct_normal_irradiance"); ("bhi", "direct_horizontal_irradiance"); ("ghi_clear", "global_clear_sky_irradiance");
   ("dhi_clear", "diffuse_clear_sky_irradiance"); ("dni_clear", "direct_normal_clear_sky_irradiance"); ("bhi_clear", "direct_horizontal_clear_sky_irradiance"); ("poa", "global_tilted_irradiance");
   ("poa_direct", "direct_tilted_irradiance"); ("poa_diffuse", "diffuse_tilted_irradiance"); ("temp_air", "temperature"); ("temp_dew", "dew_point_temperature")]%string.
Definition in_meteonorm (p : string) : string := match lookup p mn_names with Some n => n | None => p end.
Lemma mn_reversed p : get_or (reversed mn_map) p = in_meteonorm p.
Proof.
  unfold get_or, in_meteonorm. replace (lookup p (reversed mn_map)) with (lookup p mn_names); [reflexivity|].
  assert (E : reversed mn_map = map (fun kv => (snd kv, fst kv)) mn_map) by (vm_compute; reflexivity). rewrite E. unfold mn_map, mn_names. cbn [map fst snd lookup]. string_cases p. reflexivity.
Qed.
(** the names in a request: pvlib's or the service's, one or several; the columns of the answer get pvlib's names *)
Theorem C179_names : forall ps,
  mn_parameters (Many ps) = String.concat "," (map in_meteonorm ps) /\ (forall p, mn_parameters (One p) = in_meteonorm p) /\
  (forall p n vs, In (p, n) mn_names -> in_meteonorm p = n /\ in_meteonorm n = n /\ rename_columns mn_map [(n, vs)] = [(p, vs)]).
Proof.
  intros ps. split; [|split].
  - unfold mn_parameters. f_equal. apply map_ext. exact mn_reversed.
  - intros p. unfold mn_parameters. cbn [map String.concat]. apply mn_reversed.
  - intros p n vs I. unfold mn_names in I. cbn [In] in I. repeat (destruct I as [I|I]; [injection I as <- <-; repeat split; reflexivity|]). destruct I.
Qed.
Print Assumptions C179_names.
Theorem C179_request : forall lat lon start end_ ps tilt azimuth step horizon more, (forall k, In k ["start"; "end"; "frequency"]%string -> ~ In k (map fst more)) -> let q := mn_params lat lon start end_ ps tilt azimuth step horizon more in
  lookup "lat" q = Some lat /\ lookup "lon" q = Some lon /\ lookup "surface_tilt" q = Some tilt /\ lookup "surface_azimuth" q = Some azimuth /\
  (forall s, horizon = One s -> lookup "horizon" q = Some s) /\ (forall l, horizon = Many l -> lookup "horizon" q = Some (String.concat "," l)) /\
  lookup "start" q = option_map mn_time start /\ lookup "end" q = option_map mn_time end_ /\ lookup "parameters" q = Some (mn_parameters ps) /\
  (forall s, step = Some s -> lookup "frequency" q = Some (if mem s ["1h"; "h"]%string then "1_hour" else if String.eqb s "15min" then "15_minutes" else if mem s ["1min"; "min"]%string then "1_minute" else s)%string) /\
  (step = None -> lookup "frequency" q = None) /\ lookup "response_format" q = Some "json"%string.
Proof.
  intros lat lon start end_ ps tilt azimuth step horizon more NM q. assert (NN : forall k, In k ["start"; "end"; "frequency"]%string -> lookup k more = None) by (intros k I; apply lookup_None, NM, I). clear NM.
  subst q. unfold mn_params. repeat split; try (destruct start, end_, step; reflexivity); try (intros; subst; destruct start, end_, step; reflexivity).
  - destruct start; [reflexivity|]. transitivity (lookup "start" more); [destruct end_, step; reflexivity|apply NN; cbn; tauto].
  - destruct end_; [destruct start; reflexivity|]. transitivity (lookup "end" more); [destruct start, step; reflexivity|apply NN; cbn; tauto].
  - intros s ->. transitivity (Some (get_or mn_steps s)); [destruct start, end_; reflexivity|]. f_equal. unfold get_or, mn_steps, mem, existsb. cbn [lookup]. string_cases s. reflexivity.
  - intros ->. transitivity (lookup "frequency" more); [destruct start, end_; reflexivity|apply NN; cbn; tauto].
Qed.
Print Assumptions C179_request.
(** the digits of a number, w of them *)
Fixpoint digits_value (a : Z) (s : string) : Z := match s with EmptyString => a | String c s' => digits_value (10 * a + (Z.of_nat (nat_of_ascii c) - 48)) s' end.
Fixpoint all_digits (s : string) : Prop := match s with EmptyString => True | String c s' => (48 <= nat_of_ascii c <= 57)%nat /\ all_digits s' end.
Definition decimal (w : nat) (n : Z) (s : string) : Prop := String.length s = w /\ all_digits s /\ digits_value 0 s = n.
Lemma digits_text_decimal l : Forall (fun c => digit c = true) l -> forall a, String.length (digits_text l) = List.length l /\ all_digits (digits_text l) /\ digits_value a (digits_text l) = fold_left (fun a d => 10 * a + d) l a.
Proof.
  intros F. induction F as [|c l D F IH]; intros a; [repeat split|]. apply digit_spec in D. cbn [digits_text fold_right]. fold (digits_text l).
  assert (ND : (c =? dash) = false) by (apply Z.eqb_neq; unfold dash; lia). rewrite ND. assert (NA : nat_of_ascii (ascii_of_nat (48 + Z.to_nat c)) = (48 + Z.to_nat c)%nat) by (apply nat_ascii_embedding; lia).
  cbn [String.length all_digits digits_value fold_left List.length]. rewrite NA. destruct (IH (10 * a + (Z.of_nat (48 + Z.to_nat c) - 48))) as (A & B & C). rewrite A. split; [reflexivity|]. split; [split; [lia|exact B]|].
  rewrite C. f_equal. lia.
Qed.
Lemma zpad_decimal w n : 0 <= n < 10 ^ Z.of_nat w -> (0 < w)%nat -> decimal w n (digits_text (zpad w n)).
Proof.
  intros B W. rewrite zpad_small by assumption. unfold decimal. destruct (digits_text_decimal (digs w n) (digs_digits w n) 0) as (A & D & V). rewrite A, digs_length. split; [reflexivity|]. split; [exact D|]. rewrite V. fold (val (digs w n)). rewrite val_digs by lia. apply Z.mod_small. exact B.
Qed.
(** a time is sent as its local date and time of day, said to be UTC *)
Theorem C179_time : forall d h mi s offset, valid_date d -> 0 <= Calendar.yr d <= 9999 -> 0 <= h <= 23 -> 0 <= mi <= 59 -> 0 <= s <= 59 ->
  exists Y M D H N C, mn_time (Moment d h mi s offset) = (Y ++ "-" ++ M ++ "-" ++ D ++ "T" ++ H ++ ":" ++ N ++ ":" ++ C ++ "Z")%string /\
    decimal 4 (Calendar.yr d) Y /\ decimal 2 (mo d) M /\ decimal 2 (dy d) D /\ decimal 2 h H /\ decimal 2 mi N /\ decimal 2 s C.
Proof.
  intros d h mi s o [VM VD] VY VH VMI VS. pose proof (days_in_month_bounds (Calendar.yr d) (mo d)) as DM. do 6 eexists. split; [reflexivity|]. repeat split; try (apply zpad_decimal; [change (10 ^ Z.of_nat 4) with 10000; lia|lia]); try (apply zpad_decimal; [change (10 ^ Z.of_nat 2) with 100; lia|lia]).
Qed.
Print Assumptions C179_time.
(** so a time in a zone other than UTC asks for another instant: the same text for two instants *)
Theorem C179_time_zone_refuted : exists d h mi s o1 o2, mn_time (Moment d h mi s o1) = mn_time (Moment d h mi s o2) /\
  (let utc o := instant d h mi - match o with Some m => m | None => 0 end in utc o1 <> utc o2).
Proof. exists (Date 2024 1 1), 12, 0, 0, (Some 0), (Some 120). split; [reflexivity|]. cbv zeta. intros H. apply Z.sub_cancel_l in H. discriminate. Qed.
Print Assumptions C179_time_zone_refuted.
Theorem C179_tmy : forall lat lon ps tilt azimuth step horizon terrain albedo turbidity seed model scenario year,
  let q := mn_tmy_params lat lon ps tilt azimuth step horizon terrain albedo turbidity seed model scenario year in
  lookup "situation" q = Some terrain /\ lookup "clear_sky_radiation_model" q = Some model /\ lookup "random_seed" q = seed /\ lookup "future_scenario" q = scenario /\ lookup "future_year" q = year /\
  (forall s, turbidity = One s -> lookup "turbidity" q = Some s) /\ (forall l, turbidity = Many l -> lookup "turbidity" q = Some (String.concat "," l)) /\ lookup "start" q = None /\ lookup "end" q = None /\
  lookup "parameters" q = Some (mn_parameters ps).
Proof. intros. subst q. unfold mn_tmy_params, mn_params. repeat split; try (intros; subst); destruct step, seed, scenario, year; reflexivity. Qed.
Print Assumptions C179_tmy.
(** the albedo is not sent *)
Theorem C179_albedo_refuted : forall lat lon ps tilt azimuth step horizon terrain albedo turbidity seed model scenario year,
  lookup "albedo" (mn_tmy_params lat lon ps tilt azimuth step horizon terrain (Some albedo) turbidity seed model scenario year) = None.
Proof. intros. unfold mn_tmy_params, mn_params. destruct step, seed, scenario, year; reflexivity. Qed.
Print Assumptions C179_albedo_refuted.

(** ** C180: the answer of Meteonorm *)
Definition mn_dictionary : dictionary := map (fun pn => (snd pn, (fst pn, kept))) mn_names.
Lemma mn_renamed t : rename_columns mn_map t = map (translated mn_dictionary) t.
Proof.
  unfold rename_columns. apply map_ext. intros [n vs]. unfold translated. cbn [fst snd]. unfold mn_map, mn_dictionary, mn_names. cbn [map lookup fst snd].
  repeat match goal with |- context [String.eqb n ?x] => destruct (String.eqb_spec n x) as [->|?]; [cbn; rewrite ?map_kept; reflexivity|] end. reflexivity.
Qed.
(** columns without values are dropped; each row has its period, or the middle of it; the place has pvlib's names *)
Theorem C180_parse : forall values periods meta interval mv la lo, lookup "lat" meta = Some la -> lookup "lon" meta = Some lo ->
  exists index t d, mn_parse (Some (values, periods, meta)) interval mv = Ok (index, if mv then map (translated mn_dictionary) t else t, d) /\
    (forall n vs, In (n, vs) t <-> In (n, Some vs) values) /\ map (fun c => (fst c, Some (snd c))) t = filter (fun c => match snd c with Some _ => true | None => false end) values /\
    Forall2 (fun p i => if interval then i = p else fst i = snd i /\ (fst i - fst p = snd p - fst i)%R) periods index /\
    (mv = false -> d = meta) /\
    (mv = true -> lookup "latitude" d = Some la /\ lookup "longitude" d = Some lo /\ lookup "lat" d = None /\ lookup "lon" d = None /\
       forall k, ~ In k ["latitude"; "longitude"; "lat"; "lon"]%string -> lookup k d = lookup k meta).
Proof.
  intros values periods meta interval mv la lo L1 L2. unfold mn_parse. set (t := flat_map _ values). set (index := if interval then periods else _).
  assert (T1 : forall n vs, In (n, vs) t <-> In (n, Some vs) values).
  { intros n vs. subst t. rewrite in_flat_map. split.
    - intros ([a [b|]] & I & J); cbn [fst snd] in J; [destruct J as [J|[]]; injection J as <- <-; exact I|destruct J].
    - intros I. exists (n, Some vs). split; [exact I|]. left. reflexivity. }
  assert (T2 : map (fun c => (fst c, Some (snd c))) t = filter (fun c => match snd c with Some _ => true | None => false end) values).
  { subst t. clear. induction values as [|[a [b|]] values IH]; [reflexivity| |]; cbn [flat_map app map filter fst snd]; rewrite IH; reflexivity. }
  assert (IX : Forall2 (fun p i => if interval then i = p else fst i = snd i /\ (fst i - fst p = snd p - fst i)%R) periods index).
  { subst index. destruct interval; clear; induction periods as [|p ps IH]; constructor; try exact IH; [reflexivity|]. cbv zeta. cbn [fst snd]. split; [reflexivity|lra]. }
  destruct mv.
  - destruct (move_ok "lat" "latitude" meta la L1) as (d1 & -> & M1). cbn [bind]. destruct (move_ok "lon" "longitude" d1 lo) as (d2 & -> & M2); [rewrite M1; exact L2|]. cbn [bind].
    exists index, t, d2. rewrite mn_renamed. split; [reflexivity|]. split; [exact T1|]. split; [exact T2|]. split; [exact IX|]. split; [discriminate|]. intros _. repeat (split; [rewrite M2; cbn [String.eqb Ascii.eqb Bool.eqb]; rewrite ?M1; reflexivity|]).
    intros k N. cbn [In] in N. rewrite M2, M1. repeat match goal with |- context [String.eqb k ?s] => destruct (String.eqb_spec k s) as [->|_]; [exfalso; tauto|] end. reflexivity.
  - exists index, t, meta. split; [reflexivity|]. split; [exact T1|]. split; [exact T2|]. split; [exact IX|]. split; [reflexivity|discriminate].
Qed.
Print Assumptions C180_parse.
Theorem C180_errors : forall answer interval mv, (answer = None -> mn_parse answer interval mv = Err HttpError) /\
  (forall values periods meta, answer = Some (values, periods, meta) -> lookup "lat" meta = None \/ lookup "lon" meta = None -> mn_parse answer interval mv = if mv then Err KeyError else mn_parse answer interval false).
Proof.
  intros answer interval mv. split; [intros ->; reflexivity|]. intros values periods meta -> H. destruct mv; [|reflexivity]. unfold mn_parse. unfold move at 1. destruct (lookup "lat" meta) as [v|]; [|reflexivity]. cbn [bind]. destruct H as [H|H]; [discriminate|].
  unfold move. rewrite lookup_dict_set, lookup_remove. cbn [String.eqb Ascii.eqb Bool.eqb]. rewrite H. reflexivity.
Qed.
Print Assumptions C180_errors.
Example C180_example : exists i d, mn_parse (Some ([("global_horizontal_irradiance", Some [#5]); ("temperature", None)], [(0, 60)%R], [("lat", VFloat #40); ("lon", VFloat #8)]))%string false true = Ok (i, [("ghi"%string, [#5])], d) /\ lookup "latitude" d = Some (VFloat #40).
Proof. eexists. eexists. split; reflexivity. Qed.
