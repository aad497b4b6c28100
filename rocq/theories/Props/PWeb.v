(** C162-C166: NASA POWER, Solcast, Solargis, MERRA-2, ERA5 *)
From Verif Require Import Base.Fl Base.Py Base.PyStr Base.FlFacts Base.Trig Base.Calendar Base.Strptime Model.Bsrn Model.Tmy Model.Web Props.PTmy Props.PStations Props.PBsrn Props.PPvgis.
From Coq Require Import Reals List String Ascii Bool ZArith Lia Lra.
Import ListNotations.
Open Scope list_scope.
Open Scope Z_scope.

(** what a service's columns are in pvlib: the name and the conversion; other columns stay as they are *)
Definition dictionary : Type := list (string * (string * (fl -> fl))).
Definition translated (d : dictionary) (c : string * list fl) : string * list fl := match lookup (fst c) d with Some (name, unit) => (name, map unit (snd c)) | None => c end.
Definition kept (x : fl) : fl := x.
Definition masked (fill : fl) (c : string * list fl) : string * list fl := (fst c, map (fun x => if feqb x fill then NaN else x) (snd c)).
Ltac string_cases n := repeat match goal with |- context [String.eqb n ?x] => destruct (String.eqb_spec n x) as [->|?]; [reflexivity|] end.
Lemma map_kept l : map kept l = l.
Proof. induction l as [|x l IH]; [reflexivity|]. cbn [map]. rewrite IH. reflexivity. Qed.

(** ** C162 *)
Definition kpa_to_pa (x : fl) : fl := (x * #1000)%fl.
Definition mm_to_cm (x : fl) : fl := (x / #10)%fl.
Definition nasa_dictionary : dictionary :=
  [("ALLSKY_SFC_SW_DWN", ("ghi", kept)); ("ALLSKY_SFC_SW_DIFF", ("dhi", kept)); ("ALLSKY_SFC_SW_DNI", ("dni", kept)); ("CLRSKY_SFC_SW_DWN", ("ghi_clear", kept)); ("CLRSKY_SFC_SW_DIFF", ("dhi_clear", kept));
   ("CLRSKY_SFC_SW_DNI", ("dni_clear", kept)); ("ALLSKY_SRF_ALB", ("albedo", kept)); ("ALLSKY_SFC_LW_DWN", ("longwave_down", kept)); ("TOA_SW_DWN", ("ghi_extra", kept)); ("T2M", ("temp_air", kept));
   ("T2MDEW", ("temp_dew", kept)); ("RH2M", ("relative_humidity", kept)); ("WS2M", ("wind_speed_2m", kept)); ("WS10M", ("wind_speed", kept)); ("PS", ("pressure", kpa_to_pa)); ("TQV", ("precipitable_water", mm_to_cm))]%string.

Theorem C162_data : forall fill t,
  nasa_data false fill t = map (masked fill) t /\
  (~ In "pressure"%string (columns t) -> ~ In "precipitable_water"%string (columns t) -> nasa_data true fill t = map (fun c => translated nasa_dictionary (masked fill c)) t).
Proof.
  intros fill t. split; [reflexivity|]. intros NP NW. unfold nasa_data, convert, rename_columns, replace_nan. rewrite !map_map. apply map_ext_in. intros [n vs] I.
  assert (P : n <> "pressure"%string). { intros ->. apply NP. unfold columns. apply (in_map fst) in I. exact I. }
  assert (W : n <> "precipitable_water"%string). { intros ->. apply NW. unfold columns. apply (in_map fst) in I. exact I. }
  clear I NP NW. unfold masked, translated. cbn [fst snd]. set (l := map _ vs). clearbody l.
  unfold nasa_map, nasa_dictionary. cbn [lookup].
  repeat match goal with |- context [String.eqb n ?x] => destruct (String.eqb_spec n x) as [->|?]; [cbn; rewrite ?map_kept; reflexivity|] end.
  cbn [fst snd]. rewrite (proj2 (String.eqb_neq n "pressure") P). cbn [fst snd]. rewrite (proj2 (String.eqb_neq n "precipitable_water") W). reflexivity.
Qed.
Print Assumptions C162_data.

Lemma nasa_reversed : reversed nasa_map = map (fun kv => (snd kv, fst kv)) nasa_map.
Proof. vm_compute. reflexivity. Qed.
(** a name known to pvlib is asked for under its NASA name, any other as it is; the answer to the request carries the names asked for *)
Theorem C162_names : forall ps,
  (forall i p, nth_error ps i = Some p ->
     (forall n u, In (n, (p, u)) nasa_dictionary -> nth_error (nasa_parameters ps) i = Some n) /\
     ((forall n u, ~ In (n, (p, u)) nasa_dictionary) -> nth_error (nasa_parameters ps) i = Some p)) /\
  (Forall (fun p => ~ In p (map fst nasa_dictionary)) ps -> forall fill t, columns t = nasa_parameters ps -> columns (nasa_data true fill t) = ps).
Proof.
  intros ps. split.
  - intros i p E. unfold nasa_parameters. rewrite nth_error_map, E. cbn [option_map]. unfold get_or. rewrite nasa_reversed. split.
    + intros n u I. cbn [In nasa_dictionary] in I. repeat (destruct I as [I|I]; [injection I as <- <- _; reflexivity|]). destruct I.
    + intros N. cbn [map nasa_map fst snd lookup].
      repeat match goal with |- context [String.eqb p ?x] => destruct (String.eqb_spec p x) as [->|?]; [exfalso; eapply N; cbn [In nasa_dictionary]; repeat (first [left; reflexivity | right])|] end. reflexivity.
  - intros F fill t E. unfold nasa_data, convert, rename_columns, replace_nan, columns. rewrite !map_map. transitivity (map (get_or nasa_map) (columns t)).
    { unfold columns. rewrite map_map. apply map_ext. intros c. unfold get_or. cbn [fst snd].
      repeat match goal with |- context [if ?b then _ else _] => destruct b; cbn [fst snd] end; reflexivity. }
    rewrite E. unfold nasa_parameters. rewrite map_map. rewrite <- (map_id ps) at 2. apply map_ext_in. intros p I. rewrite Forall_forall in F. specialize (F p I).
    unfold get_or at 2. rewrite nasa_reversed. cbn [map nasa_map fst snd lookup]. repeat match goal with |- context [String.eqb p ?x] => destruct (String.eqb_spec p x) as [->|?]; [reflexivity|] end.
    unfold get_or, nasa_map. cbn [lookup]. repeat match goal with |- context [String.eqb p ?x] => destruct (String.eqb_spec p x) as [->|?]; [exfalso; apply F; cbn; tauto|] end. reflexivity.
Qed.
Print Assumptions C162_names.
Theorem C162_place : forall lon lat alt more, nasa_place (lon :: lat :: alt :: more) = Ok (lon, lat, alt) /\ forall cs, (List.length cs < 3)%nat -> nasa_place cs = Err IndexError.
Proof. intros. split; [reflexivity|]. intros [|a [|b [|c cs]]] H; try reflexivity. cbn in H. lia. Qed.
Print Assumptions C162_place.
Example C162_example : nasa_parameters ["dni"; "temp_air"; "PS"]%string = ["ALLSKY_SFC_SW_DNI"; "T2M"; "PS"]%string.
Proof. reflexivity. Qed.

(** ** renaming and converting one variable after the other *)
Definition entries (ps : list parameter_map) : dictionary := map (fun p => (p_from p, (p_to p, p_conversion p))) ps.
Lemma lookup_snoc {A} k (d : list (string * A)) k' v : lookup k (d ++ [(k', v)]) = match lookup k d with Some x => Some x | None => if String.eqb k k' then Some v else None end.
Proof. induction d as [|[a b] d IH]; [reflexivity|]. cbn [app lookup]. destruct (String.eqb k a); [reflexivity|exact IH]. Qed.
Lemma entries_found ps n x : lookup n (entries ps) = Some x -> exists p, In p ps /\ n = p_from p /\ x = (p_to p, p_conversion p).
Proof. intros H. apply lookup_In in H. unfold entries in H. apply in_map_iff in H. destruct H as (p & E & I). injection E as <- <-. exists p. split; [exact I|]. split; reflexivity. Qed.
(** no name given is a name still to be looked for *)
Fixpoint in_order (ps : list parameter_map) : Prop := match ps with [] => True | p :: ps' => Forall (fun q => p_from q <> p_from p /\ p_from q <> p_to p) ps' /\ in_order ps' end.
Lemma in_order_app ps q qs : in_order (ps ++ q :: qs) -> forall p, In p ps -> p_from q <> p_from p /\ p_from q <> p_to p.
Proof. induction ps as [|a ps IH]; intros O p I; [destruct I|]. destruct O as [F O]. destruct I as [->|I]; [|apply (IH O p I)]. rewrite Forall_forall in F. apply F. apply in_or_app. right. left. reflexivity. Qed.
(** a column is converted under the name it is given, whatever it was called *)
Definition no_clash (ps : list parameter_map) (t : table) : Prop :=
  forall n p, In n (columns t) -> In p ps -> n <> p_from p -> n = p_to p \/ (exists q, In q ps /\ p_from q = n /\ p_to q = p_to p) -> forall x, p_conversion p x = x.
Lemma apply_loop ps t : in_order ps -> no_clash ps t -> apply_parameters ps t = map (translated (entries ps)) t.
Proof.
  intros O N. assert (G : forall done todo, ps = done ++ todo -> fold_left (fun t p => apply_parameter p t) todo (map (translated (entries done)) t) = map (translated (entries ps)) t).
  { intros done todo. revert done. induction todo as [|p todo IH]; intros done E; [rewrite app_nil_r in E; subst done; reflexivity|]. cbn [fold_left].
    assert (ST : apply_parameter p (map (translated (entries done)) t) = map (translated (entries (done ++ [p]))) t).
    { assert (OD : forall q, In q done -> p_from p <> p_from q /\ p_from p <> p_to q) by (apply (in_order_app done p todo); rewrite <- E; exact O).
      assert (LK : lookup (p_from p) (entries done) = None).
      { destruct (lookup (p_from p) (entries done)) as [x|] eqn:L; [|reflexivity]. apply entries_found in L. destruct L as (q & I & F & _). destruct (OD q I) as [C _]. congruence. }
      unfold apply_parameter, convert, rename_columns, columns. rewrite !map_map.
      assert (EN : forall c, In c t -> translated (entries (done ++ [p])) c = if String.eqb (fst c) (p_from p) then (p_to p, map (p_conversion p) (snd c)) else translated (entries done) c).
      { intros c _. unfold translated, entries. rewrite map_app. cbn [map]. rewrite lookup_snoc. fold (entries done). destruct (lookup (fst c) (entries done)) as [[a b]|] eqn:L; [|destruct (String.eqb _ _); reflexivity].
        destruct (String.eqb_spec (fst c) (p_from p)) as [F|_]; [rewrite F, LK in L; discriminate|reflexivity]. }
      destruct (mem (p_from p) _) eqn:M.
      - apply map_ext_in. intros c I. rewrite (EN c I). unfold translated. destruct (lookup (fst c) (entries done)) as [[a b]|] eqn:L.
        + apply entries_found in L. destruct L as (q & Iq & F & X). injection X as -> ->. destruct (OD q Iq) as [C1 C2]. cbn [fst snd lookup].
          destruct (String.eqb_spec (p_to q) (p_from p)) as [B|_]; [congruence|]. cbn [fst snd]. destruct (String.eqb_spec (fst c) (p_from p)) as [B|NF]; [congruence|].
          destruct (String.eqb_spec (p_to q) (p_to p)) as [B|_]; [|reflexivity]. f_equal. rewrite <- (map_id (map (p_conversion q) (snd c))) at 2. apply map_ext. intros x.
          apply (N (fst c) p); [apply (in_map fst), I|rewrite E; apply in_or_app; right; left; reflexivity|exact NF|]. right. exists q. rewrite F. split; [rewrite E; apply in_or_app; left; exact Iq|]. split; [reflexivity|exact B].
        + cbn [fst snd lookup]. destruct (String.eqb_spec (fst c) (p_from p)) as [B|NF].
          * cbn [fst snd]. rewrite String.eqb_refl. reflexivity.
          * cbn [fst snd]. destruct (String.eqb_spec (fst c) (p_to p)) as [B|_]; [|destruct c; reflexivity]. destruct c as [n vs]. cbn [fst snd] in *. f_equal. rewrite <- (map_id vs) at 2. apply map_ext. intros x.
            apply (N n p); [apply (in_map fst) in I; exact I|rewrite E; apply in_or_app; right; left; reflexivity|exact NF|left; exact B].
      - apply map_ext_in. intros c I. rewrite (EN c I). destruct (String.eqb_spec (fst c) (p_from p)) as [F|_]; [|reflexivity]. exfalso. apply Bool.not_true_iff_false in M. apply M. apply mem_In. apply in_map_iff.
        exists c. split; [|exact I]. unfold translated. rewrite F, LK. exact F. }
    rewrite ST. apply IH. rewrite E, <- app_assoc. reflexivity. }
  unfold apply_parameters. rewrite <- (G [] ps eq_refl). f_equal. rewrite <- (map_id t) at 1. apply map_ext. intros [n vs]. reflexivity.
Qed.

(** ** C163 *)
Definition hpa_to_pa (x : fl) : fl := (x * #100)%fl.
Definition clockwise (x : fl) : fl := fmod (- x)%fl #360.
Definition solcast_dictionary : dictionary :=
  [("air_temp", ("temp_air", kept)); ("dewpoint_temp", ("temp_dew", kept)); ("surface_pressure", ("pressure", hpa_to_pa)); ("precipitable_water", ("precipitable_water", mm_to_cm));
   ("wind_speed_10m", ("wind_speed", kept)); ("wind_direction_10m", ("wind_direction", kept)); ("zenith", ("solar_zenith", kept)); ("azimuth", ("solar_azimuth", clockwise)); ("gti", ("poa_global", kept));
   ("clearsky_ghi", ("ghi_clear", kept)); ("clearsky_dni", ("dni_clear", kept)); ("clearsky_dhi", ("dhi_clear", kept)); ("clearsky_gti", ("poa_global_clear", kept))]%string.
Lemma same_dictionary d d' : (forall n, lookup n d = lookup n d') -> forall c, translated d c = translated d' c.
Proof. intros H c. unfold translated. rewrite H. reflexivity. Qed.
Lemma solcast_lookup n : lookup n (entries solcast_map) = lookup n solcast_dictionary.
Proof. unfold entries, solcast_map, solcast_dictionary. cbn [map p_from p_to p_conversion lookup]. string_cases n. reflexivity. Qed.
Ltac each I := repeat (destruct I as [I|I]; [subst; cbn [p_from p_to p_conversion] in *|]).
Ltac ordered := cbn [in_order]; repeat first [split | apply Forall_nil | apply Forall_cons | discriminate | exact I]; cbn [p_from p_to]; try discriminate.
Lemma solcast_order : in_order solcast_map. Proof. unfold solcast_map. ordered. Qed.
(** the stamp is the middle of the period; every column has its pvlib name and unit *)
Theorem C163_table : forall periods t, ~ In "pressure"%string (columns t) -> ~ In "solar_azimuth"%string (columns t) ->
  snd (solcast2pvlib periods t) = map (translated solcast_dictionary) t /\
  forall i period_end period, nth_error periods i = Some (period_end, period) -> exists middle, nth_error (fst (solcast2pvlib periods t)) i = Some middle /\ (middle - (period_end - period) = period_end - middle)%R.
Proof.
  intros periods t NP NA. split.
  - unfold solcast2pvlib. cbn [snd]. rewrite apply_loop; [apply map_ext; apply same_dictionary; exact solcast_lookup|exact solcast_order|]. intros n p I J NF H.
    unfold solcast_map in J. cbn [In] in J. each J; try reflexivity; try (destruct J); exfalso;
      (destruct H as [-> | (q & Q & F & T)]; [first [contradiction|congruence]|]; unfold solcast_map in Q; cbn [In] in Q; each Q; try discriminate T; try congruence; destruct Q).
  - intros i e q E. cbn [solcast2pvlib fst]. rewrite nth_error_map, E. cbn [option_map fst snd]. eexists. split; [reflexivity|]. lra.
Qed.
Print Assumptions C163_table.
(** pvlib measures the azimuth clockwise from the north, Solcast counterclockwise: the sum is a whole number of turns *)
Theorem C163_azimuth : forall a, exists az, clockwise #a = #az /\ (0 <= az < 360)%R /\ (exists k : Z, az + a = 360 * IZR k)%R.
Proof.
  intros a. exists (Rmodp (- a) 360). unfold clockwise. change (- #a)%fl with (#(- a))%fl. rewrite fmod_fin by lra. destruct (Rmodp_spec (- a) 360) as [B [k E]]; [lra|]. split; [reflexivity|]. split; [exact B|].
  exists (- k). rewrite opp_IZR. set (m := Rmodp (- a) 360) in *. clearbody m. lra.
Qed.
Print Assumptions C163_azimuth.
(** the query: the key is part of it for the historic service *)
Theorem C163_key_refuted : exists lat lon start end_ duration key, In ("api_key"%string, key) (solcast_params true lat lon start end_ duration key []) /\ forall kwargs, (forall v, ~ In ("api_key"%string, v) kwargs) -> ~ In ("api_key"%string, key) (solcast_params false lat lon start end_ duration key kwargs).
Proof.
  exists "1"%string, "2"%string, "3"%string, "4"%string, "5"%string, "6"%string. split; [cbn; tauto|]. intros kwargs N H. unfold solcast_params in H. cbn [app In] in H. repeat (destruct H as [H|H]; [discriminate H|]). exact (N _ H).
Qed.
Print Assumptions C163_key_refuted.
Example C163_example : snd (solcast2pvlib [] [("azimuth", [#(-90)]); ("ghi", [#5])]%string) = [("solar_azimuth", [#90]); ("ghi", [#5])]%string.
Proof.
  match goal with |- snd (solcast2pvlib [] ?t) = _ => rewrite (proj1 (C163_table [] t ltac:(cbn; intuition discriminate) ltac:(cbn; intuition discriminate))) end. cbn [map translated lookup fst snd String.eqb]. unfold translated. cbn [fst snd]. cbn [lookup solcast_dictionary]. cbn [String.eqb Ascii.eqb Bool.eqb].
  cbn [map]. destruct (C163_azimuth (-90)) as (az & -> & B & k & E). assert (K : k = 0). { assert (-90 <= 360 * IZR k < 270)%R by lra. assert (-1 < k < 1); [|lia]. split; apply lt_IZR; lra. }
  subst k. replace az with 90%R by lra. reflexivity.
Qed.

(** ** C164 *)
Definition from_north (x : fl) : fl := (x + #180)%fl.
Definition solargis_dictionary : dictionary :=
  [("GHI", ("ghi", kept)); ("DNI", ("dni", kept)); ("DIF", ("dhi", kept)); ("GTI", ("poa_global", kept)); ("GHI_C", ("ghi_clear", kept)); ("GHIc", ("ghi_clear", kept)); ("DNI_C", ("dni_clear", kept));
   ("DNIc", ("dni_clear", kept)); ("GTI_C", ("poa_global_clear", kept)); ("GTIc", ("poa_global_clear", kept)); ("SE", ("solar_elevation", kept)); ("SA", ("solar_azimuth", from_north)); ("INC", ("aoi", kept));
   ("TEMP", ("temp_air", kept)); ("TD", ("temp_dew", kept)); ("AP", ("pressure", hpa_to_pa)); ("RH", ("relative_humidity", kept)); ("WS", ("wind_speed", kept)); ("WD", ("wind_direction", kept));
   ("PWAT", ("precipitable_water", mm_to_cm))]%string.
(** the columns whose -9 is masked *)
Definition masks_minus_9 : list string := ["GHI"; "GHIc"; "DNI"; "DNIc"; "DIF"; "GTI"; "KT"; "PAR"; "PREC"; "PWAT"; "SDWE"; "SFWE"]%string.
Definition without_minus_9 (c : string * list fl) : string * list fl := if mem (fst c) masks_minus_9 then masked #(-9) c else c.
Lemma solargis_lookup n : lookup n (entries solargis_map) = lookup n solargis_dictionary.
Proof. unfold entries, solargis_map, solargis_dictionary. cbn [map p_from p_to p_conversion lookup]. string_cases n. reflexivity. Qed.
Lemma solargis_order : in_order solargis_map. Proof. unfold solargis_map. ordered. Qed.
Theorem C164_table : forall t, ~ In "GIc"%string (columns t) ->
  solargis_data false t = map without_minus_9 t /\
  (~ In "pressure"%string (columns t) -> ~ In "solar_azimuth"%string (columns t) -> ~ In "precipitable_water"%string (columns t) -> solargis_data true t = map (fun c => translated solargis_dictionary (without_minus_9 c)) t).
Proof.
  intros t NG. assert (M : map (fun c => if mem (fst c) na_9_columns then (fst c, map (fun v => if feqb v #(-9) then NaN else v) (snd c)) else c) t = map without_minus_9 t).
  { apply map_ext_in. intros [n vs] I. assert (n <> "GIc"%string) by (intros ->; apply NG; apply (in_map fst) in I; exact I). unfold without_minus_9, masked, na_9_columns, masks_minus_9, mem. cbn [fst snd existsb].
    rewrite (proj2 (String.eqb_neq n "GIc")) by assumption. reflexivity. }
  assert (CO : columns (map without_minus_9 t) = columns t). { unfold columns. rewrite map_map. apply map_ext. intros [n vs]. unfold without_minus_9. destruct (mem _ _); reflexivity. }
  split; [unfold solargis_data; exact M|]. intros NP NA NW. unfold solargis_data. rewrite M. rewrite apply_loop; [rewrite map_map; apply map_ext; intros c; apply same_dictionary; exact solargis_lookup|exact solargis_order|].
  intros n p I J NF H. rewrite CO in I. unfold solargis_map in J. cbn [In] in J. each J; try reflexivity; try (destruct J); exfalso;
      (destruct H as [-> | (q & Q & F & T)]; [first [contradiction|congruence]|]; unfold solargis_map in Q; cbn [In] in Q; each Q; try discriminate T; try congruence; destruct Q).
Qed.
Print Assumptions C164_table.
(** the -9 of the clear-sky irradiance in the plane of array stays *)
Theorem C164_clear_refuted : solargis_data true [("GTIc", [#(-9)]); ("GTI", [#(-9)])]%string = [("poa_global_clear", [#(-9)]); ("poa_global", [NaN])]%string.
Proof.
  match goal with |- solargis_data true ?t = _ => rewrite (proj2 (C164_table t ltac:(cbn; intuition discriminate)) ltac:(cbn; intuition discriminate) ltac:(cbn; intuition discriminate) ltac:(cbn; intuition discriminate)) end.
  cbn [map]. unfold without_minus_9, masked. cbn [fst snd map]. rewrite feqb_fin. unfold Reqb. destruct (Req_EM_T (-9) (-9)) as [_|B]; [|exfalso; apply B; reflexivity]. reflexivity.
Qed.
Print Assumptions C164_clear_refuted.
(** the time resolutions *)
Theorem C164_resolution :
  (forall n s, summarization (Minutes n) = Ok s <-> (n = 5 /\ s = "MIN_5" \/ n = 10 /\ s = "MIN_10" \/ n = 15 /\ s = "MIN_15" \/ n = 30 /\ s = "MIN_30" \/ n = 60 /\ s = "HOURLY")%string) /\
  (forall n, ~ In n [5; 10; 15; 30; 60] -> summarization (Minutes n) = Err AttributeError) /\
  map (fun d => summarization (Duration d)) ["PT05M"; "PT5M"; "PT10M"; "PT15M"; "PT60M"; "PT1H"; "P1D"; "P1M"; "P1Y"; "MIN_5"; "MIN_10"; "MIN_15"; "MIN_30"; "HOURLY"; "DAILY"; "MONTHLY"; "YEARLY"; "hourly"]%string =
    map Ok ["MIN_5"; "MIN_5"; "MIN_10"; "MIN_15"; "HOURLY"; "HOURLY"; "DAILY"; "MONTHLY"; "YEARLY"; "MIN_5"; "MIN_10"; "MIN_15"; "MIN_30"; "HOURLY"; "DAILY"; "MONTHLY"; "YEARLY"; "HOURLY"]%string.
Proof.
  split; [|split; [|reflexivity]].
  - intros n s. unfold summarization, resolution_minutes. cbn [zlookup].
    repeat match goal with |- context [n =? ?k] => destruct (Z.eqb_spec n k) as [->|?]; [split; [intros E; apply Ok_inj in E; subst s; cbn; intuition reflexivity|intros E; destruct E as [[E ->] | [[E ->] | [[E ->] | [[E ->] | [E ->]]]]]; try discriminate E; reflexivity]|] end.
    split; [discriminate|]. intros E. exfalso. intuition congruence.
  - intros n N. cbn [In] in N. unfold summarization, resolution_minutes. cbn [zlookup]. repeat match goal with |- context [n =? ?k] => destruct (Z.eqb_spec n k) as [->|?]; [exfalso; apply N; tauto|] end. reflexivity.
Qed.
Print Assumptions C164_resolution.
(** half an hour as a duration is not translated *)
Theorem C164_half_hour_refuted : summarization (Duration "PT30M") = Ok "PT30M"%string /\ summarization (Minutes 30) = Ok "MIN_30"%string.
Proof. split; reflexivity. Qed.
Print Assumptions C164_half_hour_refuted.

(** the metadata: pieces after '#', of the form key:value *)
Section SolargisMeta.
Variable py_float : string -> option fl.
Definition fields : list string := ["issued"; "site name"; "latitude"; "longitude"; "elevation"; "summarization type"; "summarization period"]%string.
Definition piece (key value p : string) : Prop := exists k, strip p = (k ++ ":" ++ value)%string /\ has_char ":" k = false /\ lower k = key.
Lemma after_colon_app k v : has_char ":" k = false -> after_colon (k ++ String ":" v) = v.
Proof. induction k as [|c k IH]; [reflexivity|]. cbn [has_char append after_colon]. intros H. apply orb_false_iff in H. destruct H as [-> H]. apply IH, H. Qed.
Lemma meta_piece d p key value : piece key value p -> In key fields -> meta_line d p = dict_set key value d.
Proof.
  intros (k & E & C & L) I. unfold meta_line, before_colon. rewrite E, has_char_app. cbn [append]. rewrite after_colon_app by exact C. rewrite split_on_app by exact C. rewrite L.
  change metadata_fields with fields. rewrite (proj2 (mem_In key fields) I). destruct (has_char ":" k); reflexivity.
Qed.
Lemma meta_other d p key : In key fields -> (forall v, ~ piece key v p) -> lookup key (meta_line d p) = lookup key d.
Proof.
  intros I N. unfold meta_line. destruct (has_char ":" (strip p)) eqn:C; [|reflexivity]. destruct (mem (lower (before_colon (strip p))) metadata_fields); [|reflexivity]. rewrite lookup_dict_set.
  destruct (String.eqb_spec key (lower (before_colon (strip p)))) as [E|_]; [|reflexivity]. exfalso. apply (N (after_colon (strip p))). exists (before_colon (strip p)).
  assert (G : forall s, has_char ":" s = true -> s = (before_colon s ++ ":" ++ after_colon s)%string /\ has_char ":" (before_colon s) = false).
  { induction s as [|c s IH]; [discriminate|]. cbn [has_char]. unfold before_colon. cbn [split_on after_colon]. destruct (Ascii.eqb_spec c ":") as [->|NC].
    - intros _. split; reflexivity.
    - cbn [orb]. intros H. destruct (IH H) as [E1 E2]. unfold before_colon in E1, E2. destruct (split_on ":" s) as [|w ws] eqn:SP; [destruct (split_on_nonnil ":" s SP)|].
      cbn [append has_char]. rewrite (proj2 (Ascii.eqb_neq c ":") NC). split; [f_equal; exact E1|exact E2]. }
  destruct (G _ C) as [G1 G2]. split; [exact G1|]. split; [exact G2|]. symmetry. exact E.
Qed.
(** a field has the value of the last piece with its name; there is no other field *)
Theorem C164_metadata : forall ps key, Forall (fun p => has_char "#" p = false) ps -> ps <> [] ->
  (forall pre p post v, In key fields -> ps = pre ++ p :: post -> piece key v p -> (forall q w, In q post -> ~ piece key w q) -> lookup key (solargis_meta_texts (String.concat "#" ps)) = Some v) /\
  ((forall p v, In p ps -> ~ piece key v p) \/ ~ In key fields -> lookup key (solargis_meta_texts (String.concat "#" ps)) = None).
Proof.
  intros ps key F NE. unfold solargis_meta_texts. assert (SP : split_on "#" (String.concat "#" ps) = ps).
  { clear key. destruct ps as [|p ps]; [contradiction|]. clear NE. revert p F. induction ps as [|q ps IH]; intros p F; [cbn; apply split_on_nosep, (Forall_inv F)|].
    change (String.concat "#" (p :: q :: ps)) with (p ++ String "#" (String.concat "#" (q :: ps)))%string. rewrite split_on_app by exact (Forall_inv F). f_equal. apply IH. exact (Forall_inv_tail F). }
  rewrite SP. clear SP F NE.
  assert (ST : In key fields -> forall l d, (forall q w, In q l -> ~ piece key w q) -> lookup key (fold_left meta_line l d) = lookup key d).
  { intros I l. induction l as [|q l IH]; intros d N; [reflexivity|]. cbn [fold_left]. rewrite IH; [apply meta_other; [exact I|]|]; intros v; [apply N; left; reflexivity|]. intros w J. apply N. right. exact J. }
  split.
  - intros pre p post v I -> P N. rewrite fold_left_app. cbn [fold_left]. rewrite (ST I _ _ N). rewrite (meta_piece _ p key v P I), lookup_dict_set, String.eqb_refl. reflexivity.
  - intros [N|N].
    + destruct (in_dec string_dec key fields) as [I|I]; [rewrite (ST I); [reflexivity|]; intros q w J; apply N, J|]. clear N. revert I. generalize ps. clear. intros ps N.
      assert (G : forall d, lookup key d = None -> lookup key (fold_left meta_line ps d) = None); [|apply G; reflexivity]. induction ps as [|q ps IH]; intros d H; [exact H|]. cbn [fold_left]. apply IH.
      unfold meta_line. destruct (has_char _ _); [|exact H]. destruct (mem _ metadata_fields) eqn:M; [|exact H]. rewrite lookup_dict_set. destruct (String.eqb_spec key (lower (before_colon (strip q)))) as [E|_]; [|exact H].
      exfalso. apply N. apply mem_In in M. rewrite E. exact M.
    + revert N. generalize ps. clear. intros ps N.
      assert (G : forall d, lookup key d = None -> lookup key (fold_left meta_line ps d) = None); [|apply G; reflexivity]. induction ps as [|q ps IH]; intros d H; [exact H|]. cbn [fold_left]. apply IH.
      unfold meta_line. destruct (has_char _ _); [|exact H]. destruct (mem _ metadata_fields) eqn:M; [|exact H]. rewrite lookup_dict_set. destruct (String.eqb_spec key (lower (before_colon (strip q)))) as [E|_]; [|exact H].
      exfalso. apply N. apply mem_In in M. rewrite E. exact M.
Qed.
(** the place; the altitude without its unit *)
Lemma remove_nothing s : has_char "m" s = false -> forall fuel, remove_all "m a.s.l." fuel s = s.
Proof.
  induction s as [|c s IH]; intros N fuel; destruct fuel as [|fuel]; try reflexivity. cbn [has_char] in N. apply orb_false_iff in N. destruct N as [N1 N2]. cbn [remove_all String.prefix].
  destruct (ascii_dec "m" c) as [<-|_]; [discriminate N1|]. f_equal. apply IH, N2.
Qed.
Lemma remove_unit e tail : has_char "m" e = false -> has_char "m" tail = false -> remove_text "m a.s.l." (e ++ "m a.s.l." ++ tail) = (e ++ tail)%string.
Proof.
  intros N NT. unfold remove_text. assert (G : forall fuel, (String.length e < fuel)%nat -> remove_all "m a.s.l." fuel (e ++ "m a.s.l." ++ tail) = (e ++ tail)%string).
  { induction e as [|c e IH]; intros fuel L.
    - destruct fuel as [|fuel]; [cbn in L; lia|]. cbn [append]. unfold remove_all; fold remove_all. change (String.prefix "m a.s.l." _) with (String.prefix "m a.s.l." ("m a.s.l." ++ tail)). 
      assert (P : String.prefix "m a.s.l." ("m a.s.l." ++ tail) = true) by (cbn; destruct tail; reflexivity). rewrite P. cbn [String.length Nat.sub substring append]. rewrite Nat.sub_0_r, substring_zero by lia. apply remove_nothing, NT.
    - destruct fuel as [|fuel]; [cbn in L; lia|]. cbn [has_char] in N. apply orb_false_iff in N. destruct N as [N1 N2]. change ((String c e ++ "m a.s.l." ++ tail)%string) with (String c (e ++ "m a.s.l." ++ tail)).
      cbn [remove_all String.prefix]. destruct (ascii_dec "m" c) as [<-|_]; [discriminate N1|]. rewrite IH; [reflexivity|exact N2|cbn in L; lia]. }
  apply G. rewrite !length_app. cbn. lia.
Qed.
Theorem C164_place : forall text lat lon e tail latv lonv altv,
  lookup "latitude" (solargis_meta_texts text) = Some lat -> lookup "longitude" (solargis_meta_texts text) = Some lon -> lookup "elevation" (solargis_meta_texts text) = Some (e ++ "m a.s.l." ++ tail)%string ->
  has_char "m" e = false -> has_char "m" tail = false -> py_float lat = Some latv -> py_float lon = Some lonv -> py_float (e ++ tail)%string = Some altv ->
  exists others, solargis_meta py_float text = Ok (latv, lonv, altv, others) /\
    (forall k, In k ["latitude"; "longitude"; "elevation"]%string -> lookup k others = None) /\ (forall k, ~ In k ["latitude"; "longitude"; "elevation"]%string -> lookup k others = lookup k (solargis_meta_texts text)).
Proof.
  intros text lat lon e tail latv lonv altv L1 L2 L3 N NT F1 F2 F3. eexists. split; [|split].
  - unfold solargis_meta. rewrite L1, L2, L3. cbn [to_float option_map]. rewrite F1, F2. cbn [bind]. rewrite remove_unit by assumption. rewrite F3. reflexivity.
  - intros k I. apply mem_In in I. generalize (solargis_meta_texts text). intros d. induction d as [|[a b] d IH]; [reflexivity|]. cbn [filter fst]. destruct (negb (mem a _)) eqn:M; [|exact IH]. cbn [lookup].
    destruct (String.eqb_spec k a) as [->|_]; [rewrite I in M; discriminate|exact IH].
  - intros k I. generalize (solargis_meta_texts text). intros d. induction d as [|[a b] d IH]; [reflexivity|]. cbn [filter fst lookup]. destruct (negb (mem a _)) eqn:M; cbn [lookup].
    + rewrite IH. reflexivity.
    + destruct (String.eqb_spec k a) as [->|_]; [|exact IH]. exfalso. apply I. apply mem_In. destruct (mem a _); [reflexivity|discriminate].
Qed.
Theorem C164_errors : forall text,
  (lookup "latitude" (solargis_meta_texts text) = None -> solargis_meta py_float text = Err KeyError) /\
  (forall s, lookup "latitude" (solargis_meta_texts text) = Some s -> py_float s = None -> solargis_meta py_float text = Err ValueError) /\
  (forall s v, lookup "latitude" (solargis_meta_texts text) = Some s -> py_float s = Some v -> lookup "longitude" (solargis_meta_texts text) = None -> solargis_meta py_float text = Err KeyError) /\
  (forall s v l w, lookup "latitude" (solargis_meta_texts text) = Some s -> py_float s = Some v -> lookup "longitude" (solargis_meta_texts text) = Some l -> py_float l = Some w ->
     lookup "elevation" (solargis_meta_texts text) = None -> solargis_meta py_float text = Err KeyError).
Proof.
  intros text. unfold solargis_meta. split; [intros ->; reflexivity|]. split; [intros s -> E; cbn [to_float]; rewrite E; reflexivity|]. split; [intros s v -> E ->; cbn [to_float]; rewrite E; reflexivity|].
  intros s v l w -> E -> E' ->. cbn [to_float]. rewrite E. cbn [bind]. rewrite E'. reflexivity.
Qed.
End SolargisMeta.
Print Assumptions C164_metadata.
Print Assumptions C164_place.
Print Assumptions C164_errors.
Example C164_example : solargis_meta (fun s => if String.eqb s " 48.6"%string then Some #48.6 else if String.eqb s " 20.8"%string then Some #20.8 else if String.eqb s " 252.0 "%string then Some #252 else None)
  ("#15 MINUTE VALUES
#Issued: 2021-08-27 18:51
#Latitude: 48.6
#Longitude: 20.8
#Elevation: 252.0 m a.s.l.
")%string = Ok (#48.6, #20.8, #252, [("issued", " 2021-08-27 18:51")]%string).
Proof. vm_compute. reflexivity. Qed.

(** ** C165 *)
Definition k_to_celsius (x : fl) : fl := (x - #273.15)%fl.
Definition merra2_dictionary : dictionary :=
  [("SWGDN", ("ghi", kept)); ("SWGDNCLR", ("ghi_clear", kept)); ("LWGAB", ("longwave_down", kept)); ("LWGNT", ("longwave_net", kept)); ("ALBEDO", ("albedo", kept)); ("T2M", ("temp_air", k_to_celsius)); ("PS", ("pressure", kept));
   ("TQV", ("precipitable_water", kept)); ("TOTEXTTAU", ("aod550", kept))]%string.
Section Merra2.
Variable py_float : string -> option fl.
Variable fetch : string -> merra2_answer.
(** the column of a variable: the answer without its fill value *)
Definition answered (v d : string) (c : string * list fl) : Prop :=
  let a := fetch (underscores d ++ "_" ++ v)%string in exists s undef, lookup "undef" (a_header a) = Some s /\ py_float s = Some undef /\ c = masked undef (v, a_data a).
Lemma fetch_all : forall vs ds cs data meta, List.length ds = List.length vs -> Forall2 (fun p c => answered (fst p) (snd p) c) (combine vs ds) cs -> NoDup vs -> (forall v, In v vs -> ~ In v (map fst data)) ->
  exists meta', merra2_fetch py_float fetch (combine vs ds) data meta = Ok (data ++ cs, meta') /\ (vs = [] -> meta' = meta) /\
    (forall v d vs' ds', vs = vs' ++ [v] -> ds = ds' ++ [d] -> meta' = Some (a_header (fetch (underscores d ++ "_" ++ v)%string))).
Proof.
  induction vs as [|v vs IH]; intros ds cs data meta L F ND NI.
  - cbn in F. inversion F. exists meta. cbn [combine merra2_fetch]. rewrite app_nil_r. split; [reflexivity|]. split; [reflexivity|]. intros v d vs' ds' E. destruct vs'; discriminate.
  - destruct ds as [|d ds]; [discriminate|]. cbn [combine] in F. inversion F as [|p c ps cs' A F' E1 E2]; subst. inversion ND as [|? ? N1 N2]; subst. cbn [fst snd] in A. destruct A as (s & u & H1 & H2 & ->). cbn [combine merra2_fetch].
    unfold merra2_name. rewrite H1. cbn [to_float]. rewrite H2. cbn [bind]. rewrite dict_set_new by (apply NI; left; reflexivity).
    match goal with |- context [merra2_fetch _ _ _ ?dd ?mm] => destruct (IH ds cs' dd mm ltac:(cbn in L; lia) F' N2) as (m' & E & M0 & M) end.
    { intros w I J. rewrite map_app in J. apply in_app_or in J. destruct J as [J|[J|[]]]; [exact (NI w (or_intror I) J)|]. cbn in J. subst w. exact (N1 I). }
    exists m'. rewrite E. rewrite <- app_assoc. split; [reflexivity|]. split; [discriminate|]. intros w e vs' ds' E1 E2. destruct vs' as [|x vs'].
    + injection E1 as -> ->. destruct ds' as [|y ds']; [injection E2 as -> ->|destruct ds'; cbn in E2; injection E2 as _ E2; subst; cbn in L; try discriminate]. rewrite (M0 eq_refl). reflexivity.
    + injection E1 as -> ->. destruct ds' as [|y ds']; [injection E2 as -> ->; exfalso; cbn [List.length] in L; rewrite app_length in L; cbn in L; lia|]. injection E2 as -> ->. apply (M w e vs' ds' eq_refl eq_refl).
Qed.
Definition per_variable (dataset : datasets) (vs ds : list string) : Prop := match dataset with Single d => ds = repeat d (List.length vs) | Several l => ds = l /\ List.length l = List.length vs end.
(** one column per variable, fill values masked; the place of the last answer; names and units only when asked for *)
Theorem C165_table : forall dataset vs v ds d cs lats lons lat lon m, NoDup (vs ++ [v]) -> per_variable dataset (vs ++ [v]) (ds ++ [d]) -> Forall2 (fun p c => answered (fst p) (snd p) c) (combine (vs ++ [v]) (ds ++ [d])) cs ->
  (let h := a_header (fetch (underscores d ++ "_" ++ v)%string) in lookup "lat" h = Some lats /\ lookup "lon" h = Some lons) -> py_float lats = Some lat -> py_float lons = Some lon ->
  get_merra2 py_float fetch dataset (vs ++ [v]) m = Ok (lat, lon, if m then map (translated merra2_dictionary) cs else cs).
Proof.
  intros dataset vs v ds d cs lats lons lat lon m ND PV F [H1 H2] F1 F2. assert (LD : List.length (ds ++ [d]) = List.length (vs ++ [v])). { destruct dataset as [x|l]; cbn in PV; [rewrite PV; apply repeat_length|]. destruct PV as [-> L]. exact L. }
  assert (E : (match dataset with Single d => repeat d (List.length (vs ++ [v])) | Several ds => ds end) = ds ++ [d]) by (destruct dataset as [x|l]; cbn in PV; [symmetry; exact PV|symmetry; apply PV]).
  unfold get_merra2. rewrite E. destruct (fetch_all (vs ++ [v]) (ds ++ [d]) cs [] None LD F ND ltac:(intros ? _ [])) as (m' & R & _ & M). rewrite R. rewrite (M v d vs ds eq_refl eq_refl). cbn [bind snd fst app]. rewrite H1, H2. cbn [to_float].
  rewrite F1, F2. cbn [bind]. destruct m; [|reflexivity]. do 2 f_equal. unfold rename_columns, convert. rewrite map_map. apply map_ext. intros [n l]. unfold translated, merra2_map, merra2_dictionary. cbn [fst snd].
  destruct (String.eqb_spec n "T2M") as [->|NT]; [reflexivity|]. cbn [fst snd lookup]. rewrite (proj2 (String.eqb_neq n "T2M") NT). repeat match goal with |- context [String.eqb n ?x] => destruct (String.eqb_spec n x) as [->|?]; [cbn; rewrite ?map_kept; reflexivity|] end. reflexivity.
Qed.
(** variables without a dataset are dropped without a word, as are datasets without a variable *)
Theorem C165_truncated : forall vs ds more m, List.length ds = List.length vs ->
  get_merra2 py_float fetch (Several ds) (vs ++ more) m = get_merra2 py_float fetch (Several ds) vs m /\ get_merra2 py_float fetch (Several (ds ++ more)) vs m = get_merra2 py_float fetch (Several ds) vs m.
Proof.
  intros vs ds more m L. assert (G : forall a b c : list string, List.length b = List.length a -> combine (a ++ c) b = combine a b /\ combine a (b ++ c) = combine a b).
  { clear. induction a as [|x a IH]; intros [|y b] c L; try discriminate; [cbn; split; [destruct c|]; reflexivity|]. cbn in L. destruct (IH b c ltac:(lia)) as [E1 E2]. cbn. rewrite E1, E2. split; reflexivity. }
  destruct (G vs ds more L) as [E1 E2]. unfold get_merra2. rewrite E1, E2. split; reflexivity.
Qed.
Theorem C165_errors :
  (forall dataset m, get_merra2 py_float fetch dataset [] m = Err UnboundLocalError) /\
  (forall d v vs m, lookup "undef" (a_header (fetch (underscores d ++ "_" ++ v)%string)) = None -> get_merra2 py_float fetch (Single d) (v :: vs) m = Err KeyError) /\
  (forall d v vs m s, lookup "undef" (a_header (fetch (underscores d ++ "_" ++ v)%string)) = Some s -> py_float s = None -> get_merra2 py_float fetch (Single d) (v :: vs) m = Err ValueError).
Proof.
  split; [intros [d|ds] m; reflexivity|]. split.
  - intros d v vs m H. unfold get_merra2. cbn [List.length repeat combine merra2_fetch]. unfold merra2_name. rewrite H. reflexivity.
  - intros d v vs m s H E. unfold get_merra2. cbn [List.length repeat combine merra2_fetch]. unfold merra2_name. rewrite H. cbn [to_float]. rewrite E. reflexivity.
Qed.
End Merra2.
Print Assumptions C165_table.
Print Assumptions C165_truncated.
Print Assumptions C165_errors.
(** TQV is the same quantity as NASA POWER's, in kg/m2, but not converted to cm *)
Theorem C165_water_refuted : exists c, translated merra2_dictionary c = ("precipitable_water"%string, [#20]) /\ translated nasa_dictionary c = ("precipitable_water"%string, [#2]).
Proof.
  exists ("TQV"%string, [#20]). split; [reflexivity|]. unfold translated. cbn [fst snd nasa_dictionary lookup String.eqb Ascii.eqb Bool.eqb map]. unfold mm_to_cm. rewrite fdiv_fin by lra. do 3 f_equal. lra.
Qed.
Print Assumptions C165_water_refuted.
(** the header: lines key,value up to a blank one *)
Definition csv_line (kv : string * string) : string := (fst kv ++ "," ++ snd kv)%string.
Definition header_ok (kv : string * string) : Prop := has_char "," (fst kv) = false /\ plain (csv_line kv) /\ rstrip is_ws (csv_line kv) = csv_line kv.
Theorem C165_header : forall kvs rest fuel, Forall header_ok kvs -> (List.length kvs < fuel)%nat ->
  merra2_header fuel (text_of (map csv_line kvs) ++ newline ++ rest) [] = Ok (fold_left (fun d kv => dict_set (fst kv) (snd kv) d) kvs [], rest).
Proof.
  intros kvs rest fuel F L. generalize (@nil (string * string)) as d. revert fuel L. induction F as [|[k v] kvs [H1 [H2 H3]] F IH]; intros fuel L d.
  - destruct fuel as [|fuel]; [cbn in L; lia|]. cbn [map merra2_header]. change (text_of [] ++ newline ++ rest)%string with ("" ++ newline ++ rest)%string. rewrite read_line_app by reflexivity. reflexivity.
  - destruct fuel as [|fuel]; [cbn in L; lia|]. cbn [map]. rewrite text_of_app, !sapp_assoc. cbn [merra2_header]. rewrite read_line_app by exact H2. rewrite rstrip_nl, H3.
    assert (CL : csv_line (k, v) = (k ++ "," ++ v)%string) by reflexivity. rewrite !CL. cbn [fst snd] in *. assert (NE : String.eqb (k ++ "," ++ v) "" = false) by (destruct k; reflexivity). rewrite NE. rewrite has_char_app. cbn [append has_char]. change (Ascii.eqb "," ",") with true. cbn [orb]. rewrite orb_true_r.
    rewrite split_on_app by exact H1. rewrite IH by (cbn in L; lia). cbn [fold_left fst snd].
    replace (substring (S (String.length k)) (String.length (k ++ String "," v) - S (String.length k)) (k ++ String "," v)) with v; [reflexivity|].
    change (String "," v) with ("," ++ v)%string. rewrite <- sapp_assoc. rewrite length_app. rewrite length_app. cbn [String.length]. replace (String.length k + 1 + String.length v - S (String.length k))%nat with (String.length v) by lia.
    replace (S (String.length k)) with (String.length (k ++ ",")) by (rewrite length_app; cbn; lia). rewrite <- (sapp_nil v) at 3. symmetry. apply substring_at.
Qed.
Print Assumptions C165_header.
Theorem C165_header_error : forall line rest fuel d, plain line -> rstrip is_ws line <> ""%string -> has_char "," (rstrip is_ws line) = false -> merra2_header (S fuel) (line ++ newline ++ rest) d = Err ValueError.
Proof. intros line rest fuel d P N C. cbn [merra2_header]. rewrite read_line_app by exact P. rewrite rstrip_nl. rewrite (proj2 (String.eqb_neq _ _) N), C. reflexivity. Qed.
Print Assumptions C165_header_error.
Example C165_example : get_merra2 (fun _ => Some #1) (fun n => Answer [("undef", "1"); ("lat", "1"); ("lon", "1")]%string [#2]) (Single "M2T1NXRAD.5.12.4") ["SWGDN"; "PS"]%string true = Ok (#1, #1, [("ghi", [#2]); ("pressure", [#2])]%string).
Proof.
  apply (C165_table _ _ (Single "M2T1NXRAD.5.12.4") ["SWGDN"%string] "PS" ["M2T1NXRAD.5.12.4"%string] "M2T1NXRAD.5.12.4" [("SWGDN", [#2]); ("PS", [#2])]%string "1" "1" #1 #1 true); try reflexivity.
  - repeat constructor; cbn; intuition discriminate.
  - assert (E : feqb #2 #1 = false) by (rewrite feqb_fin; unfold Reqb; destruct (Req_EM_T 2 1); [lra|reflexivity]).
    repeat constructor; exists "1"%string, #1; (split; [reflexivity|split; [reflexivity|]]); unfold masked; cbn [fst snd a_data map]; rewrite E; reflexivity.
  - split; reflexivity.
Qed.

(** ** C166 *)
Definition j_to_w (x : fl) : fl := (x / #3600)%fl.
Definition m_to_cm (x : fl) : fl := (x * #100)%fl.
(** pvlib name, the name asked for, the name answered, the conversion *)
Definition era5_names : list (string * string * string * (fl -> fl)) :=
  [("temp_air", "2m_temperature", "t2m", k_to_celsius); ("temp_dew", "2m_dewpoint_temperature", "d2m", k_to_celsius); ("pressure", "surface_pressure", "sp", kept); ("ghi", "surface_solar_radiation_downwards", "ssrd", j_to_w);
   ("bhi", "total_sky_direct_solar_radiation_at_surface", "fdir", j_to_w); ("precipitation", "total_precipitation", "tp", m_to_cm); ("longwave_down", "surface_thermal_radiation_downwards", "strd", j_to_w)]%string.
Lemma era5_reversed : reversed era5_map = [("temp_dew", "2m_dewpoint_temperature"); ("temp_air", "2m_temperature"); ("pressure", "surface_pressure"); ("ghi", "surface_solar_radiation_downwards");
  ("bhi", "total_sky_direct_solar_radiation_at_surface"); ("precipitation", "total_precipitation"); ("longwave_down", "surface_thermal_radiation_downwards")]%string.
Proof. vm_compute. reflexivity. Qed.
Theorem C166_names : forall p long short unit, In (p, long, short, unit) era5_names ->
  (forall vs i, nth_error vs i = Some p -> nth_error (era5_variables vs) i = Some long) /\
  (forall t i values, nth_error t i = Some (short, values) -> nth_error (era5_data true t) i = Some (p, map unit values)).
Proof.
  intros p long short unit I. split.
  - intros vs i E. unfold era5_variables. rewrite nth_error_map, E. cbn [option_map]. unfold get_or. rewrite era5_reversed. unfold era5_names in I. cbn [In] in I. repeat (destruct I as [I|I]; [injection I as <- <- _ _; reflexivity|]). destruct I.
  - intros t i values E. unfold era5_data, rename_columns. rewrite map_map, nth_error_map, E. cbn [option_map fst snd]. unfold era5_names in I. cbn [In] in I. repeat (destruct I as [I|I]; [injection I as <- <- <- <-; reflexivity|]). destruct I.
Qed.
Print Assumptions C166_names.
(** other names are asked for as they are; an answer in kelvin is converted; anything else keeps its name and values *)
Theorem C166_others :
  (forall vs i v, nth_error vs i = Some v -> (forall long short unit, ~ In (v, long, short, unit) era5_names) -> nth_error (era5_variables vs) i = Some v) /\
  (forall t i n values, nth_error t i = Some (n, values) -> (forall p long unit, ~ In (p, long, n, unit) era5_names) -> (forall p short unit, ~ In (p, n, short, unit) era5_names) ->
     nth_error (era5_data true t) i = Some (n, if mem n ["sst"; "skt"]%string then map k_to_celsius values else values)) /\
  (forall t, era5_data false t = t).
Proof.
  split; [|split; [|reflexivity]].
  - intros vs i v E N. unfold era5_variables. rewrite nth_error_map, E. cbn [option_map]. unfold get_or. rewrite era5_reversed. cbn [lookup].
    repeat match goal with |- context [String.eqb v ?x] => destruct (String.eqb_spec v x) as [->|?]; [exfalso; eapply N; unfold era5_names; cbn [In]; repeat (first [left; reflexivity | right])|] end. reflexivity.
  - intros t i n values E N1 N2. unfold era5_data, rename_columns. rewrite map_map, nth_error_map, E. cbn [option_map fst snd]. unfold era5_map, era5_unit, mem. cbn [lookup existsb].
    repeat match goal with |- context [match (if String.eqb n ?x then _ else _) with _ => _ end] => destruct (String.eqb_spec n x) as [->|?];
      [exfalso; first [eapply N1; unfold era5_names; cbn [In]; repeat (first [left; reflexivity | right]); fail | eapply N2; unfold era5_names; cbn [In]; repeat (first [left; reflexivity | right])]|] end.
    repeat match goal with H : n <> ?x |- context [String.eqb n ?x] => rewrite (proj2 (String.eqb_neq n x) H) end. cbn [orb]. rewrite orb_false_r.
    destruct (String.eqb n "sst" || String.eqb n "skt")%bool; [reflexivity|]. do 2 f_equal. apply map_kept.
Qed.
Print Assumptions C166_others.
(** the polling *)
Definition waiting (s : string) : Prop := s <> "successful"%string /\ s <> "failed"%string.
Theorem C166_wait : forall timeout status, 0 <= timeout ->
  match era5_wait timeout status with
  | Ready k => exists i, k = S i /\ Z.of_nat i <= timeout /\ status i = "successful"%string /\ forall j, (j < i)%nat -> waiting (status j)
  | Failed k => exists i, k = S i /\ Z.of_nat i <= timeout /\ status i = "failed"%string /\ forall j, (j < i)%nat -> waiting (status j)
  | TimedOut k => Z.of_nat k = timeout + 1 /\ forall j, Z.of_nat j <= timeout -> waiting (status j)
  end.
Proof.
  intros timeout status T. unfold era5_wait.
  assert (G : forall fuel n, Z.of_nat n <= timeout -> (timeout - Z.of_nat n < Z.of_nat fuel) -> (forall j, (j < n)%nat -> waiting (status j)) ->
    match era5_poll timeout status fuel n with
    | Ready k => exists i, k = S i /\ Z.of_nat i <= timeout /\ status i = "successful"%string /\ forall j, (j < i)%nat -> waiting (status j)
    | Failed k => exists i, k = S i /\ Z.of_nat i <= timeout /\ status i = "failed"%string /\ forall j, (j < i)%nat -> waiting (status j)
    | TimedOut k => Z.of_nat k = timeout + 1 /\ forall j, Z.of_nat j <= timeout -> waiting (status j)
    end).
  { induction fuel as [|fuel IH]; intros n L B W; [lia|]. cbn [era5_poll]. destruct (String.eqb_spec (status n) "successful") as [E|N1]; [exists n; repeat split; try assumption; apply W; assumption|].
    destruct (String.eqb_spec (status n) "failed") as [E|N2]; [exists n; repeat split; try assumption; apply W; assumption|].
    assert (W' : forall j, (j < S n)%nat -> waiting (status j)). { intros j J. destruct (Nat.eq_dec j n) as [->|]; [split; assumption|]. apply W. lia. }
    destruct (Z.ltb_spec timeout (Z.of_nat (S n))) as [LT|GE].
    - split; [lia|]. intros j J. apply W'. lia.
    - apply IH; [lia|lia|exact W']. }
  apply G; [lia|lia|]. intros j J. lia.
Qed.
Print Assumptions C166_wait.
Example C166_example : era5_wait 60 (fun k => if Nat.ltb k 3 then "running" else "successful")%string = Ready 4 /\ era5_wait 2 (fun _ => "accepted"%string) = TimedOut 3.
Proof. split; reflexivity. Qed.
