(** Properties C198 to C201: the days asked for from NASA POWER, CAMS and Solargis; the requests to PVGIS and Solcast.  Model: Model/WebDates.v. *)
From Coq Require Import ZArith Reals List Bool String Ascii Lia Lra.
From Verif Require Import Base.Fl Base.Py Base.Calendar Base.Strptime Model.Services Model.Requests Model.WebDates Props.PRequests.
Import ListNotations.
Open Scope Z_scope.

(** the date on the clocks of the zone the time was given in *)
Definition clock_date (t : when) (d : date) : Prop := exists h mi s o, t = Moment d h mi s o.
Lemma own_date_spec t d : own_date t = Ok d <-> clock_date t d.
Proof.
  destruct t as [x|d0 h mi s o]; cbn [own_date]; split; try discriminate.
  - intros (h & mi & s & o & E). discriminate E.
  - intros H. injection H as ->. exists h, mi, s, o. reflexivity.
  - intros (h' & mi' & s' & o' & E). injection E as -> _ _ _ _. reflexivity.
Qed.
Definition compact_day (d : date) : string := (number 4 (Calendar.yr d) ++ number 2 (mo d) ++ number 2 (dy d))%string.
(** ** C198 *)
Theorem C198_days : forall start end_ x y,
  (nasa_days start end_ = Ok (x, y) <-> exists d d', clock_date start d /\ clock_date end_ d' /\ x = compact_day d /\ y = compact_day d') /\
  (cams_days start end_ = Ok (x, y) <-> exists d d', clock_date start d /\ clock_date end_ d' /\ x = day_text d /\ y = day_text d') /\
  (solargis_days start end_ = Ok (x, y) <-> exists d d', clock_date start d /\ clock_date end_ d' /\ x = day_text d /\ y = day_text d').
Proof.
  intros a b x y.
  assert (G : forall f : date -> string, (let* d := own_date a in let* d' := own_date b in Ok (f d, f d')) = Ok (x, y) <->
    exists d d', clock_date a d /\ clock_date b d' /\ x = f d /\ y = f d').
  { intros f. split.
    - destruct (own_date a) as [d|] eqn:A; cbn [bind]; [|discriminate]. destruct (own_date b) as [d'|] eqn:B; cbn [bind]; [|discriminate]. intros H.
      apply (f_equal (fun r => match r with Ok q => q | Err _ => (x, y) end)) in H. apply pair_equal_spec in H. destruct H as [<- <-]. exists d, d'. rewrite <- !own_date_spec. auto.
    - intros (d & d' & A & B & -> & ->). apply own_date_spec in A. apply own_date_spec in B. rewrite A, B. reflexivity. }
  split; [|split]; [apply (G compact_text)|apply (G date_text)|apply (G date_text)].
Qed.
Print Assumptions C198_days.
(** the zone of the time is not looked at *)
Theorem C198_zone_ignored : forall d h mi s o o' d2 h2 mi2 s2 o2 o2',
  let a := Moment d h mi s o in let a' := Moment d h mi s o' in let b := Moment d2 h2 mi2 s2 o2 in let b' := Moment d2 h2 mi2 s2 o2' in
  nasa_days a b = nasa_days a' b' /\ cams_days a b = cams_days a' b' /\ solargis_days a b = solargis_days a' b'.
Proof. intros. repeat split; reflexivity. Qed.
Print Assumptions C198_zone_ignored.
(** the day asked for is the day in UTC exactly if the offset does not carry over midnight; otherwise it is the day after or before *)
Theorem C198_utc_day : forall d h mi s o du hu miu su, proper_when (Moment d h mi s (Some o)) -> utc_moment (Moment d h mi s (Some o)) du hu miu su ->
  (du = d <-> 0 <= h * 60 + mi - o < 1440) /\ (ordinal du = ordinal d - 1 <-> h * 60 + mi < o) /\ (ordinal du = ordinal d + 1 <-> 1440 <= h * 60 + mi - o).
Proof.
  intros d h mi s o du hu miu su [(V & H1 & M1) O] ((Vu & Hu & Mu) & _ & E). unfold instant in E. split; [split|split; split]; intros Q.
  - subst du. lia.
  - apply ordinal_injective; [assumption..|]. lia.
  - lia.
  - lia.
  - lia.
  - lia.
Qed.
Print Assumptions C198_utc_day.
Theorem C198_errors : forall start end_ e, (nasa_days start end_ = Err e \/ cams_days start end_ = Err e \/ solargis_days start end_ = Err e) <->
  e = ValueError /\ ((exists x, start = Verbatim x) \/ (exists x, end_ = Verbatim x)).
Proof.
  intros a b e. unfold nasa_days, cams_days, solargis_days. destruct a as [x|d h mi s o]; [|destruct b as [y|d' h' mi' s' o']]; cbn [own_date bind]; split.
  - intros [H|[H|H]]; injection H as <-; (split; [reflexivity|left; exists x; reflexivity]).
  - intros [-> _]. left. reflexivity.
  - intros [H|[H|H]]; injection H as <-; (split; [reflexivity|right; exists y; reflexivity]).
  - intros [-> _]. left. reflexivity.
  - intros [H|[H|H]]; discriminate H.
  - intros [_ [[x H]|[x H]]]; discriminate H.
Qed.
Print Assumptions C198_errors.
Example C198_example : let a := Moment (Date 2020 3 1) 5 30 0 (Some 600) in let b := Moment (Date 2020 12 31) 23 30 15 (Some (-60)) in
  proper_when a /\ utc_moment a (Date 2020 2 29) 19 30 0 /\ nasa_days a b = Ok ("20200301", "20201231")%string /\ cams_days a b = Ok ("2020-03-01", "2020-12-31")%string.
Proof. cbv zeta. split; [|split; [|split; vm_compute; reflexivity]]; cbn; unfold proper_time, valid_date; cbn; repeat split; try lia; reflexivity. Qed.

(** ** C199 *)
(** the year sent for a start or end: an integer itself, a time that of its own clock *)
Definition sent_year (y : pvgis_year) (z : Z) : Prop := match y with AYear k => z = k | ATime t => exists d, clock_date t d /\ z = Calendar.yr d end.
Definition zero_or_one (b : bool) (v : pvgis_value) : Prop := b = true /\ v = PInt 1 \/ b = false /\ v = PInt 0.
Lemma int_of_bool_spec b v : v = int_of_bool b <-> zero_or_one b v.
Proof. unfold zero_or_one, int_of_bool. destruct b; split; intros H; [left; auto|destruct H as [[_ H]|[H _]]; [exact H|discriminate H]|right; auto|destruct H as [[H _]|[_ H]]; [discriminate H|exact H]]. Qed.
Lemma optional_param_spec {A} name (x : option A) f n v : In (n, v) (optional_param name x f) <-> n = name /\ exists a, x = Some a /\ v = f a.
Proof.
  destruct x as [a|]; cbn [optional_param In].
  - split; [intros [H|[]]; apply pair_equal_spec in H; destruct H as [<- <-]; eauto|intros (-> & a' & E & ->); injection E as <-; auto].
  - split; [tauto|intros (_ & a & E & _); discriminate E].
Qed.
Lemma year_of_spec y z : year_of y = Ok z <-> sent_year y z.
Proof.
  destruct y as [k|t]; cbn [year_of sent_year]; [split; [intros H; injection H as <-; reflexivity|intros ->; reflexivity]|]. split.
  - destruct (own_date t) as [d|] eqn:E; cbn [bind]; [|discriminate]. intros H. injection H as <-. exists d. split; [apply own_date_spec, E|reflexivity].
  - intros (d & C & ->). apply own_date_spec in C. rewrite C. reflexivity.
Qed.
Lemma optional_year_spec o y : optional_year o = Ok y <-> match o with None => y = None | Some q => exists z, sent_year q z /\ y = Some z end.
Proof.
  destruct o as [q|]; cbn [optional_year]; [|split; [intros H; injection H as <-; reflexivity|intros ->; reflexivity]]. split.
  - destruct (year_of q) as [z|] eqn:E; cbn [bind]; [|discriminate]. intros H. injection H as <-. exists z. split; [apply year_of_spec, E|reflexivity].
  - intros (z & C & ->). apply year_of_spec in C. rewrite C. reflexivity.
Qed.
Lemma sent_year_unique q z z' : sent_year q z -> sent_year q z' -> z = z'.
Proof. intros A B. apply year_of_spec in A. apply year_of_spec in B. congruence. Qed.

Theorem C199_request : forall lat lon start end_ raddb comps tilt azimuth fmt usehor userhor pvcalc peak tech mounting loss track opttilt optangles params,
  pvgis_hourly_params lat lon start end_ raddb comps tilt azimuth fmt usehor userhor pvcalc peak tech mounting loss track opttilt optangles = Ok params ->
  NoDup (map fst params) /\ forall name value, In (name, value) params <->
    (name = "lat" /\ value = PNum lat) \/ (name = "lon" /\ value = PNum lon) \/ (name = "outputformat" /\ value = PText fmt) \/
    (name = "angle" /\ value = PNum tilt) \/ (name = "aspect" /\ value = PNum (azimuth - Fin 180)%fl) \/
    (name = "pvcalculation" /\ zero_or_one pvcalc value) \/ (name = "components" /\ zero_or_one comps value) \/ (name = "usehorizon" /\ zero_or_one usehor value) \/
    (name = "optimalangles" /\ zero_or_one optangles value) \/ (name = "optimalinclination" /\ zero_or_one opttilt value) \/
    (name = "pvtechchoice" /\ value = PText tech) \/ (name = "mountingplace" /\ value = PText mounting) \/ (name = "trackingtype" /\ value = PInt track) \/
    (name = "loss" /\ value = PNum loss) \/
    (name = "userhorizon" /\ exists l, userhor = Some l /\ value = PText (String.concat "," l)) \/ (name = "raddatabase" /\ exists r, raddb = Some r /\ value = PText r) \/
    (name = "startyear" /\ exists q z, start = Some q /\ sent_year q z /\ value = PInt z) \/ (name = "endyear" /\ exists q z, end_ = Some q /\ sent_year q z /\ value = PInt z) \/
    (name = "peakpower" /\ exists p, peak = Some p /\ value = PNum p).
Proof.
  intros lat lon start end_ raddb comps tilt azimuth fmt usehor userhor pvcalc peak tech mounting loss track opttilt optangles params.
  unfold pvgis_hourly_params. destruct (optional_year start) as [y|] eqn:S; cbn [bind]; [|discriminate]. destruct (optional_year end_) as [y'|] eqn:S'; cbn [bind]; [|discriminate].
  intros H. apply (f_equal (fun r => match r with Ok q => q | Err _ => params end)) in H. subst params. split.
  - destruct userhor, raddb, y, y', peak; cbn [optional_param app map fst]; repeat constructor; cbn [In]; intros Q; repeat (destruct Q as [Q|Q]; [discriminate Q|]); exact Q.
  - apply optional_year_spec in S. apply optional_year_spec in S'.
    assert (Y : forall (o : option pvgis_year) (w : option Z) v, match o with None => w = None | Some q => exists z, sent_year q z /\ w = Some z end ->
      ((exists a, w = Some a /\ v = PInt a) <-> exists q z, o = Some q /\ sent_year q z /\ v = PInt z)).
    { intros o w v A. split.
      - intros (a & -> & ->). destruct o as [q|]; [|discriminate A]. destruct A as (z & B & C). injection C as <-. eauto.
      - intros (q & z & -> & B & ->). destruct A as (z' & B' & ->). exists z'. split; [reflexivity|]. f_equal. eapply sent_year_unique; eassumption. }
    intros name value. rewrite !in_app_iff, !optional_param_spec, (Y start y value S), (Y end_ y' value S'). rewrite <- !int_of_bool_spec. cbn [In]. rewrite !pair_equal_spec. clear. intuition (subst; auto 25).
Qed.
Print Assumptions C199_request.
(** an azimuth from north becomes one from south *)
Theorem C199_aspect : forall lat lon start end_ raddb comps tilt a fmt usehor userhor pvcalc peak tech mounting loss track opttilt optangles params,
  pvgis_hourly_params lat lon start end_ raddb comps tilt (Fin a) fmt usehor userhor pvcalc peak tech mounting loss track opttilt optangles = Ok params ->
  forall v, In ("aspect"%string, v) params <-> v = PNum (Fin (a - 180)%R).
Proof.
  intros until params. intros H v. destruct (C199_request _ _ _ _ _ _ _ _ _ _ _ _ _ _ _ _ _ _ _ _ H) as [_ P]. rewrite P. split.
  - intros Q. repeat (destruct Q as [Q|Q]; [destruct Q as [N Q]; try discriminate N|]); [rewrite Q; reflexivity|destruct Q as [N _]; discriminate N].
  - intros ->. do 4 right. left. split; reflexivity.
Qed.
Print Assumptions C199_aspect.
Theorem C199_errors : forall lat lon start end_ raddb comps tilt azimuth fmt usehor userhor pvcalc peak tech mounting loss track opttilt optangles e,
  pvgis_hourly_params lat lon start end_ raddb comps tilt azimuth fmt usehor userhor pvcalc peak tech mounting loss track opttilt optangles = Err e <->
  e = ValueError /\ exists x, start = Some (ATime (Verbatim x)) \/ end_ = Some (ATime (Verbatim x)).
Proof.
  intros. unfold pvgis_hourly_params.
  assert (Y : forall o, (exists x, o = Some (ATime (Verbatim x)) /\ optional_year o = Err ValueError) \/ exists y, optional_year o = Ok y /\ forall x, o <> Some (ATime (Verbatim x))).
  { intros [[k|[x|d h mi s u]]|]; [right|left; exists x; split; reflexivity|right|right]; (eexists; split; [reflexivity|discriminate]). }
  destruct (Y start) as [(x & -> & E)|(y & E & N)]; rewrite E; cbn [bind].
  - split; [intros H; injection H as <-; split; [reflexivity|exists x; left; reflexivity]|intros [-> _]; reflexivity].
  - destruct (Y end_) as [(x & -> & E')|(y' & E' & N')]; rewrite E'; cbn [bind].
    + split; [intros H; injection H as <-; split; [reflexivity|exists x; right; reflexivity]|intros [-> _]; reflexivity].
    + split; [discriminate|]. intros [_ [x [H|H]]]; [destruct (N x H)|destruct (N' x H)].
Qed.
Print Assumptions C199_errors.
(** 2020-01-01 05:30 at UTC+10 is still 2019 in UTC, 2020 is asked for; a plane to the east *)
Example C199_example : exists params, pvgis_hourly_params (Fin 45) (Fin 8) (Some (ATime (Moment (Date 2020 1 1) 5 30 0 (Some 600)))) None None true (Fin 30) (Fin 90) "json" true (Some ["10"; "20"]%string)
    false None "crystSi" "free" (Fin 0) 0 false false = Ok params /\
  In ("startyear"%string, PInt 2020) params /\ In ("aspect"%string, PNum (Fin (-90))) params /\ In ("userhorizon"%string, PText "10,20") params.
Proof.
  eexists. split; [reflexivity|]. split; [|split].
  - cbn. tauto.
  - match goal with |- In (_, PNum (Fin ?x)) _ => replace x with (90 - 180)%R by lra end. unfold fsub. cbn. replace (90 + - (180))%R with (90 - 180)%R by lra. tauto.
  - cbn. tauto.
Qed.

(** ** C200 *)
Theorem C200_tmy_request : forall lat lon fmt usehor userhor y y', let params := pvgis_tmy_params lat lon fmt usehor userhor y y' in
  NoDup (map fst params) /\ forall name value, In (name, value) params <->
    (name = "lat" /\ value = PNum lat) \/ (name = "lon" /\ value = PNum lon) \/ (name = "outputformat" /\ value = PText fmt) \/
    (name = "usehorizon" /\ usehor = false /\ value = PInt 0) \/
    (name = "userhorizon" /\ exists l, userhor = Some l /\ value = PText (String.concat "," l)) \/
    (name = "startyear" /\ exists z, y = Some z /\ value = PInt z) \/ (name = "endyear" /\ exists z, y' = Some z /\ value = PInt z).
Proof.
  intros lat lon fmt usehor userhor y y'. cbv zeta. unfold pvgis_tmy_params. split.
  - destruct usehor, userhor, y, y'; cbn [negb optional_param app map fst]; repeat constructor; cbn [In]; intros Q; repeat (destruct Q as [Q|Q]; [discriminate Q|]); exact Q.
  - intros name value. rewrite !in_app_iff, !optional_param_spec. destruct usehor; cbn [negb In]; rewrite !pair_equal_spec; clear; intuition (subst; try discriminate; auto 12).
Qed.
Print Assumptions C200_tmy_request.
Theorem C200_horizon_request : forall lat lon name value, In (name, value) (pvgis_horizon_params lat lon) <->
  (name = "lat" /\ value = PNum lat) \/ (name = "lon" /\ value = PNum lon) \/ (name = "outputformat" /\ value = PText "json").
Proof. intros. unfold pvgis_horizon_params. cbn [In]. rewrite !pair_equal_spec. clear. intuition (subst; auto). Qed.
Print Assumptions C200_horizon_request.
Example C200_example : let params := pvgis_tmy_params (Fin 45) (Fin 8) "csv" false None (Some 2005) None in In ("usehorizon"%string, PInt 0) params /\ In ("startyear"%string, PInt 2005) params.
Proof. cbn. tauto. Qed.

(** ** C201 *)
(** the arguments with a name of their own *)
Definition solcast_named (service : solcast_service) : list string :=
  match service with SolcastHistoric _ _ _ => ["latitude"; "longitude"; "start"; "end"; "duration"; "api_key"; "map_variables"] | _ => ["latitude"; "longitude"; "api_key"; "map_variables"] end%string.
(** the further keyword arguments of a call: distinct names other than those *)
Definition further_keywords (service : solcast_service) (kwargs : list (string * option string)) : Prop :=
  NoDup (map fst kwargs) /\ forall n, In n (map fst kwargs) -> ~ In n (solcast_named service).
Lemma mem_iff x l : mem x l = true <-> In x l.
Proof.
  unfold mem. rewrite existsb_exists. split; [intros (z & A & B); apply String.eqb_eq in B; subst z; exact A|intros H; exists x; split; [exact H|apply String.eqb_refl]].
Qed.
Lemma solcast_query_spec fixed kwargs q : solcast_query fixed kwargs = Ok q ->
  (forall n, In n (map fst kwargs) -> ~ In n (map fst fixed)) /\ forall n v, In (n, v) q <-> In (n, Some v) fixed \/ In (n, Some v) kwargs.
Proof.
  unfold solcast_query. destruct (existsb _ kwargs) eqn:E; [discriminate|]. intros H. injection H as <-. split.
  - intros n A B. apply in_map_iff in A. destruct A as (k & <- & A). assert (X : existsb (fun k => mem (fst k) (map fst fixed)) kwargs = true); [|congruence].
    apply existsb_exists. exists k. split; [exact A|apply mem_iff, B].
  - intros n v. rewrite in_flat_map. split.
    + intros ([n' w] & A & B). cbn [fst snd] in B. destruct w as [w|]; [|destruct B]. destruct B as [B|[]]. injection B as -> ->. apply in_app_iff. exact A.
    + intros A. apply in_app_iff in A. exists (n, Some v). split; [exact A|]. left. reflexivity.
Qed.
Lemma solcast_query_error fixed kwargs e : solcast_query fixed kwargs = Err e <-> e = TypeError /\ exists n, In n (map fst kwargs) /\ In n (map fst fixed).
Proof.
  unfold solcast_query. destruct (existsb _ kwargs) eqn:E.
  - split; [|intros [-> _]; reflexivity]. intros H. injection H as <-. split; [reflexivity|]. apply existsb_exists in E. destruct E as (k & A & B). exists (fst k). split; [apply in_map, A|apply mem_iff, B].
  - split; [discriminate|]. intros (_ & n & A & B). apply in_map_iff in A. destruct A as (k & <- & A).
    assert (X : existsb (fun k => mem (fst k) (map fst fixed)) kwargs = true); [|congruence]. apply existsb_exists. exists k. split; [exact A|apply mem_iff, B].
Qed.
(** what is sent: place and format, for the past also the times and the key, and every further keyword that is not None *)
Theorem C201_request : forall service lat lon key kwargs q, solcast_params service lat lon key kwargs = Ok q -> forall name value, In (name, value) q <->
  (name = "latitude" /\ value = lat) \/ (name = "longitude" /\ value = lon) \/ (name = "format" /\ value = "json") \/
  (exists start end_ duration, service = SolcastHistoric start end_ duration /\
     ((name = "start" /\ value = start) \/ (name = "end" /\ end_ = Some value) \/ (name = "duration" /\ duration = Some value) \/ (name = "api_key" /\ value = key))) \/
  In (name, Some value) kwargs.
Proof.
  intros service lat lon key kwargs q H name value. destruct service as [|s e d| |]; cbn [solcast_params] in H; apply solcast_query_spec in H; destruct H as [_ H]; rewrite H; cbn [In]; rewrite !pair_equal_spec; clear H.
  2: { split.
    - intros [H|H]; [|auto 6]. repeat (destruct H as [[<- H]|H]; [try (injection H as <-); first [left; split; reflexivity|right; left; split; reflexivity|right; right; left; split; reflexivity|
        right; right; right; left; exists s, e, d; split; [reflexivity|]; tauto]|]). destruct H.
    - intros [[-> ->]|[[-> ->]|[[-> ->]|[(s' & e' & d' & E & H)|H]]]]; [left; tauto..| |tauto]. injection E as <- <- <-. left.
      destruct H as [[-> ->]|[[-> ->]|[[-> ->]|[-> ->]]]]; tauto. }
  all: split; [intros [H|H]; [|auto 6]; repeat (destruct H as [[<- H]|H]; [injection H as <-; tauto|]); destruct H|
    intros [[-> ->]|[[-> ->]|[[-> ->]|[(s' & e' & d' & E & H)|H]]]]; [left; tauto..|discriminate E|tauto]].
Qed.
Print Assumptions C201_request.
(** of the further keywords only format is refused *)
Theorem C201_errors : forall service lat lon key kwargs e, further_keywords service kwargs ->
  (solcast_params service lat lon key kwargs = Err e <-> e = TypeError /\ In "format"%string (map fst kwargs)).
Proof.
  intros service lat lon key kwargs e [_ N]. destruct service as [|s en d| |]; cbn [solcast_params]; rewrite solcast_query_error; cbn [map fst]; cbn [solcast_named] in N;
  (split; [intros (-> & n & A & B); split; [reflexivity|]; specialize (N n A); cbn [In] in N, B; intuition (subst; tauto)|intros (-> & A); split; [reflexivity|]; exists "format"%string; split; [exact A|cbn [In]; tauto]]).
Qed.
Print Assumptions C201_errors.
(** the key is in the address only for the past *)
Theorem C201_key : forall service lat lon key kwargs q, further_keywords service kwargs -> solcast_params service lat lon key kwargs = Ok q ->
  ((exists v, In ("api_key"%string, v) q) <-> exists s e d, service = SolcastHistoric s e d).
Proof.
  intros service lat lon key kwargs q [_ N] H. split.
  - intros [v A]. apply (C201_request _ _ _ _ _ _ H) in A. destruct A as [[A _]|[[A _]|[[A _]|[(s & e & d & -> & _)|A]]]]; [discriminate A..|eauto|].
    exfalso. apply (N "api_key"%string); [apply (in_map fst) in A; exact A|]. destruct service; cbn; tauto.
  - intros (s & e & d & ->). exists key. apply (C201_request _ _ _ _ _ _ H). do 3 right. left. exists s, e, d. tauto.
Qed.
Print Assumptions C201_key.
Theorem C201_endpoints : forall a b, solcast_endpoint a = solcast_endpoint b <->
  a = b \/ exists s e d s' e' d', a = SolcastHistoric s e d /\ b = SolcastHistoric s' e' d'.
Proof.
  intros a b. split.
  - destruct a, b; cbn; intros H; try discriminate H; try (left; reflexivity). right. repeat eexists.
  - intros [->|(s & e & d & s' & e' & d' & -> & ->)]; reflexivity.
Qed.
Print Assumptions C201_endpoints.
Example C201_example : let kw := [("period", Some "PT5M"); ("time_zone", None)]%string in further_keywords (SolcastHistoric "2020-01-01" None (Some "P1D")) kw /\
  solcast_params (SolcastHistoric "2020-01-01" None (Some "P1D")) "45" "8" "k" kw =
    Ok [("latitude", "45"); ("longitude", "8"); ("start", "2020-01-01"); ("duration", "P1D"); ("api_key", "k"); ("format", "json"); ("period", "PT5M")]%string /\
  solcast_params SolcastLive "45" "8" "k" [("format", Some "csv")]%string = Err TypeError.
Proof.
  cbv zeta. split; [|split; reflexivity]. split; cbn.
  - repeat constructor; cbn; intuition discriminate.
  - intros n [<-|[<-|[]]]; intuition discriminate.
Qed.
