(** Properties C183 (extraterrestrial radiation at times and days) and C184 (rise, set and transit by PyEphem, calc_time).  Model: Model/Datetimes.v. *)
From Coq Require Import ZArith Lia Reals Lra.
From Verif Require Import Base.Fl Base.FlFacts Base.Py Base.Calendar Base.Round Model.Tools Model.Irradiance Model.Datetimes Proofs.Dirint Proofs.ScalingP.
Open Scope list_scope.
Open Scope Z_scope.

(** ** C183 *)
(** the time, in UTC if it has a zone and as it is otherwise, falls on the date *)
Definition on_date (t : datetime) (d : date) : Prop :=
  let local_time := match offset t with Some o => wall t - o | None => wall t end in
  valid_date d /\ (ordinal d - ordinal (Date 1970 1 1)) * 86400000000 <= local_time < (ordinal d - ordinal (Date 1970 1 1) + 1) * 86400000000.
Lemma epoch_value : ordinal (Date 1970 1 1) = 719163.
Proof. vm_compute. reflexivity. Qed.
Lemma year_of_date d : valid_date d -> year_of_ordinal (ordinal d) = Calendar.yr d.
Proof.
  intros V. rewrite ordinal_doy. pose proof (day_of_year_bounds d V) as B. set (y := Calendar.yr d) in *. set (k := day_of_year d) in *. clearbody y k. clear V d.
  assert (B1 : days_before_year (y + 1) = days_before_year y + days_in_year y) by apply days_before_year_succ.
  assert (L : 365 <= days_in_year y <= 366) by (unfold days_in_year; destruct (is_leap y); lia).
  unfold year_of_ordinal. set (n := days_before_year y + k).
  assert (E : y - 1 <= n * 400 / 146097 + 1 <= y + 1).
  { unfold n, days_before_year in *. Z.to_euclidean_division_equations; lia. }
  assert (M : forall a, days_before_year a < days_before_year (a + 1)) by (intros a; rewrite days_before_year_succ; unfold days_in_year; destruct (is_leap a); lia).
  set (e := n * 400 / 146097 + 1) in *. clearbody e.
  assert (H : e = y - 1 \/ e = y \/ e = y + 1) by lia. destruct H as [-> | [-> | ->]].
  - assert (Q := M (y - 1)). replace (y - 1 + 1) with y in * by lia. rewrite (proj2 (Z.leb_gt _ _)) by (unfold n; lia). rewrite (proj2 (Z.ltb_lt _ _)) by (unfold n; lia). lia.
  - rewrite (proj2 (Z.leb_gt _ _)) by (unfold n; lia). rewrite (proj2 (Z.ltb_ge _ _)) by (unfold n; lia). reflexivity.
  - rewrite (proj2 (Z.leb_le _ _)) by (unfold n; lia). lia.
Qed.
Lemma doy_on_date t d : on_date t d -> pandas_to_doy t = day_of_year d.
Proof.
  intros [V B]. rewrite epoch_value in B. unfold pandas_to_doy, pandas_to_utc, dayofyear.
  assert (Q : (match offset t with Some o => wall t - o | None => wall t end) / us_per_day + epoch_ordinal = ordinal d).
  { unfold us_per_day, epoch_ordinal. rewrite <- (Z.div_unique _ 86400000000 (ordinal d - 719163) ((match offset t with Some o => wall t - o | None => wall t end) - (ordinal d - 719163) * 86400000000)); lia. }
  destruct (offset t) as [o|]; cbn [wall]; rewrite Q, year_of_date by exact V; rewrite ordinal_doy; lia.
Qed.
(** every time falls on a date *)
Lemma dated n : exists d, valid_date d /\ ordinal d = n.
Proof.
  assert (U : forall k d, valid_date d -> exists d', valid_date d' /\ ordinal d' = ordinal d + Z.of_nat k).
  { induction k as [|k IH]; intros d V; [exists d; split; [exact V|lia]|]. destruct (IH (next_day d) (next_day_valid d V)) as (d' & V' & E). exists d'. split; [exact V'|].
    rewrite E, next_day_ordinal by exact V. lia. }
  set (y := n * 400 / 146097 - 1). assert (V : valid_date (Date y 1 1)) by (unfold valid_date; cbn; lia).
  assert (L : ordinal (Date y 1 1) <= n).
  { rewrite ordinal_doy. change (day_of_year (Date y 1 1)) with 1. cbn [Calendar.yr]. unfold days_before_year, y. clear. Z.to_euclidean_division_equations; lia. }
  destruct (U (Z.to_nat (n - ordinal (Date y 1 1))) _ V) as (d' & V' & E). exists d'. split; [exact V'|]. lia.
Qed.
Theorem C183_every_time_has_a_date : forall t, exists d, on_date t d /\ forall d', on_date t d' -> day_of_year d' = day_of_year d.
Proof.
  intros t. set (u := match offset t with Some o => wall t - o | None => wall t end).
  destruct (dated (u / 86400000000 + 719163)) as (d & V & E). exists d.
  assert (D : on_date t d). { split; [exact V|]. rewrite epoch_value, E. fold u. Z.to_euclidean_division_equations; lia. }
  split; [exact D|]. intros d' D'. rewrite <- (doy_on_date _ _ D), <- (doy_on_date _ _ D'). reflexivity.
Qed.
Print Assumptions C183_every_time_has_a_date.
(** the factors of the two methods by the day of the year (C15 gives bounds) *)
Definition asce (doy : R) : R := (1 + 0.033 * cos (2 * PI * doy / 365))%R.
Definition spencer (doy : R) : R := let B := (2 * PI * (doy - 1) / 365)%R in
  (1.00011 + 0.034221 * cos B + 0.00128 * sin B + 0.000719 * cos (2 * B) + 7.7e-05 * sin (2 * B))%R.
Definition simple (method : string) (factor : R -> R) : Prop := (lower method = "asce"%string /\ factor = asce) \/ (lower method = "spencer"%string /\ factor = spencer).
Lemma simple_on_days : forall dp dn g sc method epoch_year factor days, simple method factor -> to_doy g = map (fun x => #x) days ->
  get_extra_radiation_at dp dn g #sc method epoch_year = Ok (map (fun x => #(sc * factor x)) days).
Proof.
  intros dp dn g sc method ey factor days [[M ->] | [M ->]] D; unfold get_extra_radiation_at; rewrite M; cbn [String.eqb Ascii.eqb Bool.eqb]; rewrite D, map_map; f_equal; apply map_ext; intros x.
  - rewrite asce_factor_fin. fin. reflexivity.
  - rewrite spencer_factor_fin. fin. reflexivity.
Qed.
(** with the two simple methods times count with the day of the year of their date in UTC, naive times with that of their own date, dates with
    their own, and numbers, fractions included, as they are; one result for each input, in the same order *)
Theorem C183_simple_methods : forall dp dn sc method epoch_year factor, simple method factor ->
  (forall times dates, Forall2 on_date times dates ->
     get_extra_radiation_at dp dn (GIndex times) #sc method epoch_year = Ok (map (fun d => #(sc * factor (IZR (day_of_year d)))) dates)) /\
  (forall t d, on_date t d -> get_extra_radiation_at dp dn (GStamp t) #sc method epoch_year = Ok [#(sc * factor (IZR (day_of_year d)))]) /\
  (forall d, valid_date d -> get_extra_radiation_at dp dn (GDate d) #sc method epoch_year = Ok [#(sc * factor (IZR (day_of_year d)))]) /\
  (forall x, get_extra_radiation_at dp dn (GDoy #x) #sc method epoch_year = Ok [#(sc * factor x)]) /\
  (forall l, get_extra_radiation_at dp dn (GDoys (map (fun x => #x) l)) #sc method epoch_year = Ok (map (fun x => #(sc * factor x)) l)).
Proof.
  intros dp dn sc method ey factor F. repeat split.
  - intros times dates D. rewrite (simple_on_days _ _ _ _ _ _ _ (map (fun d => IZR (day_of_year d)) dates) F); [rewrite map_map; reflexivity|].
    cbn [to_doy]. rewrite map_map. induction D as [|t d ts ds D1 D2 IH]; [reflexivity|]. cbn [map]. rewrite (doy_on_date _ _ D1), IH. reflexivity.
  - intros t d D. apply (simple_on_days _ _ _ _ _ _ _ [IZR (day_of_year d)] F). cbn [to_doy map]. rewrite (doy_on_date _ _ D). reflexivity.
  - intros d V. apply (simple_on_days _ _ _ _ _ _ _ [IZR (day_of_year d)] F). cbn [to_doy map]. rewrite (doy_on_date _ d); [reflexivity|].
    split; [exact V|]. cbn [midnight_of offset wall]. rewrite epoch_value. unfold epoch_ordinal, us_per_day. lia.
  - intros x. apply (simple_on_days _ _ _ _ _ _ _ [x] F). reflexivity.
  - intros l. apply (simple_on_days _ _ _ _ _ _ _ l F). reflexivity.
Qed.
Print Assumptions C183_simple_methods.
(** with the other two methods the result belongs to the instant: the solar constant over the square of the distance there *)
Definition by_distance (method : string) (dp dn dist : Z -> fl) : Prop := (lower method = "pyephem"%string /\ dist = dp) \/ (lower method = "nrel"%string /\ dist = dn).
Lemma on_instants : forall dp dn g sc method epoch_year dist times, by_distance method dp dn dist -> to_datetimeindex epoch_year g = Ok times ->
  get_extra_radiation_at dp dn g sc method epoch_year = Ok (map (fun t => (sc * (#1 / dist (utc_instant t) ^ 2))%fl) times).
Proof.
  intros dp dn g sc method ey dist times [[M ->] | [M ->]] D; unfold get_extra_radiation_at; rewrite M; cbn [String.eqb Ascii.eqb Bool.eqb]; rewrite D; cbn [bind]; unfold earthsun_distance; rewrite map_map;
  f_equal; apply map_ext; intros [w [o|]]; reflexivity.
Qed.
Theorem C183_distance_methods : forall dp dn sc method epoch_year dist r, by_distance method dp dn dist ->
  (forall times, (forall t, In t times -> dist (utc_instant t) = #(r t) /\ r t <> 0%R) ->
     get_extra_radiation_at dp dn (GIndex times) #sc method epoch_year = Ok (map (fun t => #(sc / (r t) ^ 2)) times)) /\
  (forall t, dist (utc_instant t) = #(r t) /\ r t <> 0%R -> get_extra_radiation_at dp dn (GStamp t) #sc method epoch_year = Ok [#(sc / (r t) ^ 2)]) /\
  (forall d, let u := (ordinal d - ordinal (Date 1970 1 1)) * 86400000000 in forall q, dist u = #q -> q <> 0%R ->
     get_extra_radiation_at dp dn (GDate d) #sc method epoch_year = Ok [#(sc / q ^ 2)]).
Proof.
  intros dp dn sc method ey dist r M.
  assert (V : forall q, q <> 0%R -> (#sc * (#1 / #q ^ 2))%fl = #(sc / q ^ 2)).
  { intros q Q. rewrite fpown_fin, fdiv_fin, fmul_fin by (apply pow_nonzero; exact Q). f_equal. field. exact Q. }
  repeat split.
  - intros times D. rewrite (on_instants _ _ (GIndex times) _ _ _ _ times M eq_refl). f_equal. apply map_ext_in. intros t I. destruct (D t I) as [-> Q]. apply V. exact Q.
  - intros t [D Q]. rewrite (on_instants _ _ (GStamp t) _ _ _ _ [t] M eq_refl). cbn [map]. rewrite D, V by exact Q. reflexivity.
  - intros d u q D Q. rewrite (on_instants _ _ (GDate d) _ _ _ _ [midnight_of d] M eq_refl). cbn [map utc_instant midnight_of offset wall].
    assert (U : (ordinal d - epoch_ordinal) * us_per_day = u) by (unfold u, epoch_ordinal, us_per_day; rewrite <- epoch_value; reflexivity). rewrite U, D, V by exact Q. reflexivity.
Qed.
Print Assumptions C183_distance_methods.
(** a number is the time that many days, to the nearest microsecond, after the last midnight of the year before epoch_year: whole numbers are the
    midnights of the days of epoch_year *)
Theorem C183_days : forall dp dn sc method epoch_year dist, by_distance method dp dn dist ->
  (forall x, exists u, (Rabs (IZR u - (IZR (ordinal (Date (epoch_year - 1) 12 31) - ordinal (Date 1970 1 1)) + x) * 86400000000) <= 1 / 2)%R /\
     get_extra_radiation_at dp dn (GDoy #x) sc method epoch_year = get_extra_radiation_at dp dn (GStamp (Dt u None)) sc method epoch_year) /\
  (forall d, valid_date d -> Calendar.yr d = epoch_year ->
     get_extra_radiation_at dp dn (GDoy #(IZR (day_of_year d))) sc method epoch_year = get_extra_radiation_at dp dn (GDate d) sc method epoch_year) /\
  (forall l, get_extra_radiation_at dp dn (GDoys l) sc method epoch_year =
     rmap (@List.concat fl) (mapM (fun x => get_extra_radiation_at dp dn (GDoy x) sc method epoch_year) l)).
Proof.
  intros dp dn sc method ey dist M. repeat split.
  - intros x. exists (wall (midnight_of (Date (ey - 1) 12 31)) + round_even (x * IZR us_per_day)). split.
    + cbn [midnight_of wall]. rewrite epoch_value. unfold epoch_ordinal, us_per_day. rewrite plus_IZR, mult_IZR.
      replace (IZR ((ordinal (Date (ey - 1) 12 31) - 719163)) * 86400000000 + IZR (round_even (x * 86400000000)) - (IZR (ordinal (Date (ey - 1) 12 31) - 719163) + x) * 86400000000)%R
        with (IZR (round_even (x * 86400000000)) - x * 86400000000)%R by ring. apply round_even_near.
    + set (u := wall _ + _). rewrite (on_instants _ _ (GStamp (Dt u None)) _ _ _ _ [Dt u None] M eq_refl), (on_instants _ _ (GDoy #x) _ _ _ _ [Dt u None] M eq_refl). reflexivity.
  - intros d V Y. rewrite (on_instants _ _ (GDate d) _ _ _ _ [midnight_of d] M eq_refl), (on_instants _ _ (GDoy #(IZR (day_of_year d))) _ _ _ _
      [Dt ((ordinal (Date (ey - 1) 12 31) - epoch_ordinal) * us_per_day + round_even (IZR (day_of_year d) * IZR us_per_day)) None] M eq_refl). cbn [map utc_instant offset wall midnight_of].
    replace ((ordinal (Date (ey - 1) 12 31) - epoch_ordinal) * us_per_day + round_even (IZR (day_of_year d) * IZR us_per_day)) with ((ordinal d - epoch_ordinal) * us_per_day); [reflexivity|].
    rewrite <- mult_IZR, round_even_IZR. rewrite (ordinal_doy d), (ordinal_doy (Date (ey - 1) 12 31)), Y. cbn [Calendar.yr].
    pose proof (days_before_year_succ (ey - 1)) as B. replace (ey - 1 + 1) with ey in B by lia.
    assert (D : day_of_year (Date (ey - 1) 12 31) = days_in_year (ey - 1)) by (rewrite <- (december (ey - 1)); reflexivity). rewrite D. lia.
  - intros l. destruct M as [[M ->] | [M ->]]; unfold get_extra_radiation_at; rewrite M; cbn [String.eqb Ascii.eqb Bool.eqb to_datetimeindex];
    (induction l as [|x l IH]; [reflexivity|]; cbn [mapM]; destruct (doy_to_datetime ey x) as [t|e]; cbn [bind rmap]; [|reflexivity];
     destruct (mapM (doy_to_datetime ey) l) as [ts|e]; cbn [bind rmap] in IH |- *; 
     [destruct (mapM _ l) as [o|]; cbn [rmap bind] in IH |- *; [injection IH as IH; cbn [rmap List.concat app earthsun_distance map]; rewrite <- IH; reflexivity|discriminate IH]
     |destruct (mapM _ l) as [o|]; cbn [rmap bind] in IH |- *; [discriminate IH|exact IH]]).
Qed.
Print Assumptions C183_days.
(** exactly these inputs fail: an unknown method, and with the two distance methods a number that is not finite (ValueError for nan, OverflowError) *)
Theorem C183_errors : forall dp dn g sc method epoch_year e,
  get_extra_radiation_at dp dn g sc method epoch_year = Err e <->
  (e = ValueError /\ ~ In (lower method) ["asce"; "spencer"; "pyephem"; "nrel"]%string) \/
  (In (lower method) ["pyephem"; "nrel"]%string /\ exists pre x post,
     match g with GDoy y => [y] | GDoys l => l | _ => [] end = pre ++ x :: post /\ (forall y, In y pre -> exists r, y = #r) /\
     ((x = NaN /\ e = ValueError) \/ ((x = PInf \/ x = NInf) /\ e = OverflowError))).
Proof.
  intros dp dn g sc method ey e.
  assert (ME : forall l, mapM (doy_to_datetime ey) l = Err e <-> exists pre x post, l = pre ++ x :: post /\ (forall y, In y pre -> exists r, y = #r) /\
     ((x = NaN /\ e = ValueError) \/ ((x = PInf \/ x = NInf) /\ e = OverflowError))).
  { induction l as [|x l IH].
    - cbn [mapM]. split; [discriminate|]. intros ([|? ?] & ? & ? & E & _); discriminate E.
    - assert (T : (exists r, x = #r) \/ (exists e', doy_to_datetime ey x = Err e' /\ ((x = NaN /\ e' = ValueError) \/ ((x = PInf \/ x = NInf) /\ e' = OverflowError)))).
      { destruct x as [r| | |]; [left; eauto|right; eexists; split; [reflexivity|auto]..]. }
      cbn [mapM]. destruct T as [[r ->]|(e' & E & K)].
      + cbn [doy_to_datetime bind]. transitivity (mapM (doy_to_datetime ey) l = Err e).
        * destruct (mapM (doy_to_datetime ey) l); cbn [bind]; split; intros H; try discriminate H; exact H.
        * rewrite IH. split.
          -- intros (pre & x & post & -> & P & K). exists (#r :: pre), x, post. split; [reflexivity|]. split; [|exact K]. intros y [<-|I]; [eauto|apply P; exact I].
          -- intros ([|y pre] & x & post & E & P & K); cbn [app] in E; injection E as E1 E2; [subst x; destruct K as [[K _]|[[K|K] _]]; discriminate K|]. exists pre, x, post.
             split; [exact E2|]. split; [|exact K]. intros z I. apply P. right. exact I.
      + rewrite E. cbn [bind]. split.
        * intros H. injection H as <-. exists [], x, l. split; [reflexivity|]. split; [intros y []|exact K].
        * intros ([|y pre] & x' & post & E' & P & K'); cbn [app] in E'; injection E' as E1 E2; subst.
          -- f_equal. destruct K as [[-> ->]|[[-> | ->] ->]]; destruct K' as [[K' ->]|[[K'|K'] ->]]; try discriminate K'; reflexivity.
          -- destruct (P y (or_introl eq_refl)) as [r ->]. destruct K as [[K _]|[[K|K] _]]; discriminate K. }
  assert (TD : to_datetimeindex ey g = Err e <-> exists pre x post, match g with GDoy y => [y] | GDoys l => l | _ => [] end = pre ++ x :: post /\ (forall y, In y pre -> exists r, y = #r) /\
     ((x = NaN /\ e = ValueError) \/ ((x = PInf \/ x = NInf) /\ e = OverflowError))).
  { destruct g; cbn [to_datetimeindex]; try apply ME; (split; [discriminate|intros ([|? ?] & ? & ? & E & _); discriminate E]). }
  rewrite <- TD. clear ME TD. unfold get_extra_radiation_at. cbn [In].
  destruct (String.eqb_spec (lower method) "asce") as [E1|E1]; [rewrite E1; split; [discriminate|intros [[_ H]|[H _]]; [exfalso; auto|exfalso; intuition discriminate]]|].
  destruct (String.eqb_spec (lower method) "spencer") as [E2|E2]; [rewrite E2; split; [discriminate|intros [[_ H]|[H _]]; [exfalso; auto|exfalso; intuition discriminate]]|].
  destruct (String.eqb_spec (lower method) "pyephem") as [E3|E3].
  { rewrite E3. destruct (to_datetimeindex ey g) as [t|e']; cbn [bind]; split; intros H; try discriminate H; [destruct H as [[_ H]|[_ H]]; [exfalso; auto 6|discriminate H]|right; split; [auto|congruence]|destruct H as [[_ H]|[_ H]]; [exfalso; auto 6|congruence]]. }
  destruct (String.eqb_spec (lower method) "nrel") as [E4|E4].
  { rewrite E4. destruct (to_datetimeindex ey g) as [t|e']; cbn [bind]; split; intros H; try discriminate H; [destruct H as [[_ H]|[_ H]]; [exfalso; auto 6|discriminate H]|right; split; [auto|congruence]|destruct H as [[_ H]|[_ H]]; [exfalso; auto 6|congruence]]. }
  split; [intros H; injection H as <-; left; split; [reflexivity|]; intuition congruence|]. intros [[-> _]|[H _]]; [reflexivity|exfalso; intuition congruence].
Qed.
Print Assumptions C183_errors.
(** 1 January, 9 o'clock in Denver (UTC-7), is on 1 January in UTC, 18 o'clock on 2 January: two values on one local day, so the day of the year is
    not that of the local date *)
Theorem C183_local_day_refuted : exists t1 t2 d, offset t1 = offset t2 /\ on_date (Dt (wall t1) None) d /\ on_date (Dt (wall t2) None) d /\
  forall dp dn, get_extra_radiation_at dp dn (GStamp t1) #1366.1 "asce" 2014 <> get_extra_radiation_at dp dn (GStamp t2) #1366.1 "asce" 2014.
Proof.
  set (d := Date 2014 1 1). set (n := (ordinal d - ordinal (Date 1970 1 1)) * 86400000000).
  exists (Dt (n + 9 * 3600000000) (Some (-7 * 3600000000))), (Dt (n + 18 * 3600000000) (Some (-7 * 3600000000))), d.
  assert (N : n = (ordinal d - ordinal (Date 1970 1 1)) * 86400000000) by reflexivity. clearbody n.
  assert (V : valid_date d) by (unfold valid_date, d; cbn; lia). assert (V2 : valid_date (Date 2014 1 2)) by (unfold valid_date; cbn; lia).
  assert (O2 : ordinal (Date 2014 1 2) = ordinal d + 1) by reflexivity.
  split; [reflexivity|]. split; [split; [exact V|cbn [offset wall]; lia]|]. split; [split; [exact V|cbn [offset wall]; lia]|].
  intros dp dn. assert (F : simple "asce" asce) by (left; auto).
  rewrite (proj1 (proj2 (C183_simple_methods dp dn 1366.1 "asce" 2014 asce F)) _ d) by (split; [exact V|cbn [offset wall]; lia]).
  rewrite (proj1 (proj2 (C183_simple_methods dp dn 1366.1 "asce" 2014 asce F)) _ (Date 2014 1 2)) by (split; [exact V2|cbn [offset wall]; lia]).
  change (day_of_year d) with 1. change (day_of_year (Date 2014 1 2)) with 2. intros H. injection H as H. unfold asce in H.
  assert (B : (cos (2 * PI * 2 / 365) < cos (2 * PI * 1 / 365))%R) by (pose proof PI_RGT_0; apply cos_decreasing_1; lra).
  lra.
Qed.
Print Assumptions C183_local_day_refuted.
Example C183_nonvacuous : on_date (Dt (wall (midnight_of (Date 2024 12 31)) + 3600000000) (Some (-7 * 3600000000))) (Date 2024 12 31) /\ day_of_year (Date 2024 12 31) = 366 /\
  simple "Spencer" spencer.
Proof.
  assert (W : wall (midnight_of (Date 2024 12 31)) = (ordinal (Date 2024 12 31) - ordinal (Date 1970 1 1)) * 86400000000) by (vm_compute; reflexivity).
  split; [split; [unfold valid_date; vm_compute; intuition discriminate|cbn [offset wall]; rewrite W; lia]|]. split; [reflexivity|right; split; reflexivity].
Qed.

(** ** C184 *)
(** a date of PyEphem, in days since 1899-12-31T12:00 UTC, denotes the instant (microseconds since 1970) *)
Definition instant_of_date (date : R) : R := ((date - (IZR (ordinal (Date 1970 1 1) - ordinal (Date 1899 12 31)) - 1 / 2)) * 86400000000)%R.
Lemma date_epoch : IZR (ordinal (Date 1970 1 1) - ordinal (Date 1899 12 31)) = 25568%R.
Proof. assert (E : ordinal (Date 1970 1 1) - ordinal (Date 1899 12 31) = 25568) by (vm_compute; reflexivity). rewrite E. reflexivity. Qed.
(** the observer PyEphem is given: pressures in millibar *)
Definition site (latitude longitude altitude pressure temperature : fl) (horizon : string) (obs : observer) : Prop :=
  obs_lat obs = latitude /\ obs_lon obs = longitude /\ obs_elevation obs = altitude /\ obs_pressure obs = (pressure / #100)%fl /\ obs_temp obs = temperature /\ obs_horizon obs = horizon.
Lemma to_timezone date z : (Rabs (IZR (utc_instant (ephem_to_timezone date z)) - instant_of_date date) <= 1 / 2)%R.
Proof.
  unfold ephem_to_timezone, ephem_to_seconds. set (u := round_even (24 * 60 * 60 * 1000000 * date)). cbn [utc_instant offset wall].
  replace ((u / 1000000 - 2209032000) * 1000000 + z ((u / 1000000 - 2209032000) * 1000000) + u mod 1000000 - z ((u / 1000000 - 2209032000) * 1000000))
    with (u - 2209032000000000) by (pose proof (Z.div_mod u 1000000); lia).
  unfold instant_of_date. rewrite date_epoch, minus_IZR. replace (IZR u - 2209032000000000 - (date - (25568 - 1 / 2)) * 86400000000)%R with (IZR u - 24 * 60 * 60 * 1000000 * date)%R by field.
  unfold u. apply round_even_near.
Qed.
Lemma date_of t : instant_of_date (ephem_date t) = IZR (utc_instant t).
Proof.
  unfold ephem_date, instant_of_date, datetime_to_djd, djd_start, us_per_day. rewrite date_epoch.
  assert (U : utc_instant (pandas_to_utc t) = utc_instant t) by (destruct t as [w [o|]]; cbn [pandas_to_utc offset utc_instant wall]; lia). rewrite U.
  rewrite minus_IZR. assert (E : IZR (- (51135 * (86400000000 / 2))) = (- 2209032000000000)%R) by reflexivity. rewrite E. field.
Qed.
(** the event of PyEphem reported for a time: the library is asked, for the site, at the time's instant, and its answer is given to the nearest
    microsecond in the zone of the times *)
Definition reports (find : observer -> event -> R -> res R) (obs : observer) (z : Tools.zone) (t : datetime) (ev : event) (out : datetime) : Prop :=
  exists date answer, instant_of_date date = IZR (utc_instant t) /\ find obs ev date = Ok answer /\
    (Rabs (IZR (utc_instant out) - instant_of_date answer) <= 1 / 2)%R /\
    offset out = Some (z (utc_instant out / 1000000 * 1000000)).
Lemma reported find obs z t ev answer : find obs ev (ephem_date t) = Ok answer -> reports find obs z t ev (ephem_to_timezone answer z).
Proof.
  intros F. exists (ephem_date t), answer. split; [apply date_of|]. split; [exact F|]. split; [apply to_timezone|].
  unfold ephem_to_timezone, ephem_to_seconds. set (u := round_even _). cbn [utc_instant offset wall]. f_equal. f_equal.
  pose proof (Z.mod_pos_bound u 1000000 ltac:(lia)). set (s := u / 1000000 - 2209032000). set (m := u mod 1000000) in *. clearbody s m. set (o := z (s * 1000000)). clearbody o.
  Z.to_euclidean_division_equations; lia.
Qed.
Definition direction (E : ephem) (next_or_previous : string) (find : observer -> event -> R -> res R) : Prop :=
  (lower next_or_previous = "next"%string /\ find = next_event E) \/ (lower next_or_previous = "previous"%string /\ find = previous_event E).
Theorem C184_events : forall E z times latitude longitude next_or_previous altitude pressure temperature horizon out,
  sun_rise_set_transit_ephem E (Some z) times latitude longitude next_or_previous altitude pressure temperature horizon = Ok out ->
  exists find obs, direction E next_or_previous find /\ site latitude longitude altitude pressure temperature horizon obs /\
    Forall2 (fun t o => reports find obs z t Rising (fst (fst o)) /\ reports find obs z t Setting (snd (fst o)) /\ reports find obs z t Transit (snd o)) times out.
Proof.
  intros E z times latitude longitude np altitude pressure temperature horizon out. unfold sun_rise_set_transit_ephem.
  set (obs := ephem_setup latitude longitude altitude pressure temperature horizon). assert (S1 : site latitude longitude altitude pressure temperature horizon obs) by (repeat split).
  clearbody obs.
  assert (G : forall find, mapM (fun t => let date := ephem_date t in let* sunrise := find obs Rising date in let* sunset := find obs Setting date in
      let* transit := find obs Transit date in Ok (ephem_to_timezone sunrise z, ephem_to_timezone sunset z, ephem_to_timezone transit z)) times = Ok out ->
    Forall2 (fun t o => reports find obs z t Rising (fst (fst o)) /\ reports find obs z t Setting (snd (fst o)) /\ reports find obs z t Transit (snd o)) times out).
  { intros find. revert out. induction times as [|t times IH]; intros out H; cbn [mapM] in H; [injection H as <-; constructor|].
    cbv zeta in H. destruct (find obs Rising (ephem_date t)) as [a|] eqn:F1; [|discriminate H]. destruct (find obs Setting (ephem_date t)) as [b|] eqn:F2; [|discriminate H].
    destruct (find obs Transit (ephem_date t)) as [c|] eqn:F3; [|discriminate H]. cbn [bind] in H. destruct (mapM _ times) as [os|] eqn:M; [|discriminate H]. cbn [bind] in H. injection H as <-.
    constructor; [|apply IH; reflexivity]. cbn [fst snd]. repeat split; apply reported; assumption. }
  destruct (String.eqb_spec (lower np) "next") as [N|N]; [intros H; exists (next_event E), obs; split; [left; auto|split; [exact S1|apply G; exact H]]|].
  destruct (String.eqb_spec (lower np) "previous") as [P|P]; [intros H; exists (previous_event E), obs; split; [right; auto|split; [exact S1|apply G; exact H]]|].
  discriminate.
Qed.
Print Assumptions C184_events.
(** ValueError for times without a zone or another word; otherwise the only errors are the library's (the sun that does not rise), the first one *)
Theorem C184_errors : forall E tz times latitude longitude next_or_previous altitude pressure temperature horizon e,
  sun_rise_set_transit_ephem E tz times latitude longitude next_or_previous altitude pressure temperature horizon = Err e <->
  (e = ValueError /\ (tz = None \/ forall find, ~ direction E next_or_previous find)) \/
  (exists z find obs pre t post ev date, tz = Some z /\ direction E next_or_previous find /\ site latitude longitude altitude pressure temperature horizon obs /\
     times = pre ++ t :: post /\ (forall t' ev', In t' pre -> exists d a, instant_of_date d = IZR (utc_instant t') /\ find obs ev' d = Ok a) /\
     instant_of_date date = IZR (utc_instant t) /\ find obs ev date = Err e /\
     forall ev', match ev, ev' with Setting, Rising | Transit, Rising | Transit, Setting => exists a, find obs ev' date = Ok a | _, _ => True end).
Proof.
  intros E tz times latitude longitude np altitude pressure temperature horizon e. unfold sun_rise_set_transit_ephem.
  destruct tz as [z|]; [|split; [intros H; injection H as <-; auto|intros [[-> _]|(z & ? & ? & ? & ? & ? & ? & ? & H & _)]; [reflexivity|discriminate H]]].
  set (obs := ephem_setup latitude longitude altitude pressure temperature horizon). assert (S1 : site latitude longitude altitude pressure temperature horizon obs) by (repeat split).
  assert (S2 : forall o, site latitude longitude altitude pressure temperature horizon o -> o = obs).
  { intros [a b c d f g] (H1 & H2 & H3 & H4 & H5 & H6). cbn in *. subst. reflexivity. }
  clearbody obs.
  assert (DI : forall d t, instant_of_date d = IZR (utc_instant t) -> d = ephem_date t).
  { intros d t H. rewrite <- date_of in H. unfold instant_of_date in H. lra. }
  assert (G : forall find, direction E np find -> (mapM (fun t => let date := ephem_date t in let* sunrise := find obs Rising date in let* sunset := find obs Setting date in
      let* transit := find obs Transit date in Ok (ephem_to_timezone sunrise z, ephem_to_timezone sunset z, ephem_to_timezone transit z)) times = Err e <->
    exists pre t post ev date, times = pre ++ t :: post /\ (forall t' ev', In t' pre -> exists d a, instant_of_date d = IZR (utc_instant t') /\ find obs ev' d = Ok a) /\
     instant_of_date date = IZR (utc_instant t) /\ find obs ev date = Err e /\
     forall ev', match ev, ev' with Setting, Rising | Transit, Rising | Transit, Setting => exists a, find obs ev' date = Ok a | _, _ => True end)).
  { intros find _. induction times as [|t times IH].
    { cbn [mapM]. split; [discriminate|]. intros ([|? ?] & ? & ? & ? & ? & H & _); discriminate H. }
    cbn [mapM]. cbv zeta.
    assert (first : (exists ev, find obs ev (ephem_date t) = Err e /\ forall ev', match ev, ev' with Setting, Rising | Transit, Rising | Transit, Setting => exists a, find obs ev' (ephem_date t) = Ok a | _, _ => True end) ->
      exists pre t0 post ev date, t :: times = pre ++ t0 :: post /\ (forall t' ev', In t' pre -> exists d a, instant_of_date d = IZR (utc_instant t') /\ find obs ev' d = Ok a) /\
       instant_of_date date = IZR (utc_instant t0) /\ find obs ev date = Err e /\
       forall ev', match ev, ev' with Setting, Rising | Transit, Rising | Transit, Setting => exists a, find obs ev' date = Ok a | _, _ => True end).
    { intros (ev & H1 & H2). exists [], t, times, ev, (ephem_date t). split; [reflexivity|]. split; [intros t' ev' []|]. split; [apply date_of|]. split; assumption. }
    destruct (find obs Rising (ephem_date t)) as [a|e1] eqn:F1; cbn [bind].
    2:{ split; [intros H; injection H as ->; apply first; exists Rising; split; [exact F1|intros []; exact I]|].
        intros ([|t0 pre] & t1 & post & ev & date & H & P & D & F & Q); cbn [app] in H; injection H as -> H.
        - apply DI in D. subst date. destruct ev; [congruence|destruct (Q Rising); congruence|destruct (Q Rising); congruence].
        - destruct (P t0 Rising (or_introl eq_refl)) as (d & a & D' & F'). apply DI in D'. congruence. }
    destruct (find obs Setting (ephem_date t)) as [b|e1] eqn:F2; cbn [bind].
    2:{ split; [intros H; injection H as ->; apply first; exists Setting; split; [exact F2|intros []; try exact I; eauto]|].
        intros ([|t0 pre] & t1 & post & ev & date & H & P & D & F & Q); cbn [app] in H; injection H as -> H.
        - apply DI in D. subst date. destruct ev; [congruence|congruence|destruct (Q Setting); congruence].
        - destruct (P t0 Setting (or_introl eq_refl)) as (d & a' & D' & F'). apply DI in D'. congruence. }
    destruct (find obs Transit (ephem_date t)) as [c|e1] eqn:F3; cbn [bind].
    2:{ split; [intros H; injection H as ->; apply first; exists Transit; split; [exact F3|intros []; try exact I; eauto]|].
        intros ([|t0 pre] & t1 & post & ev & date & H & P & D & F & Q); cbn [app] in H; injection H as -> H.
        - apply DI in D. subst date. destruct ev; congruence.
        - destruct (P t0 Transit (or_introl eq_refl)) as (d & a' & D' & F'). apply DI in D'. congruence. }
    destruct (mapM _ times) as [os|e'] eqn:M; cbn [bind].
    - split; [discriminate|]. intros ([|t0 pre] & t1 & post & ev & date & H & P & D & F & Q); cbn [app] in H; injection H as -> H.
      + apply DI in D. subst date. destruct ev; congruence.
      + exfalso. assert (X : Ok os = Err e) by (apply IH; exists pre, t1, post, ev, date; split; [exact H|]; split; [intros t' ev' H'; apply P; right; exact H'|auto]). discriminate X.
    - transitivity (@Err (list (datetime * datetime * datetime)) e' = Err e); [split; intros H; injection H as ->; reflexivity|]. rewrite IH. split.
      + intros (pre & t1 & post & ev & date & -> & P & D & F & Q). exists (t :: pre), t1, post, ev, date. split; [reflexivity|]. split; [|auto].
        intros t' ev' [<-|H']; [exists (ephem_date t); destruct ev'; eexists; (split; [apply date_of|eassumption])|apply P; exact H'].
      + intros ([|t0 pre] & t1 & post & ev & date & H & P & D & F & Q); cbn [app] in H; injection H as -> H.
        * exfalso. apply DI in D. subst date. destruct ev; congruence.
        * exists pre, t1, post, ev, date. split; [exact H|]. split; [intros t' ev' H'; apply P; right; exact H'|auto]. }
  assert (DU : forall f g, direction E np f -> direction E np g -> f = g) by (intros f g [[A ->] | [A ->]] [[B ->] | [B ->]]; try reflexivity; rewrite A in B; discriminate B).
  assert (CASES : (exists find, direction E np find /\ (if String.eqb (lower np) "next" then Ok (next_event E) else if String.eqb (lower np) "previous" then Ok (previous_event E) else Err ValueError) = Ok find)
     \/ ((forall find, ~ direction E np find) /\ (if String.eqb (lower np) "next" then Ok (next_event E) else if String.eqb (lower np) "previous" then Ok (previous_event E) else Err ValueError) = Err ValueError)).
  { unfold direction. destruct (String.eqb_spec (lower np) "next"); [left; eexists; split; [left; split; [eassumption|reflexivity]|reflexivity]|].
    destruct (String.eqb_spec (lower np) "previous"); [left; eexists; split; [right; split; [eassumption|reflexivity]|reflexivity]|]. right. split; [|reflexivity]. intros f [[H _]|[H _]]; contradiction. }
  destruct CASES as [(find & D & ->)|(D & ->)]; cbn [bind].
  - rewrite (G find D). split.
    + intros (pre & t & post & ev & date & H). right. exists z, find, obs, pre, t, post, ev, date. tauto.
    + intros [(-> & [H|H])|(z' & f & o & pre & t & post & ev & date & Hz & Df & So & H)]; [discriminate H|exfalso; apply (H find); exact D|].
      rewrite (DU f find Df D) in H. rewrite (S2 o So) in H. exists pre, t, post, ev, date. exact H.
  - split; [intros H; injection H as <-; auto|]. intros [[-> _]|(z' & f & o & pre & t & post & ev & date & Hz & Df & _)]; [reflexivity|]. exfalso. apply (D f). exact Df.
Qed.
Print Assumptions C184_errors.
Lemma Ok_eq {A} (a b : A) : Ok a = Ok b -> a = b.
Proof. congruence. Qed.
(** scipy's brentq, as documented: a value in the interval within the tolerances of a root of a continuous function, ValueError without a sign
    change or for a tolerance that is not positive, and an exception of the function at the first end is passed on *)
Record brentq_contract (brentq : (R -> res R) -> R -> R -> R -> res R) : Prop := {
  bq_root : forall f F a b xtol r, (a <= b)%R -> (forall x, a <= x <= b -> f x = Ok (F x))%R -> (forall x, a <= x <= b -> continuity_pt F x)%R -> brentq f a b xtol = Ok r ->
    (a <= r <= b)%R /\ exists x, (a <= x <= b /\ F x = 0 /\ Rabs (r - x) <= xtol + 4 / 2 ^ 52 * Rabs r)%R;
  bq_sign : forall f u v a b xtol, f a = Ok u -> f b = Ok v -> (0 < u * v)%R -> brentq f a b xtol = Err ValueError;
  bq_raise : forall f a b xtol e, (0 < xtol)%R -> f a = Err e -> brentq f a b xtol = Err e;
  bq_xtol : forall f a b xtol, (xtol <= 0)%R -> brentq f a b xtol = Err ValueError }.
Lemma instant_mono a b : (a <= b <-> instant_of_date a <= instant_of_date b)%R.
Proof. unfold instant_of_date. split; intros; lra. Qed.
Lemma djd_date t : instant_of_date (datetime_to_djd t) = IZR (utc_instant t).
Proof.
  unfold instant_of_date, datetime_to_djd, djd_start, us_per_day. rewrite date_epoch, minus_IZR.
  assert (E : IZR (- (51135 * (86400000000 / 2))) = (- 2209032000000000)%R) by reflexivity. rewrite E. field.
Qed.
(** the time found is in UTC, between the bounds, and within the tolerances (in days; plus half a microsecond) of a time between the bounds at which
    the attribute has the value; ValueError if the attribute is on the same side of the value at both bounds; what PyEphem raises is passed on *)
Theorem C184_calc_time : forall brentq E lower upper latitude longitude attribute value altitude pressure temperature horizon xtol F obs,
  brentq_contract brentq -> site latitude longitude altitude pressure temperature horizon obs -> utc_instant lower <= utc_instant upper ->
  (forall date, IZR (utc_instant lower) <= instant_of_date date <= IZR (utc_instant upper) -> sun_attribute E obs attribute date = Ok (F (instant_of_date date)))%R ->
  (forall u, IZR (utc_instant lower) <= u <= IZR (utc_instant upper) -> continuity_pt F u)%R ->
  let answer := calc_time brentq E lower upper latitude longitude attribute value altitude pressure temperature horizon xtol in
  (forall t, answer = Ok t -> offset t = Some 0 /\ utc_instant lower <= utc_instant t <= utc_instant upper /\
     exists u, (IZR (utc_instant lower) <= u <= IZR (utc_instant upper) /\ F u = value /\
       exists date, IZR (utc_instant lower) <= instant_of_date date <= IZR (utc_instant upper) /\
         Rabs (IZR (utc_instant t) - u) <= (xtol + 4 / 2 ^ 52 * Rabs date) * 86400000000 + 1 / 2)%R) /\
  ((0 < (F (IZR (utc_instant lower)) - value) * (F (IZR (utc_instant upper)) - value))%R \/ (xtol <= 0)%R -> answer = Err ValueError).
Proof.
  intros brentq E lower upper latitude longitude attribute value altitude pressure temperature horizon xtol F obs C S0 LU A K answer.
  assert (O : ephem_setup latitude longitude altitude pressure temperature horizon = obs).
  { destruct obs as [a b c d f g]. destruct S0 as (H1 & H2 & H3 & H4 & H5 & H6). cbn in *. subst. reflexivity. }
  assert (LE : (datetime_to_djd lower <= datetime_to_djd upper)%R) by (apply instant_mono; rewrite !djd_date; apply IZR_le; exact LU).
  unfold answer, calc_time. rewrite O.
  set (f := fun date => let* v := sun_attribute E obs attribute date in Ok (v - value)%R).
  assert (FF : forall x, (datetime_to_djd lower <= x <= datetime_to_djd upper)%R -> f x = Ok (F (instant_of_date x) - value)%R).
  { intros x [X1 X2]. apply instant_mono in X1, X2. rewrite djd_date in X1, X2. unfold f. rewrite A by lra. reflexivity. }
  split.
  - intros t. destruct (brentq f _ _ xtol) as [r|] eqn:B; [|discriminate]. cbn [bind]. intros H. apply Ok_eq in H.
    destruct (bq_root _ C f (fun x => F (instant_of_date x) - value)%R _ _ xtol r LE FF) as ([R1 R2] & x & X & ZE & D).
    { intros x [X1 X2]. apply continuity_pt_minus; [|apply continuity_pt_const; intros ? ?; reflexivity].
      apply (continuity_pt_comp instant_of_date F); [apply derivable_continuous_pt; unfold instant_of_date; reg|]. apply instant_mono in X1, X2. rewrite djd_date in X1, X2. apply K. lra. }
    { exact B. }
    subst t. cbn [djd_to_datetime utc_instant offset wall utc]. split; [reflexivity|].
    assert (T : forall q : Z, (q + 0 - 0)%Z = q) by (intros; lia). rewrite T. clear T.
    set (m := djd_start + round_even (r * IZR us_per_day)).
    assert (M : (Rabs (IZR m - instant_of_date r) <= 1 / 2)%R).
    { unfold m, djd_start, us_per_day. rewrite plus_IZR. assert (EE : IZR (- (51135 * (86400000000 / 2))) = (- 2209032000000000)%R) by reflexivity. rewrite EE.
      unfold instant_of_date. rewrite date_epoch. replace (- 2209032000000000 + IZR (round_even (r * 86400000000)) - (r - (25568 - 1 / 2)) * 86400000000)%R
        with (IZR (round_even (r * 86400000000)) - r * 86400000000)%R by field. apply round_even_near. }
    apply instant_mono in R1, R2. rewrite djd_date in R1, R2. split.
    { assert (M2 : (- (1 / 2) <= IZR m - instant_of_date r <= 1 / 2)%R) by (unfold Rabs in M; destruct (Rcase_abs _); lra). split; apply Z.lt_succ_r; apply lt_IZR; unfold Z.succ; rewrite plus_IZR; lra. }
    exists (instant_of_date x). destruct X as [X1 X2]. apply instant_mono in X1, X2. rewrite djd_date in X1, X2. split; [lra|]. split; [lra|].
    exists r. split; [lra|]. apply Rle_trans with (Rabs (IZR m - instant_of_date r) + Rabs (instant_of_date r - instant_of_date x))%R.
    { replace (IZR m - instant_of_date x)%R with ((IZR m - instant_of_date r) + (instant_of_date r - instant_of_date x))%R by ring. apply Rabs_triang. }
    assert (Q : Rabs (instant_of_date r - instant_of_date x) = (Rabs (r - x) * 86400000000)%R).
    { unfold instant_of_date. replace ((r - (IZR (ordinal (Date 1970 1 1) - ordinal (Date 1899 12 31)) - 1 / 2)) * 86400000000 - (x - (IZR (ordinal (Date 1970 1 1) - ordinal (Date 1899 12 31)) - 1 / 2)) * 86400000000)%R
        with ((r - x) * 86400000000)%R by ring. rewrite Rabs_mult, (Rabs_pos_eq 86400000000) by lra. reflexivity. }
    rewrite Q. lra.
  - intros [H|H]; [|rewrite (bq_xtol _ C) by exact H; reflexivity]. rewrite (bq_sign _ C f (F (IZR (utc_instant lower)) - value) (F (IZR (utc_instant upper)) - value)); [reflexivity| | |exact H];
    rewrite FF by lra; rewrite djd_date; reflexivity.
Qed.
Print Assumptions C184_calc_time.
Theorem C184_calc_time_raises : forall brentq E lower upper latitude longitude attribute value altitude pressure temperature horizon xtol obs e,
  brentq_contract brentq -> site latitude longitude altitude pressure temperature horizon obs -> (0 < xtol)%R ->
  (forall date, instant_of_date date = IZR (utc_instant lower) -> sun_attribute E obs attribute date = Err e) ->
  calc_time brentq E lower upper latitude longitude attribute value altitude pressure temperature horizon xtol = Err e.
Proof.
  intros brentq E lower upper latitude longitude attribute value altitude pressure temperature horizon xtol obs e C S0 X0 A.
  assert (O : ephem_setup latitude longitude altitude pressure temperature horizon = obs).
  { destruct obs as [a b c d f g]. destruct S0 as (H1 & H2 & H3 & H4 & H5 & H6). cbn in *. subst. reflexivity. }
  unfold calc_time. rewrite O. rewrite (bq_raise _ C _ _ _ _ e X0); [reflexivity|]. rewrite A by apply djd_date. reflexivity.
Qed.
Print Assumptions C184_calc_time_raises.
(** a solver that only tries the ends meets the contract; a sun that climbs at one degree a day *)
Definition brentq_ends (f : R -> res R) (a b xtol : R) : res R :=
  if Rle_dec xtol 0 then Err ValueError else
  match f a with
  | Err e => Err e
  | Ok u => match f b with Err e => Err e | Ok v =>
      if Req_EM_T u 0 then Ok a else if Req_EM_T v 0 then Ok b else if Rlt_dec 0 (u * v) then Err ValueError else Err RuntimeError end
  end.
Lemma brentq_ends_contract : brentq_contract brentq_ends.
Proof.
  constructor; unfold brentq_ends.
  - intros f F a b xtol r LE H K. destruct (Rle_dec xtol 0) as [|X]; [discriminate|]. rewrite !H by lra.
    pose proof (Rabs_pos r). assert (Q : (0 <= xtol + 4 / 2 ^ 52 * Rabs r)%R) by (apply Rnot_le_lt in X; assert (0 <= 4 / 2 ^ 52 * Rabs r)%R by (apply Rmult_le_pos; [|assumption]; lra); lra).
    assert (D : forall x, Rabs (x - x) = 0%R) by (intros x; rewrite Rminus_diag_eq, Rabs_R0 by reflexivity; reflexivity).
    destruct (Req_EM_T (F a) 0) as [A|A]; [|destruct (Req_EM_T (F b) 0) as [B|B]; [|destruct (Rlt_dec _ _); discriminate]];
    intros R0; apply Ok_eq in R0; subst r; (split; [lra|]); eexists; (split; [|split; [eassumption|rewrite D; exact Q]]); lra.
  - intros f u v a b xtol A B P. destruct (Rle_dec xtol 0); [reflexivity|]. rewrite A, B. destruct (Req_EM_T u 0) as [E|]; [subst u; lra|].
    destruct (Req_EM_T v 0) as [E|]; [subst v; lra|]. destruct (Rlt_dec 0 (u * v)); [reflexivity|contradiction].
  - intros f a b xtol e X A. destruct (Rle_dec xtol 0); [lra|]. rewrite A. reflexivity.
  - intros f a b xtol X. destruct (Rle_dec xtol 0); [reflexivity|contradiction].
Qed.
Example C184_nonvacuous : brentq_contract brentq_ends /\
  exists E lower upper obs t, site #45 #(-120) #100 #101325 #12 "+0:00" obs /\ utc_instant lower < utc_instant upper /\
    (forall date, sun_attribute E obs "alt" date = Ok (instant_of_date date / 86400000000)%R) /\
    calc_time brentq_ends E lower upper #45 #(-120) "alt" 2 #100 #101325 #12 "+0:00" 1 = Ok t.
Proof.
  split; [exact brentq_ends_contract|].
  set (E := Ephem (fun _ _ d => Ok d) (fun _ _ d => Ok d) (fun _ _ date => Ok (instant_of_date date / 86400000000)%R)).
  exists E, (Dt (2 * 86400000000) (Some 0)), (Dt (3 * 86400000000) (Some 0)), (ephem_setup #45 #(-120) #100 #101325 #12 "+0:00"). eexists.
  split; [repeat split|]. split; [reflexivity|]. split; [reflexivity|].
  unfold calc_time, brentq_ends, E. cbn [sun_attribute bind]. destruct (Rle_dec 1 0) as [H|_]; [lra|]. rewrite !djd_date.
  destruct (Req_EM_T _ 0) as [_|N]; [cbn [bind]; reflexivity|]. exfalso. apply N. cbn [utc_instant wall offset]. replace (2 * 86400000000 - 0) with (2 * 86400000000) by lia. rewrite mult_IZR. lra.
Qed.
