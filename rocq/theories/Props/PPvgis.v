(** C158-C161: PVGIS *)
From Verif Require Import Base.Fl Base.Py Base.PyStr Base.FlFacts Base.Calendar Base.Strptime Model.Bsrn Model.Tmy Model.Pvgis Model.Stations Props.PTmy Props.PStations Props.PBsrn.
From Coq Require Import Reals List String Ascii Bool ZArith Lia Lra.
Import ListNotations.
Open Scope list_scope.
Open Scope Z_scope.

(** ** C158 *)
(** the UTC instant of a row, its year replaced *)
Definition utc_in (year : Z) {A} (r : row A) : Z := instant (Date year (mo (r_date r)) (dy (r_date r))) (r_hour r) (r_min r).
Definition day_exists (year : Z) {A} (r : row A) : Prop := valid_date (Date year (mo (r_date r)) (dy (r_date r))).
Definition offset_of (tz : option Z) : Z := match tz with Some t => t | None => 0 end.

Lemma roll_length {A} k (l : list A) : List.length (roll k l) = List.length l.
Proof. destruct l as [|x l]; [reflexivity|]. unfold roll. rewrite map_length, seq_length. reflexivity. Qed.
Lemma roll_nth {A} k (l : list A) i : (i < List.length l)%nat -> nth_error (roll k l) i = nth_error l (Z.to_nat ((Z.of_nat i - k) mod Z.of_nat (List.length l))).
Proof.
  intros H. destruct l as [|x l]; [cbn in H; lia|]. unfold roll. set (n := Z.of_nat (List.length (x :: l))). assert (N : 0 < n) by (subst n; cbn; lia).
  rewrite nth_error_map. rewrite (nth_error_nth' (seq 0 (List.length (x :: l))) 0%nat) by (rewrite seq_length; exact H). rewrite seq_nth by exact H. cbn [option_map plus].
  symmetry. apply nth_error_nth'. pose proof (Z.mod_pos_bound (Z.of_nat i - k) n N). subst n. lia.
Qed.
Lemma replaced_spec {A} year off (r : row A) : (day_exists year r -> replaced year off r = Ok (utc_in year r - 60 * off)) /\ (~ day_exists year r -> replaced year off r = Err ValueError).
Proof. unfold replaced, day_exists, utc_in. pose proof (valid_dateb_spec (Date year (mo (r_date r)) (dy (r_date r)))). destruct (valid_dateb _); split; intros; try reflexivity; intuition discriminate. Qed.
Lemma replaced_all {A} year off (rows : list (row A)) : Forall (day_exists year) rows -> mapM (replaced year off) rows = Ok (map (fun r => utc_in year r - 60 * off) rows).
Proof. induction 1 as [|r rows H F IH]; [reflexivity|]. cbn [mapM map]. rewrite (proj1 (replaced_spec year off r) H). cbn [bind]. rewrite IH. reflexivity. Qed.
Lemma offset_ok tz : -12 <= tz <= 14 -> (if tz =? 0 then Ok 0 else etc_gmt tz) = Ok tz.
Proof. intros H. destruct (Z.eqb_spec tz 0) as [->|N]; [reflexivity|]. unfold etc_gmt. rewrite (proj2 (Z.leb_le _ _)), (proj2 (Z.leb_le _ _)) by lia. reflexivity. Qed.
Lemma nth_combine {A B} (a : list A) (b : list B) i x y : nth_error a i = Some x -> nth_error b i = Some y -> nth_error (combine a b) i = Some (x, y).
Proof. revert b i. induction a as [|u a IH]; intros [|v b] [|i]; cbn; try discriminate; [congruence|apply IH]. Qed.

Lemma nth_error_ext_local {A} (a b : list A) : (forall i, nth_error a i = nth_error b i) -> a = b.
Proof.
  revert b. induction a as [|x a IH]; intros [|y b] H; [reflexivity|specialize (H 0%nat); discriminate|specialize (H 0%nat); discriminate|].
  f_equal; [specialize (H 0%nat); cbn in H; congruence|]. apply IH. intros i. exact (H (S i)).
Qed.
(** row i carries the month, day, hour and minute of row i, read as local time of the zone, and the data of row i - tz *)
Theorem C158_rolled : forall A (rows : list (row A)) tz year, -12 <= offset_of tz <= 14 -> Forall (day_exists year) rows ->
  exists out, coerce_and_roll rows tz year = Ok out /\ List.length out = List.length rows /\
    forall i r, nth_error rows i = Some r ->
      exists s, nth_error rows (Z.to_nat ((Z.of_nat i - offset_of tz) mod Z.of_nat (List.length rows))) = Some s /\ nth_error out i = Some (utc_in year r - 60 * offset_of tz, r_data s).
Proof.
  intros A rows tz year H F. unfold coerce_and_roll. fold (offset_of tz). rewrite offset_ok by exact H. cbn [bind]. rewrite replaced_all by exact F. cbn [bind]. eexists. split; [reflexivity|].
  split; [rewrite combine_length, roll_length, !map_length; lia|]. intros i r E. assert (L : (i < List.length rows)%nat) by (apply nth_error_Some; congruence).
  set (j := Z.to_nat ((Z.of_nat i - offset_of tz) mod Z.of_nat (List.length rows))). assert (J : (j < List.length rows)%nat). { pose proof (Z.mod_pos_bound (Z.of_nat i - offset_of tz) (Z.of_nat (List.length rows))). subst j. lia. }
  destruct (nth_error rows j) as [s|] eqn:S0; [|apply nth_error_None in S0; lia]. exists s. split; [reflexivity|].
  apply nth_combine; [rewrite nth_error_map, E; reflexivity|]. rewrite roll_nth by (rewrite map_length; exact L). rewrite map_length. fold j. rewrite nth_error_map, S0. reflexivity.
Qed.
Print Assumptions C158_rolled.

(** hourly rows that fill a year: every row of the result is at the instant its data had in UTC, up to a whole year *)
Theorem C158_same_instant : forall A (rows : list (row A)) tz year t0 out, -12 <= offset_of tz <= 14 -> Forall (day_exists year) rows ->
  (forall i r, nth_error rows i = Some r -> utc_in year r = t0 + 60 * Z.of_nat i) -> coerce_and_roll rows tz year = Ok out ->
  forall i u x, nth_error out i = Some (u, x) ->
    u = t0 + 60 * (Z.of_nat i - offset_of tz) /\
    exists j s k, nth_error rows j = Some s /\ r_data s = x /\ u = utc_in year s + k * (60 * Z.of_nat (List.length rows)) /\ (offset_of tz <= Z.of_nat i < Z.of_nat (List.length rows) + offset_of tz -> k = 0).
Proof.
  intros A rows tz year t0 out H F T E i u x O. destruct (C158_rolled A rows tz year H F) as (out' & E' & L & N). rewrite E in E'. apply Ok_inj in E'. subst out'.
  destruct (nth_error rows i) as [r|] eqn:R; [|apply nth_error_None in R; assert (nth_error out i <> None) by congruence; rewrite nth_error_Some in *; lia].
  destruct (N i r R) as (s & S1 & S2). rewrite O in S2. assert (S3 : (u, x) = (utc_in year r - 60 * offset_of tz, r_data s)) by congruence. apply pair_equal_spec in S3. destruct S3 as [-> ->]. rewrite (T i r R). split; [ring|].
  set (n := Z.of_nat (List.length rows)) in *. assert (LN : (i < List.length rows)%nat) by (apply nth_error_Some; congruence). assert (NP : 0 < n) by (subst n; lia).
  pose proof (Z.mod_pos_bound (Z.of_nat i - offset_of tz) n NP) as B. pose proof (Z_div_mod_eq_full (Z.of_nat i - offset_of tz) n) as D.
  eexists _, s, ((Z.of_nat i - offset_of tz) / n). split; [exact S1|]. split; [reflexivity|]. rewrite (T _ s S1). rewrite Z2Nat.id by lia. split; [nia|]. intros G. apply Z.div_small. lia.
Qed.
Print Assumptions C158_same_instant.

(** no row is lost or repeated; without an offset the order is kept *)
Theorem C158_kept : forall A (rows : list (row A)) tz year out, coerce_and_roll rows tz year = Ok out ->
  (forall j s, nth_error rows j = Some s -> exists i u, nth_error out i = Some (u, r_data s) /\ (Z.of_nat i - offset_of tz) mod Z.of_nat (List.length rows) = Z.of_nat j) /\
  (offset_of tz = 0 -> out = map (fun r => (utc_in year r, r_data r)) rows).
Proof.
  intros A rows tz year out E. unfold coerce_and_roll in E. fold (offset_of tz) in E. set (t := offset_of tz) in *.
  destruct (if t =? 0 then Ok 0 else etc_gmt t) as [off|] eqn:Z0; [|discriminate]. cbn [bind] in E. destruct (mapM (replaced year off) rows) as [ix|] eqn:M; [|discriminate]. apply Ok_inj in E. subst out.
  assert (FA : Forall (day_exists year) rows). { clear -M. revert ix M. induction rows as [|r rows IH]; intros ix M; [constructor|]. cbn [mapM] in M. destruct (valid_dec (Date year (mo (r_date r)) (dy (r_date r)))) as [V|V].
    - rewrite (proj1 (replaced_spec year off r) V) in M. cbn [bind] in M. destruct (mapM (replaced year off) rows) as [jx|]; [|discriminate]. constructor; [exact V|]. exact (IH jx eq_refl).
    - rewrite (proj2 (replaced_spec year off r) V) in M. discriminate. }
  rewrite replaced_all in M by exact FA. apply Ok_inj in M. subst ix. split.
  - intros j s S1. assert (LJ : (j < List.length rows)%nat) by (apply nth_error_Some; congruence). set (n := Z.of_nat (List.length rows)) in *. assert (NP : 0 < n) by (subst n; lia).
    set (i := Z.to_nat ((Z.of_nat j + t) mod n)). pose proof (Z.mod_pos_bound (Z.of_nat j + t) n NP) as B. assert (LI : (i < List.length rows)%nat) by (subst i n; lia).
    assert (C : (Z.of_nat i - t) mod n = Z.of_nat j). { subst i. rewrite Z2Nat.id by lia. rewrite Zminus_mod_idemp_l. replace (Z.of_nat j + t - t) with (Z.of_nat j) by ring. apply Z.mod_small. subst n. lia. }
    destruct (nth_error rows i) as [r|] eqn:R; [|apply nth_error_None in R; lia].
    exists i, (utc_in year r - 60 * off). split; [|exact C]. apply nth_combine; [rewrite nth_error_map, R; reflexivity|]. rewrite roll_nth by (rewrite map_length; exact LI). rewrite map_length. fold n. rewrite C, Nat2Z.id, nth_error_map, S1. reflexivity.
  - intros T0. rewrite T0 in Z0 |- *. cbn in Z0. apply Ok_inj in Z0. subst off.
    assert (RL : roll 0 (map r_data rows) = map r_data rows). { apply nth_error_ext_local. intros i. destruct (Nat.lt_ge_cases i (List.length (map r_data rows))) as [I|I].
      - rewrite roll_nth by exact I. rewrite Z.sub_0_r, Z.mod_small by lia. rewrite Nat2Z.id. reflexivity.
      - rewrite !(proj2 (nth_error_None _ _)); [reflexivity|exact I|rewrite roll_length; exact I]. }
    rewrite RL. clear. induction rows as [|r rows IH]; [reflexivity|]. cbn [map combine]. rewrite IH. f_equal. f_equal. ring.
Qed.
Print Assumptions C158_kept.

(** an offset outside -12 ... 14 has no zone; February 29 in a year without it is refused; otherwise no error *)
Theorem C158_errors : forall A (rows : list (row A)) tz year,
  (coerce_and_roll rows tz year = Err KeyError <-> ~ -12 <= offset_of tz <= 14) /\
  (coerce_and_roll rows tz year = Err ValueError <-> -12 <= offset_of tz <= 14 /\ exists r, In r rows /\ ~ day_exists year r) /\
  (forall e, coerce_and_roll rows tz year = Err e -> e = KeyError \/ e = ValueError).
Proof.
  intros A rows tz year. destruct (Z_le_dec (-12) (offset_of tz)) as [L|L], (Z_le_dec (offset_of tz) 14) as [U|U].
  2,3,4: assert (E : coerce_and_roll rows tz year = Err KeyError) by (unfold coerce_and_roll; fold (offset_of tz); destruct (Z.eqb_spec (offset_of tz) 0); [lia|]; unfold etc_gmt;
      destruct (Z.leb_spec (-12) (offset_of tz)), (Z.leb_spec (offset_of tz) 14); try lia; reflexivity);
    rewrite E; (split; [split; [intros _; lia|reflexivity]|split; [split; [discriminate|lia]|intros e X; injection X; auto]]).
  assert (D : Forall (day_exists year) rows \/ exists r, In r rows /\ ~ day_exists year r).
  { clear. induction rows as [|r rows IH]; [left; constructor|]. destruct (valid_dec (Date year (mo (r_date r)) (dy (r_date r)))) as [V|V]; [|right; exists r; split; [left; reflexivity|exact V]].
    destruct IH as [IH|(s & I & N)]; [left; constructor; assumption|right; exists s; split; [right; exact I|exact N]]. }
  destruct D as [D|(r & I & N)].
  - destruct (C158_rolled A rows tz year (conj L U) D) as (out & E & _). rewrite E. split; [split; [discriminate|lia]|]. split; [split; [discriminate|]|discriminate].
    intros (_ & r & I & N). exfalso. apply N. rewrite Forall_forall in D. exact (D r I).
  - assert (E : coerce_and_roll rows tz year = Err ValueError).
    { unfold coerce_and_roll. fold (offset_of tz). rewrite offset_ok by lia. cbn [bind]. assert (M : mapM (replaced year (offset_of tz)) rows = Err ValueError); [|rewrite M; reflexivity].
      apply (mapM_one_err (replaced year (offset_of tz)) rows ValueError); [intros x e X; destruct (valid_dec (Date year (mo (r_date x)) (dy (r_date x)))) as [V|V]; [rewrite (proj1 (replaced_spec year _ x) V) in X; discriminate|rewrite (proj2 (replaced_spec year _ x) V) in X; congruence]|].
      exists r. split; [exact I|]. apply replaced_spec. exact N. }
    rewrite E. split; [split; [discriminate|lia]|]. split; [split; [intros _; split; [lia|exists r; split; assumption]|reflexivity]|intros e X; injection X; auto].
Qed.
Print Assumptions C158_errors.

(** a typical year has 365 days: coerced to a leap year and rolled forward, the first hours of March 1 hold the data of February 28 and are labelled a day later *)
Theorem C158_leap_year_refuted : forall A (rows : list (row A)) tz year k mi y1 y2 x1 x2 out, is_leap year = true -> 1 <= tz <= 14 ->
  nth_error rows k = Some (Row (Date y1 2 28) (24 - tz) mi x1) -> nth_error rows (k + Z.to_nat tz) = Some (Row (Date y2 3 1) 0 mi x2) ->
  coerce_and_roll rows (Some tz) year = Ok out ->
  exists u, nth_error out (k + Z.to_nat tz) = Some (u, x1) /\ u = utc_in year (Row (Date y1 2 28) (24 - tz) mi x1) + 24 * 60.
Proof.
  intros A rows tz year k mi y1 y2 x1 x2 out LP B N1 N2 E. assert (H : -12 <= offset_of (Some tz) <= 14) by (cbn [offset_of]; lia).
  assert (FA : Forall (day_exists year) rows). { apply Forall_forall. intros r I. destruct (valid_dec (Date year (mo (r_date r)) (dy (r_date r)))) as [V|V]; [exact V|]. exfalso.
    assert (X : coerce_and_roll rows (Some tz) year = Err ValueError) by (apply C158_errors; split; [exact H|exists r; split; assumption]). congruence. }
  destruct (C158_rolled A rows (Some tz) year H FA) as (out' & E' & L & N). rewrite E in E'. apply Ok_inj in E'. subst out'. destruct (N _ _ N2) as (s & S1 & S2). cbn [offset_of] in *.
  assert (LK : (k + Z.to_nat tz < List.length rows)%nat) by (apply nth_error_Some; congruence).
  replace (Z.to_nat ((Z.of_nat (k + Z.to_nat tz) - tz) mod Z.of_nat (List.length rows))) with k in S1 by (rewrite Z.mod_small by lia; lia). rewrite N1 in S1. injection S1 as <-.
  eexists. split; [exact S2|]. assert (D3 : days_before_month year 3 = 60) by (unfold days_before_month; rewrite LP; reflexivity). assert (D2 : days_before_month year 2 = 31) by reflexivity.
  unfold utc_in, instant, ordinal. cbn [r_date r_hour r_min mo dy Calendar.yr]. rewrite D3, D2. lia.
Qed.
Print Assumptions C158_leap_year_refuted.

(** an example: three hours rolled by one *)
Example C158_example : coerce_and_roll [Row (Date 2011 1 1) 0 10 7; Row (Date 2011 1 1) 1 10 8; Row (Date 2011 1 1) 2 10 9] (Some 1) 1990 =
  Ok [(instant (Date 1990 1 1) (-1) 10, 9); (instant (Date 1990 1 1) 0 10, 7); (instant (Date 1990 1 1) 1 10, 8)].
Proof. reflexivity. Qed.

(** ** C161 *)
Section Formats.
Context {A M : Type}.
Variable parse : string -> res (list (row A) * M).
Variable rename : A -> A.
Definition known (f : string) : Prop := In f ["json"; "csv"; "epw"]%string.
Lemma known_mem f : known f <-> mem f ["json"; "csv"; "epw"]%string = true.
Proof. unfold known. rewrite mem_In. reflexivity. Qed.
(** the result for a known format: as parsed without offset and year, otherwise rolled, to the year 1990 unless another is given *)
Theorem C161_get : forall f (mv : bool) (tz : option Z) (year : Z) (rows : list (row A)) (m : M), known f -> parse f = Ok (rows, m) ->
  let rows' := if mv then map (fun r => Row (r_date r) (r_hour r) (r_min r) (rename (r_data r))) rows else rows in
  (get_pvgis_tmy parse rename f mv None None = Ok (map (fun r => (instant (r_date r) (r_hour r) (r_min r), r_data r)) rows', m)) /\
  (year <> 0 -> get_pvgis_tmy parse rename f mv tz (Some year) = rmap (fun d => (d, m)) (coerce_and_roll rows' tz year)) /\
  (forall t, get_pvgis_tmy parse rename f mv (Some t) None = rmap (fun d => (d, m)) (coerce_and_roll rows' (Some t) 1990)) /\
  (get_pvgis_tmy parse rename f mv tz (Some 0) = get_pvgis_tmy parse rename f mv tz (Some 1990)) /\
  (read_pvgis_tmy parse rename f mv = get_pvgis_tmy parse rename f mv None None).
Proof.
  intros f mv tz year rows m K P rows'. apply known_mem in K. unfold get_pvgis_tmy, read_pvgis_tmy. rewrite K, P. cbn [bind fst snd]. unfold renamed. fold rows'.
  split; [reflexivity|]. split; [|split; [intros t; reflexivity|split; [destruct tz; reflexivity|reflexivity]]]. intros Y. destruct (Z.eqb_spec year 0) as [|N]; [contradiction|]. destruct tz; reflexivity.
Qed.
(** other formats: reading a file always says ValueError, the download only for 'basic' *)
Theorem C161_unknown : forall f (mv : bool) (tz year : option Z), ~ known f ->
  read_pvgis_tmy parse rename f mv = Err ValueError /\
  (f = "basic"%string -> get_pvgis_tmy parse rename f mv tz year = Err ValueError) /\
  (f <> "basic"%string -> get_pvgis_tmy parse rename f true tz year = Err AttributeError /\ get_pvgis_tmy parse rename f false None None = Err UnboundLocalError /\
     exists e, get_pvgis_tmy parse rename f mv tz year = Err e /\ e <> ValueError).
Proof.
  intros f mv tz year K. assert (E : mem f ["json"; "csv"; "epw"]%string = false) by (destruct (mem f _) eqn:X; [apply known_mem in X; contradiction|reflexivity]).
  unfold get_pvgis_tmy, read_pvgis_tmy. rewrite E. split; [reflexivity|]. split; [intros ->; reflexivity|]. intros B. apply String.eqb_neq in B. rewrite B. split; [reflexivity|]. split; [reflexivity|].
  destruct mv; [eexists; split; [reflexivity|discriminate]|]. destruct tz as [t|], year as [y|]; try (eexists; split; [reflexivity|discriminate]);
  cbv zeta; unfold etc_gmt; destruct (t =? 0), ((-12 <=? t) && (t <=? 14)); cbn [bind]; eexists; (split; [reflexivity|discriminate]).
Qed.
(** an error of the parser is passed on *)
Theorem C161_parser_error : forall f mv tz year e, known f -> parse f = Err e -> get_pvgis_tmy parse rename f mv tz year = Err e /\ read_pvgis_tmy parse rename f mv = Err e.
Proof. intros f mv tz year e K P. apply known_mem in K. unfold get_pvgis_tmy, read_pvgis_tmy. rewrite K, P. split; reflexivity. Qed.
End Formats.
Print Assumptions C161_get.
Print Assumptions C161_unknown.
Print Assumptions C161_parser_error.
(** the horizon: PVGIS counts azimuths from south, pvlib from north; a profile from -180 to 180 loses its last point and no other *)
Theorem C161_horizon : forall profile, Forall (fun p => (-180 <= fst p <= 180)%R) profile ->
  Forall (fun p => (0 <= fst p < 360)%R) (pvgis_horizon profile) /\
  (forall a e, In (a, e) (pvgis_horizon profile) <-> (a < 360)%R /\ In ((a - 180)%R, e) profile) /\
  (forall last e, (forall p, In p profile -> (fst p < 180)%R) -> last = 180%R -> pvgis_horizon (profile ++ [(last, e)]) = map (fun p => (fst p + 180, snd p)%R) profile).
Proof.
  intros profile F. assert (I : forall a e, In (a, e) (pvgis_horizon profile) <-> (a < 360)%R /\ In ((a - 180)%R, e) profile).
  { intros a e. unfold pvgis_horizon. rewrite filter_In, in_map_iff. cbn [fst]. destruct (Rlt_dec a 360) as [L|L].
    - split; [intros [([b e'] & X & In1) _]|intros [_ In1]].
      + cbn [fst snd] in X. injection X as X1 ->. split; [exact L|]. replace (a - 180)%R with b by lra. exact In1.
      + split; [|reflexivity]. exists ((a - 180)%R, e). split; [cbn [fst snd]; f_equal; lra|exact In1].
    - split; [intros [_ X]; discriminate|intros [X _]; contradiction]. }
  split; [|split; [exact I|]].
  - apply Forall_forall. intros [a e] In1. apply I in In1. destruct In1 as [L In1]. rewrite Forall_forall in F. specialize (F _ In1). cbn [fst] in *. lra.
  - intros last e P ->. unfold pvgis_horizon. rewrite map_app, filter_app. cbn [map filter fst snd]. destruct (Rlt_dec (180 + 180) 360) as [X|_]; [lra|]. rewrite app_nil_r.
    clear I F. induction profile as [|p profile IH]; [reflexivity|]. cbn [map filter fst]. destruct (Rlt_dec (fst p + 180) 360) as [_|X]; [|exfalso; apply X; pose proof (P p (or_introl eq_refl)); lra]. f_equal. apply IH. intros q Q. apply P. right. exact Q.
Qed.
Print Assumptions C161_horizon.

(** ** C159 *)
(** a line 'key: value', possibly with more colons *)
Definition labelled (k v line : string) : Prop := has_char ":" k = false /\ has_char ":" v = false /\ (line = k ++ ":" ++ v \/ exists more, line = k ++ ":" ++ v ++ ":" ++ more)%string.
(** a text given by its parts *)
Definition stripped (s t : string) : Prop := strip s = t.
(** the entries of a run of lines; blank lines carry none *)
Inductive entries : list string -> list (string * string) -> Prop :=
| en_nil : entries [] []
| en_blank l ls kvs : plain l -> blank l -> entries ls kvs -> entries (l :: ls) kvs
| en_item l k v t ls kvs : plain l -> labelled k v l -> stripped v t -> String.prefix "time," l = false -> entries ls kvs -> entries (l :: ls) ((k, t) :: kvs).
(** the dictionary written by assignments in this order *)
Definition dict_of (kvs : list (string * string)) : list (string * string) := fold_left (fun d kv => dict_set (fst kv) (snd kv) d) kvs [].
Lemma dict_of_lookup kvs k : lookup k (dict_of kvs) = match find (fun kv => String.eqb k (fst kv)) (rev kvs) with Some kv => Some (snd kv) | None => None end.
Proof.
  unfold dict_of. induction kvs as [|[a b] kvs IH] using rev_ind; [reflexivity|]. rewrite fold_left_app, rev_app_distr. cbn [fold_left rev app find fst snd]. rewrite lookup_dict_set.
  destruct (String.eqb k a); [reflexivity|exact IH].
Qed.
Lemma dict_set_new {A} k (v : A) d : ~ In k (map fst d) -> dict_set k v d = d ++ [(k, v)].
Proof. induction d as [|[a b] d IH]; [reflexivity|]. cbn [map fst dict_set app]. intros N. destruct (String.eqb_spec k a) as [->|_]; [exfalso; apply N; left; reflexivity|]. rewrite IH by (intros I; apply N; right; exact I). reflexivity. Qed.
Lemma dict_of_nodup kvs : NoDup (map fst kvs) -> dict_of kvs = kvs.
Proof.
  intros N. unfold dict_of. induction kvs as [|[a b] kvs IH] using rev_ind; [reflexivity|]. rewrite fold_left_app. cbn [fold_left fst snd]. rewrite map_app in N. cbn [map fst] in N.
  apply NoDup_remove in N. rewrite app_nil_r in N. destruct N as [N1 N2]. rewrite IH by exact N1. apply dict_set_new. exact N2.
Qed.
Lemma strip_keeps c s : is_ws c = false -> has_char c (strip s) = has_char c s.
Proof.
  intros W. unfold strip. assert (L : forall t, has_char c (lstrip is_ws t) = has_char c t).
  { induction t as [|a t IH]; [reflexivity|]. cbn [lstrip has_char]. destruct (is_ws a) eqn:A; [|reflexivity]. rewrite IH. destruct (Ascii.eqb_spec a c) as [->|_]; [congruence|reflexivity]. }
  assert (Rs : forall t, has_char c (rstrip is_ws t) = has_char c t).
  { induction t as [|a t IH]; [reflexivity|]. cbn [rstrip]. destruct (rstrip is_ws t) as [|b u] eqn:E.
    - cbn [has_char] in *. destruct (is_ws a) eqn:A; cbn [has_char]; rewrite <- IH; [destruct (Ascii.eqb_spec a c) as [->|_]; [congruence|reflexivity]|reflexivity].
    - cbn [has_char] in *. rewrite <- IH. reflexivity. }
  rewrite Rs, L. reflexivity.
Qed.
Lemma strip_nonempty c s : is_ws c = false -> has_char c s = true -> String.eqb (strip s) "" = false.
Proof. intros W H. rewrite <- (strip_keeps c s W) in H. destruct (strip s); [discriminate|reflexivity]. Qed.
Lemma strip_blank s : blank s -> strip s = ""%string.
Proof. intros B. unfold strip. assert (E : lstrip is_ws s = ""%string). { induction s as [|c s IH]; [reflexivity|]. cbn in *. destruct B as [-> B]. apply IH, B. } rewrite E. reflexivity. Qed.
Lemma prefix_nl p : plain p -> forall s, String.prefix p (s ++ newline) = String.prefix p s.
Proof.
  unfold plain. induction p as [|c p IH]; intros P s; [destruct s; reflexivity|]. cbn [has_char] in P. apply orb_false_iff in P. destruct P as [P1 P2]. destruct s as [|d s].
  - apply Ascii.eqb_neq in P1. cbn [append newline String.prefix]. unfold newline. cbn [String.prefix]. destruct (ascii_dec c (chr 10)) as [X|_]; [contradiction|reflexivity].
  - cbn [append String.prefix]. rewrite (IH P2). reflexivity.
Qed.
Lemma labelled_split k v line : labelled k v line -> exists v' l, split_on ":" (line ++ newline) = k :: v' :: l /\ strip v' = strip v.
Proof.
  intros (K & V & [->|(more & ->)]).
  - exists (v ++ newline)%string, []. rewrite !sapp_assoc. cbn [append]. rewrite split_on_app by exact K. rewrite split_on_nosep by (rewrite has_char_app, V; reflexivity). split; [reflexivity|apply strip_nl].
  - rewrite !sapp_assoc. cbn [append]. rewrite split_on_app by exact K. rewrite split_on_app by exact V. eexists _, _. split; reflexivity.
Qed.
Lemma labelled_split_only k v : has_char ":" k = false -> has_char ":" v = false -> split_on ":" ((k ++ ":" ++ v) ++ newline) = [k; (v ++ newline)%string].
Proof. intros K V. rewrite !sapp_assoc. cbn [append]. rewrite split_on_app by exact K. rewrite split_on_nosep by (rewrite has_char_app, V; reflexivity). reflexivity. Qed.
Lemma labelled_colon k v line : labelled k v line -> has_char ":" (line ++ newline) = true.
Proof. intros (K & V & [->|(more & ->)]); rewrite !has_char_app; cbn [has_char append]; rewrite !Bool.orb_true_iff; auto. Qed.
Lemma inputs_loop : forall ls kvs, entries ls kvs -> forall header rest, plain header -> String.prefix "time," header = true ->
  forall d fuel, (List.length ls < fuel)%nat -> hourly_inputs fuel (text_of ls ++ header ++ newline ++ rest) d =
    Ok (fold_left (fun d kv => dict_set (fst kv) (snd kv) d) kvs d, split_on "," (strip header), rest).
Proof.
  induction 1 as [|l ls kvs P B E IH|l k v t ls kvs P L S0 T E IH]; intros header rest PH TH d [|fuel] F; try (cbn in F; lia).
  - cbn [text_of fold_right append hourly_inputs]. rewrite read_line_app by exact PH. rewrite prefix_nl by reflexivity. rewrite TH, strip_nl. reflexivity.
  - rewrite text_of_app, !sapp_assoc. cbn [hourly_inputs]. rewrite read_line_app by exact P. rewrite prefix_nl by reflexivity. rewrite strip_nl, (strip_blank l B). cbn [String.eqb negb].
    assert (TT : String.prefix "time," l = false). { destruct l as [|c l]; [reflexivity|]. cbn in B. destruct B as [B _]. cbn [String.prefix]. destruct (ascii_dec "t" c) as [<-|_]; [discriminate|reflexivity]. }
    rewrite TT, line_nonempty. apply (IH header rest PH TH). cbn in F. lia.
  - rewrite text_of_app, !sapp_assoc. cbn [hourly_inputs]. rewrite read_line_app by exact P. rewrite prefix_nl by reflexivity. rewrite T.
    rewrite (strip_nonempty ":" _ eq_refl (labelled_colon k v l L)). cbn [negb]. destruct (labelled_split k v l L) as (v' & more & SP & SV).
    unfold part1, part0. rewrite SP. cbn [bind]. rewrite (IH header rest PH TH) by (cbn in F; lia). cbn [fold_left fst snd]. rewrite SV, S0. reflexivity.
Qed.
(** a line of cells separated by commas, possibly followed by white space *)
Definition comma_line (cells : list string) (line : string) : Prop := plain line /\ cells <> [] /\ Forall cell cells /\ stripped line (String.concat "," cells) /\ String.concat "," cells <> ""%string.
Lemma data_loop : forall rows lines, Forall2 comma_line rows lines -> forall b rest, plain b -> blank b -> forall fuel, (List.length lines < fuel)%nat ->
  data_lines fuel (text_of lines ++ b ++ newline ++ rest) = (rows, rest).
Proof.
  induction 1 as [|r l rows lines (P & N & C & S0 & NE) F IH]; intros b rest PB B [|fuel] L; try (cbn in L; lia).
  - cbn [text_of fold_right append data_lines]. rewrite read_line_app by exact PB. rewrite strip_nl, strip_blank by exact B. reflexivity.
  - rewrite text_of_app, !sapp_assoc. cbn [data_lines]. rewrite read_line_app by exact P. rewrite strip_nl. rewrite S0. destruct (String.eqb_spec (String.concat "," r) "") as [X|_]; [contradiction|].
    rewrite (IH b rest PB B) by (cbn in L; lia). rewrite split_concat by assumption. reflexivity.
Qed.
(** the description of the columns: the lines with a colon *)
Inductive described : bool -> list string -> list (string * string) -> Prop :=
| de_nil f : described f [] []
| de_none f l ls kvs : plain l -> has_char ":" l = false -> described f ls kvs -> described f (l :: ls) kvs
| de_item (f : bool) (l k v t : string) ls kvs : plain l -> labelled k v (if f then strip l else l) -> stripped v t -> described f ls kvs -> described f (l :: ls) ((k, t) :: kvs).
Lemma labelled_split_raw k v line : labelled k v line -> exists v' l, split_on ":" line = k :: v' :: l /\ strip v' = strip v.
Proof.
  intros (K & V & [->|(more & ->)]); cbn [append]; rewrite split_on_app by exact K.
  - rewrite split_on_nosep by exact V. eexists _, _. split; reflexivity.
  - rewrite split_on_app by exact V. eexists _, _. split; reflexivity.
Qed.
Lemma descriptions_loop : forall f ls kvs, described f ls kvs -> forall d fuel, (List.length ls < fuel)%nat -> descriptions fuel f (text_of ls) d = fold_left (fun d kv => dict_set (fst kv) (snd kv) d) kvs d.
Proof.
  induction 1 as [f|f l ls kvs P C E IH|f l k v t ls kvs P L S0 E IH]; intros d [|fuel] F; try (cbn in F; lia).
  - reflexivity.
  - rewrite text_of_app. cbn [descriptions]. rewrite read_line_app by exact P. rewrite line_nonempty.
    assert (NS : split_on ":" (if f then strip (l ++ newline) else l ++ newline)%string = [(if f then strip (l ++ newline) else l ++ newline)%string]).
    { apply split_on_nosep. destruct f; [rewrite strip_keeps by reflexivity|]; rewrite has_char_app, C; reflexivity. }
    rewrite NS. apply IH. cbn in F. lia.
  - rewrite text_of_app. cbn [descriptions]. rewrite read_line_app by exact P. rewrite line_nonempty. cbn [fold_left fst snd]. destruct f.
    + rewrite strip_nl. destruct (labelled_split_raw k v (strip l) L) as (v' & more & SP & SV). rewrite SP. rewrite IH by (cbn in F; lia). rewrite SV, S0. reflexivity.
    + destruct (labelled_split k v l L) as (v' & more & SP & SV). rewrite SP. rewrite IH by (cbn in F; lia). rewrite SV, S0. reflexivity.
Qed.
(** YYYYMMDD:HHMM *)
Definition time_text (y m d h mi : Z) : string := (text (zpad 4 y) ++ text (zpad 2 m) ++ text (zpad 2 d) ++ ":" ++ text (zpad 2 h) ++ text (zpad 2 mi))%string.
Definition a_time (y m d h mi : Z) : Prop := 0 <= y <= 9999 /\ valid_date (Date y m d) /\ 0 <= h <= 23 /\ 0 <= mi <= 59.
Lemma codes_app a b : codes (a ++ b) = codes a ++ codes b.
Proof. induction a as [|c a IH]; [reflexivity|]. cbn. rewrite IH. reflexivity. Qed.
Lemma code_digit c : digit c = true -> code (if c =? dash then "-"%char else ascii_of_nat (48 + Z.to_nat c)) = c.
Proof.
  intros D. apply digit_spec in D. assert (X : c = 0 \/ c = 1 \/ c = 2 \/ c = 3 \/ c = 4 \/ c = 5 \/ c = 6 \/ c = 7 \/ c = 8 \/ c = 9) by lia.
  repeat (destruct X as [->|X]; [reflexivity|]). subst c. reflexivity.
Qed.
Lemma codes_text l : Forall (fun c => digit c = true) l -> codes (text l) = l.
Proof. induction 1 as [|c l D F IH]; [reflexivity|]. cbn [text fold_right codes]. fold (text l). rewrite IH, code_digit by exact D. reflexivity. Qed.
Lemma time_ok y m d h mi : a_time y m d h mi -> pvgis_time (time_text y m d h mi) = Ok (Date y m d, h, mi).
Proof.
  intros (Y & V & H & MI). pose proof V as [V1 V2]. cbn [Calendar.yr mo dy] in V1, V2. pose proof (days_in_month_bounds y m). unfold pvgis_time, time_text.
  rewrite !codes_app, !codes_text by (apply zpad_digits; lia). cbn [codes app].
  assert (E : strptime pvgis_time_format (zpad 4 y ++ zpad 2 m ++ zpad 2 d ++ code ":" :: zpad 2 h ++ zpad 2 mi) = Some [y; m; d; h; mi]).
  { rewrite <- (app_nil_r (zpad 2 mi)). change (zpad 4 y ++ zpad 2 m ++ zpad 2 d ++ code ":" :: zpad 2 h ++ zpad 2 mi ++ []) with (padded pvgis_time_format [y; m; d; h; mi]).
    apply strptime_padded; [| |reflexivity|].
    - intros f I. unfold pvgis_time_format in I. cbn [In] in I. destruct I as [<-|[<-|[<-|[<-|[<-|[<-|[]]]]]]]; cbn; lia.
    - intros f I. unfold pvgis_time_format in I. cbn [In] in I. destruct I as [<-|[<-|[<-|[<-|[<-|[<-|[]]]]]]]; cbn; lia.
    - split; [reflexivity|]. unfold pvgis_time_format. cbn [Strptime.fits fY fm fd fH fM]. rewrite pow4, pow2, !andb_true_iff, !Z.leb_le. intuition lia. }
  rewrite E. rewrite (proj2 (valid_dateb_spec _)) by exact V. reflexivity.
Qed.
(** the names PVGIS uses and those of pvlib *)
Definition doc_names : list (string * string) :=
  [("G(h)", "ghi"); ("Gb(n)", "dni"); ("Gd(h)", "dhi"); ("T2m", "temp_air"); ("RH", "relative_humidity"); ("SP", "pressure"); ("WS10m", "wind_speed"); ("WD10m", "wind_direction");
   ("H_sun", "solar_elevation"); ("G(i)", "poa_global"); ("Gb(i)", "poa_direct"); ("Gd(i)", "poa_sky_diffuse"); ("Gr(i)", "poa_ground_diffuse")]%string.
Definition final_name (mv : bool) (n n' : string) : Prop := if mv then In (n, n') doc_names \/ (~ In n (map fst doc_names) /\ n' = n) else n' = n.
Lemma final_name_ok mv n n' : final_name mv n n' -> pvgis_name mv n = n'.
Proof.
  destruct mv; [|auto]. cbn [final_name]. unfold pvgis_name. intros [I|[I ->]].
  - unfold doc_names in I. cbn [In] in I. repeat (destruct I as [I|I]; [injection I as <- <-; reflexivity|]). destruct I.
  - destruct (lookup n pvgis_variable_map) as [v|] eqn:E; [|reflexivity]. exfalso. apply I. apply lookup_In in E. apply (in_map fst) in E. cbn [fst] in E. revert E. unfold pvgis_variable_map, doc_names. cbn [map fst In]. tauto.
Qed.
Section Hourly.
Variable py_float : string -> option fl.
(** k is r without its decimals *)
Definition truncated (r : R) (k : Z) : Prop := ((0 <= r -> IZR k <= r < IZR k + 1) /\ (r < 0 -> IZR k - 1 < r <= IZR k))%R.
Definition cell_says (name x : string) (v : fl) : Prop :=
  exists w, py_float x = Some w /\ (name <> "Int"%string -> v = w) /\ (name = "Int"%string -> exists r k, w = Fin r /\ truncated r k /\ v = Fin (IZR k)).
Inductive cells_say (mv : bool) : list string -> list string -> list (string * fl) -> Prop :=
| ce_nil : cells_say mv [] [] []
| ce_cons n n' c v ns cs vs : final_name mv n n' -> cell_says n' c v -> cells_say mv ns cs vs -> cells_say mv (n :: ns) (c :: cs) ((n', v) :: vs).
Definition row_says (mv : bool) (ns cells : list string) (r : row (list (string * fl))) : Prop :=
  exists y m d h mi cs vs, cells = time_text y m d h mi :: cs /\ a_time y m d h mi /\ cells_say mv ns cs vs /\ r = Row (Date y m d) h mi vs.

Lemma trunc_unique r k : truncated r k -> trunc r = k.
Proof.
  intros [P N]. unfold trunc. pose proof (base_Int_part r) as [B1 B2]. pose proof (base_Int_part (- r)) as [B3 B4]. destruct (Rle_dec 0 r) as [L|L].
  - destruct (P L) as [P1 P2]. assert (X1 : (IZR (Int_part r) < IZR (k + 1))%R) by (rewrite plus_IZR; lra). assert (X2 : (IZR k < IZR (Int_part r + 1))%R) by (rewrite plus_IZR; lra). apply lt_IZR in X1, X2. lia.
  - assert (L' : (r < 0)%R) by lra. destruct (N L') as [P1 P2]. assert (X1 : (IZR (Int_part (- r)) < IZR (- k + 1))%R) by (rewrite plus_IZR, opp_IZR; lra).
    assert (X2 : (IZR (- k) < IZR (Int_part (- r) + 1))%R) by (rewrite plus_IZR, opp_IZR; lra). apply lt_IZR in X1, X2. lia.
Qed.
Lemma cell_ok name x v : cell_says name x v -> hourly_cell py_float name x = Ok (name, v).
Proof.
  intros (w & W & A & B). unfold hourly_cell. cbn [to_float]. rewrite W. cbn [bind]. destruct (String.eqb_spec name "Int") as [E|E].
  - destruct (B E) as (r & k & -> & T & ->). cbn [to_int_cell bind]. rewrite (trunc_unique r k T). reflexivity.
  - rewrite (A E). reflexivity.
Qed.
Lemma cells_ok mv ns cs vs : cells_say mv ns cs vs -> mapM (fun p => hourly_cell py_float (pvgis_name mv (fst p)) (snd p)) (combine ns cs) = Ok vs /\ List.length cs = List.length ns.
Proof.
  induction 1 as [|n n' c v ns cs vs F C H [IH1 IH2]]; [split; reflexivity|]. cbn [combine mapM fst snd]. rewrite (final_name_ok mv n n' F), (cell_ok n' c v C). cbn [bind]. rewrite IH1. split; [reflexivity|]. cbn. congruence.
Qed.
Lemma rows_ok mv t ns rows data : Forall2 (row_says mv ns) rows data -> mapM (hourly_row py_float mv (t :: ns)) rows = Ok data /\ forallb (fun l => Nat.eqb (List.length l) (List.length (t :: ns))) rows = true.
Proof.
  induction 1 as [|cells r rows data (y & m & d & h & mi & cs & vs & -> & T & C & ->) F [IH1 IH2]]; [split; reflexivity|].
  destruct (cells_ok mv ns cs vs C) as [E L]. cbn [mapM forallb]. cbn [hourly_row]. rewrite (time_ok y m d h mi T). cbn [bind fst snd]. rewrite E. cbn [bind]. rewrite IH1. split; [reflexivity|].
  cbn [List.length] in *. rewrite L, Nat.eqb_refl. exact IH2.
Qed.
Lemma text_of_cat a b : text_of (a ++ b) = (text_of a ++ text_of b)%string.
Proof. induction a as [|l a IH]; [reflexivity|]. cbn [app]. rewrite !text_of_app, IH, !sapp_assoc. reflexivity. Qed.
Lemma float_line k v x : has_char ":" k = false -> has_char ":" v = false -> py_float (v ++ newline) = Some x -> float_after py_float ":" ((k ++ ":" ++ v) ++ newline) = Ok x.
Proof. intros K V E. unfold float_after, part1. rewrite labelled_split_only by assumption. cbn [bind to_float]. rewrite E. reflexivity. Qed.
Lemma entries_plain ls kvs : entries ls kvs -> Forall plain ls.
Proof. induction 1; constructor; assumption. Qed.
Definition data_file (k1 v1 k2 v2 k3 v3 l4 : string) (rest : list string) : string := text_of ([(k1 ++ ":" ++ v1)%string; (k2 ++ ":" ++ v2)%string; (k3 ++ ":" ++ v3)%string; l4] ++ rest).
Definition place (k v : string) (x : fl) : Prop := has_char ":" k = false /\ has_char ":" v = false /\ plain k /\ plain v /\ py_float (v ++ newline) = Some x.
Lemma place_plain k v x : place k v x -> plain (k ++ ":" ++ v).
Proof. intros (_ & _ & P1 & P2 & _). apply plain_app. split; [exact P1|]. apply plain_app. split; [reflexivity|exact P2]. Qed.
Lemma place_float k v x : place k v x -> float_after py_float ":" ((k ++ ":" ++ v) ++ newline) = Ok x.
Proof. intros (A & B & _ & _ & C). apply float_line; assumption. Qed.

(** a file of the hourly service: four lines on the place and the database, further inputs, the table, an empty line, the descriptions *)
Theorem C159_csv : forall mv k1 v1 k2 v2 k3 v3 l4 k4 v4 latitude longitude elevation database metas inputs header ns rows lines b descr ds data,
  place k1 v1 latitude -> place k2 v2 longitude -> place k3 v3 elevation -> plain l4 -> labelled k4 v4 l4 -> stripped v4 database ->
  entries metas inputs ->
  comma_line ("time"%string :: ns) header -> String.prefix "time," header = true -> In "Int"%string ns ->
  Forall2 comma_line rows lines -> plain b -> blank b -> described false descr ds ->
  Forall2 (row_says mv ns) rows data ->
  pvgis_hourly_csv py_float mv (data_file k1 v1 k2 v2 k3 v3 l4 (metas ++ header :: lines ++ b :: descr)) =
    Ok (data, HourlyMeta latitude longitude elevation database (dict_of inputs) (dict_of ds)).
Proof.
  intros mv k1 v1 k2 v2 k3 v3 l4 k4 v4 lat lon el db metas inputs header ns rows lines b descr ds data P1 P2 P3 P4 L4 S4 EN HD HP INT RL PB B DE RS.
  unfold data_file. cbn [app]. rewrite !text_of_app. unfold pvgis_hourly_csv.
  rewrite read_line_app by (eapply place_plain; exact P1). rewrite (place_float k1 v1 lat P1). cbn [bind].
  rewrite read_line_app by (eapply place_plain; exact P2). rewrite (place_float k2 v2 lon P2). cbn [bind].
  rewrite read_line_app by (eapply place_plain; exact P3). rewrite (place_float k3 v3 el P3). cbn [bind].
  rewrite read_line_app by exact P4. destruct (labelled_split k4 v4 l4 L4) as (v' & more & SP & SV). unfold part1 at 1. rewrite SP. cbn [bind].
  rewrite text_of_cat, text_of_app. pose proof HD as (PH & _ & CH & SH & _).
  rewrite (inputs_loop metas inputs EN header _ PH HP) by (pose proof (text_length metas (header ++ newline ++ text_of (lines ++ b :: descr))); lia). cbn [bind].
  rewrite text_of_cat, text_of_app. rewrite (data_loop rows lines RL b _ PB B) by (pose proof (text_length lines (b ++ newline ++ text_of descr)); lia).
  rewrite SH, split_concat by (try discriminate; exact CH). unfold hourly_table. destruct (rows_ok mv "time"%string ns rows data RS) as [R1 R2]. rewrite R2, R1. cbn [bind tl].
  assert (MI : mem "Int" (map (pvgis_name mv) ns) = true). { apply mem_In. apply in_map_iff. exists "Int"%string. split; [destruct mv; reflexivity|exact INT]. }
  rewrite MI. cbn [bind]. rewrite (descriptions_loop false descr ds DE) by (pose proof (text_length descr ""); rewrite sapp_nil in *; lia). rewrite SV, S4. reflexivity.
Qed.
(** a file without table, a line without colon before the table, a table without the column Int *)
Theorem C159_errors : forall mv k1 v1 k2 v2 k3 v3 l4 k4 v4 latitude longitude elevation metas inputs,
  place k1 v1 latitude -> place k2 v2 longitude -> place k3 v3 elevation -> plain l4 -> labelled k4 v4 l4 -> entries metas inputs ->
  pvgis_hourly_csv py_float mv (data_file k1 v1 k2 v2 k3 v3 l4 metas) = Err ValueError /\
  (forall bad rest, plain bad -> strip bad <> ""%string -> has_char ":" bad = false -> String.prefix "time," bad = false ->
     pvgis_hourly_csv py_float mv (data_file k1 v1 k2 v2 k3 v3 l4 (metas ++ bad :: rest)) = Err IndexError) /\
  (forall header ns rows lines b descr data, comma_line ("time"%string :: ns) header -> String.prefix "time," header = true -> ~ In "Int"%string ns ->
     Forall2 comma_line rows lines -> plain b -> blank b -> Forall2 (row_says mv ns) rows data ->
     pvgis_hourly_csv py_float mv (data_file k1 v1 k2 v2 k3 v3 l4 (metas ++ header :: lines ++ b :: descr)) = Err KeyError).
Proof.
  intros mv k1 v1 k2 v2 k3 v3 l4 k4 v4 lat lon el metas inputs P1 P2 P3 P4 L4 EN.
  assert (START : forall rest, pvgis_hourly_csv py_float mv (data_file k1 v1 k2 v2 k3 v3 l4 rest) =
     let* ins := hourly_inputs (S (String.length (text_of rest))) (text_of rest) [] in let '(inputs, names, s) := ins in let (lines, s) := data_lines (S (String.length s)) s in
     let* data := hourly_table py_float mv names lines in Ok (data, HourlyMeta lat lon el (strip v4) inputs (descriptions (S (String.length s)) false s []))).
  { intros rest. unfold data_file. cbn [app]. rewrite !text_of_app. unfold pvgis_hourly_csv.
    rewrite read_line_app by (eapply place_plain; exact P1). rewrite (place_float k1 v1 lat P1). cbn [bind].
    rewrite read_line_app by (eapply place_plain; exact P2). rewrite (place_float k2 v2 lon P2). cbn [bind].
    rewrite read_line_app by (eapply place_plain; exact P3). rewrite (place_float k3 v3 el P3). cbn [bind].
    rewrite read_line_app by exact P4. destruct (labelled_split k4 v4 l4 L4) as (v' & more & SP & SV). unfold part1 at 1. rewrite SP. cbn [bind]. rewrite SV. reflexivity. }
  assert (LOOP : forall tail e, (forall fuel d, (0 < fuel)%nat -> hourly_inputs fuel tail d = Err e) -> forall ls kvs, entries ls kvs -> forall d fuel, (List.length ls < fuel)%nat -> hourly_inputs fuel (text_of ls ++ tail) d = Err e).
  { intros tail e TE. induction 1 as [|l ls kvs P B E IH|l k v t ls kvs P L S0 T E IH]; intros d [|fuel] F; try (cbn in F; lia).
    - cbn [text_of fold_right append]. apply TE. lia.
    - rewrite text_of_app, !sapp_assoc. cbn [hourly_inputs]. rewrite read_line_app by exact P. rewrite prefix_nl by reflexivity. rewrite strip_nl, (strip_blank l B). cbn [String.eqb negb].
      assert (TT : String.prefix "time," l = false). { destruct l as [|c l]; [reflexivity|]. cbn in B. destruct B as [B _]. cbn [String.prefix]. destruct (ascii_dec "t" c) as [<-|_]; [discriminate|reflexivity]. }
      rewrite TT, line_nonempty. apply IH. cbn in F. lia.
    - rewrite text_of_app, !sapp_assoc. cbn [hourly_inputs]. rewrite read_line_app by exact P. rewrite prefix_nl by reflexivity. rewrite T.
      rewrite (strip_nonempty ":" _ eq_refl (labelled_colon k v l L)). cbn [negb]. destruct (labelled_split k v l L) as (v' & more & SP & SV).
      unfold part1, part0. rewrite SP. cbn [bind]. apply IH. cbn in F. lia. }
  split; [|split].
  - rewrite START. assert (X : hourly_inputs (S (String.length (text_of metas))) (text_of metas) [] = Err ValueError); [|rewrite X; reflexivity].
    rewrite <- (sapp_nil (text_of metas)) at 2. apply (LOOP ""%string ValueError) with (kvs := inputs); [|exact EN|pose proof (text_length metas ""); rewrite sapp_nil in *; lia].
    intros [|fuel] d F; [lia|]. reflexivity.
  - intros bad rest PB NB CB TB. rewrite START. rewrite text_of_cat, text_of_app.
    assert (X : hourly_inputs (S (String.length (text_of metas ++ bad ++ newline ++ text_of rest))) (text_of metas ++ bad ++ newline ++ text_of rest) [] = Err IndexError); [|rewrite X; reflexivity].
    apply (LOOP _ IndexError) with (kvs := inputs); [|exact EN|pose proof (text_length metas (bad ++ newline ++ text_of rest)); lia].
    intros [|fuel] d F; [lia|]. cbn [hourly_inputs]. rewrite read_line_app by exact PB. rewrite prefix_nl by reflexivity. rewrite TB, strip_nl. destruct (String.eqb_spec (strip bad) "") as [E|_]; [contradiction|]. cbn [negb].
    unfold part1. rewrite split_on_nosep by (rewrite has_char_app, CB; reflexivity). reflexivity.
  - intros header ns rows lines b descr data (PH & _ & CH & SH & _) HP INT RL PB B RS. rewrite START. rewrite text_of_cat, text_of_app.
    rewrite (inputs_loop metas inputs EN header _ PH HP) by (pose proof (text_length metas (header ++ newline ++ text_of (lines ++ b :: descr))); lia). cbn [bind].
    rewrite text_of_cat, text_of_app. rewrite (data_loop rows lines RL b _ PB B) by (pose proof (text_length lines (b ++ newline ++ text_of descr)); lia).
    rewrite SH, split_concat by (try discriminate; exact CH). unfold hourly_table. destruct (rows_ok mv "time"%string ns rows data RS) as [R1 R2]. rewrite R2, R1. cbn [bind tl].
    assert (MI : mem "Int" (map (pvgis_name mv) ns) = false).
    { destruct (mem "Int" (map (pvgis_name mv) ns)) eqn:Q; [|reflexivity]. exfalso. apply mem_In in Q. apply in_map_iff in Q. destruct Q as (n & E & I). apply INT. destruct mv; [|cbn in E; congruence].
      unfold pvgis_name in E. destruct (lookup n pvgis_variable_map) as [w|] eqn:LK; [|congruence]. exfalso. apply lookup_In in LK. subst w. unfold pvgis_variable_map in LK. cbn [In] in LK. intuition discriminate. }
    rewrite MI. reflexivity.
Qed.
End Hourly.
Print Assumptions C159_csv.
Print Assumptions C159_errors.
(** the dictionaries: the last line with a key counts; with distinct keys they are the entries *)
Theorem C159_dictionaries : forall kvs, (forall k, lookup k (dict_of kvs) = match find (fun kv => String.eqb k (fst kv)) (rev kvs) with Some kv => Some (snd kv) | None => None end) /\ (NoDup (map fst kvs) -> dict_of kvs = kvs).
Proof. intros kvs. split; [apply dict_of_lookup|apply dict_of_nodup]. Qed.
Print Assumptions C159_dictionaries.
Definition tiny_float (s : string) : option fl := if String.eqb s "45" || String.eqb s ("45" ++ newline) then Some #45 else if String.eqb s "0" then Some #0 else None.
Example C159_example : pvgis_hourly_csv tiny_float true (text_of ["Latitude (decimal degrees):45"; "Longitude (decimal degrees):45"; "Elevation (m):45"; "Radiation database: PVGIS-SARAH"; ""; "Slope: 35 deg."; "time,G(h),Int";
    "20160101:0010,45,0"; ""; "G(h): Global irradiance (W/m2)"; "PVGIS"]%string) =
  Ok ([Row (Date 2016 1 1) 0 10 [("ghi", #45); ("Int", #0)]%string], HourlyMeta #45 #45 #45 "PVGIS-SARAH" [("Slope", "35 deg.")]%string [("G(h)", "Global irradiance (W/m2)")]%string).
Proof.
  assert (T : trunc 0 = 0%Z) by (apply trunc_unique; split; intros; split; cbn; lra).
  apply (C159_csv tiny_float true "Latitude (decimal degrees)" "45" "Longitude (decimal degrees)" "45" "Elevation (m)" "45" "Radiation database: PVGIS-SARAH" "Radiation database" " PVGIS-SARAH" #45 #45 #45 "PVGIS-SARAH"
    [""; "Slope: 35 deg."]%string [("Slope", "35 deg.")]%string "time,G(h),Int" ["G(h)"; "Int"]%string [["20160101:0010"; "45"; "0"]]%string ["20160101:0010,45,0"]%string "" ["G(h): Global irradiance (W/m2)"; "PVGIS"]%string
    [("G(h)", "Global irradiance (W/m2)")]%string); try reflexivity; try (repeat split; reflexivity).
  - split; [reflexivity|]. split; [reflexivity|]. left. reflexivity.
  - apply en_blank; [reflexivity|exact I|]. apply (en_item "Slope: 35 deg." "Slope" " 35 deg." "35 deg."); [reflexivity| |reflexivity|reflexivity|constructor]. split; [reflexivity|]. split; [reflexivity|]. left. reflexivity.
  - split; [reflexivity|]. split; [discriminate|]. split; [repeat constructor|]. split; [reflexivity|discriminate].
  - right. left. reflexivity.
  - constructor; [|constructor]. split; [reflexivity|]. split; [discriminate|]. split; [repeat constructor|]. split; [reflexivity|discriminate].
  - apply (de_item false "G(h): Global irradiance (W/m2)" "G(h)" " Global irradiance (W/m2)"); [reflexivity| |reflexivity|]. { split; [reflexivity|]. split; [reflexivity|]. left. reflexivity. }
    apply de_none; [reflexivity|reflexivity|constructor].
  - constructor; [|constructor]. exists 2016, 1, 1, 0, 10, ["45"; "0"]%string, [("ghi", #45); ("Int", #0)]%string. split; [reflexivity|]. split; [repeat split; vm_compute; discriminate|]. split; [|reflexivity].
    apply ce_cons; [left; left; reflexivity|exists #45; split; [reflexivity|split; [reflexivity|discriminate]]|].
    apply ce_cons; [right; split; [cbn; intuition discriminate|reflexivity]| |constructor].
    exists #0. split; [reflexivity|]. split; [intros X; exfalso; apply X; reflexivity|]. intros _. exists 0%R, 0%Z. split; [reflexivity|]. split; [split; intros; lra|reflexivity].
Qed.

(** ** C160 *)
Section TmyCsv.
Variable py_float : string -> option fl.
Variable py_int : string -> option Z.
(** the lines 'month,year' from month m + 1 on *)
Inductive month_lines : Z -> list string -> list (Z * Z) -> Prop :=
| ml_nil m : month_lines m [] []
| ml_cons m a b line year ls ys : line = (a ++ "," ++ b)%string -> has_char "," a = false -> has_char "," b = false -> plain line -> py_int (b ++ newline) = Some year -> month_lines (m + 1) ls ys ->
    month_lines m (line :: ls) ((m + 1, year) :: ys).
Lemma months_loop : forall m ls ys, month_lines m ls ys -> forall rest, months_selected py_int (List.length ls) m (text_of ls ++ rest) = Ok (ys, rest).
Proof.
  induction 1 as [m|m a b line year ls ys -> A B P E H IH]; intros rest; [reflexivity|]. cbn [List.length months_selected]. rewrite text_of_app, !sapp_assoc.
  pose proof (read_line_app (a ++ "," ++ b) (text_of ls ++ rest) P) as RL. rewrite !sapp_assoc in RL. rewrite RL. unfold part1. cbn [append]. rewrite split_on_app by exact A.
  rewrite split_on_nosep by (rewrite has_char_app, B; reflexivity). cbn [bind Tmy.to_int]. rewrite E. cbn [bind]. rewrite IH. reflexivity.
Qed.
(** a row: the cells of a line, the last one with the line break; the cell under 'time(UTC)' is the time, the others are numbers *)
Definition raw_cells (line : string) (cells : list string) : Prop := plain line /\ line = String.concat "," cells /\ Forall cell cells /\ cells <> [].
Inductive values_say : list string -> list string -> list (string * fl) -> Prop :=
| va_nil : values_say [] [] []
| va_cons n c v ns cs vs : py_float c = Some v -> values_say ns cs vs -> values_say (n :: ns) (c :: cs) ((n, v) :: vs).
Definition with_break (cells : list string) : list string := on_last (fun c => (c ++ newline)%string) cells.
Definition tmy_row_says (pre post line_cells : list string) (r : row (list (string * fl))) : Prop :=
  exists y m d h mi cpre cpost vpre vpost, with_break line_cells = cpre ++ time_text y m d h mi :: cpost /\ a_time y m d h mi /\ values_say pre cpre vpre /\ values_say post cpost vpost /\ r = Row (Date y m d) h mi (vpre ++ vpost).
Lemma values_ok ns cs vs : values_say ns cs vs -> mapM (fun p => let* v := to_float py_float (Some (snd p)) in Ok (fst p, v)) (combine ns cs) = Ok vs /\ List.length cs = List.length ns.
Proof. induction 1 as [|n c v ns cs vs E H [IH1 IH2]]; [split; reflexivity|]. cbn [combine mapM fst snd]. unfold Tmy.to_float at 1. rewrite E. cbn [bind]. rewrite IH1. split; [reflexivity|cbn; congruence]. Qed.
Lemma mapM_app_ok {A B} (f : A -> res B) a b x y : mapM f a = Ok x -> mapM f b = Ok y -> mapM f (a ++ b) = Ok (x ++ y).
Proof.
  revert x. induction a as [|u a IH]; intros x E1 E2; [cbn in E1; apply Ok_inj in E1; subst; exact E2|]. cbn [mapM app] in *. destruct (f u) as [w|]; [|discriminate]. cbn [bind] in *.
  destruct (mapM f a) as [ws|]; [|discriminate]. apply Ok_inj in E1. subst x. rewrite (IH ws eq_refl E2). reflexivity.
Qed.
Lemma split_time_ok pre post cpre cpost t : ~ In "time(UTC)"%string pre -> List.length cpre = List.length pre -> split_time (pre ++ "time(UTC)"%string :: post) (cpre ++ t :: cpost) = Ok (t, combine pre cpre ++ combine post cpost).
Proof.
  revert cpre. induction pre as [|n pre IH]; intros [|c cpre] N L; try discriminate; [reflexivity|]. cbn [app split_time combine]. destruct (String.eqb_spec n "time(UTC)") as [->|_]; [exfalso; apply N; left; reflexivity|].
  rewrite IH; [reflexivity|intros I; apply N; right; exact I|cbn in L; congruence].
Qed.
Lemma split_break cells : cells <> [] -> Forall cell cells -> split_on "," (String.concat "," cells ++ newline) = with_break cells.
Proof.
  intros N H. induction H as [|x l [C _] H IH]; [congruence|]. destruct l as [|y l].
  - cbn [String.concat with_break on_last]. apply split_on_nosep. rewrite has_char_app, C. reflexivity.
  - change (String.concat "," (x :: y :: l)) with (x ++ String "," (String.concat "," (y :: l)))%string. rewrite sapp_assoc. cbn [append]. rewrite split_on_app by exact C. rewrite IH by discriminate. reflexivity.
Qed.
Lemma tmy_row_ok pre post cells r : ~ In "time(UTC)"%string pre -> tmy_row_says pre post cells r -> tmy_row py_float (pre ++ "time(UTC)"%string :: post) (with_break cells) = Ok r.
Proof.
  intros N (y & m & d & h & mi & cpre & cpost & vpre & vpost & E & T & V1 & V2 & ->). destruct (values_ok pre cpre vpre V1) as [E1 L1]. destruct (values_ok post cpost vpost V2) as [E2 L2].
  unfold tmy_row. rewrite E. assert (LL : Nat.eqb (List.length (cpre ++ time_text y m d h mi :: cpost)) (List.length (pre ++ "time(UTC)"%string :: post)) = true) by (rewrite !app_length; cbn [List.length]; rewrite L1, L2; apply Nat.eqb_refl).
  rewrite LL, split_time_ok by assumption. cbn [bind fst snd]. rewrite (time_ok y m d h mi T). cbn [bind fst snd]. rewrite (mapM_app_ok _ _ _ _ _ E1 E2). reflexivity.
Qed.
Lemma lines_loop : forall lines cells, Forall2 raw_cells lines cells -> forall rest, tmy_lines (List.length lines) (text_of lines ++ rest) = (map with_break cells, rest).
Proof.
  induction 1 as [|l c lines cells (P & -> & C & N) H IH]; intros rest; [reflexivity|]. cbn [List.length tmy_lines]. rewrite text_of_app, !sapp_assoc, read_line_app by exact P. rewrite IH. cbn [map]. rewrite split_break by assumption. reflexivity.
Qed.
(** headers: separated by commas, each possibly surrounded by white space *)
Definition header_says (line : string) (names : list string) : Prop := plain line /\ exists cells, line = String.concat "," cells /\ Forall cell cells /\ cells <> [] /\ map strip cells = names.
Lemma header_ok line names : header_says line names -> map strip (split_on "," (line ++ newline)) = names.
Proof.
  intros (P & cells & -> & C & N & <-). rewrite split_break by assumption. unfold with_break. clear. induction cells as [|x l IH]; [reflexivity|]. destruct l as [|y l]; [cbn [on_last map]; rewrite strip_nl; reflexivity|].
  change (on_last (fun c => (c ++ newline)%string) (x :: y :: l)) with (x :: on_last (fun c => (c ++ newline)%string) (y :: l)). cbn [map]. f_equal. exact IH.
Qed.
(** the line on the time offset of the irradiance, where there is one, and the line 'month,year' *)
Inductive offset_lines : list string -> option fl -> Prop :=
| ol_none l : plain l -> String.prefix "Irradiance Time Offset" l = false -> offset_lines [l] None
| ol_some k v x my : place py_float k v x -> String.prefix "Irradiance Time Offset" (k ++ ":" ++ v) = true -> plain my -> offset_lines [(k ++ ":" ++ v)%string; my] (Some x).

(** a TMY file of as many rows as hours (8760 in a TMY file): place, offset, the year of each month, the table, descriptions *)
Theorem C160_csv : forall k1 v1 k2 v2 k3 v3 latitude longitude elevation ol off months ys header pre post lines cells descr ds data,
  place py_float k1 v1 latitude -> place py_float k2 v2 longitude -> place py_float k3 v3 elevation ->
  offset_lines ol off -> month_lines 0 months ys -> List.length months = 12%nat ->
  header_says header (pre ++ "time(UTC)"%string :: post) -> ~ In "time(UTC)"%string pre ->
  Forall2 raw_cells lines cells -> Forall2 (tmy_row_says pre post) cells data -> described true descr ds ->
  pvgis_tmy_csv py_float py_int (List.length lines) (text_of ([(k1 ++ ":" ++ v1)%string; (k2 ++ ":" ++ v2)%string; (k3 ++ ":" ++ v3)%string] ++ ol ++ months ++ header :: lines ++ descr)) =
    Ok (data, TmyMeta latitude longitude elevation off ys (dict_of ds)).
Proof.
  intros k1 v1 k2 v2 k3 v3 lat lon el ol off months ys header pre post lines cells descr ds data P1 P2 P3 OL ML M12 HD NT RC RS DE.
  cbn [app]. rewrite !text_of_app. unfold pvgis_tmy_csv.
  rewrite read_line_app by (eapply place_plain; exact P1). rewrite (place_float py_float k1 v1 lat P1). cbn [bind].
  rewrite read_line_app by (eapply place_plain; exact P2). rewrite (place_float py_float k2 v2 lon P2). cbn [bind].
  rewrite read_line_app by (eapply place_plain; exact P3). rewrite (place_float py_float k3 v3 el P3). cbn [bind].
  assert (REST : (let* ms := months_selected py_int 12 0 (text_of (months ++ header :: lines ++ descr)) in
      let (hl, s) := read_line (snd ms) in let headers := map strip (split_on "," hl) in let (lines', s) := tmy_lines (List.length lines) s in
      let* data := mapM (tmy_row py_float headers) lines' in Ok (data, TmyMeta lat lon el off (fst ms) (descriptions (S (String.length s)) true s []))) = Ok (data, TmyMeta lat lon el off ys (dict_of ds))).
  { rewrite text_of_cat. pose proof (months_loop 0 months ys ML (text_of (header :: lines ++ descr))) as MS. rewrite M12 in MS. rewrite MS. cbn [bind fst snd]. rewrite text_of_app.
    pose proof HD as (PH & _). rewrite read_line_app by exact PH. rewrite (header_ok header _ HD). cbv zeta. rewrite text_of_cat, (lines_loop lines cells RC).
    assert (RW : mapM (tmy_row py_float (pre ++ "time(UTC)"%string :: post)) (map with_break cells) = Ok data).
    { clear -RS NT. induction RS as [|c r cells data R F IH]; [reflexivity|]. cbn [map mapM]. rewrite (tmy_row_ok pre post c r NT R). cbn [bind]. rewrite IH. reflexivity. }
    rewrite RW. cbn [bind]. rewrite (descriptions_loop true descr ds DE) by (pose proof (text_length descr ""); rewrite sapp_nil in *; lia). reflexivity. }
  inversion OL as [l PL NP E1 E2|k v x my PX PP PM E1 E2]; subst ol off.
  - cbn [app]. rewrite text_of_app, read_line_app by exact PL. rewrite prefix_nl by reflexivity. rewrite NP. cbn [bind fst snd]. exact REST.
  - cbn [app]. rewrite !text_of_app, read_line_app by (eapply place_plain; exact PX). rewrite prefix_nl by reflexivity. rewrite PP. rewrite (place_float py_float k v x PX). cbn [bind].
    rewrite read_line_app by exact PM. cbn [bind fst snd]. exact REST.
Qed.
End TmyCsv.
Print Assumptions C160_csv.
Definition tiny_int (s : string) : option Z := if String.eqb s ("2011" ++ newline) then Some 2011 else None.
Definition tmy_float (s : string) : option fl := if String.eqb s ("45" ++ newline) then Some #45 else None.
Example C160_example : pvgis_tmy_csv tmy_float tiny_int 1 (text_of (["Latitude (decimal degrees):45"; "Longitude (decimal degrees):45"; "Elevation (m):45"; "month,year"]%string ++ repeat "1,2011"%string 12 ++
    ["time(UTC),G(h)"; "20110101:0000,45"; "G(h): Global irradiance (W/m2)"]%string)) =
  Ok ([Row (Date 2011 1 1) 0 0 [("G(h)", #45)]%string], TmyMeta #45 #45 #45 None (map (fun m => (m, 2011)) [1; 2; 3; 4; 5; 6; 7; 8; 9; 10; 11; 12]) [("G(h)", "Global irradiance (W/m2)")]%string).
Proof.
  apply (C160_csv tmy_float tiny_int "Latitude (decimal degrees)" "45" "Longitude (decimal degrees)" "45" "Elevation (m)" "45" #45 #45 #45 ["month,year"]%string None (repeat "1,2011"%string 12)
    (map (fun m => (m, 2011)) [1; 2; 3; 4; 5; 6; 7; 8; 9; 10; 11; 12]) "time(UTC),G(h)" [] ["G(h)"]%string ["20110101:0000,45"]%string [["20110101:0000"; "45"]]%string ["G(h): Global irradiance (W/m2)"]%string
    [("G(h)", "Global irradiance (W/m2)")]%string); try reflexivity; try (repeat split; reflexivity).
  - apply ol_none; reflexivity.
  - cbn [repeat map]. do 12 (match goal with |- month_lines _ ?m _ _ => apply (ml_cons tiny_int m "1" "2011") end; [reflexivity|reflexivity|reflexivity|reflexivity|reflexivity|]). apply ml_nil.
  - split; [reflexivity|]. exists ["time(UTC)"; "G(h)"]%string. repeat split; [repeat constructor|discriminate].
  - intros [].
  - constructor; [|constructor]. split; [reflexivity|]. split; [reflexivity|]. split; [repeat constructor|discriminate].
  - constructor; [|constructor]. exists 2011, 1, 1, 0, 0, [], [("45" ++ newline)%string], [], [("G(h)", #45)]%string. split; [reflexivity|]. split; [repeat split; vm_compute; discriminate|].
    split; [constructor|]. split; [apply va_cons; [reflexivity|constructor]|reflexivity].
  - apply (de_item true "G(h): Global irradiance (W/m2)" "G(h)" " Global irradiance (W/m2)"); [reflexivity| |reflexivity|constructor]. split; [reflexivity|]. split; [reflexivity|]. left. reflexivity.
Qed.
