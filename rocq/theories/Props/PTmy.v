(** C145-C148: time stamps and headers of TMY3, TMY2 and EPW files *)
From Verif Require Import Base.Fl Base.Py Base.PyStr Base.FlFacts Base.Calendar Model.Tmy Spec.TmySpec.
From Coq Require Import Reals List String Ascii Bool ZArith Lia Lra.
Import ListNotations.
Open Scope list_scope.
Open Scope Z_scope.

Definition leap_day (d : date) : Prop := mo d = 2 /\ dy d = 29.
(** the day on which the time 24:00 of d falls *)
Definition day_of (s : stamp) : date := if s_hour s =? 24 then next_day (s_date s) else s_date s.
Definition proper (s : stamp) : Prop := valid_date (s_date s) /\ 0 <= s_hour s <= 24.

Lemma leap_dayb d : ((mo d =? 2) && (dy d =? 29)) = true <-> leap_day d.
Proof. unfold leap_day. rewrite andb_true_iff, !Z.eqb_eq. tauto. Qed.
Lemma forallb_valid rows : forallb (fun s => valid_dateb (s_date s)) rows = true <-> Forall (fun s => valid_date (s_date s)) rows.
Proof. rewrite forallb_forall, Forall_forall. split; intros H x Hx; apply valid_dateb_spec; apply H; exact Hx. Qed.
Lemma day_of_valid s : proper s -> valid_date (day_of s).
Proof. intros [V _]. unfold day_of. destruct (s_hour s =? 24); [apply next_day_valid|]; exact V. Qed.
Lemma day_of_instant s : proper s -> instant (day_of s) (s_hour s mod 24) (s_min s) = instant (s_date s) (s_hour s) (s_min s).
Proof.
  intros [V H]. unfold day_of, instant. destruct (Z.eqb_spec (s_hour s) 24) as [E|N].
  - rewrite E, next_day_ordinal by exact V. change (24 mod 24) with 0. ring.
  - rewrite Z.mod_small by lia. reflexivity.
Qed.
Lemma combine_map_same {A B} (f : A -> B) l : combine (map f l) l = map (fun x => (f x, x)) l.
Proof. induction l as [|x l IH]; [reflexivity|]. cbn. rewrite IH. reflexivity. Qed.

(** C145: without coerce_year every row is labelled with its own time, one day later if that day is February 29 *)
Theorem C145_index : forall rows, Forall proper rows ->
  exists labels, tmy3_index rows None = Ok labels /\
    Forall2 (fun s t => (leap_day (day_of s) -> t = instant (s_date s) (s_hour s) (s_min s) + 1440) /\ (~ leap_day (day_of s) -> t = instant (s_date s) (s_hour s) (s_min s))) rows labels.
Proof.
  intros rows H. unfold tmy3_index. rewrite (proj2 (forallb_valid rows)) by (eapply Forall_impl; [|exact H]; intros s [V _]; exact V). cbn [bind]. eexists. split; [reflexivity|].
  rewrite combine_map_same, map_map. cbn [fst snd]. induction H as [|s rows P _ IH]; [constructor|]. cbn [map]. constructor; [|exact IH].
  change (shift_midnight s) with (day_of s). unfold skip_leap_day. pose proof (leap_dayb (day_of s)) as L. destruct ((mo (day_of s) =? 2) && (dy (day_of s) =? 29)).
  - split; [intros _|intros N; exfalso; apply N, L; reflexivity]. rewrite <- (day_of_instant s P). unfold instant. rewrite next_day_ordinal by (apply day_of_valid; exact P). ring.
  - split; [intros N; apply L in N; discriminate|intros _]. apply day_of_instant. exact P.
Qed.
Print Assumptions C145_index.
Theorem C145_errors : forall rows c,
  ((exists s, In s rows /\ ~ valid_date (s_date s)) <-> tmy3_index rows c = Err ValueError) /\
  (rows = [] /\ c <> None <-> tmy3_index rows c = Err IndexError) /\
  (forall e, tmy3_index rows c = Err e -> e = ValueError \/ e = IndexError).
Proof.
  intros rows c. unfold tmy3_index. destruct (forallb (fun s => valid_dateb (s_date s)) rows) eqn:F.
  - apply forallb_valid in F. rewrite Forall_forall in F.
    assert (N : ~ exists s, In s rows /\ ~ valid_date (s_date s)) by (intros (s & I & V); apply V, F, I).
    destruct c as [y|]; [destruct rows as [|r rows]|]; cbn [bind].
    + split; [split; [intros (s & [] & _)|discriminate]|]. split; [split; [reflexivity|split; [reflexivity|discriminate]]|]. intros e E. injection E as <-. right. reflexivity.
    + split; [split; [tauto|discriminate]|]. split; [split; [intros [E _]; discriminate|discriminate]|discriminate].
    + split; [split; [tauto|discriminate]|]. split; [split; [intros [_ E]; congruence|discriminate]|discriminate].
  - split; [split; [reflexivity|intros _]|split; [split; [intros [-> _]; discriminate|discriminate]|intros e E; left; congruence]].
    clear c. induction rows as [|r rows IH]; [discriminate|]. cbn [forallb] in F. destruct (valid_dateb (s_date r)) eqn:V.
    + destruct (IH F) as (s & I & N). exists s. split; [right; exact I|exact N].
    + exists r. split; [left; reflexivity|]. intros W. apply valid_dateb_spec in W. congruence.
Qed.
Print Assumptions C145_errors.

Lemma on_last_app {A} (f : A -> A) l x : on_last f (l ++ [x]) = l ++ [f x].
Proof. induction l as [|y l IH]; [reflexivity|]. cbn [app on_last]. rewrite IH. destruct (l ++ [x]) eqn:E; [destruct l; discriminate|reflexivity]. Qed.
Lemma combine_app {A B} (a a' : list A) (b b' : list B) : List.length a = List.length b -> combine (a ++ a') (b ++ b') = combine a b ++ combine a' b'.
Proof. revert b. induction a as [|x a IH]; intros [|y b] H; try discriminate; [reflexivity|]. cbn. f_equal. apply IH. injection H as H. exact H. Qed.

Lemma match_snoc {A B} (l : list A) x (a b : B) : match (l ++ [x])%list with [] => a | _ => b end = b.
Proof. destruct l; reflexivity. Qed.
(** the time of the row in the year c *)
Definition in_year (c : Z) (s : stamp) : Z := instant (Date c (mo (s_date s)) (dy (s_date s))) (s_hour s) (s_min s).
(** C145: a typical year: its months come from any years, no row is on February 29, and the last row (only) is December 31, 24:00.  Coerced to a common year every row is
    labelled with its own time in that year, so the labels are as regular as the file *)
Theorem C145_coerced : forall rows last c, Forall proper rows -> (forall s, In s rows -> ~ leap_day (s_date s) /\ ~ (mo (s_date s) = 12 /\ dy (s_date s) = 31 /\ s_hour s = 24)) ->
  proper last -> mo (s_date last) = 12 -> dy (s_date last) = 31 -> s_hour last = 24 -> is_leap c = false ->
  tmy3_index (rows ++ [last]) (Some c) = Ok (map (in_year c) (rows ++ [last])).
Proof.
  intros rows last c P N [VL _] ML DL HL C. unfold tmy3_index.
  rewrite (proj2 (forallb_valid (rows ++ [last]))) by (apply Forall_app; split; [eapply Forall_impl; [|exact P]; intros s [V _]; exact V|constructor; [exact VL|constructor]]).
  rewrite match_snoc. cbn [bind]. f_equal.
  rewrite !map_app. cbn [map]. rewrite on_last_app, combine_app by (rewrite !map_length; reflexivity). rewrite map_app. f_equal.
  - rewrite map_map, combine_map_same, map_map. cbn [fst snd]. apply map_ext_in. intros s Hs. rewrite Forall_forall in P. destruct (P s Hs) as [V H]. destruct (N s Hs) as [N1 N2].
    destruct V as [V1 V2]. destruct s as [[y m d] h mi]. unfold in_year, instant, with_year, skip_leap_day, shift_midnight, leap_day in *. cbn [s_date s_hour s_min Calendar.yr mo dy] in *.
    assert (DL2 : forall k, days_in_month k 2 = if is_leap k then 29 else 28) by reflexivity.
    assert (DN : m <> 2 -> days_in_month c m = days_in_month y m) by (intros M2; unfold days_in_month; destruct (Z.eqb_spec m 2); [contradiction|reflexivity]).
    assert (DM : days_in_month c m <= days_in_month y m). { destruct (Z.eq_dec m 2) as [->|M2]; [rewrite !DL2, C; destruct (is_leap y); lia|rewrite (DN M2); lia]. }
    assert (DV : d <= days_in_month c m). { destruct (Z.eq_dec m 2) as [->|M2]; [rewrite DL2, C; rewrite DL2 in V2; destruct (is_leap y); lia|rewrite (DN M2); lia]. }
    destruct (Z.eqb_spec h 24) as [E|NE'].
    + subst h. assert (NX : ordinal (next_day (Date c m d)) = ordinal (Date c m d) + 1) by (apply next_day_ordinal; unfold valid_date; cbn [Calendar.yr mo dy]; lia).
      unfold next_day in *. cbn [Calendar.yr mo dy] in *. destruct (Z.ltb_spec d (days_in_month y m)) as [L|L].
      * cbn [Calendar.yr mo dy]. destruct (Z.eqb_spec m 2) as [->|M2]; cbn [andb].
        -- destruct (Z.eqb_spec (d + 1) 29) as [D9|D9].
           ++ assert (d = 28) by lia. subst d. assert (LY : is_leap y = true) by (unfold days_in_month in L; destruct (is_leap y); [reflexivity|cbn in L; lia]).
              change (days_in_month y 2) with (if is_leap y then 29 else 28) in *. change (days_in_month c 2) with (if is_leap c then 29 else 28) in *. rewrite LY, C in *. change (28 <? 28) with false in *. change (28 + 1 <? 29) with false. change (2 <? 12) with true in *. cbv iota in *. cbn [mo dy].
 rewrite NX. change (24 mod 24) with 0. ring.
           ++ destruct (Z.ltb_spec d (days_in_month c 2)) as [L'|L']; [|exfalso; change (days_in_month c 2) with (if is_leap c then 29 else 28) in *; rewrite C in *; change (days_in_month y 2) with (if is_leap y then 29 else 28) in L; destruct (is_leap y); lia].
              cbn [mo dy]. rewrite NX. change (24 mod 24) with 0. ring.
        -- destruct (Z.ltb_spec d (days_in_month c m)) as [L'|L'].
           ++ cbn [mo dy]. rewrite NX. change (24 mod 24) with 0. ring.
           ++ exfalso. unfold days_in_month in *. destruct (Z.eqb_spec m 2); [contradiction|]. lia.
      * destruct (Z.ltb_spec d (days_in_month c m)) as [L'|L'].
        -- exfalso. lia.
        -- destruct (Z.ltb_spec m 12) as [M|M].
           ++ cbn [mo dy]. rewrite andb_false_r by reflexivity. cbn [mo dy]. rewrite NX. change (24 mod 24) with 0. ring.
           ++ exfalso. apply N2. assert (m = 12) by lia. subst m. change (days_in_month y 12) with 31 in *. lia.
    + assert (G : ((m =? 2) && (d =? 29)) = false). { destruct (Z.eqb_spec m 2), (Z.eqb_spec d 29); try reflexivity. exfalso. apply N1. split; assumption. }
      cbn [mo dy]. rewrite G. cbn [mo dy]. rewrite Z.mod_small by lia. reflexivity.
  - destruct last as [[y m d] h mi]. cbn [s_date s_hour s_min mo dy] in *. subst m d h. unfold in_year, instant, with_year, skip_leap_day, shift_midnight. cbn [s_date s_hour s_min combine map fst snd].
    change (24 =? 24) with true. cbv iota. unfold next_day. cbn [Calendar.yr mo dy]. change (days_in_month y 12) with 31. change (31 <? 31) with false. change (12 <? 12) with false. cbv iota. cbn [mo dy].
    change ((1 =? 2) && (1 =? 29)) with false. cbv iota. cbn [mo dy]. f_equal.
    assert (NX : ordinal (next_day (Date c 12 31)) = ordinal (Date c 12 31) + 1) by (apply next_day_ordinal; unfold valid_date; cbn [Calendar.yr mo dy]; change (days_in_month c 12) with 31; lia).
    unfold next_day in NX. cbn [Calendar.yr mo dy] in NX. change (days_in_month c 12) with 31 in NX. change (31 <? 31) with false in NX. change (12 <? 12) with false in NX. cbv iota in NX. rewrite NX. change (24 mod 24) with 0. ring.
Qed.
Print Assumptions C145_coerced.
(** but the last row is put into the following year whatever its date: a file whose hours run from 00:00 to 23:00 ends a year late *)
Theorem C145_last_row_refuted : forall rows last c, Forall proper rows -> proper last -> s_hour last <> 24 -> ~ leap_day (s_date last) ->
  exists labels, tmy3_index (rows ++ [last]) (Some c) = Ok labels /\ List.last labels 0 = in_year (c + 1) last.
Proof.
  intros rows last c P [VL HL] H L. unfold tmy3_index.
  rewrite (proj2 (forallb_valid (rows ++ [last]))) by (apply Forall_app; split; [eapply Forall_impl; [|exact P]; intros s [V _]; exact V|constructor; [exact VL|constructor]]).
  rewrite match_snoc. cbn [bind]. eexists. split; [reflexivity|].
  rewrite !map_app. cbn [map]. rewrite on_last_app, combine_app by (rewrite !map_length; reflexivity). rewrite map_app. cbn [combine map fst snd]. rewrite last_last.
  unfold in_year, instant, with_year, skip_leap_day, shift_midnight. destruct (Z.eqb_spec (s_hour last) 24); [contradiction|].
  pose proof (leap_dayb (s_date last)) as B. destruct ((mo (s_date last) =? 2) && (dy (s_date last) =? 29)); [exfalso; apply L, B; reflexivity|]. cbn [mo dy Calendar.yr]. rewrite Z.mod_small by lia. reflexivity.
Qed.
Print Assumptions C145_last_row_refuted.
(** and in a leap year the midnight after February 28 is labelled one day late *)
Theorem C145_leap_year_refuted : forall y c mi rest last, is_leap c = true -> Forall proper (rest ++ [last]) ->
  exists t labels, tmy3_index (Stamp (Date y 2 28) 24 mi :: rest ++ [last]) (Some c) = Ok (t :: labels) /\ t = instant (Date c 2 28) 24 mi + 1440.
Proof.
  intros y c mi rest last C P. unfold tmy3_index.
  assert (V : valid_date (Date y 2 28)). { split; [cbn; lia|]. pose proof (days_in_month_bounds y 2). cbn [Calendar.yr mo dy]. lia. }
  rewrite (proj2 (forallb_valid _)) by (constructor; [exact V|]; eapply Forall_impl; [|exact P]; intros s [W _]; exact W).
  cbn [bind map]. assert (NE : exists x l, rest ++ [last] = x :: l) by (destruct rest; eexists; eexists; reflexivity). destruct NE as (x & l & NE). rewrite NE. cbn [map on_last combine fst snd]. eexists; eexists. split; [reflexivity|].
  assert (E : with_year c (skip_leap_day (shift_midnight (Stamp (Date y 2 28) 24 mi))) = Date c 3 1).
  { unfold shift_midnight, skip_leap_day, next_day, with_year. cbn [s_date s_hour Calendar.yr mo dy]. change (24 =? 24) with true. cbv iota. change (days_in_month y 2) with (if is_leap y then 29 else 28). destruct (is_leap y) eqn:LY.
    - change (28 <? 29) with true. cbv iota. cbn [Calendar.yr mo dy]. change ((2 =? 2) && (28 + 1 =? 29)) with true. cbv iota. change (days_in_month y 2) with (if is_leap y then 29 else 28). rewrite LY. change (28 + 1 <? 29) with false. change (2 <? 12) with true. reflexivity.
    - change (28 <? 28) with false. change (2 <? 12) with true. reflexivity. }
  rewrite E. unfold instant, ordinal. cbn [Calendar.yr mo dy s_hour s_min]. unfold days_before_month. rewrite C. change (24 mod 24) with 0. change (nth (Z.to_nat (3 - 1)) [0; 31; 59; 90; 120; 151; 181; 212; 243; 273; 304; 334] 0) with 59. change (nth (Z.to_nat (2 - 1)) [0; 31; 59; 90; 120; 151; 181; 212; 243; 273; 304; 334] 0) with 31.
  change ((2 <? 3) && true) with true. change ((2 <? 2) && true) with false. cbv iota. lia.
Qed.
Print Assumptions C145_leap_year_refuted.
Example C145_nonvacuous : let rows := [Stamp (Date 1988 2 28) 23 0; Stamp (Date 1988 2 28) 24 0; Stamp (Date 1999 3 1) 1 0; Stamp (Date 2001 12 31) 23 0] in let last := Stamp (Date 2001 12 31) 24 0 in
  Forall proper rows /\ (forall s, In s rows -> ~ leap_day (s_date s) /\ ~ (mo (s_date s) = 12 /\ dy (s_date s) = 31 /\ s_hour s = 24)) /\ proper last /\
  map (fun t => t - instant (Date 2015 2 28) 23 0) (map (in_year 2015) (rows ++ [last])) = [0; 60; 120; 441 * 1000 - 360; 441 * 1000 - 300].
Proof.
  intros rows last. split; [repeat constructor; cbn; try lia; unfold valid_date; cbn; lia|]. split.
  - intros s [<-|[<-|[<-|[<-|[]]]]]; unfold leap_day; cbn; lia.
  - split; [split; [unfold valid_date; cbn; lia|cbn; lia]|]. vm_compute. reflexivity.
Qed.

(** ** C146: headers *)
Definition newline : string := String (chr 10) "".
Definition cell (s : string) : Prop := has_char "," s = false /\ has_char (chr 10) s = false.
Lemma split_concat l : l <> [] -> Forall cell l -> split_on "," (String.concat "," l) = l.
Proof.
  intros N H. induction H as [|x l [C _] H IH]; [congruence|]. destruct l as [|y l].
  - cbn [String.concat]. apply split_on_nosep. exact C.
  - change (String.concat "," (x :: y :: l)) with (x ++ String "," (String.concat "," (y :: l)))%string. rewrite split_on_app by exact C. rewrite IH by discriminate. reflexivity.
Qed.
Lemma concat_no_newline l : Forall cell l -> has_char (chr 10) (String.concat "," l) = false.
Proof.
  intros H. induction H as [|x l [_ C] H IH]; [reflexivity|]. destruct l as [|y l]; [exact C|].
  change (String.concat "," (x :: y :: l)) with (x ++ String "," (String.concat "," (y :: l)))%string. rewrite has_char_app, C. cbn [orb]. cbn [has_char]. rewrite IH. reflexivity.
Qed.
Lemma newline_eqb c : is_newline c = Ascii.eqb c (chr 10).
Proof.
  unfold is_newline. destruct (Ascii.eqb_spec c (chr 10)) as [->|N]; [reflexivity|]. apply Nat.eqb_neq. intros E. apply N. rewrite <- (ascii_nat_embedding c), E. reflexivity.
Qed.
Lemma rstrip_no_newline s : has_char (chr 10) s = false -> rstrip is_newline s = s.
Proof.
  induction s as [|c s IH]; [reflexivity|]. cbn [has_char]. intros H. apply orb_false_iff in H. destruct H as [H1 H2]. cbn [rstrip]. rewrite (IH H2). rewrite newline_eqb, H1.
  destruct s; reflexivity.
Qed.
Lemma rstrip_newline s : has_char (chr 10) s = false -> rstrip is_newline (s ++ newline) = s.
Proof.
  induction s as [|c s IH]; [reflexivity|]. cbn [has_char]. intros H. apply orb_false_iff in H. destruct H as [H1 H2]. cbn [append rstrip]. rewrite (IH H2). rewrite newline_eqb, H1.
  destruct s; reflexivity.
Qed.
(** the first line of the file, with or without its end-of-line *)
Definition header_line (cells : list string) (line : string) : Prop :=
  cells <> [] /\ Forall cell cells /\ (line = String.concat "," cells \/ line = (String.concat "," cells ++ newline)%string).
Lemma header_cells cells line : header_line cells line -> split_on "," (rstrip is_newline line) = cells.
Proof.
  intros (N & C & [-> | ->]); [rewrite rstrip_no_newline by (apply concat_no_newline; exact C)|rewrite rstrip_newline by (apply concat_no_newline; exact C)]; apply split_concat; assumption.
Qed.
(** C146: the seven cells of the header become the site record; further cells are ignored *)
Theorem C146_tmy3 : forall py_float py_int usaf name state tz lat lon alt extra line vu vtz vlat vlon valt,
  header_line (usaf :: name :: state :: tz :: lat :: lon :: alt :: extra) line ->
  py_int usaf = Some vu -> py_float tz = Some vtz -> py_float lat = Some vlat -> py_float lon = Some vlon -> py_float alt = Some valt ->
  tmy3_header py_float py_int line = Ok (Tmy3Meta vu (Some name) (Some state) vtz vlat vlon valt).
Proof.
  intros * H Eu Et Ela Elo Eal. unfold tmy3_header. rewrite (header_cells _ _ H). unfold tmy3_head. cbn [combine lookup String.eqb Ascii.eqb Bool.eqb to_float to_int].
  rewrite Eal, Ela, Elo, Et, Eu. reflexivity.
Qed.
Print Assumptions C146_tmy3.
Theorem C146_epw : forall py_float texts lat lon tz alt extra line vtz vlat vlon valt, List.length texts = 6%nat ->
  header_line (texts ++ lat :: lon :: tz :: alt :: extra)%list line ->
  py_float tz = Some vtz -> py_float lat = Some vlat -> py_float lon = Some vlon -> py_float alt = Some valt ->
  epw_header py_float line = Ok (EpwMeta (combine ["loc"; "city"; "state-prov"; "country"; "data_type"; "WMO_code"]%string texts) vlat vlon vtz valt).
Proof.
  intros * L H Et Ela Elo Eal. unfold epw_header. rewrite (header_cells _ _ H). destruct texts as [|t1 [|t2 [|t3 [|t4 [|t5 [|t6 [|t7 texts]]]]]]]; try discriminate.
  unfold epw_head. cbn [app combine lookup String.eqb Ascii.eqb Bool.eqb to_float to_int firstn map snd].
  rewrite Eal, Ela, Elo, Et. reflexivity.
Qed.
Print Assumptions C146_epw.
(** a header with too few cells raises KeyError, one with a text where a number belongs ValueError *)
Theorem C146_errors : forall py_float py_int cells line, header_line cells line ->
  ((List.length cells < 7)%nat <-> tmy3_header py_float py_int line = Err KeyError) /\
  ((List.length cells < 10)%nat <-> epw_header py_float line = Err KeyError) /\
  (forall e, tmy3_header py_float py_int line = Err e -> e = KeyError \/ e = ValueError) /\ (forall e, epw_header py_float line = Err e -> e = KeyError \/ e = ValueError) /\
  (forall usaf name state tz lat lon alt extra, cells = usaf :: name :: state :: tz :: lat :: lon :: alt :: extra ->
    py_int usaf = None \/ py_float tz = None \/ py_float lat = None \/ py_float lon = None \/ py_float alt = None <-> tmy3_header py_float py_int line = Err ValueError) /\
  (forall texts lat lon tz alt extra, List.length texts = 6%nat -> cells = (texts ++ lat :: lon :: tz :: alt :: extra)%list ->
    py_float tz = None \/ py_float lat = None \/ py_float lon = None \/ py_float alt = None <-> epw_header py_float line = Err ValueError).
Proof.
  intros * H. unfold tmy3_header, epw_header. rewrite (header_cells _ _ H). clear H. unfold tmy3_head, epw_head.
  split; [|split; [|split; [|split; [|split]]]].
  - destruct cells as [|c1 [|c2 [|c3 [|c4 [|c5 [|c6 [|c7 rest]]]]]]]; cbn [combine lookup String.eqb Ascii.eqb Bool.eqb to_float to_int bind List.length]; try (split; [reflexivity|intros _; lia]).
    destruct (py_float c7); [|split; [lia|discriminate]]. cbn [bind]. destruct (py_float c5); [|split; [lia|discriminate]]. cbn [bind]. destruct (py_float c6); [|split; [lia|discriminate]]. cbn [bind].
    destruct (py_float c4); [|split; [lia|discriminate]]. cbn [bind]. destruct (py_int c1); split; try discriminate; lia.
  - destruct cells as [|c1 [|c2 [|c3 [|c4 [|c5 [|c6 [|c7 [|c8 [|c9 [|c10 rest]]]]]]]]]]; cbn [combine lookup String.eqb Ascii.eqb Bool.eqb to_float to_int bind List.length]; try (split; [reflexivity|intros _; lia]).
    destruct (py_float c10); [|split; [lia|discriminate]]. cbn [bind]. destruct (py_float c7); [|split; [lia|discriminate]]. cbn [bind]. destruct (py_float c8); [|split; [lia|discriminate]]. cbn [bind].
    destruct (py_float c9); split; try discriminate; lia.
  - intros e. unfold to_float, to_int, bind. repeat match goal with |- context [match ?o with Some _ => _ | None => _ end] => destruct o end; intros E; try discriminate; injection E as <-; auto.
  - intros e. unfold to_float, to_int, bind. repeat match goal with |- context [match ?o with Some _ => _ | None => _ end] => destruct o end; intros E; try discriminate; injection E as <-; auto.
  - intros * ->. cbn [combine lookup String.eqb Ascii.eqb Bool.eqb to_float to_int bind].
    destruct (py_float alt); [|cbn [bind]; tauto]. cbn [bind]. destruct (py_float lat); [|cbn [bind]; tauto]. cbn [bind]. destruct (py_float lon); [|cbn [bind]; tauto]. cbn [bind].
    destruct (py_float tz); [|cbn [bind]; tauto]. cbn [bind]. destruct (py_int usaf); [|cbn [bind]; tauto]. cbn [bind]. split; [intros [?|[?|[?|[?|?]]]]; discriminate|discriminate].
  - intros * L ->. destruct texts as [|t1 [|t2 [|t3 [|t4 [|t5 [|t6 [|t7 texts]]]]]]]; try discriminate. cbn [app combine lookup String.eqb Ascii.eqb Bool.eqb to_float to_int bind].
    destruct (py_float alt); [|cbn [bind]; tauto]. cbn [bind]. destruct (py_float lat); [|cbn [bind]; tauto]. cbn [bind]. destruct (py_float lon); [|cbn [bind]; tauto]. cbn [bind].
    destruct (py_float tz); [|cbn [bind]; tauto]. cbn [bind]. split; [intros [?|[?|[?|?]]]; discriminate|discriminate].
Qed.
Print Assumptions C146_errors.
(** the index is localised to the time zone of the file: every offset that is a whole number of seconds is kept, whatever its sign *)
Theorem C146_utc_offset : forall q : Z, utc_offset (IZR q / 3600) = q /\ utc_offset (IZR q) = 3600 * q.
Proof.
  assert (P : forall k, Int_part (IZR k) = k).
  { intros k. unfold Int_part. rewrite <- (tech_up (IZR k) (k + 1)); [ring|rewrite plus_IZR; lra|rewrite plus_IZR; lra]. }
  assert (T : forall k, trunc (IZR k) = k).
  { intros k. unfold trunc. destruct (Rle_dec 0 (IZR k)) as [H|H]; [apply P|]. rewrite <- opp_IZR, P. ring. }
  intros q. unfold utc_offset. split.
  - replace (IZR q / 3600 * 3600)%R with (IZR q) by (field; lra). apply T.
  - rewrite <- mult_IZR, T. ring.
Qed.
Print Assumptions C146_utc_offset.
Example C146_nonvacuous : header_line ["703165"; "SAND POINT"; "AK"; "-9.0"; "55.317"; "-160.517"; "7"] ("703165,SAND POINT,AK,-9.0,55.317,-160.517,7" ++ newline).
Proof. split; [discriminate|]. split; [|right; reflexivity]. repeat constructor. Qed.

(** ** C147: TMY2 *)
(** C147: the header: site texts, time zone, latitude (north positive), longitude (east positive; any letter but N is south, any but E is west), altitude *)
Theorem C147_header : forall py_float py_int wban city state tz ns d1 m1 ew d2 m2 alt extra vtz vd1 vm1 vd2 vm2 valt,
  py_int tz = Some vtz -> py_float d1 = Some #vd1 -> py_float m1 = Some #vm1 -> py_float d2 = Some #vd2 -> py_float m2 = Some #vm2 -> py_float alt = Some valt ->
  tmy2_header py_float py_int (wban :: city :: state :: tz :: ns :: d1 :: m1 :: ew :: d2 :: m2 :: alt :: extra) =
    Ok (Tmy2Meta [wban; city; state] vtz #(if String.eqb ns "N" then vd1 + vm1 / 60 else - (vd1 + vm1 / 60)) #(if String.eqb ew "E" then vd2 + vm2 / 60 else - (vd2 + vm2 / 60)) valt).
Proof.
  intros * Et E1 E2 E3 E4 Ea. unfold tmy2_header, tok_float, tok. cbn [nth_error bind]. rewrite Et, E1, E2, E3, E4, Ea. cbn [bind firstn]. do 2 f_equal; unfold tmy2_coordinate.
  - rewrite fdiv_fin by lra. rewrite fadd_fin. destruct (String.eqb ns "N"); rewrite fmul_fin; f_equal; ring.
  - rewrite fdiv_fin by lra. rewrite fadd_fin. destruct (String.eqb ew "E"); rewrite fmul_fin; f_equal; ring.
Qed.
Print Assumptions C147_header.
Theorem C147_header_errors : forall py_float py_int rawmeta, (List.length rawmeta < 11)%nat ->
  tmy2_header py_float py_int rawmeta = Err IndexError \/ tmy2_header py_float py_int rawmeta = Err ValueError.
Proof.
  intros * L. destruct rawmeta as [|t1 [|t2 [|t3 [|t4 [|t5 [|t6 [|t7 [|t8 [|t9 [|t10 [|t11 rest]]]]]]]]]]]; [..|cbn [List.length] in L; lia];
    unfold tmy2_header, tok_float, tok; cbn [nth_error bind]; auto; repeat match goal with |- context [match ?o with Some _ => _ | None => _ end] => destruct o; cbn [bind]; auto end.
Qed.
Print Assumptions C147_header_errors.

Lemma values_nth py_float line : forall fmt c vs, tmy2_values py_float c fmt line = Ok vs ->
  List.length vs = List.length fmt /\
  forall k w (num : bool), nth_error fmt k = Some (w, num) ->
    let val := substring (c + fold_right (fun p a => fst p + a)%nat 0%nat (firstn k fmt)) w line in
    if num then exists x, py_float val = Some x /\ nth_error vs k = Some (Num x) else nth_error vs k = Some (Text val).
Proof.
  induction fmt as [|[w num] fmt IH]; intros c vs E.
  - injection E as <-. split; [reflexivity|]. intros [|k] w num H; discriminate.
  - cbn [tmy2_values] in E. destruct (if num then match py_float (substring c w line) with Some x => Ok (Num x) | None => Err ValueError end else Ok (Text (substring c w line))) as [v|e] eqn:V; [|discriminate].
    cbn [bind] in E. destruct (tmy2_values py_float (c + w) fmt line) as [vs'|e] eqn:R; [|discriminate]. cbn [bind] in E. injection E as <-. destruct (IH _ _ R) as [L N].
    split; [cbn [List.length]; rewrite L; reflexivity|]. intros [|k] w' num' H.
    + injection H as <- <-. cbn [firstn fold_right nth_error]. rewrite Nat.add_0_r. cbv zeta. destruct num.
      * destruct (py_float (substring c w line)) as [x|]; [|discriminate]. injection V as <-. exists x. split; reflexivity.
      * injection V as <-. reflexivity.
    + cbn [nth_error firstn fold_right fst]. cbn [nth_error] in H. specialize (N k w' num' H). cbv zeta in N |- *. replace (c + (w + fold_right (fun p a => fst p + a)%nat 0%nat (firstn k fmt)))%nat with (c + w + fold_right (fun p a => fst p + a)%nat 0%nat (firstn k fmt))%nat by lia. exact N.
Qed.
Lemma values_err py_float line : forall fmt c e, tmy2_values py_float c fmt line = Err e -> e = ValueError.
Proof.
  induction fmt as [|[w num] fmt IH]; intros c e E; [discriminate|]. cbn [tmy2_values] in E. destruct num.
  - destruct (py_float (substring c w line)); [|cbn [bind] in E; congruence]. cbn [bind] in E. destruct (tmy2_values py_float (c + w) fmt line) eqn:R; [discriminate|]. cbn [bind] in E. injection E as <-. exact (IH _ _ R).
  - cbn [bind] in E. destruct (tmy2_values py_float (c + w) fmt line) eqn:R; [discriminate|]. cbn [bind] in E. injection E as <-. exact (IH _ _ R).
Qed.
Definition is_source (name : string) : bool := existsb (String.eqb name) ["GHISource"; "DNISource"; "DHISource"; "GHillumSource"; "DNillumSource"; "DHillumSource"; "ZenithlumSource"; "TotCldSource";
  "OpqCldSource"; "DryBulbSource"; "DewPointSource"; "RHumSource"; "PressureSource"; "WdirSource"; "WspdSource"; "HvisSource"; "CeilHgtSource"; "PwatSource"; "AODSource"; "SnowDepthSource"; "LastSnowfallSource"]%string.
Lemma manual_format : forall k name a z, nth_error tmy2_manual k = Some (name, a, z) ->
  nth_error tmy2_format k = Some (z + 1 - a, negb (is_source name))%nat /\ (1 + fold_right (fun p s => fst p + s)%nat 0%nat (firstn k tmy2_format) = a - 1)%nat /\ (1 <= a <= z)%nat /\
  (nth_error tmy2_columns k = Some name \/ (name = "LastSnowfallUncertainty" /\ nth_error tmy2_columns k = Some "LastSnowfallUncertaint"))%string.
Proof.
  intros k name a z H. assert (L : (k < 70)%nat) by (change 70%nat with (List.length tmy2_manual); apply nth_error_Some; rewrite H; discriminate).
  do 70 (destruct k as [|k]; [vm_compute in H; injection H as <- <- <-; split; [vm_compute; reflexivity|split; [vm_compute; reflexivity|split; [lia|first [left; vm_compute; reflexivity|right; split; vm_compute; reflexivity]]]]|]). lia.
Qed.
(** C147: every value of a data line is read from the positions given in the manual, the source flags as texts and all else as numbers; and the values come with the
    manual's names, save the last one *)
Theorem C147_fields : forall py_float line vs, tmy2_values py_float 1 tmy2_format line = Ok vs ->
  List.length vs = 70%nat /\
  forall k name a z, nth_error tmy2_manual k = Some (name, a, z) ->
    let text := substring (a - 1) (z + 1 - a) line in
    (if is_source name then nth_error vs k = Some (Text text) else exists x, py_float text = Some x /\ nth_error vs k = Some (Num x)) /\
    (nth_error tmy2_columns k = Some name \/ (name = "LastSnowfallUncertainty" /\ nth_error tmy2_columns k = Some "LastSnowfallUncertaint"))%string.
Proof.
  intros py_float line vs E. destruct (values_nth _ _ _ _ _ E) as [L N]. split; [exact L|]. intros k name a z H text. destruct (manual_format _ _ _ _ H) as (F & P & _ & C).
  split; [|exact C]. specialize (N _ _ _ F). rewrite P in N. cbv zeta in N. fold text in N. destruct (is_source name); exact N.
Qed.
Print Assumptions C147_fields.
Theorem C147_field_errors : forall py_float line,
  (exists k name a z, nth_error tmy2_manual k = Some (name, a, z) /\ is_source name = false /\ py_float (substring (a - 1) (z + 1 - a) line) = None) <-> tmy2_values py_float 1 tmy2_format line = Err ValueError.
Proof.
  intros py_float line. split.
  - intros (k & name & a & z & H & F & N). destruct (tmy2_values py_float 1 tmy2_format line) as [vs|e] eqn:E.
    + destruct (C147_fields _ _ _ E) as [_ C]. destruct (C _ _ _ _ H) as [C1 _]. rewrite F in C1. destruct C1 as (x & C1 & _). congruence.
    + rewrite (values_err _ _ _ _ _ E). reflexivity.
  - assert (G : forall fmt c, tmy2_values py_float c fmt line = Err ValueError -> exists k w, nth_error fmt k = Some (w, true) /\ py_float (substring (c + fold_right (fun p a => fst p + a)%nat 0%nat (firstn k fmt)) w line) = None).
    { induction fmt as [|[w num] fmt IH]; intros c E; [discriminate|]. cbn [tmy2_values] in E. destruct num.
      - destruct (py_float (substring c w line)) as [x|] eqn:V.
        + cbn [bind] in E. destruct (tmy2_values py_float (c + w) fmt line) eqn:R; [discriminate|]. cbn [bind] in E. injection E as ->. destruct (IH _ R) as (k & w' & K & P). exists (S k), w'. split; [exact K|].
          cbn [firstn fold_right fst]. rewrite Nat.add_assoc. exact P.
        + exists 0%nat, w. split; [reflexivity|]. cbn [firstn fold_right]. rewrite Nat.add_0_r. exact V.
      - cbn [bind] in E. destruct (tmy2_values py_float (c + w) fmt line) eqn:R; [discriminate|]. cbn [bind] in E. injection E as ->. destruct (IH _ R) as (k & w' & K & P). exists (S k), w'. split; [exact K|].
        cbn [firstn fold_right fst]. rewrite Nat.add_assoc. exact P. }
    intros E. destruct (G _ _ E) as (k & w & K & P). assert (L : (k < 70)%nat) by (change 70%nat with (List.length tmy2_format); apply nth_error_Some; rewrite K; discriminate).
    destruct (nth_error tmy2_manual k) as [[[name a] z]|] eqn:M; [|apply nth_error_None in M; change (List.length tmy2_manual) with 70%nat in M; lia].
    destruct (manual_format _ _ _ _ M) as (F & PO & _ & _). rewrite K in F. injection F as W B. exists k, name, a, z. split; [exact M|]. split; [destruct (is_source name); [discriminate|reflexivity]|]. rewrite PO, W in P. exact P.
Qed.
Print Assumptions C147_field_errors.

(** hours 1 to 24 of a file are the starts of the hours of the day *)
Lemma mapM_Forall2 {A B} (f : A -> res B) l l' : mapM f l = Ok l' <-> Forall2 (fun x y => f x = Ok y) l l'.
Proof.
  split.
  - revert l'. induction l as [|x l IH]; intros l' E; cbn [mapM] in E; [injection E as <-; constructor|]. destruct (f x) as [y|] eqn:F; [|discriminate]. cbn [bind] in E. destruct (mapM f l) as [ys|]; [|discriminate]. cbn [bind] in E. injection E as <-. constructor; [exact F|apply IH; reflexivity].
  - intros H. induction H as [|x y l l' F H IH]; [reflexivity|]. cbn [mapM]. rewrite F. cbn [bind]. rewrite IH. reflexivity.
Qed.
Lemma mapM_one_err {A B} (f : A -> res B) l e0 : (forall x e, f x = Err e -> e = e0) -> (forall e, mapM f l = Err e -> e = e0) /\ ((exists x, In x l /\ f x = Err e0) <-> mapM f l = Err e0).
Proof.
  intros H. induction l as [|x l [IH1 IH2]]; cbn [mapM]; [split; [discriminate|split; [intros (x & [] & _)|discriminate]]|].
  destruct (f x) as [y|e] eqn:F; cbn [bind].
  - destruct (mapM f l) as [ys|e] eqn:M; cbn [bind].
    + split; [discriminate|]. split; [intros (z & [<-|I] & Z); [congruence|discriminate (proj1 IH2 (ex_intro _ z (conj I Z)))]|discriminate].
    + split; [exact IH1|]. rewrite <- IH2. split; [intros (z & [<-|I] & Z); [congruence|exists z; split; assumption]|intros (z & I & Z); exists z; split; [right|]; assumption].
  - split; [intros e0' E; injection E as <-; exact (H _ _ F)|]. rewrite (H _ _ F) in F |- *. split; [reflexivity|]. intros _. exists x. split; [left; reflexivity|exact F].
Qed.
Lemma Forall2_weaken {A B} (P Q : A -> B -> Prop) l l' : (forall x y, P x y -> Q x y) -> Forall2 P l l' -> Forall2 Q l l'.
Proof. intros H F. induction F; constructor; auto. Qed.
Lemma hour_okb d h : (valid_dateb d && (0 <=? h - 1) && (h - 1 <=? 23)) = true <-> valid_date d /\ 1 <= h <= 24.
Proof. rewrite !andb_true_iff, valid_dateb_spec, !Z.leb_le. intuition lia. Qed.
(** C147: every row is labelled with the start of its hour, in the year of the first row; ValueError exactly if that year has no such day or the hour is not in 1..24 *)
Theorem C147_index : forall y0 m0 d0 h0 rest, let rows := (y0, m0, d0, h0) :: rest in
  (forall labels, tmy2_index rows = Ok labels <-> Forall2 (fun '(_, m, d, h) t => valid_date (Date (y0 + 1900) m d) /\ 1 <= h <= 24 /\ t = instant (Date (y0 + 1900) m d) h 0 - 60) rows labels) /\
  ((exists y m d h, In (y, m, d, h) rows /\ ~ (valid_date (Date (y0 + 1900) m d) /\ 1 <= h <= 24)) <-> tmy2_index rows = Err ValueError) /\
  (forall e, tmy2_index rows = Err e -> e = ValueError).
Proof.
  intros y0 m0 d0 h0 rest rows. unfold tmy2_index. subst rows.
  set (f := fun r : Z * Z * Z * Z => let '(_, m, d, h) := r in let dt := Date (y0 + 1900) m d in if valid_dateb dt && (0 <=? h - 1) && (h - 1 <=? 23) then Ok (instant dt (h - 1) 0) else Err ValueError).
  assert (FE : forall x e, f x = Err e -> e = ValueError) by (intros [[[y m] d] h] e; unfold f; cbv zeta; destruct (_ && _); congruence).
  destruct (mapM_one_err f ((y0, m0, d0, h0) :: rest) ValueError FE) as [E1 E2]. split; [|split; [|exact E1]].
  - intros labels. rewrite mapM_Forall2. assert (P : forall x t, f x = Ok t <-> (let '(_, m, d, h) := x in valid_date (Date (y0 + 1900) m d) /\ 1 <= h <= 24 /\ t = instant (Date (y0 + 1900) m d) h 0 - 60)).
    { intros [[[y m] d] h] t. unfold f. cbv zeta. pose proof (hour_okb (Date (y0 + 1900) m d) h) as HB. destruct (valid_dateb (Date (y0 + 1900) m d) && (0 <=? h - 1) && (h - 1 <=? 23)).
      - destruct (proj1 HB eq_refl) as [V H]. split; [intros E; injection E as <-|intros (_ & _ & ->)]; [split; [exact V|split; [exact H|]]|f_equal]; unfold instant; ring.
      - split; [discriminate|]. intros (V & H & _). discriminate (proj2 HB (conj V H)). }
    split; apply Forall2_weaken; intros [[[y m] d] h] t; [exact (proj1 (P (y, m, d, h) t))|exact (proj2 (P (y, m, d, h) t))].
  - refine (iff_trans _ E2). split.
    + intros (y & m & d & h & I & N). exists (y, m, d, h). split; [exact I|]. unfold f. cbv zeta. pose proof (hour_okb (Date (y0 + 1900) m d) h) as HB. destruct (_ && _); [exfalso; apply N, HB; reflexivity|reflexivity].
    + intros ([[[y m] d] h] & I & F). exists y, m, d, h. split; [exact I|]. intros VH. unfold f in F. cbv zeta in F. rewrite (proj2 (hour_okb (Date (y0 + 1900) m d) h) VH) in F. discriminate.
Qed.
Print Assumptions C147_index.
(** ** C148: EPW.  Every row is labelled with the start of its hour, in its own year or in the year asked for; ValueError exactly if that year has no such day or the hour is
    not in 1..24 *)
Theorem C148_index : forall rows coerce, let year (y : Z) := match coerce with Some c => c | None => y end in
  (forall labels, epw_index rows coerce = Ok labels <-> Forall2 (fun '(y, m, d, h) t => valid_date (Date (year y) m d) /\ 1 <= h <= 24 /\ t = instant (Date (year y) m d) h 0 - 60) rows labels) /\
  ((exists y m d h, In (y, m, d, h) rows /\ ~ (valid_date (Date (year y) m d) /\ 1 <= h <= 24)) <-> epw_index rows coerce = Err ValueError) /\
  (forall e, epw_index rows coerce = Err e -> e = ValueError).
Proof.
  intros rows coerce year. unfold epw_index.
  set (f := fun r : Z * Z * Z * Z => let '(y, m, d, h) := r in let dt := Date (match coerce with Some c => c | None => y end) m d in if valid_dateb dt && (0 <=? h - 1) && (h - 1 <=? 23) then Ok (instant dt (h - 1) 0) else Err ValueError).
  assert (FE : forall x e, f x = Err e -> e = ValueError) by (intros [[[y m] d] h] e; unfold f; cbv zeta; destruct (_ && _); congruence).
  destruct (mapM_one_err f rows ValueError FE) as [E1 E2]. split; [|split; [|exact E1]].
  - intros labels. rewrite mapM_Forall2. assert (P : forall x t, f x = Ok t <-> (let '(y, m, d, h) := x in valid_date (Date (year y) m d) /\ 1 <= h <= 24 /\ t = instant (Date (year y) m d) h 0 - 60)).
    { intros [[[y m] d] h] t. unfold f. fold (year y). cbv zeta. pose proof (hour_okb (Date (year y) m d) h) as HB. destruct (valid_dateb (Date (year y) m d) && (0 <=? h - 1) && (h - 1 <=? 23)).
      - destruct (proj1 HB eq_refl) as [V H]. split; [intros E; injection E as <-|intros (_ & _ & ->)]; [split; [exact V|split; [exact H|]]|f_equal]; unfold instant; ring.
      - split; [discriminate|]. intros (V & H & _). discriminate (proj2 HB (conj V H)). }
    split; apply Forall2_weaken; intros [[[y m] d] h] t; [exact (proj1 (P (y, m, d, h) t))|exact (proj2 (P (y, m, d, h) t))].
  - refine (iff_trans _ E2). split.
    + intros (y & m & d & h & I & N). exists (y, m, d, h). split; [exact I|]. unfold f. fold (year y). cbv zeta. pose proof (hour_okb (Date (year y) m d) h) as HB. destruct (_ && _); [exfalso; apply N, HB; reflexivity|reflexivity].
    + intros ([[[y m] d] h] & I & F). exists y, m, d, h. split; [exact I|]. intros VH. unfold f in F. fold (year y) in F. cbv zeta in F. rewrite (proj2 (hour_okb (Date (year y) m d) h) VH) in F. discriminate.
Qed.
Print Assumptions C148_index.
(** a file with a February 29 cannot be coerced to a year that is not a leap year *)
Theorem C148_leap_day : forall rows y h c, In (y, 2, 29, h) rows -> is_leap c = false -> epw_index rows (Some c) = Err ValueError.
Proof.
  intros rows y h c I C. destruct (C148_index rows (Some c)) as (_ & E & _). apply E. exists y, 2, 29, h. split; [exact I|]. intros [[_ V] _]. cbn [Calendar.yr mo dy] in V. change (days_in_month c 2) with (if is_leap c then 29 else 28) in V. rewrite C in V. lia.
Qed.
Print Assumptions C148_leap_day.
Example C148_nonvacuous : epw_index [(1999, 2, 28, 24); (2003, 3, 1, 1)] (Some 2021) = Ok [instant (Date 2021 2 28) 23 0; instant (Date 2021 3 1) 0 0] /\
  instant (Date 2021 3 1) 0 0 - instant (Date 2021 2 28) 23 0 = 60.
Proof. split; vm_compute; reflexivity. Qed.
