(** Property C197: the times asked for from ERA5 and MERRA-2.  Model: Model/Requests.v. *)
From Coq Require Import ZArith List Bool String Ascii Lia.
From Verif Require Import Base.Fl Base.Py Base.Calendar Base.Strptime Model.Services Model.Requests.
Import ListNotations.
Open Scope Z_scope.

(** a time of day on a calendar day, its offset less than a day *)
Definition proper_time (d : date) (h mi : Z) : Prop := valid_date d /\ 0 <= h <= 23 /\ 0 <= mi <= 59.
Definition proper_when (t : when) : Prop :=
  match t with Verbatim _ => True | Moment d h mi _ o => proper_time d h mi /\ match o with None => True | Some o => -1440 < o < 1440 end end.
(** date, hour, minute and second of the time in UTC; a time without zone is one in UTC *)
Definition utc_moment (t : when) (d : date) (h mi s : Z) : Prop :=
  match t with
  | Verbatim _ => False
  | Moment d0 h0 mi0 s0 o => proper_time d h mi /\ s = s0 /\ instant d h mi = instant d0 h0 mi0 - match o with None => 0 | Some o => o end
  end.
(** the digits of a number, filled up with zeros *)
Definition number (w : nat) (x : Z) : string := digits_text (zpad w x).
Definition day_text (d : date) : string := (number 4 (Calendar.yr d) ++ "-" ++ number 2 (mo d) ++ "-" ++ number 2 (dy d))%string.

Lemma previous_day_ordinal d : valid_date d -> ordinal (previous_day d) = ordinal d - 1.
Proof.
  intros [M D]. unfold previous_day. destruct (Z.ltb_spec 1 (dy d)); [unfold ordinal; cbn [Calendar.yr mo dy]; ring|]. destruct (Z.ltb_spec 1 (mo d)).
  - unfold ordinal. cbn [Calendar.yr mo dy]. pose proof (days_before_month_succ (Calendar.yr d) (mo d - 1) ltac:(lia)) as E. replace (mo d - 1 + 1) with (mo d) in E by ring. lia.
  - destruct d as [y m dd]. cbn [Calendar.yr mo dy] in *. assert (m = 1) as -> by lia. assert (dd = 1) as -> by lia. unfold ordinal. cbn [Calendar.yr mo dy].
    pose proof (days_before_year_succ (y - 1)) as E. replace (y - 1 + 1) with y in E by ring. pose proof (december (y - 1)) as F. change (days_in_month (y - 1) 12) with 31 in F. replace (days_before_month y 1) with 0 by reflexivity. lia.
Qed.
Lemma previous_day_valid d : valid_date d -> valid_date (previous_day d).
Proof.
  intros [M D]. unfold previous_day, valid_date. destruct (Z.ltb_spec 1 (dy d)); cbn [Calendar.yr mo dy]; [lia|]. destruct (Z.ltb_spec 1 (mo d)); cbn [Calendar.yr mo dy].
  - pose proof (days_in_month_bounds (Calendar.yr d) (mo d - 1)). lia.
  - change (days_in_month (Calendar.yr d - 1) 12) with 31. lia.
Qed.
(** different days have different numbers *)
Lemma ordinal_injective d d' : valid_date d -> valid_date d' -> ordinal d = ordinal d' -> d = d'.
Proof.
  intros V V' E. assert (YR : Calendar.yr d = Calendar.yr d').
  { pose proof (day_of_year_bounds d V) as B. pose proof (day_of_year_bounds d' V') as B'. rewrite !ordinal_doy in E.
    assert (MONO : forall k y, days_before_year y + Z.of_nat k * 1 <= days_before_year (y + Z.of_nat k)).
    { induction k as [|k IH]; intros y; [replace (y + Z.of_nat 0) with y by lia; lia|]. rewrite Nat2Z.inj_succ. replace (y + Z.succ (Z.of_nat k)) with (y + Z.of_nat k + 1) by lia. rewrite days_before_year_succ. specialize (IH y).
      assert (0 < days_in_year (y + Z.of_nat k)) by (unfold days_in_year; destruct is_leap; lia). lia. }
    assert (LT : forall y y', y < y' -> days_before_year y + days_in_year y <= days_before_year y').
    { intros y y' L. rewrite <- days_before_year_succ. specialize (MONO (Z.to_nat (y' - (y + 1))) (y + 1)). rewrite Z2Nat.id in MONO by lia. replace (y + 1 + (y' - (y + 1))) with y' in MONO by ring. lia. }
    destruct (Z.lt_trichotomy (Calendar.yr d) (Calendar.yr d')) as [L|[L|L]]; [specialize (LT _ _ L); lia|exact L|specialize (LT _ _ L); lia]. }
  destruct d as [y m dd], d' as [y' m' dd']. cbn [Calendar.yr] in YR. subst y'. destruct V as [M D], V' as [M' D']. cbn [Calendar.yr mo dy] in *. unfold ordinal in E. cbn [Calendar.yr mo dy] in E.
  assert (LT : forall a b, 1 <= a -> a < b -> b <= 12 -> days_before_month y a + days_in_month y a <= days_before_month y b).
  { intros a b A L B. assert (EX : exists k, b = a + 1 + Z.of_nat k) by (exists (Z.to_nat (b - a - 1)); lia). destruct EX as [k ->]. revert B L. induction k as [|k IH]; intros B L.
    - cbn [Z.of_nat]. rewrite Z.add_0_r, days_before_month_succ by lia. lia.
    - rewrite Nat2Z.inj_succ in *. replace (a + 1 + Z.succ (Z.of_nat k)) with (a + 1 + Z.of_nat k + 1) by lia. rewrite days_before_month_succ by lia. pose proof (days_in_month_bounds y (a + 1 + Z.of_nat k)). specialize (IH ltac:(lia) ltac:(lia)). lia. }
  destruct (Z.lt_trichotomy m m') as [L|[->|L]]; [specialize (LT m m' ltac:(lia) L ltac:(lia)); lia|f_equal; lia|specialize (LT m' m ltac:(lia) L ltac:(lia)); lia].
Qed.
Lemma moment_unique d h mi d' h' mi' : proper_time d h mi -> proper_time d' h' mi' -> instant d h mi = instant d' h' mi' -> d = d' /\ h = h' /\ mi = mi'.
Proof. intros (V & H1 & M1) (V' & H2 & M2) E. unfold instant in E. assert (O : ordinal d = ordinal d') by lia. split; [apply ordinal_injective; assumption|]. lia. Qed.
Lemma to_utc_spec t d h mi s : proper_when t -> to_utc t = Ok (d, h, mi, s) <-> utc_moment t d h mi s.
Proof.
  destruct t as [x|d0 h0 mi0 s0 o]; cbn [to_utc proper_when utc_moment]; [intros _; split; [discriminate|tauto]|]. intros [P O].
  assert (EX : exists d1 h1 mi1, to_utc (Moment d0 h0 mi0 s0 o) = Ok (d1, h1, mi1, s0) /\ proper_time d1 h1 mi1 /\ instant d1 h1 mi1 = instant d0 h0 mi0 - match o with None => 0 | Some o => o end).
  { destruct o as [o|]; cbn [to_utc]; [|exists d0, h0, mi0; split; [reflexivity|split; [exact P|lia]]]. destruct P as (V & H1 & M1). set (m := h0 * 60 + mi0 - o). cbv zeta.
    assert (Q : forall m', 0 <= m' < 1440 -> 0 <= m' / 60 <= 23 /\ 0 <= m' mod 60 <= 59 /\ m' / 60 * 60 + m' mod 60 = m') by (intros m' B; Z.to_euclidean_division_equations; lia).
    destruct (Z.ltb_spec m 0) as [L|L]; [|destruct (Z.ltb_spec m 1440) as [L'|L']]; (eexists _, _, _; split; [reflexivity|]).
    - destruct (Q (m + 1440) ltac:(lia)) as (Q1 & Q2 & Q3). split; [split; [apply previous_day_valid, V|split; assumption]|]. unfold instant. rewrite previous_day_ordinal by exact V. lia.
    - destruct (Q m ltac:(lia)) as (Q1 & Q2 & Q3). split; [split; [exact V|split; assumption]|]. unfold instant. lia.
    - destruct (Q (m - 1440) ltac:(lia)) as (Q1 & Q2 & Q3). split; [split; [apply next_day_valid, V|split; assumption]|]. unfold instant. rewrite next_day_ordinal by exact V. lia. }
  destruct EX as (d1 & h1 & mi1 & E & P1 & I1). cbn [to_utc] in E. rewrite E. split.
  - intros H. injection H as <- <- <- <-. auto.
  - intros (P2 & -> & I2). destruct (moment_unique d1 h1 mi1 d h mi P1 P2 ltac:(lia)) as (-> & -> & ->). reflexivity.
Qed.
(** ERA5 is asked for the days in UTC of the start and the end *)
Theorem C197_era5_days : forall start end_ text, proper_when start -> proper_when end_ -> era5_date start end_ = Ok text <->
  exists d h mi s d' h' mi' s', utc_moment start d h mi s /\ utc_moment end_ d' h' mi' s' /\ text = (day_text d ++ "/" ++ day_text d')%string.
Proof.
  intros a b text A B. unfold era5_date. split.
  - destruct (to_utc a) as [[[[d h] mi] s]|] eqn:E; cbn [bind]; [|discriminate]. destruct (to_utc b) as [[[[d' h'] mi'] s']|] eqn:E'; cbn [bind]; [|discriminate]. intros H. injection H as <-.
    exists d, h, mi, s, d', h', mi', s'. split; [apply to_utc_spec; assumption|]. split; [apply to_utc_spec; assumption|reflexivity].
  - intros (d & h & mi & s & d' & h' & mi' & s' & U & U' & ->). rewrite (proj2 (to_utc_spec a _ _ _ _ A) U), (proj2 (to_utc_spec b _ _ _ _ B) U'). reflexivity.
Qed.
Print Assumptions C197_era5_days.
(** MERRA-2 is asked for the times in UTC, to the second, without a zone *)
Theorem C197_merra2_times : forall start end_ text, proper_when start -> proper_when end_ -> merra2_time start end_ = Ok text <->
  exists d h mi s d' h' mi' s', utc_moment start d h mi s /\ utc_moment end_ d' h' mi' s' /\
    text = (day_text d ++ "T" ++ number 2 h ++ ":" ++ number 2 mi ++ ":" ++ number 2 s ++ "/" ++ day_text d' ++ "T" ++ number 2 h' ++ ":" ++ number 2 mi' ++ ":" ++ number 2 s')%string.
Proof.
  assert (APP : forall x y z : string, ((x ++ y) ++ z = x ++ y ++ z)%string) by (induction x as [|c x IH]; intros y z; cbn [append]; [reflexivity|rewrite IH; reflexivity]).
  assert (TX : forall d h mi s rest, (isoformat d h mi s ++ rest)%string = (day_text d ++ "T" ++ number 2 h ++ ":" ++ number 2 mi ++ ":" ++ number 2 s ++ rest)%string).
  { intros d h mi s rest. unfold isoformat. rewrite APP. change (date_text d) with (day_text d). unfold two, number. rewrite !APP. reflexivity. }
  intros a b text A B. unfold merra2_time. split.
  - destruct (to_utc a) as [[[[d h] mi] s]|] eqn:E; cbn [bind]; [|discriminate]. destruct (to_utc b) as [[[[d' h'] mi'] s']|] eqn:E'; cbn [bind]; [|discriminate]. intros H. apply (f_equal (fun r => match r with Ok x => x | _ => text end)) in H. subst text.
    exists d, h, mi, s, d', h', mi', s'. split; [apply to_utc_spec; assumption|]. split; [apply to_utc_spec; assumption|]. rewrite TX. reflexivity.
  - intros (d & h & mi & s & d' & h' & mi' & s' & U & U' & ->). rewrite (proj2 (to_utc_spec a _ _ _ _ A) U), (proj2 (to_utc_spec b _ _ _ _ B) U'). cbn [bind]. rewrite TX. reflexivity.
Qed.
Print Assumptions C197_merra2_times.
(** the only error is that of a text that is no time *)
Theorem C197_errors : forall start end_ e, (era5_date start end_ = Err e \/ merra2_time start end_ = Err e) <-> e = ValueError /\ ((exists x, start = Verbatim x) \/ (exists x, end_ = Verbatim x)).
Proof.
  assert (U : forall t, (exists x, t = Verbatim x /\ to_utc t = Err ValueError) \/ exists d h mi s, to_utc t = Ok (d, h, mi, s) /\ forall x, t <> Verbatim x).
  { intros [x|d h mi s [o|]]; cbn [to_utc]; [left; exists x; auto|right|right].
    - destruct (h * 60 + mi - o <? 0); [|destruct (h * 60 + mi - o <? 1440)]; eexists _, _, _, _; (split; [reflexivity|discriminate]).
    - eexists _, _, _, _; (split; [reflexivity|discriminate]). }
  intros a b e. unfold era5_date, merra2_time. destruct (U a) as [(x & -> & E)|(d & h & mi & s & E & N)]; rewrite E; cbn [bind].
  - split; [intros [H|H]; injection H as <-; (split; [reflexivity|left; exists x; reflexivity])|intros [-> _]; left; reflexivity].
  - destruct (U b) as [(x & -> & E')|(d' & h' & mi' & s' & E' & N')]; rewrite E'; cbn [bind].
    + split; [intros [H|H]; injection H as <-; (split; [reflexivity|right; exists x; reflexivity])|intros [-> _]; left; reflexivity].
    + split; [intros [H|H]; discriminate|intros [_ [[x ->]|[x ->]]]; [destruct (N x eq_refl)|destruct (N' x eq_refl)]].
Qed.
Print Assumptions C197_errors.
Example C197_example : let a := Moment (Date 2020 3 1) 5 30 0 (Some 600) in let b := Moment (Date 2020 12 31) 23 30 15 (Some (-60)) in
  proper_when a /\ proper_when b /\ era5_date a b = Ok "2020-02-29/2021-01-01"%string /\ merra2_time a b = Ok "2020-02-29T19:30:00/2021-01-01T00:30:15"%string.
Proof. cbv zeta. split; [|split; [|split; vm_compute; reflexivity]]; cbn; unfold proper_time, valid_date; cbn; lia. Qed.
