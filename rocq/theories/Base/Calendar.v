(** The proleptic Gregorian calendar of Python's datetime *)
From Coq Require Import ZArith Bool Lia List.
Import ListNotations.
Open Scope Z_scope.

Definition is_leap (y : Z) : bool := (y mod 4 =? 0) && (negb (y mod 100 =? 0) || (y mod 400 =? 0)).
Definition days_in_month (y m : Z) : Z :=
  if m =? 2 then (if is_leap y then 29 else 28) else if (m =? 4) || (m =? 6) || (m =? 9) || (m =? 11) then 30 else 31.
Record date := Date { yr : Z; mo : Z; dy : Z }.
Definition valid_date (d : date) : Prop := 1 <= mo d <= 12 /\ 1 <= dy d <= days_in_month (yr d) (mo d).
Definition valid_dateb (d : date) : bool := (1 <=? mo d) && (mo d <=? 12) && (1 <=? dy d) && (dy d <=? days_in_month (yr d) (mo d)).
(** days before the year, before the month; the day number date.toordinal() *)
Definition days_before_year (y : Z) : Z := 365 * (y - 1) + (y - 1) / 4 - (y - 1) / 100 + (y - 1) / 400.
Definition days_before_month (y m : Z) : Z :=
  nth (Z.to_nat (m - 1)) [0; 31; 59; 90; 120; 151; 181; 212; 243; 273; 304; 334] 0 + (if (2 <? m) && is_leap y then 1 else 0).
Definition ordinal (d : date) : Z := days_before_year (yr d) + days_before_month (yr d) (mo d) + dy d.
Definition days_in_year (y : Z) : Z := if is_leap y then 366 else 365.
(** the following day *)
Definition next_day (d : date) : date :=
  if dy d <? days_in_month (yr d) (mo d) then Date (yr d) (mo d) (dy d + 1)
  else if mo d <? 12 then Date (yr d) (mo d + 1) 1 else Date (yr d + 1) 1 1.
(** minutes since the start of day number 0 *)
Definition instant (d : date) (h m : Z) : Z := ordinal d * 1440 + h * 60 + m.

Lemma valid_dateb_spec d : valid_dateb d = true <-> valid_date d.
Proof. unfold valid_dateb, valid_date. rewrite !andb_true_iff, !Z.leb_le. tauto. Qed.
Lemma days_before_year_succ y : days_before_year (y + 1) = days_before_year y + days_in_year y.
Proof.
  unfold days_before_year, days_in_year, is_leap. replace (y + 1 - 1) with y by ring.
  destruct (Z.eqb_spec (y mod 4) 0), (Z.eqb_spec (y mod 100) 0), (Z.eqb_spec (y mod 400) 0); cbn [andb orb negb]; Z.to_euclidean_division_equations; lia.
Qed.
Lemma month_cases m : 1 <= m <= 12 -> m = 1 \/ m = 2 \/ m = 3 \/ m = 4 \/ m = 5 \/ m = 6 \/ m = 7 \/ m = 8 \/ m = 9 \/ m = 10 \/ m = 11 \/ m = 12.
Proof. lia. Qed.
Lemma days_before_month_succ y m : 1 <= m <= 11 -> days_before_month y (m + 1) = days_before_month y m + days_in_month y m.
Proof.
  intros H. assert (C : m = 1 \/ m = 2 \/ m = 3 \/ m = 4 \/ m = 5 \/ m = 6 \/ m = 7 \/ m = 8 \/ m = 9 \/ m = 10 \/ m = 11) by lia.
  unfold days_before_month, days_in_month. destruct (is_leap y); repeat (destruct C as [->|C]; [reflexivity|]); subst; reflexivity.
Qed.
Lemma december y : days_before_month y 12 + days_in_month y 12 = days_in_year y.
Proof. unfold days_before_month, days_in_month, days_in_year. destruct (is_leap y); reflexivity. Qed.
Lemma days_in_month_bounds y m : 28 <= days_in_month y m <= 31.
Proof. unfold days_in_month. destruct (m =? 2); [destruct (is_leap y); lia|]. destruct ((m =? 4) || (m =? 6) || (m =? 9) || (m =? 11)); lia. Qed.
Lemma next_day_ordinal d : valid_date d -> ordinal (next_day d) = ordinal d + 1.
Proof.
  intros [M D]. unfold next_day. destruct (Z.ltb_spec (dy d) (days_in_month (yr d) (mo d))); [unfold ordinal; cbn [yr mo dy]; ring|].
  destruct (Z.ltb_spec (mo d) 12).
  - unfold ordinal. cbn [yr mo dy]. rewrite days_before_month_succ by lia. lia.
  - destruct d as [y m dd]. cbn [yr mo dy] in *. assert (E : m = 12) by lia. subst m. unfold ordinal. cbn [yr mo dy]. rewrite days_before_year_succ. pose proof (december y).
    replace (days_before_month (y + 1) 1) with 0 by reflexivity. lia.
Qed.
Lemma next_day_valid d : valid_date d -> valid_date (next_day d).
Proof.
  intros [M D]. unfold next_day, valid_date. destruct (Z.ltb_spec (dy d) (days_in_month (yr d) (mo d))); cbn [yr mo dy]; [lia|].
  destruct (Z.ltb_spec (mo d) 12); cbn [yr mo dy]; [pose proof (days_in_month_bounds (yr d) (mo d + 1))|pose proof (days_in_month_bounds (yr d + 1) 1)]; lia.
Qed.
(** day of the year, 1-based, and back *)
Definition day_of_year (d : date) : Z := days_before_month (yr d) (mo d) + dy d.
Lemma ordinal_doy d : ordinal d = days_before_year (yr d) + day_of_year d.
Proof. unfold ordinal, day_of_year. ring. Qed.
Lemma day_of_year_bounds d : valid_date d -> 1 <= day_of_year d <= days_in_year (yr d).
Proof.
  destruct d as [y m dd]. unfold valid_date. cbn [yr mo dy]. intros [M D]. unfold day_of_year. cbn [yr mo dy].
  assert (H : 0 <= days_before_month y m /\ days_before_month y m + days_in_month y m <= days_in_year y).
  { destruct (month_cases m M) as [->|[->|[->|[->|[->|[->|[->|[->|[->|[->|[->| ->]]]]]]]]]]]; unfold days_in_year, days_in_month, days_before_month; destruct (is_leap y); split; vm_compute; discriminate. }
  lia.
Qed.
