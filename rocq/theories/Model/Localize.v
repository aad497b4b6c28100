(** pvlib/tools.py:123-147 localize_to_utc.  Times in microseconds as in Model/Tools.v.  A zone is a first offset and its changes: (instant, new offset). *)
From Coq Require Import ZArith List Bool.
From Verif Require Import Base.Fl Base.Py Model.Tools.
Import ListNotations.
Open Scope list_scope.
Open Scope Z_scope.

Record tz := { first_offset : Z; changes : list (Z * Z) }.
Fixpoint offset_from (o : Z) (l : list (Z * Z)) (u : Z) : Z := match l with [] => o | (t, o') :: l' => if u <? t then o else offset_from o' l' u end.
(** the offset at an instant *)
Definition offset_at (z : tz) (u : Z) : Z := offset_from (first_offset z) (changes z) u.
(** utcoffset() of a wall-clock time with fold=0, as zoneinfo computes it: bisect_right in the list of change + max(offset before, offset after) *)
Fixpoint wall_offset_from (o : Z) (l : list (Z * Z)) (w : Z) : Z := match l with [] => o | (t, o') :: l' => if w <? t + Z.max o o' then o else wall_offset_from o' l' w end.
(** tools.py:137-140: a datetime.datetime (not a pandas Timestamp), naive ones taken as local time of the zone with fold=0 *)
Definition localize_datetime (z : tz) (t : datetime) : datetime :=
  let o := match offset t with None => wall_offset_from (first_offset z) (changes z) (wall t) | Some o => o end in Dt (wall t - o) (Some 0).

(** tools.py:141-145: a pandas index, all of whose times are naive (wall clock) or have a zone (instants).  DatetimeIndex.tz_localize as pandas computes it: the offset one day
    before and one day after, each kept if it gives that wall-clock time; its two exceptions are arguments, as their classes depend on the version *)
Inductive index := Naive (walls : list Z) | Aware (instants : list Z).
Section Index.
  Variables ambiguous nonexistent : exc.
  Definition tz_localize (z : tz) (w : Z) : res Z :=
    let valid o := if offset_at z (w - o) =? o then Some (w - o) else None in
    match valid (offset_at z (w - us_per_day)), valid (offset_at z (w + us_per_day)) with
    | Some a, Some b => if a =? b then Ok a else Err ambiguous
    | Some a, None => Ok a
    | None, Some b => Ok b
    | None, None => Err nonexistent
    end.
  Definition localize_index (z : tz) (i : index) : res index :=
    match i with
    | Aware l => Ok (Aware l)
    | Naive l => let* u := mapM (tz_localize z) l in Ok (Aware u)
    end.
End Index.
