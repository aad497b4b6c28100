(** pandas-style operations on series, as functions on lists sharing one index. *)
From Verif Require Import Base.Fl.
From Coq Require Import Arith.
Open Scope R_scope.

(** Series.diff(): nan (here None) first, then successive differences *)
Fixpoint diffs_from (prev : R) (l : list R) : list R :=
  match l with [] => [] | x :: l' => (x - prev) :: diffs_from x l' end.
Definition series_diff (l : list R) : list (option R) :=
  match l with [] => [] | x :: l' => None :: map Some (diffs_from x l') end.

(** np.cumsum *)
Fixpoint cumsum_from (acc : R) (l : list R) : list R :=
  match l with [] => [] | x :: l' => (acc + x) :: cumsum_from (acc + x) l' end.
Definition cumsum (l : list R) : list R := cumsum_from 0 l.

(** cumulative count of True: bool Series.cumsum() *)
Fixpoint cumcount_from (acc : nat) (l : list bool) : list nat :=
  match l with
  | [] => []
  | b :: l' => let n := if b then S acc else acc in n :: cumcount_from n l'
  end.
Definition cumcount (l : list bool) : list nat := cumcount_from 0 l.

(** Series.groupby(ids).cumsum(): at each row, the sum over all earlier rows and this one with the same id *)
Definition sum_of_group (id : nat) (rows : list (nat * R)) : R :=
  fold_right Rplus 0 (map snd (filter (fun r => Nat.eqb (fst r) id) rows)).
Fixpoint group_cumsum_from (hist : list (nat * R)) (l : list (nat * R)) : list R :=
  match l with
  | [] => []
  | r :: l' => let hist' := hist ++ [r] in sum_of_group (fst r) hist' :: group_cumsum_from hist' l'
  end.
Definition group_cumsum (ids : list nat) (l : list R) : list R := group_cumsum_from [] (combine ids l).

(** Series.ffill(): None is a missing value *)
Fixpoint ffill_from (last : option R) (l : list (option R)) : list (option R) :=
  match l with
  | [] => []
  | x :: l' => let y := match x with Some _ => x | None => last end in y :: ffill_from y l'
  end.
Definition ffill (l : list (option R)) : list (option R) := ffill_from None l.

(** boolean-mask assignment s[mask] = f(s) *)
Fixpoint zip_with {A B C} (f : A -> B -> C) (l : list A) (m : list B) : list C :=
  match l, m with
  | a :: l', b :: m' => f a b :: zip_with f l' m'
  | _, _ => []
  end.
Definition assign_mask {A} (mask : list bool) (v : A) (l : list A) : list A :=
  zip_with (fun (b : bool) x => if b then v else x) mask l.
(** s.iloc[0] = v *)
Definition set_first {A} (v : A) (l : list A) : list A :=
  match l with [] => [] | _ :: l' => v :: l' end.

(** Series.rolling(period, closed='right').sum(): over the rows with time in (t - period, t], skipping nan;
    nan when no valid row is in the window (min_periods = 1 for time windows). *)
Definition in_window (period t t' : R) : bool := Rltb (t - period) t' && Rleb t' t.
Definition rolling_sum (period : R) (times : list R) (vals : list fl) : list fl :=
  map (fun t =>
         let w := filter (fun x => negb (isnan x))
                    (map snd (filter (fun r => in_window period t (fst r)) (combine times vals))) in
         match w with [] => NaN | _ => fsum w end) times.
