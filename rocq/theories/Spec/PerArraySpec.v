(** What it means for a system method to work array by array. *)
From Coq Require Import List Bool Arith.
From Verif Require Import Base.Py Model.System.
Import ListNotations.

(** an argument fits a system of [n] arrays: a tuple must have one entry per array; a bare value is accepted when it
    applies to the whole system ([wide]) or there is only one array *)
Definition fits {A} (n : nat) (wide : bool) (a : pyarg A) : Prop :=
  match a with Tup l => length l = n | Bare _ => wide = true \/ n = 1 end.
(** the value that array number [i] gets *)
Definition value_for {A} (a : pyarg A) (i : nat) : option A :=
  match a with Tup l => nth_error l i | Bare v => Some v end.
(** the result of array number [i]; a bare result belongs to a single-array system *)
Definition result_at {A} (r : pyarg A) (i : nat) : option A :=
  match r with Tup l => nth_error l i | Bare v => match i with 0 => Some v | _ => None end end.
Definition shape {A} (n : nat) (r : pyarg A) : Prop :=
  match r with Tup l => length l = n /\ n <> 1 | Bare _ => n = 1 end.

Section PerArray.
Context {T B A1 A2 A3 A4 A5 : Type}.
(** [r] holds, for every array, the result of the array-level function on that array and its own argument values *)
Definition per_array_0 (arrs : list T) (f : T -> res B) (r : pyarg B) : Prop :=
  shape (length arrs) r /\ forall i a, nth_error arrs i = Some a -> exists y, result_at r i = Some y /\ f a = Ok y.
Definition per_array_1 (arrs : list T) (a1 : pyarg A1) (f : T -> A1 -> res B) (r : pyarg B) : Prop :=
  shape (length arrs) r /\ forall i a v1, nth_error arrs i = Some a -> value_for a1 i = Some v1 ->
    exists y, result_at r i = Some y /\ f a v1 = Ok y.
Definition per_array_2 (arrs : list T) (a1 : pyarg A1) (a2 : pyarg A2) (f : T -> A1 -> A2 -> res B) (r : pyarg B) : Prop :=
  shape (length arrs) r /\ forall i a v1 v2, nth_error arrs i = Some a -> value_for a1 i = Some v1 -> value_for a2 i = Some v2 ->
    exists y, result_at r i = Some y /\ f a v1 v2 = Ok y.
Definition per_array_3 (arrs : list T) (a1 : pyarg A1) (a2 : pyarg A2) (a3 : pyarg A3) (f : T -> A1 -> A2 -> A3 -> res B) (r : pyarg B) : Prop :=
  shape (length arrs) r /\ forall i a v1 v2 v3, nth_error arrs i = Some a -> value_for a1 i = Some v1 -> value_for a2 i = Some v2 ->
    value_for a3 i = Some v3 -> exists y, result_at r i = Some y /\ f a v1 v2 v3 = Ok y.
Definition per_array_4 (arrs : list T) (a1 : pyarg A1) (a2 : pyarg A2) (a3 : pyarg A3) (a4 : pyarg A4)
    (f : T -> A1 -> A2 -> A3 -> A4 -> res B) (r : pyarg B) : Prop :=
  shape (length arrs) r /\ forall i a v1 v2 v3 v4, nth_error arrs i = Some a -> value_for a1 i = Some v1 -> value_for a2 i = Some v2 ->
    value_for a3 i = Some v3 -> value_for a4 i = Some v4 -> exists y, result_at r i = Some y /\ f a v1 v2 v3 v4 = Ok y.
Definition per_array_5 (arrs : list T) (a1 : pyarg A1) (a2 : pyarg A2) (a3 : pyarg A3) (a4 : pyarg A4) (a5 : pyarg A5)
    (f : T -> A1 -> A2 -> A3 -> A4 -> A5 -> res B) (r : pyarg B) : Prop :=
  shape (length arrs) r /\ forall i a v1 v2 v3 v4 v5, nth_error arrs i = Some a -> value_for a1 i = Some v1 -> value_for a2 i = Some v2 ->
    value_for a3 i = Some v3 -> value_for a4 i = Some v4 -> value_for a5 i = Some v5 -> exists y, result_at r i = Some y /\ f a v1 v2 v3 v4 v5 = Ok y.
End PerArray.
