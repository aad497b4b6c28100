(** Python-level notions: exceptions as values, ASCII lower-casing, dicts as association lists. *)
From Coq Require Export String Ascii List Bool.
From Coq Require Import Arith.
Export ListNotations.
Open Scope string_scope.
Open Scope list_scope.

Inductive exc : Type :=
| ValueError | TypeError | KeyError | AttributeError | NotImplementedError | NameError
| IndexError | AssertionError | RuntimeError | UnboundLocalError | StopIteration | OverflowError
| ZeroDivisionError | ImportError
(** requests.HTTPError, TimeoutError, csv.Error *)
| HttpError | TimeoutError | CsvError.

Inductive res (A : Type) : Type :=
| Ok (a : A)
| Err (e : exc).
Arguments Ok {A} a.
Arguments Err {A} e.

Definition bind {A B} (m : res A) (k : A -> res B) : res B :=
  match m with Ok a => k a | Err e => Err e end.
Notation "'let*' x ':=' m 'in' k" := (bind m (fun x => k))
  (at level 200, x pattern, m at level 100, k at level 200, right associativity).

Definition rmap {A B} (f : A -> B) (m : res A) : res B := bind m (fun a => Ok (f a)).
Definition is_ok {A} (m : res A) : bool := match m with Ok _ => true | Err _ => false end.

Fixpoint mapM {A B} (f : A -> res B) (l : list A) : res (list B) :=
  match l with
  | [] => Ok []
  | x :: xs => let* y := f x in let* ys := mapM f xs in Ok (y :: ys)
  end.

(** str.lower() on ASCII *)
Definition lower_ascii (c : ascii) : ascii :=
  let n := nat_of_ascii c in
  if (Nat.leb 65 n && Nat.leb n 90)%bool then ascii_of_nat (n + 32) else c.
Fixpoint lower (s : string) : string :=
  match s with
  | EmptyString => EmptyString
  | String c s' => String (lower_ascii c) (lower s')
  end.

(** [x in d] / [d[x]] for a dict with string keys *)
Fixpoint lookup {A} (k : string) (d : list (string * A)) : option A :=
  match d with
  | [] => None
  | (k', v) :: d' => if String.eqb k k' then Some v else lookup k d'
  end.
Definition getitem {A} (d : list (string * A)) (k : string) : res A :=
  match lookup k d with Some v => Ok v | None => Err KeyError end.
Definition mem (k : string) (l : list string) : bool := existsb (String.eqb k) l.

Lemma mem_In k l : mem k l = true <-> In k l.
Proof.
  unfold mem. rewrite existsb_exists. split.
  - intros (x & Hx & He). apply String.eqb_eq in He. subst; auto.
  - intros H. exists k. split; [exact H|]. apply String.eqb_refl.
Qed.
Lemma lookup_In {A} k (d : list (string * A)) v : lookup k d = Some v -> In (k, v) d.
Proof.
  induction d as [|[k' v'] d IH]; simpl; [discriminate|].
  destruct (String.eqb_spec k k') as [->|Hn]; [intros [= ->]; auto|auto].
Qed.
Lemma lookup_None {A} k (d : list (string * A)) : lookup k d = None <-> ~ In k (map fst d).
Proof.
  induction d as [|[k' v'] d IH]; simpl; [tauto|].
  destruct (String.eqb_spec k k') as [->|Hn]; [split; [discriminate|tauto]|].
  rewrite IH. split; [intros H [->|H']; [congruence|tauto]|tauto].
Qed.
