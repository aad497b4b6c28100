(** PVsyst .PAN and .OND files: nested sections shown by indentation *)
From Verif Require Import Base.PyStr Model.Panond.
From Coq Require Import List String Ascii Arith.
Import ListNotations.
Open Scope nat_scope.
Open Scope string_scope.

(** the content of a file: entries with a key and perhaps a value ([a] and [b] spaces around the equals sign), each followed by the entries one level deeper *)
Inductive section := Done | Entry (key : string) (val : option (nat * string * nat)) (inner next : section).
Definition entry_text (key : string) (val : option (nat * string * nat)) : string :=
  match val with None => key | Some (a, x, b) => key ++ spaces a ++ "=" ++ spaces b ++ x end.
(** its lines, the first level being indented by 2 depth spaces *)
Fixpoint lines (depth : nat) (s : section) : list string :=
  match s with Done => [] | Entry k v inner next => ((spaces (2 * depth) ++ entry_text k v)%string :: lines (S depth) inner ++ lines depth next)%list end.
(** text without white space at its ends and without an equals sign *)
Definition plain (s : string) : Prop := strip s = s /\ has_char "=" s = false.
Fixpoint well_formed (s : section) : Prop :=
  match s with Done => True | Entry k v inner next => k <> "" /\ plain k /\ match v with None => True | Some (_, x, _) => plain x end /\ well_formed inner /\ well_formed next end.

(** nested data: values and blocks *)
Inductive data := Leaf (v : value) | Block (l : list (string * data)).
(** what the file says: entries in order, later ones replacing earlier ones of the same key; an entry with deeper entries is a block that repeats its own key and value first *)
Fixpoint content (typed : string -> value) (acc : list (string * data)) (s : section) : list (string * data) :=
  match s with
  | Done => acc
  | Entry k v inner next =>
      let own := Leaf (match v with None => VNone | Some (_, x, _) => typed x end) in
      content typed (dict_set k (match inner with Done => own | _ => Block (content typed [(k, own)] inner) end) acc) next
  end.

(** the data seen when the value is looked up among the objects of the program *)
Inductive shows (h : list (list (string * value))) : value -> data -> Prop :=
| shows_leaf v : (forall i, v <> VDict i) -> shows h v (Leaf v)
| shows_block id es l : nth_error h id = Some es -> shows_all h es l -> shows h (VDict id) (Block l)
with shows_all (h : list (list (string * value))) : list (string * value) -> list (string * data) -> Prop :=
| shows_nil : shows_all h [] []
| shows_cons k v d es l : shows h v d -> shows_all h es l -> shows_all h ((k, v) :: es) ((k, d) :: l).
