(** iotools/panond.py.  The text is given as the list of its lines (str.splitlines); Python's float() and int() of a string are arguments (None: ValueError). *)
From Verif Require Import Base.Fl Base.Py Base.PyStr.
From Coq Require Import List String Ascii Bool Arith ZArith.
Import ListNotations.
Open Scope nat_scope.
Open Scope string_scope.

(** a value read from the text *)
Inductive atom := AInt (z : Z) | AFloat (x : fl) | AStr (s : string).
(** a value in a dict: None, an atom, a list, or a dict (its place in the heap) *)
Inductive value := VNone | VAtom (a : atom) | VList (l : list atom) | VDict (id : nat).

(** dicts are objects: a heap of them, addressed by position *)
Notation pydict := (list (string * value)).
Section Parse.
Variable py_float : string -> option fl.
Variable py_int : string -> option Z.

(** panond.py:6-27 _num_type *)
Definition num_type (s : string) : atom :=
  if has_char "." s then match py_float s with Some x => AFloat x | None => AStr s end
  else match py_int s with Some z => AInt z | None => AStr s end.
(** panond.py:30-45 _element_type *)
Definition element_type (s : string) : value :=
  if has_char "," s then VList (map num_type (split_on "," s)) else VAtom (num_type s).

Fixpoint update {A} (i : nat) (f : A -> A) (l : list A) : list A :=
  match l, i with [], _ => [] | x :: l', 0 => f x :: l' | x :: l', S i' => x :: update i' f l' end.

(** panond.py:75-76: two spaces are one level *)
Definition indent (l : string) : nat := (String.length l - String.length (lstrip is_space l)) / 2.
(** panond.py:78-85 *)
Definition key_value (l : string) : string * value :=
  match split_on "=" l with
  | k :: v :: _ => (strip k, element_type (strip v))
  | [k] => (strip k, VNone)
  | [] => ("", VNone)
  end.
(** panond.py:69-99; state: heap and dict_levels.  The last line is only looked at for its indentation. *)
Fixpoint parse_lines (lines : list string) (heap : list pydict) (levels : list nat) : res (list pydict) :=
  match lines with
  | l :: ((nxt :: _) as rest) =>
      if String.eqb l "" then parse_lines rest heap levels
      else
        let (key, value) := key_value l in
        match nth_error levels (indent l) with
        | None => Err IndexError
        | Some cur =>
            if Nat.ltb (indent l) (indent nxt) then
              let new := List.length heap in
              let heap := (update cur (dict_set key (VDict new)) heap ++ [[(key, value)]])%list in
              parse_lines rest heap (firstn (S (indent l)) levels ++ [new])%list
            else parse_lines rest (update cur (dict_set key value) heap) levels
        end
  | _ => Ok heap
  end.
(** panond.py:48-101: component_info is the dict at 0 *)
Definition parse_panond (lines : list string) : res (list pydict) := parse_lines lines [[]] [0%nat].
End Parse.
