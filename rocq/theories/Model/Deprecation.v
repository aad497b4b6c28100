(** _deprecation.py.  A call's effects are the list of warnings issued, in order, and its result.  Custom messages are formatted by Python's [%]: argument [fmt].
    Documentation strings and stack levels are dropped. *)
From Verif Require Import Base.Py.
From Coq Require Import List String Bool.
Import ListNotations.
Open Scope string_scope.

(** what is warned: pvlibDeprecationWarning or PendingDeprecationWarning, and the text *)
Inductive category := PvlibDeprecationWarning | PendingDeprecationWarning.
Definition warning : Type := category * string.
(** the values available to the text *)
Record fields := Fields { f_name : string; f_obj_type : string; f_since : string; f_removal : string; f_alternative : string; f_addendum : string }.
Definition nonempty (s : string) : bool := negb (String.eqb s "").

(** _deprecation.py:137-164 _generate_deprecation_message; [removal] is None for a false value that is not a string.  (Python prints such a value into a custom message;
    here it is the empty string.) *)
Definition generate_message (fmt : string -> fields -> string) (since message name alternative : string) (pending : bool) (obj_type addendum : string) (removal : option string) : res string :=
  let* removal := match removal with
                  | Some s => if String.eqb s "" then Ok "soon" else if pending then Err ValueError else Ok ("in " ++ s)
                  | None => Ok ""
                  end in
  if nonempty message then Ok (fmt message (Fields name obj_type since removal alternative addendum))
  else Ok ("The " ++ name ++ " " ++ obj_type
           ++ (if pending then " will be deprecated in a future version"
               else " was deprecated in " ++ "pvlib" ++ " " ++ since ++ (if nonempty removal then " and will be removed " ++ removal else ""))
           ++ "."
           ++ (if nonempty alternative then " Use " ++ alternative ++ " instead." else "")
           ++ (if nonempty addendum then " " ++ addendum else "")).
Definition category_of (pending : bool) : category := if pending then PendingDeprecationWarning else PvlibDeprecationWarning.
Definition newline : string := String (Ascii.ascii_of_nat 10) "".
(** _deprecation.py:167-213 warn_deprecated *)
Definition warn_deprecated (fmt : string -> fields -> string) (since message name alternative : string) (pending : bool) (obj_type addendum : string) (removal : option string) : res warning :=
  let* m := generate_message fmt since message name alternative pending obj_type addendum removal in Ok (category_of pending, newline ++ m).

(** a Python callable: positional arguments, keyword arguments; warnings issued and result *)
Section Calls.
Context {A B : Type}.
Definition callable : Type := list A -> list (string * A) -> list warning * res B.
(** _deprecation.py:216-318 deprecated(...)(obj): [own_name] is obj.__name__, [is_class] tells isinstance(obj, type); the call of a class is that of its __init__ *)
Definition deprecated (fmt : string -> fields -> string) (since message name alternative : string) (pending : bool) (addendum : string) (removal : option string)
    (own_name : string) (is_class : bool) (func : callable) : res callable :=
  let name := if nonempty name then name else own_name in
  let obj_type := if is_class then "class" else "function" in
  let* message := generate_message fmt since message name alternative pending obj_type addendum removal in
  Ok (fun args kwargs => let (w, r) := func args kwargs in ((category_of pending, message) :: w, r)).

(** kwargs.pop(old) *)
Definition without_key (k : string) (d : list (string * A)) : list (string * A) := filter (fun p => negb (String.eqb (fst p) k)) d.
(** _deprecation.py:321-391 renamed_kwarg_warning(...)(func) *)
Definition renamed_kwarg (since old new removal : string) (func : callable) : callable := fun args kwargs =>
  match lookup old kwargs with
  | Some v =>
      match lookup new kwargs with
      | Some _ => ([], Err ValueError)
      | None =>
          let text := "Parameter '" ++ old ++ "' has been renamed since " ++ since ++ ". " ++ "and will be removed "
                      ++ (if nonempty removal then "in " ++ removal else "soon") ++ ". Please use '" ++ new ++ "' instead." in
          let (w, r) := func args (without_key old kwargs ++ [(new, v)])%list in ((PvlibDeprecationWarning, text) :: w, r)
      end
  | None => func args kwargs
  end.
End Calls.
