(** C141, C142: deprecated names and renamed parameters *)
From Verif Require Import Base.Py Model.Deprecation.
From Coq Require Import List String Bool.
Import ListNotations.
Open Scope string_scope.

(** ** the text, sentence by sentence *)
Definition when_removed (removal : option string) : string :=
  match removal with None => "" | Some "" => " and will be removed soon" | Some v => " and will be removed in " ++ v end.
Definition announcement (since name alternative obj_type addendum : string) (pending : bool) (removal : option string) : string :=
  "The " ++ name ++ " " ++ obj_type ++ (if pending then " will be deprecated in a future version" else " was deprecated in pvlib " ++ since ++ when_removed removal) ++ "."
  ++ (if String.eqb alternative "" then "" else " Use " ++ alternative ++ " instead.") ++ (if String.eqb addendum "" then "" else " " ++ addendum).
(** a pending deprecation with a removal date *)
Definition contradictory (pending : bool) (removal : option string) : Prop := pending = true /\ exists v, removal = Some v /\ v <> "".

Lemma app_assoc_s a b c : (a ++ b) ++ c = a ++ b ++ c.
Proof. induction a as [|x a IH]; [reflexivity|]. cbn. f_equal. exact IH. Qed.
Lemma nonempty_spec s : nonempty s = true <-> s <> "".
Proof. unfold nonempty. destruct (String.eqb_spec s ""); cbn; split; congruence. Qed.

(** C141: the text of the warning is the documented one, and ValueError is raised exactly for a pending deprecation with a removal date *)
Theorem C141_text : forall fmt since name alternative pending obj_type addendum removal, ~ contradictory pending removal ->
  generate_message fmt since "" name alternative pending obj_type addendum removal = Ok (announcement since name alternative obj_type addendum pending removal).
Proof.
  intros fmt since name alternative pending obj_type addendum removal N. unfold generate_message, announcement, nonempty, when_removed.
  destruct removal as [r|]; [destruct (String.eqb_spec r "") as [->|D]|].
  - cbn [bind String.eqb negb]. destruct pending, (String.eqb alternative ""), (String.eqb addendum ""); reflexivity.
  - destruct pending; [exfalso; apply N; split; [reflexivity|]; exists r; split; [reflexivity|exact D]|]. cbn [bind].
    destruct r as [|c r]; [congruence|]. destruct (String.eqb alternative ""), (String.eqb addendum ""); reflexivity.
  - cbn [bind String.eqb negb]. destruct pending, (String.eqb alternative ""), (String.eqb addendum ""); reflexivity.
Qed.
Print Assumptions C141_text.
Theorem C141_contradiction : forall fmt since message name alternative pending obj_type addendum removal,
  (contradictory pending removal <-> generate_message fmt since message name alternative pending obj_type addendum removal = Err ValueError) /\
  (~ contradictory pending removal -> exists m, generate_message fmt since message name alternative pending obj_type addendum removal = Ok m).
Proof.
  intros. unfold contradictory, generate_message. destruct removal as [r|]; [destruct (String.eqb_spec r "") as [->|D]; [|destruct pending]|]; cbn [bind].
  - split; [split; [intros (_ & v & E & N); congruence|destruct (nonempty message); discriminate]|intros _; destruct (nonempty message); eexists; reflexivity].
  - split; [split; [reflexivity|intros _; split; [reflexivity|exists r; tauto]]|]. intros N. exfalso. apply N. split; [reflexivity|exists r; tauto].
  - split; [split; [intros (E & _); discriminate|destruct (nonempty message); discriminate]|intros _; destruct (nonempty message); eexists; reflexivity].
  - split; [split; [intros (_ & v & E & _); discriminate|destruct (nonempty message); discriminate]|intros _; destruct (nonempty message); eexists; reflexivity].
Qed.
Print Assumptions C141_contradiction.
(** a custom message replaces the text and is formatted with the given values *)
Theorem C141_custom : forall fmt since message name alternative obj_type addendum v, message <> "" -> v <> "" ->
  generate_message fmt since message name alternative false obj_type addendum (Some v) = Ok (fmt message (Fields name obj_type since ("in " ++ v) alternative addendum)) /\
  generate_message fmt since message name alternative false obj_type addendum (Some "") = Ok (fmt message (Fields name obj_type since "soon" alternative addendum)).
Proof.
  intros fmt since message name alternative obj_type addendum v M V. unfold generate_message. rewrite (proj2 (nonempty_spec message) M).
  destruct (String.eqb_spec v "") as [E|_]; [contradiction|]. split; reflexivity.
Qed.
Print Assumptions C141_custom.

(** C141: a deprecated function gives one warning at each call, before any other, and otherwise behaves as the function, errors included; the decoration fails
    exactly on a contradiction *)
Theorem C141_wrapper : forall (A B : Type) fmt since name alternative pending addendum removal own_name is_class (func : @callable A B), ~ contradictory pending removal ->
  exists f, deprecated fmt since "" name alternative pending addendum removal own_name is_class func = Ok f /\
    forall args kwargs,
      snd (f args kwargs) = snd (func args kwargs) /\
      fst (f args kwargs) = ((if pending then PendingDeprecationWarning else PvlibDeprecationWarning),
                             announcement since (if String.eqb name "" then own_name else name) alternative (if is_class then "class" else "function") addendum pending removal)
                            :: fst (func args kwargs).
Proof.
  intros A B fmt since name alternative pending addendum removal own_name is_class func N. unfold deprecated. rewrite C141_text by exact N. cbn [bind]. eexists. split; [reflexivity|].
  intros args kwargs. cbv beta. unfold nonempty, category_of. destruct (func args kwargs) as [w r]. cbn [fst snd]. split; [reflexivity|]. destruct (String.eqb name ""); reflexivity.
Qed.
Print Assumptions C141_wrapper.
Theorem C141_warn : forall fmt since name alternative pending obj_type addendum removal, ~ contradictory pending removal ->
  warn_deprecated fmt since "" name alternative pending obj_type addendum removal =
  Ok ((if pending then PendingDeprecationWarning else PvlibDeprecationWarning), String (Ascii.ascii_of_nat 10) "" ++ announcement since name alternative obj_type addendum pending removal).
Proof. intros. unfold warn_deprecated. rewrite C141_text by assumption. reflexivity. Qed.
Print Assumptions C141_warn.
(** the aliases parse_bsrn, parse_cams and parse_epw *)
Example C141_alias : forall (A B : Type) fmt (read : @callable A B), exists parse,
  deprecated fmt "0.13.0" "" "parse_bsrn" "read_bsrn" false "" (Some "") "read_bsrn" false read = Ok parse /\
  forall args kwargs, snd (parse args kwargs) = snd (read args kwargs) /\
    fst (parse args kwargs) = (PvlibDeprecationWarning, "The parse_bsrn function was deprecated in pvlib 0.13.0 and will be removed soon. Use read_bsrn instead.") :: fst (read args kwargs).
Proof. intros. eexists. split; [reflexivity|]. intros args kwargs. cbv beta. destruct (read args kwargs). split; reflexivity. Qed.

(** ** C142 renamed keyword arguments.  Keyword arguments have distinct names *)
Lemma lookup_without {A} k k' (d : list (string * A)) : lookup k (without_key k' d) = if String.eqb k k' then None else lookup k d.
Proof.
  unfold without_key. induction d as [|[x v] d IH]; cbn [filter lookup fst]; [destruct (String.eqb k k'); reflexivity|].
  destruct (String.eqb_spec x k') as [->|D]; cbn [negb lookup].
  - rewrite IH. destruct (String.eqb_spec k k'); reflexivity.
  - destruct (String.eqb_spec k x) as [->|D']; [destruct (String.eqb_spec x k'); [contradiction|reflexivity]|exact IH].
Qed.
Lemma lookup_app {A} k (d d' : list (string * A)) : lookup k (d ++ d')%list = match lookup k d with Some v => Some v | None => lookup k d' end.
Proof. induction d as [|[x v] d IH]; [reflexivity|]. cbn [app lookup]. destruct (String.eqb k x); [reflexivity|exact IH]. Qed.
Lemma map_without {A} k (d : list (string * A)) : map fst (without_key k d) = filter (fun x => negb (String.eqb x k)) (map fst d).
Proof. unfold without_key. induction d as [|[x v] d IH]; [reflexivity|]. cbn [filter map fst]. destruct (String.eqb x k); cbn [negb map fst]; [exact IH|f_equal; exact IH]. Qed.

Lemma NoDup_app_like {A} (l : list A) x : NoDup l -> ~ In x l -> NoDup (l ++ [x])%list.
Proof. intros H N. rewrite <- (rev_involutive (l ++ [x])%list). apply NoDup_rev. rewrite rev_app_distr. cbn [rev app]. constructor; [rewrite <- in_rev; exact N|apply NoDup_rev; exact H]. Qed.

(** the old name given alone: the function is called once, with the value under the new name, the old name absent, all else unchanged, after one warning *)
Theorem C142_renamed : forall (A B : Type) since old new removal (func : @callable A B) args kwargs v, old <> new -> NoDup (map fst kwargs) ->
  lookup old kwargs = Some v -> lookup new kwargs = None ->
  exists kwargs', renamed_kwarg since old new removal func args kwargs =
      ((PvlibDeprecationWarning, "Parameter '" ++ old ++ "' has been renamed since " ++ since ++ ". and will be removed " ++ (if String.eqb removal "" then "soon" else "in " ++ removal)
                                 ++ ". Please use '" ++ new ++ "' instead.") :: fst (func args kwargs'), snd (func args kwargs')) /\
    NoDup (map fst kwargs') /\ lookup new kwargs' = Some v /\ lookup old kwargs' = None /\ forall k, k <> old -> k <> new -> lookup k kwargs' = lookup k kwargs.
Proof.
  intros A B since old new removal func args kwargs v D ND H1 H2. exists (without_key old kwargs ++ [(new, v)])%list. unfold renamed_kwarg. rewrite H1, H2.
  split; [|split; [|split; [|split]]].
  - unfold nonempty. destruct (func args _) as [w r]. cbn [fst snd]. destruct (String.eqb removal ""); reflexivity.
  - rewrite map_app, map_without. cbn [map fst]. apply NoDup_app_like; [apply NoDup_filter; exact ND|].
    intros H. apply filter_In in H. destruct H as [H _]. apply lookup_None in H2. contradiction.
  - rewrite lookup_app, lookup_without. destruct (String.eqb_spec new old) as [E|_]; [congruence|]. rewrite H2. cbn [lookup]. rewrite String.eqb_refl. reflexivity.
  - rewrite lookup_app, lookup_without, String.eqb_refl. cbn [lookup]. destruct (String.eqb_spec old new); [contradiction|reflexivity].
  - intros k K1 K2. rewrite lookup_app, lookup_without. destruct (String.eqb_spec k old); [contradiction|]. destruct (lookup k kwargs); [reflexivity|]. cbn [lookup].
    destruct (String.eqb_spec k new); [contradiction|reflexivity].
Qed.
Print Assumptions C142_renamed.
(** both names: ValueError, nothing called, no warning; the old name absent: the call is passed on unchanged, without a warning *)
Theorem C142_both : forall (A B : Type) since old new removal (func : @callable A B) args kwargs, In old (map fst kwargs) -> In new (map fst kwargs) ->
  renamed_kwarg since old new removal func args kwargs = ([], Err ValueError).
Proof.
  intros A B since old new removal func args kwargs H1 H2. unfold renamed_kwarg. destruct (lookup old kwargs) eqn:E1; [|apply lookup_None in E1; contradiction].
  destruct (lookup new kwargs) eqn:E2; [reflexivity|apply lookup_None in E2; contradiction].
Qed.
Print Assumptions C142_both.
Theorem C142_modern : forall (A B : Type) since old new removal (func : @callable A B) args kwargs, ~ In old (map fst kwargs) ->
  renamed_kwarg since old new removal func args kwargs = func args kwargs.
Proof. intros A B since old new removal func args kwargs H. unfold renamed_kwarg. apply lookup_None in H. rewrite H. reflexivity. Qed.
Print Assumptions C142_modern.
(** for a function that does not depend on the order of its keyword arguments, writing the old name gives the result of writing the new one *)
Theorem C142_same_result : forall (A B : Type) since old new removal (func : @callable A B) args before after v,
  (forall a k k', (forall x, lookup x k = lookup x k') -> func a k = func a k') -> old <> new -> NoDup (map fst (before ++ (old, v) :: after)%list) -> ~ In new (map fst (before ++ after)%list) ->
  snd (renamed_kwarg since old new removal func args (before ++ (old, v) :: after)%list) = snd (func args (before ++ (new, v) :: after)%list).
Proof.
  intros A B since old new removal func args before after v F D ND N.
  assert (Nb : ~ In old (map fst before) /\ ~ In old (map fst after)).
  { rewrite map_app in ND. cbn [map fst] in ND. apply NoDup_remove_2 in ND. rewrite in_app_iff in ND. tauto. }
  assert (N2 : ~ In new (map fst before) /\ ~ In new (map fst after)). { rewrite map_app, in_app_iff in N. tauto. }
  destruct Nb as [Nb Na], N2 as [Nb' Na']. apply lookup_None in Nb, Na, Nb', Na'.
  assert (E1 : lookup old (before ++ (old, v) :: after)%list = Some v) by (rewrite lookup_app, Nb; cbn [lookup]; rewrite String.eqb_refl; reflexivity).
  assert (E2 : lookup new (before ++ (old, v) :: after)%list = None).
  { rewrite lookup_app, Nb'. cbn [lookup]. destruct (String.eqb_spec new old); [congruence|exact Na']. }
  destruct (C142_renamed A B since old new removal func args _ v D ND E1 E2) as (k' & -> & _ & K1 & K2 & K3). cbn [snd]. f_equal. apply F.
  intros x. rewrite lookup_app. cbn [lookup]. destruct (String.eqb_spec x new) as [->|X].
  - rewrite K1, Nb'. reflexivity.
  - destruct (String.eqb_spec x old) as [->|X'].
    + rewrite K2, Nb, Na. reflexivity.
    + rewrite K3 by assumption. rewrite lookup_app. cbn [lookup]. destruct (String.eqb_spec x old); [contradiction|reflexivity].
Qed.
Print Assumptions C142_same_result.
(** get_cams(server=...) *)
Example C142_server : forall (A B : Type) (get_cams : @callable A B) a u,
  renamed_kwarg "0.13.0" "server" "url" "0.14.0" get_cams [] [("email", a); ("server", u)] =
  ((PvlibDeprecationWarning, "Parameter 'server' has been renamed since 0.13.0. and will be removed in 0.14.0. Please use 'url' instead.") :: fst (get_cams [] [("email", a); ("url", u)]),
   snd (get_cams [] [("email", a); ("url", u)])).
Proof. intros. unfold renamed_kwarg. cbn. destruct (get_cams _ _). reflexivity. Qed.
