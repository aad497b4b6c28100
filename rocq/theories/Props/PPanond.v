(** C143, C144: PVsyst files *)
From Verif Require Import Base.Fl Base.Py Base.PyStr Model.Panond Spec.PanondSpec.
From Coq Require Import List String Ascii Bool Arith ZArith Lia.
Import ListNotations.
Open Scope nat_scope.
Open Scope string_scope.

Scheme shows_mind := Minimality for shows Sort Prop with shows_all_mind := Minimality for shows_all Sort Prop.

(** ** objects at or beyond [lo] *)
Inductive rep (h : list pydict) (lo : nat) : value -> data -> Prop :=
| rep_leaf v : (forall i, v <> VDict i) -> rep h lo v (Leaf v)
| rep_block id es l : lo <= id -> nth_error h id = Some es -> reps h lo es l -> rep h lo (VDict id) (Block l)
with reps (h : list pydict) (lo : nat) : pydict -> list (string * data) -> Prop :=
| reps_nil : reps h lo [] []
| reps_cons k v d es l : rep h lo v d -> reps h lo es l -> reps h lo ((k, v) :: es) ((k, d) :: l).
Scheme rep_mind := Minimality for rep Sort Prop with reps_mind := Minimality for reps Sort Prop.
Lemma reps_frame h h' lo es l : reps h lo es l -> (forall i e, lo <= i -> nth_error h i = Some e -> nth_error h' i = Some e) -> reps h' lo es l.
Proof.
  intros H F. revert es l H. apply (reps_mind h lo (fun v d => rep h' lo v d) (fun es l => reps h' lo es l)).
  - intros v N. constructor; exact N.
  - intros id es l L E _ IH. econstructor; [exact L|apply F; eassumption|exact IH].
  - constructor.
  - intros k v d es l _ IH1 _ IH2. constructor; assumption.
Qed.
Lemma reps_lower h lo lo' es l : lo' <= lo -> reps h lo es l -> reps h lo' es l.
Proof.
  intros L H. revert es l H. apply (reps_mind h lo (fun v d => rep h lo' v d) (fun es l => reps h lo' es l)).
  - intros v N. constructor; exact N.
  - intros id es l G E _ IH. econstructor; [lia|exact E|exact IH].
  - constructor.
  - intros k v d es l _ IH1 _ IH2. constructor; assumption.
Qed.
Lemma reps_shows h lo es l : reps h lo es l -> shows_all h es l.
Proof.
  intros H. revert es l H. apply (reps_mind h lo (fun v d => shows h v d) (fun es l => shows_all h es l)).
  - intros v N. constructor; exact N.
  - intros id es l G E _ IH. econstructor; [exact E|exact IH].
  - constructor.
  - intros k v d es l _ IH1 _ IH2. constructor; assumption.
Qed.
Lemma reps_set h lo k v d es l : rep h lo v d -> reps h lo es l -> reps h lo (dict_set k v es) (dict_set k d l).
Proof.
  intros Hv H. induction H as [|k' v' d' es l R R' IH]; cbn [dict_set]; [repeat constructor; exact Hv|].
  destruct (String.eqb k k'); constructor; assumption.
Qed.

(** ** lists *)
Lemma update_length {A} i (f : A -> A) l : List.length (update i f l) = List.length l.
Proof. revert i. induction l as [|x l IH]; intros [|i]; cbn; try reflexivity. f_equal. apply IH. Qed.
Lemma update_same {A} i (f : A -> A) l x : nth_error l i = Some x -> nth_error (update i f l) i = Some (f x).
Proof. revert i. induction l as [|y l IH]; intros [|i]; cbn; try discriminate; [congruence|apply IH]. Qed.
Lemma update_other {A} i j (f : A -> A) l : i <> j -> nth_error (update i f l) j = nth_error l j.
Proof. revert i j. induction l as [|y l IH]; intros [|i] [|j] H; cbn; try reflexivity; [congruence|apply IH; congruence]. Qed.
Lemma nth_error_len {A} (l : list A) i x : nth_error l i = Some x -> i < List.length l.
Proof. intros H. apply nth_error_Some. congruence. Qed.
Lemma nth_error_firstn' {A} (l : list A) n i : i < n -> nth_error (firstn n l) i = nth_error l i.
Proof. revert n i. induction l as [|x l IH]; intros [|n] [|i] H; cbn; try reflexivity; try lia. apply IH. lia. Qed.

(** ** text *)
Lemma strip_starts s : strip s = s -> starts_not is_ws s.
Proof.
  unfold strip. destruct s as [|c s]; [intros; exact I|]. cbn [starts_not]. intros H. destruct (is_ws c) eqn:E; [exfalso|reflexivity].
  assert (G : forall t, String.length (rstrip is_ws t) <= String.length t).
  { intros t. induction t as [|x t IH]; cbn; [lia|]. destruct (rstrip is_ws t); cbn in *; [destruct (is_ws x); cbn; lia|lia]. }
  assert (G' : forall t, String.length (lstrip is_ws t) <= String.length t). { intros t. induction t as [|x t IH]; cbn; [lia|]. destruct (is_ws x); cbn; lia. }
  assert (X : String.length (rstrip is_ws (lstrip is_ws (String c s))) <= String.length s). { cbn. rewrite E. etransitivity; [apply G|apply G']. }
  rewrite H in X. cbn in X. lia.
Qed.
Lemma ws_space c : is_ws c = false -> is_space c = false.
Proof. unfold is_space. destruct (Ascii.eqb_spec c " ") as [->|_]; [discriminate|reflexivity]. Qed.
Lemma rstrip_nil_spaces n : rstrip is_ws (spaces n) = "".
Proof. induction n; cbn; [reflexivity|]. rewrite IHn. reflexivity. Qed.
Lemma rstrip_pad s n : rstrip is_ws (s ++ spaces n) = rstrip is_ws s.
Proof. induction s as [|c s IH]; cbn; [apply rstrip_nil_spaces|]. rewrite IH. reflexivity. Qed.
Lemma strip_padded k n m : strip k = k -> strip (spaces n ++ k ++ spaces m) = k.
Proof.
  intros H. unfold strip. rewrite lstrip_spaces by reflexivity. pose proof (strip_starts k H) as S1. destruct k as [|c k].
  - cbn [append]. rewrite <- (sapp_nil (spaces m)), lstrip_spaces by reflexivity. reflexivity.
  - rewrite (lstrip_not is_ws (String c k ++ spaces m)) by exact S1. rewrite rstrip_pad. unfold strip in H. rewrite (lstrip_not is_ws (String c k)) in H by exact S1. exact H.
Qed.
Lemma indent_line d c s : is_space c = false -> indent (spaces (2 * d) ++ String c s) = d.
Proof.
  intros H. unfold indent. rewrite lstrip_spaces by reflexivity. rewrite lstrip_not by exact H. rewrite length_app, spaces_length.
  replace (2 * d + String.length (String c s) - String.length (String c s)) with (d * 2) by lia. apply Nat.div_mul. lia.
Qed.

Section File.
Variable py_float : string -> option fl.
Variable py_int : string -> option Z.
Notation typed := (element_type py_float py_int).
Notation run := (parse_lines py_float py_int).

Lemma key_value_line d k v : plain k -> match v with None => True | Some (_, x, _) => plain x end ->
  key_value py_float py_int (spaces (2 * d) ++ entry_text k v) = (k, match v with None => VNone | Some (_, x, _) => typed x end).
Proof.
  intros [K1 K2] V. unfold key_value. destruct v as [[[a x] b]|]; cbn [entry_text].
  - destruct V as [X1 X2].
    replace (spaces (2 * d) ++ k ++ spaces a ++ "=" ++ spaces b ++ x) with ((spaces (2 * d) ++ k ++ spaces a) ++ String "=" (spaces b ++ x)) by (rewrite !sapp_assoc; reflexivity).
    rewrite split_on_app by (rewrite !has_char_app, !has_char_spaces, K2 by reflexivity; reflexivity).
    rewrite split_on_nosep by (rewrite has_char_app, has_char_spaces, X2 by reflexivity; reflexivity).
    rewrite strip_padded by exact K1. rewrite <- (sapp_nil x) at 1. change "" with (spaces 0) at 1. rewrite strip_padded by exact X1. reflexivity.
  - rewrite split_on_nosep by (rewrite has_char_app, has_char_spaces, K2 by reflexivity; reflexivity).
    rewrite <- (sapp_nil k) at 1. change "" with (spaces 0) at 1. rewrite strip_padded by exact K1. reflexivity.
Qed.
Lemma entry_starts k v : k <> "" -> plain k -> exists c s, entry_text k v = String c s /\ is_space c = false.
Proof.
  intros N [K1 _]. apply strip_starts in K1. destruct k as [|c k]; [congruence|]. apply ws_space in K1. destruct v as [[[a x] b]|]; cbn [entry_text append]; eexists; eexists; (split; [reflexivity|exact K1]).
Qed.
Lemma typed_leaf (v : option (nat * string * nat)) : match v with None => True | Some (_, x, _) => plain x end -> forall i, match v with None => VNone | Some (_, x, _) => typed x end <> VDict i.
Proof. intros _ i. destruct v as [[[a x] b]|]; [|discriminate]. unfold element_type. destruct (has_char "," x); discriminate. Qed.
Lemma first_line d s rest r t : well_formed s -> rest = r :: t -> indent r <= d -> exists l u, (lines d s ++ rest)%list = l :: u /\ indent l <= d.
Proof.
  intros W E I. destruct s as [|k v inner next]; [exists r, t; cbn [lines app]; split; assumption|]. cbn [lines app]. eexists; eexists. split; [reflexivity|].
  destruct W as (K & P & _). destruct (entry_starts k v K P) as (c & s & -> & C). rewrite indent_line by exact C. lia.
Qed.

Lemma run_section s : forall d id lo rest r t h L acc es, well_formed s -> rest = r :: t -> indent r <= d -> nth_error L d = Some id -> nth_error h id = Some es -> id < lo <= List.length h ->
  reps h lo es acc ->
  exists h' L' es', run (lines d s ++ rest)%list h L = run rest h' L' /\ firstn (S d) L' = firstn (S d) L /\ List.length h <= List.length h' /\
    (forall i, i < List.length h -> i <> id -> nth_error h' i = nth_error h i) /\ nth_error h' id = Some es' /\ reps h' lo es' (content typed acc s).
Proof.
  induction s as [|k v inner IHi next IHn]; intros d id lo rest r t h L acc es W E I HL Hh Lo R.
  { exists h, L, es. cbn [lines app content]. repeat split; try reflexivity; try lia; assumption. }
  destruct W as (K & P & V & Wi & Wn). cbn [lines app]. rewrite <- app_assoc.
  destruct (first_line d next rest r t Wn E I) as (l1 & u1 & E1 & I1).
  pose proof (key_value_line d k v P V) as KV. destruct (entry_starts k v K P) as (c & s & ET & C).
  assert (Ind : indent (spaces (2 * d) ++ entry_text k v) = d) by (rewrite ET; apply indent_line; exact C).
  assert (NE : String.eqb (spaces (2 * d) ++ entry_text k v) "" = false). { rewrite ET. destruct (2 * d); reflexivity. }
  set (line := spaces (2 * d) ++ entry_text k v) in *. set (own := match v with None => VNone | Some (_, x, _) => typed x end) in *.
  assert (RL : forall h lo, rep h lo own (Leaf own)) by (intros; constructor; apply typed_leaf; exact V).
  destruct inner as [|ki vi ii ni].
  - cbn [lines app]. rewrite E1 in *. set (h1 := update id (dict_set k own) h).
    assert (Step : run (line :: l1 :: u1) h L = run (l1 :: u1) h1 L).
    { cbn [parse_lines]. rewrite NE, KV, Ind, HL. destruct (Nat.ltb_spec d (indent l1)); [lia|reflexivity]. }
    rewrite Step. rewrite <- E1.
    destruct (IHn d id lo rest r t h1 L (dict_set k (Leaf own) acc) (dict_set k own es) Wn E I HL) as (h' & L' & es' & A1 & A2 & A3 & A4 & A5 & A6).
    + apply update_same. exact Hh.
    + unfold h1. rewrite update_length. exact Lo.
    + apply reps_set; [apply RL|]. apply (reps_frame h); [exact R|]. intros i e Li He. unfold h1. rewrite update_other by lia. exact He.
    + exists h', L', es'. split; [exact A1|]. split; [exact A2|]. unfold h1 in A3, A4. rewrite update_length in A3, A4. split; [exact A3|]. split; [|split; [exact A5|exact A6]].
      intros i Hi Ni. rewrite A4 by assumption. apply update_other. congruence.
  - set (n := List.length h). set (h1 := (update id (dict_set k (VDict n)) h ++ [[(k, own)]])%list). set (L1 := (firstn (S d) L ++ [n])%list).
    assert (NL : List.length (firstn (S d) L) = S d). { rewrite firstn_length. apply nth_error_len in HL. lia. }
    set (inner := Entry ki vi ii ni) in *.
    destruct (first_line (S d) inner (lines d next ++ rest)%list l1 u1 Wi E1 (Nat.le_trans _ _ _ I1 (Nat.le_succ_diag_r d))) as (l2 & u2 & E2 & _).
    assert (I2 : indent l2 = S d).
    { unfold inner in E2. cbn [lines app] in E2. injection E2 as E2 _. rewrite <- E2. destruct Wi as (K' & P' & _). destruct (entry_starts ki vi K' P') as (c' & s' & -> & C'). apply (indent_line (S d) c' s' C'). }
    assert (Step : run (line :: l2 :: u2) h L = run (l2 :: u2) h1 L1).
    { cbn [parse_lines]. rewrite NE, KV, Ind, HL, I2. destruct (Nat.ltb_spec d (S d)); [reflexivity|lia]. }
    rewrite E2, Step. rewrite <- E2.
    assert (Len1 : List.length h1 = S n) by (unfold h1; rewrite app_length, update_length; fold n; apply Nat.add_1_r).
    assert (Hn : nth_error h1 n = Some [(k, own)]). { unfold h1. rewrite nth_error_app2 by (rewrite update_length; fold n; lia). rewrite update_length. fold n. rewrite Nat.sub_diag. reflexivity. }
    assert (Hid : id < n) by (unfold n; apply nth_error_len in Hh; exact Hh).
    assert (Hold : forall i, i < n -> i <> id -> nth_error h1 i = nth_error h i).
    { intros i Hi Ni. unfold h1. rewrite nth_error_app1 by (rewrite update_length; fold n; exact Hi). apply update_other. congruence. }
    assert (Hid1 : nth_error h1 id = Some (dict_set k (VDict n) es)).
    { unfold h1. rewrite nth_error_app1 by (rewrite update_length; fold n; exact Hid). apply update_same. exact Hh. }
    destruct (IHi (S d) n (S n) (lines d next ++ rest)%list l1 u1 h1 L1 [(k, Leaf own)] [(k, own)] Wi E1) as (h2 & L2 & es2 & A1 & A2 & A3 & A4 & A5 & A6).
    + lia.
    + unfold L1. rewrite nth_error_app2 by lia. rewrite NL, Nat.sub_diag. reflexivity.
    + exact Hn.
    + lia.
    + constructor; [apply RL|constructor].
    + rewrite A1.
      assert (FL : firstn (S (S d)) L1 = L1). { apply firstn_all2. unfold L1. rewrite app_length, NL. cbn. lia. }
      assert (HL2 : nth_error L2 d = Some id).
      { rewrite <- (nth_error_firstn' L2 (S (S d)) d) by lia. rewrite A2, FL. unfold L1. rewrite nth_error_app1 by lia. rewrite nth_error_firstn' by lia. exact HL. }
      destruct (IHn d id lo rest r t h2 L2 (dict_set k (Block (content typed [(k, Leaf own)] inner)) acc) (dict_set k (VDict n) es) Wn E I HL2) as (h' & L' & es' & B1 & B2 & B3 & B4 & B5 & B6).
      * rewrite A4 by lia. exact Hid1.
      * fold n in Lo. lia.
      * apply reps_set.
        -- econstructor; [|exact A5|apply (reps_lower h2 (S n)); [fold n in Lo; lia|exact A6]]. fold n in Lo. lia.
        -- apply (reps_frame h); [exact R|]. intros i e Li He. pose proof (nth_error_len _ _ _ He) as Bi. fold n in Bi. rewrite A4 by lia. rewrite Hold by lia. exact He.
      * exists h', L', es'. split; [exact B1|]. split; [|split; [|split; [|split; [exact B5|exact B6]]]].
        -- rewrite B2. replace (firstn (S d) L2) with (firstn (S d) (firstn (S (S d)) L2)) by (rewrite firstn_firstn; f_equal; lia). rewrite A2, FL. unfold L1. rewrite firstn_app, NL, Nat.sub_diag.
           change (firstn 0 [n]) with (@nil nat). rewrite app_nil_r, firstn_firstn, Nat.min_id. reflexivity.
        -- fold n. lia.
        -- intros i Hi Ni. fold n in Hi. rewrite B4 by lia. rewrite A4 by lia. apply Hold; assumption.
Qed.

(** C143: a file with well-formed sections and an unindented last line is read as its content; the last line is not part of it *)
Theorem C143_round_trip : forall s last, well_formed s -> starts_not is_space last ->
  exists h es, parse_panond py_float py_int (lines 0 s ++ [last])%list = Ok h /\ nth_error h 0 = Some es /\ shows_all h es (content typed [] s).
Proof.
  intros s last W Hl. assert (I0 : indent last = 0). { unfold indent. rewrite lstrip_not by exact Hl. rewrite Nat.sub_diag. reflexivity. }
  destruct (run_section s 0 0 1 [last] last [] [[]] [0] [] [] W eq_refl (Nat.eq_le_incl _ _ I0) eq_refl eq_refl) as (h' & L' & es' & A1 & _ & _ & _ & A5 & A6); [cbn; lia|constructor|].
  exists h', es'. split; [|split; [exact A5|apply (reps_shows h' 1); exact A6]]. unfold parse_panond. rewrite A1. reflexivity.
Qed.
End File.
Print Assumptions C143_round_trip.

(** what is seen is determined by the objects *)
Theorem C143_determined : forall h es l l', shows_all h es l -> shows_all h es l' -> l = l'.
Proof.
  intros h es l l' H. revert l'. revert es l H.
  apply (shows_all_mind h (fun v d => forall d', shows h v d' -> d = d') (fun es l => forall l', shows_all h es l' -> l = l')).
  - intros v N d' H. inversion H; [reflexivity|]. exfalso. eapply N. symmetry. eassumption.
  - intros id es l E _ IH d' H. inversion H as [v N|id' es' l1 E' H' EQ]; [exfalso; eapply N; reflexivity|]. subst. f_equal. apply IH. congruence.
  - intros l' H. inversion H. reflexivity.
  - intros k v d es l _ IH1 _ IH2 l' H. inversion H; subst. f_equal; [f_equal; apply IH1; assumption|apply IH2; assumption].
Qed.
Print Assumptions C143_determined.

(** a blank line is harmless unless the next line is deeper than the one before *)
Theorem C143_blank_lines : forall py_float py_int before l l' after, indent l' <= indent l ->
  parse_panond py_float py_int (before ++ l :: "" :: l' :: after)%list = parse_panond py_float py_int (before ++ l :: l' :: after)%list.
Proof.
  intros py_float py_int before l l' after H. unfold parse_panond. generalize [0] as L. generalize [@nil (string * value)] as h. induction before as [|x before IH]; intros h L.
  - cbn [app]. cbn [parse_lines]. destruct (String.eqb l ""); [reflexivity|]. destruct (key_value _ _ l) as [k v]. destruct (nth_error L (indent l)) as [cur|]; [|reflexivity].
    change (indent "") with 0. destruct (Nat.ltb_spec (indent l) 0); [lia|]. destruct (Nat.ltb_spec (indent l) (indent l')); [lia|]. reflexivity.
  - destruct before as [|y before].
    + cbn [app] in *. cbn [parse_lines] in *. destruct (String.eqb x ""); [apply IH|]. destruct (key_value _ _ x) as [k v]. destruct (nth_error L (indent x)) as [cur|]; [|reflexivity].
      destruct (Nat.ltb (indent x) (indent l)); apply IH.
    + cbn [app] in *. remember ((before ++ l :: "" :: l' :: after)%list) as t1. remember ((before ++ l :: l' :: after)%list) as t2. cbn [parse_lines]. destruct (String.eqb x ""); [apply IH|]. destruct (key_value _ _ x) as [k v]. destruct (nth_error L (indent x)) as [cur|]; [|reflexivity].
      destruct (Nat.ltb (indent x) (indent y)); apply IH.
Qed.
Print Assumptions C143_blank_lines.
(** but after a section's header it stops the reading with IndexError, or puts the section's entries into the previous section *)
Theorem C143_blank_refuted :
  (forall py_float py_int, parse_panond py_float py_int ["A=x"; ""; "  B=y"; "End"] = Err IndexError) /\
  (exists h es, parse_panond (fun _ => None) (fun _ => None) ["A=x"; "  B=y"; "C=z"; ""; "  D=t"; "End"] = Ok h /\ nth_error h 0 = Some es /\
     shows_all h es [("A", Block [("A", Leaf (VAtom (AStr "x"))); ("B", Leaf (VAtom (AStr "y"))); ("D", Leaf (VAtom (AStr "t")))]); ("C", Leaf (VAtom (AStr "z")))]).
Proof.
  split; [intros; reflexivity|]. eexists; eexists. split; [reflexivity|]. split; [reflexivity|].
  constructor; [|constructor; [constructor; discriminate|constructor]]. econstructor; [reflexivity|]. repeat (constructor; [constructor; discriminate|]). constructor.
Qed.
Print Assumptions C143_blank_refuted.
(** only the indentation of the last line matters *)
Theorem C143_last_line : forall py_float py_int ls l l', indent l = indent l' -> parse_panond py_float py_int (ls ++ [l])%list = parse_panond py_float py_int (ls ++ [l'])%list.
Proof.
  intros py_float py_int ls l l' H. unfold parse_panond. generalize [0] as L. generalize [@nil (string * value)] as h. induction ls as [|x ls IH]; intros h L; [reflexivity|].
  destruct ls as [|y ls]; cbn [app] in *.
  - cbn [parse_lines]. rewrite H. reflexivity.
  - remember ((ls ++ [l])%list) as t1. remember ((ls ++ [l'])%list) as t2. cbn [parse_lines]. destruct (String.eqb x ""); [apply IH|]. destruct (key_value _ _ x) as [k v]. destruct (nth_error L (indent x)) as [cur|]; [|reflexivity].
    destruct (Nat.ltb (indent x) (indent y)); apply IH.
Qed.
Print Assumptions C143_last_line.
(** so the last entry of a file that does not end with an End line is lost *)
Theorem C143_last_entry_lost : forall py_float py_int s k v, well_formed s -> k <> "" -> plain k ->
  exists h es, parse_panond py_float py_int (lines 0 s ++ [entry_text k v])%list = Ok h /\ nth_error h 0 = Some es /\ shows_all h es (content (element_type py_float py_int) [] s).
Proof.
  intros py_float py_int s k v W N P. apply C143_round_trip; [exact W|]. destruct (entry_starts k v N P) as (c & t & -> & C). exact C.
Qed.
Print Assumptions C143_last_entry_lost.
(** reading fails only with IndexError *)
Theorem C143_errors : forall py_float py_int ls e, parse_panond py_float py_int ls = Err e -> e = IndexError.
Proof.
  intros py_float py_int ls e. unfold parse_panond. generalize [0] as L. generalize [@nil (string * value)] as h. induction ls as [|x ls IH]; intros h L; [discriminate|].
  destruct ls as [|y ls]; [discriminate|]. change (parse_lines py_float py_int (x :: y :: ls) h L) with
    (if String.eqb x "" then parse_lines py_float py_int (y :: ls) h L else let (key, value) := key_value py_float py_int x in
     match nth_error L (indent x) with None => Err IndexError | Some cur =>
       if Nat.ltb (indent x) (indent y) then parse_lines py_float py_int (y :: ls) (update cur (dict_set key (VDict (List.length h))) h ++ [[(key, value)]])%list (firstn (S (indent x)) L ++ [List.length h])%list
       else parse_lines py_float py_int (y :: ls) (update cur (dict_set key value) h) L end).
  destruct (String.eqb x ""); [apply IH|]. destruct (key_value _ _ x) as [k v]. destruct (nth_error L (indent x)); [|congruence]. destruct (Nat.ltb _ _); apply IH.
Qed.
Print Assumptions C143_errors.
(** a module file; the entry with a section appears again inside it *)
Example C143_module :
  let s := Entry "PVObject_" (Some (0, "pvModule", 0)) (Entry "Version" (Some (0, "7.2", 0)) Done (Entry "PVObject_Commercial" (Some (0, "pvCommercial", 0)) (Entry "Width" (Some (0, "1.134", 0)) Done Done) (Entry "End of PVObject pvCommercial" None Done Done))) Done in
  well_formed s /\ (lines 0 s ++ ["End of PVObject pvModule"])%list =
    ["PVObject_=pvModule"; "  Version=7.2"; "  PVObject_Commercial=pvCommercial"; "    Width=1.134"; "  End of PVObject pvCommercial"; "End of PVObject pvModule"] /\
  forall typed, content typed [] s =
    [("PVObject_", Block [("PVObject_", Leaf (typed "pvModule")); ("Version", Leaf (typed "7.2"));
       ("PVObject_Commercial", Block [("PVObject_Commercial", Leaf (typed "pvCommercial")); ("Width", Leaf (typed "1.134"))]); ("End of PVObject pvCommercial", Leaf VNone)])].
Proof. intros s. split; [|split; [reflexivity|intros; reflexivity]]. cbn [s well_formed]. unfold plain. repeat match goal with |- _ /\ _ => split | |- True => exact I | |- _ = _ => reflexivity | |- _ <> _ => discriminate end. Qed.

(** ** C144: types of values *)
(** text without a comma is one value; with commas it is the list of the values between them *)
Theorem C144_list : forall py_float py_int first rest, (forall s, In s (first :: rest) -> has_char "," s = false) -> rest <> [] ->
  element_type py_float py_int (String.concat "," (first :: rest)) = VList (map (num_type py_float py_int) (first :: rest)).
Proof.
  intros py_float py_int first rest H N.
  assert (S1 : forall r f, (forall s, In s (f :: r) -> has_char "," s = false) -> split_on "," (String.concat "," (f :: r)) = f :: r).
  { induction r as [|g r IH]; intros f Hf; [apply split_on_nosep; apply Hf; left; reflexivity|].
    change (String.concat "," (f :: g :: r)) with (f ++ String "," (String.concat "," (g :: r)))%string. rewrite split_on_app by (apply Hf; left; reflexivity). f_equal. apply IH. intros s Hs. apply Hf. right. exact Hs. }
  unfold element_type. destruct rest as [|g r]; [congruence|].
  assert (C1 : has_char "," (String.concat "," (first :: g :: r)) = true).
  { change (String.concat "," (first :: g :: r)) with (first ++ String "," (String.concat "," (g :: r)))%string. rewrite has_char_app. cbn [has_char]. rewrite Ascii.eqb_refl. apply orb_true_r. }
  rewrite C1, S1 by exact H. reflexivity.
Qed.
Print Assumptions C144_list.
(** text with a dot is a float if float() accepts it, without a dot an int if int() accepts it, and otherwise stays text *)
Theorem C144_value : forall py_float py_int s, has_char "," s = false ->
  (forall x, element_type py_float py_int s = VAtom (AFloat x) <-> has_char "." s = true /\ py_float s = Some x) /\
  (forall z, element_type py_float py_int s = VAtom (AInt z) <-> has_char "." s = false /\ py_int s = Some z) /\
  (forall t, element_type py_float py_int s = VAtom (AStr t) <-> t = s /\ (if has_char "." s then py_float s = None else py_int s = None)) /\
  (exists a, element_type py_float py_int s = VAtom a).
Proof.
  intros py_float py_int s C. unfold element_type, num_type. rewrite C.
  split; [|split; [|split; [|eexists; reflexivity]]]; intros u; destruct (has_char "." s); [destruct (py_float s)|destruct (py_int s)| destruct (py_float s)|destruct (py_int s)|destruct (py_float s)|destruct (py_int s)];
    split; try discriminate; try (intros [? ?]; try discriminate; congruence); intros H; try (injection H as <-); try (split; reflexivity).
Qed.
Print Assumptions C144_value.
(** text after a second equals sign is dropped *)
Theorem C144_second_equals : forall py_float py_int k x y, has_char "=" k = false -> has_char "=" x = false ->
  key_value py_float py_int (k ++ "=" ++ x ++ "=" ++ y) = (strip k, element_type py_float py_int (strip x)).
Proof.
  intros py_float py_int k x y K X. unfold key_value. change ("=" ++ x ++ "=" ++ y) with (String "=" (x ++ String "=" y)). rewrite split_on_app by exact K. rewrite split_on_app by exact X.
  destruct (split_on "=" y) as [|z zs]; reflexivity.
Qed.
Print Assumptions C144_second_equals.
Example C144_nonvacuous : forall py_float py_int, element_type py_float py_int "1.5,2,abc" = VList [num_type py_float py_int "1.5"; num_type py_float py_int "2"; num_type py_float py_int "abc"] /\
  key_value py_float py_int "Comment=a=b" = ("Comment", element_type py_float py_int "a").
Proof. intros. split; reflexivity. Qed.
