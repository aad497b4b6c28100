(** C154-C157: BSRN station-to-archive files *)
From Verif Require Import Base.Fl Base.Py Base.PyStr Base.FlFacts Base.Calendar Model.Bsrn.
From Coq Require Import Reals List String Ascii Bool ZArith Lia Lra Permutation Sorted.
Import ListNotations.
Open Scope list_scope.
Open Scope Z_scope.

Lemma Ok_inj {A} (x y : A) : Ok x = Ok y -> x = y.
Proof. congruence. Qed.
(** ** text *)
Definition newline : string := String (chr 10) "".
(** a text without line break *)
Definition plain (s : string) : Prop := has_char (chr 10) s = false.
(** lines, each ended by a line break *)
Definition text_of (ls : list string) : string := fold_right (fun l t => l ++ newline ++ t)%string ""%string ls.
Fixpoint blank (s : string) : Prop := match s with EmptyString => True | String c s' => is_ws c = true /\ blank s' end.
Fixpoint no_ws (s : string) : Prop := match s with EmptyString => True | String c s' => is_ws c = false /\ no_ws s' end.
Definition word (s : string) : Prop := s <> ""%string /\ no_ws s.
(** a text whose words are ws: separated by white space *)
Inductive words_text : list string -> string -> Prop :=
| wt_nil s : blank s -> words_text [] s
| wt_last s w : blank s -> word w -> words_text [w] (s ++ w)
| wt_cons s w c ws t : blank s -> word w -> is_ws c = true -> words_text ws t -> words_text (w :: ws) (s ++ w ++ String c t).

Lemma read_line_app a t : plain a -> read_line (a ++ newline ++ t) = ((a ++ newline)%string, t).
Proof.
  unfold plain. induction a as [|c a IH]; [intros _; reflexivity|]. cbn [has_char]. intros H. apply orb_false_iff in H. destruct H as [H1 H2].
  cbn [append read_line]. unfold nl. rewrite H1. rewrite (IH H2). reflexivity.
Qed.
Lemma read_line_end a : plain a -> read_line a = (a, ""%string).
Proof.
  unfold plain. induction a as [|c a IH]; [intros _; reflexivity|]. cbn [has_char]. intros H. apply orb_false_iff in H. destruct H as [H1 H2].
  cbn [read_line]. unfold nl. rewrite H1, (IH H2). reflexivity.
Qed.
Lemma read_upto_app a t : plain a -> read_upto (String.length a) (a ++ t) = (a, t).
Proof.
  unfold plain. induction a as [|c a IH]; [intros _; destruct t; reflexivity|]. cbn [has_char]. intros H. apply orb_false_iff in H. destruct H as [H1 H2].
  cbn [append read_upto String.length]. unfold nl. rewrite H1, (IH H2). reflexivity.
Qed.
Lemma read_upto_n n a t : String.length a = n -> plain a -> read_upto n (a ++ t) = (a, t).
Proof. intros <-. apply read_upto_app. Qed.
Lemma lstrip_nl a : lstrip is_ws (a ++ newline) = match lstrip is_ws a with EmptyString => EmptyString | s => (s ++ newline)%string end.
Proof. induction a as [|c a IH]; [reflexivity|]. cbn [append lstrip]. destruct (is_ws c); [exact IH|reflexivity]. Qed.
Lemma rstrip_nl a : rstrip is_ws (a ++ newline) = rstrip is_ws a.
Proof. induction a as [|c a IH]; [reflexivity|]. cbn [append rstrip]. rewrite IH. reflexivity. Qed.
Lemma strip_nl a : strip (a ++ newline) = strip a.
Proof. unfold strip. rewrite lstrip_nl. destruct (lstrip is_ws a) as [|c s]; [reflexivity|]. apply rstrip_nl. Qed.
Lemma split_blank s : blank s -> split_ws s = [].
Proof. induction s as [|c s IH]; [reflexivity|]. cbn. intros [H1 H2]. rewrite H1. apply IH, H2. Qed.
Lemma split_lead s t : blank s -> split_ws (s ++ t) = split_ws t.
Proof. induction s as [|c s IH]; [reflexivity|]. cbn [blank append split_ws]. intros [H1 H2]. rewrite H1. apply IH, H2. Qed.
Lemma split_word w : word w -> split_ws w = [w].
Proof.
  intros [N W]. induction w as [|c w IH]; [congruence|]. cbn in W. destruct W as [W1 W2]. cbn [split_ws]. rewrite W1. destruct w as [|d w]; [reflexivity|].
  destruct W2 as [W2 W3]. rewrite W2. rewrite IH by (try discriminate; cbn; auto). reflexivity.
Qed.
Lemma split_app x c t : is_ws c = true -> split_ws (x ++ String c t) = split_ws x ++ split_ws t.
Proof.
  intros C. induction x as [|a x IH]; [cbn; rewrite C; reflexivity|]. cbn [append split_ws]. destruct (is_ws a) eqn:A; [exact IH|]. rewrite IH. destruct x as [|b x].
  - cbn [append]. rewrite C. reflexivity.
  - cbn [append]. destruct (is_ws b) eqn:B; [reflexivity|]. assert (N : split_ws (String b x) <> []). { cbn [split_ws]. rewrite B. destruct x as [|d x]; [discriminate|]. destruct (is_ws d); [discriminate|]. destruct (split_ws (String d x)); discriminate. }
    destruct (split_ws (String b x)) as [|w ws]; [congruence|]. reflexivity.
Qed.
Lemma split_words ws t : words_text ws t -> split_ws t = ws.
Proof.
  induction 1 as [s B|s w B W|s w c ws t B W C H IH]; [apply split_blank; exact B|rewrite split_lead by exact B; apply split_word; exact W|].
  rewrite split_lead by exact B. rewrite split_app by exact C. rewrite split_word by exact W. rewrite IH. reflexivity.
Qed.
Lemma words_nl ws t : words_text ws t -> words_text ws (t ++ newline).
Proof.
  induction 1 as [s B|s w B W|s w c ws t B W C H IH].
  - constructor. revert B. clear. induction s; cbn; [intros _; split; [reflexivity|exact I]|intros [A B]; auto].
  - rewrite sapp_assoc. apply wt_cons; [exact B|exact W|reflexivity|constructor; exact I].
  - rewrite !sapp_assoc. cbn [append]. apply wt_cons; assumption.
Qed.
Lemma substring_zero n s : (String.length s <= n)%nat -> substring 0 n s = s.
Proof. revert n. induction s as [|c s IH]; intros [|n] H; cbn in *; try reflexivity; try lia. f_equal. apply IH. lia. Qed.
Lemma substring_head a b : substring 0 (String.length a) (a ++ b) = a.
Proof. induction a as [|c a IH]; [destruct b; reflexivity|]. cbn. f_equal. exact IH. Qed.
Lemma substring_at a b c : substring (String.length a) (String.length b) (a ++ b ++ c) = b.
Proof. induction a as [|x a IH]; [exact (substring_head b c)|]. cbn. exact IH. Qed.
Lemma plain_app a b : plain (a ++ b) <-> plain a /\ plain b.
Proof. unfold plain. rewrite has_char_app. apply orb_false_iff. Qed.

(** ** C154 *)
Section Header.
Variable py_float : string -> option fl.
Variable py_int : string -> option Z.
(** the horizon lines carry the integers vs *)
Definition carries (line : string) (vs : list Z) : Prop := exists ws, words_text ws line /\ Forall2 (fun w v => py_int w = Some v) ws vs.
Definition ends_horizon (rest : string) : Prop := rest = ""%string \/ exists l t, rest = (l ++ newline ++ t)%string /\ plain l /\ has_char "*" l = true.
Lemma carries_mapM line vs : carries line vs -> mapM (to_int py_int) (split_ws (line ++ newline)) = Ok vs.
Proof.
  intros (ws & W & F). rewrite (split_words ws) by (apply words_nl; exact W). clear W. induction F as [|w v ws vs E F IH]; [reflexivity|].
  cbn [mapM]. unfold to_int at 1. rewrite E. cbn [bind]. rewrite IH. reflexivity.
Qed.
Lemma line_nonempty l : String.eqb (l ++ newline) "" = false.
Proof. destruct l; reflexivity. Qed.
Lemma text_of_app l t : text_of (l :: t) = (l ++ newline ++ text_of t)%string.
Proof. reflexivity. Qed.
Lemma horizon_lines hs vss rest : Forall2 carries hs vss -> Forall (fun l => plain l /\ has_char "*" l = false) hs -> ends_horizon rest ->
  forall fuel, (List.length hs < fuel)%nat -> horizon_values py_int fuel (text_of hs ++ rest) = Ok (List.concat vss).
Proof.
  intros F P E. induction F as [|l vs hs vss C F IH]; intros fuel L.
  - destruct fuel as [|fuel]; [cbn in L; lia|]. cbn [text_of fold_right append horizon_values]. destruct E as [->|(l & t & -> & Pl & St)].
    + reflexivity.
    + rewrite read_line_app by exact Pl. rewrite has_char_app, St. reflexivity.
  - destruct fuel as [|fuel]; [cbn in L; lia|]. pose proof (Forall_inv P) as [Pl Nl]. pose proof (Forall_inv_tail P) as P'. rewrite text_of_app. rewrite !sapp_assoc. cbn [horizon_values].
    rewrite read_line_app by exact Pl. rewrite has_char_app, Nl. change (has_char "*" newline) with false. rewrite line_nonempty. cbn [orb]. rewrite (carries_mapM l vs C). cbn [bind].
    rewrite IH by (try assumption; cbn in L; lia). reflexivity.
Qed.
Lemma skip_lines mids mark rest : Forall (fun l => plain l /\ substring 2 4 (l ++ newline) <> "0004"%string) mids -> plain mark -> substring 2 4 (mark ++ newline) = "0004"%string ->
  forall fuel, (List.length mids < fuel)%nat -> after_lr0004 fuel (text_of mids ++ mark ++ newline ++ rest) = rest.
Proof.
  intros F P M. induction mids as [|l mids IH]; intros [|fuel] L; try (cbn in L; lia).
  - cbn [text_of fold_right append after_lr0004]. rewrite read_line_app by exact P. rewrite line_nonempty, M. reflexivity.
  - pose proof (Forall_inv F) as [Pl Nl]. rewrite text_of_app, !sapp_assoc. cbn [after_lr0004]. rewrite read_line_app by exact Pl. rewrite line_nonempty.
    apply String.eqb_neq in Nl. rewrite Nl. apply IH; [exact (Forall_inv_tail F)|cbn in L; lia].
Qed.
Lemma text_length ls t : (List.length ls <= String.length (text_of ls ++ t))%nat.
Proof. induction ls as [|l ls IH]; [cbn; lia|]. rewrite text_of_app, !sapp_assoc, !length_app. rewrite length_app in IH. cbn [List.length newline String.length]. lia. Qed.

(** the second line: station number (3 characters), month (3), a separator, year (4), ..., version *)
Definition date_line (st mo sep yr tail : string) : string := (st ++ mo ++ sep ++ yr ++ tail)%string.
(** the station record *)
Definition station_text (changed surface topography address telephone fax ip email lat lon alt synop hchanged : string) (horizon : list string) (rest : string) : string :=
  (changed ++ newline ++ surface ++ topography ++ newline ++ address ++ newline ++ telephone ++ fax ++ newline ++ ip ++ email ++ newline ++ lat ++ lon ++ alt ++ synop ++ newline ++ hchanged ++ newline ++ text_of horizon ++ rest)%string.

(** the metadata of a file: every item is the text at its place, without the surrounding white space; latitude and longitude are counted from the equator and from Greenwich *)
Theorem C154_metadata : forall first st mo sep yr tail ws version mids mark changed surface topography address telephone fax ip email lat lon alt synop hchanged hs vss rest stz moz yrz vz sz tz latv lonv az,
  String.length st = 3%nat -> String.length mo = 3%nat -> String.length sep = 1%nat -> String.length yr = 4%nat ->
  words_text (ws ++ [version]) (date_line st mo sep yr tail) ->
  String.length surface = 3%nat -> String.length telephone = 20%nat -> String.length ip = 15%nat -> String.length lat = 8%nat -> String.length lon = 8%nat -> String.length alt = 5%nat ->
  Forall plain [first; date_line st mo sep yr tail; mark; changed; surface; topography; address; telephone; fax; ip; email; lat; lon; alt; synop; hchanged] ->
  Forall (fun l => plain l /\ substring 2 4 (l ++ newline) <> "0004"%string) mids -> substring 2 4 (mark ++ newline) = "0004"%string ->
  Forall2 carries hs vss -> Forall (fun l => plain l /\ has_char "*" l = false) hs -> ends_horizon rest ->
  py_int st = Some stz -> py_int mo = Some moz -> py_int yr = Some yrz -> py_int version = Some vz -> py_int surface = Some sz -> py_int (topography ++ newline) = Some tz -> py_int alt = Some az ->
  py_float lat = Some latv -> py_float lon = Some lonv -> 1 <= moz <= 12 ->
  let text := (first ++ newline ++ date_line st mo sep yr tail ++ newline ++ text_of mids ++ mark ++ newline ++
               station_text changed surface topography address telephone fax ip email lat lon alt synop hchanged hs rest)%string in
  bsrn_header py_float py_int text =
  (let* horizon := bsrn_horizon (List.concat vss) in
   Ok (BsrnMeta (Date yrz moz 1) stz vz (strip changed) sz tz (strip address) (strip telephone) (strip fax) (strip ip) (strip email)
        latv (latv - #90)%fl lonv (lonv - #180)%fl az (strip synop) (strip hchanged) horizon)).
Proof.
  intros first st mo sep yr tail ws version mids mark changed surface topography address telephone fax ip email lat lon alt synop hchanged hs vss rest stz moz yrz vz sz tz latv lonv az
    L1 L2 L3 L4 W L5 L6 L7 L8 L9 L10 P M MK H HP E I1 I2 I3 I4 I5 I6 I7 F1 F2 MO text.
  repeat match goal with X : Forall plain (_ :: _) |- _ => let a := fresh "P" in pose proof (Forall_inv X) as a; apply Forall_inv_tail in X end.
  unfold text, bsrn_header. rewrite read_line_app by assumption. rewrite read_line_app by assumption.
  assert (Y : substring 7 4 (date_line st mo sep yr tail ++ newline) = yr).
  { unfold date_line. replace ((st ++ mo ++ sep ++ yr ++ tail) ++ newline)%string with ((st ++ mo ++ sep) ++ yr ++ (tail ++ newline))%string by (rewrite !sapp_assoc; reflexivity).
    replace 7%nat with (String.length (st ++ mo ++ sep)) by (rewrite !length_app; lia). rewrite <- L4. apply substring_at. }
  assert (MM : substring 3 3 (date_line st mo sep yr tail ++ newline) = mo).
  { unfold date_line. replace ((st ++ mo ++ sep ++ yr ++ tail) ++ newline)%string with (st ++ mo ++ ((sep ++ yr ++ tail) ++ newline))%string by (rewrite !sapp_assoc; reflexivity).
    rewrite <- L1 at 1. rewrite <- L2. apply substring_at. }
  assert (SS : substring 0 3 (date_line st mo sep yr tail ++ newline) = st). { unfold date_line. rewrite !sapp_assoc. rewrite <- L1. apply substring_head. }
  rewrite Y, MM, SS. unfold to_int at 1 2 3. rewrite I1, I2, I3. cbn [bind].
  replace ((1 <=? moz) && (moz <=? 12)) with true by (symmetry; apply andb_true_iff; split; apply Z.leb_le; lia). cbn [negb].
  rewrite (split_words (ws ++ [version])) by (apply words_nl; exact W). rewrite rev_app_distr. cbn [rev List.app]. unfold to_int at 1. rewrite I4. cbn [bind].
  rewrite skip_lines by (try assumption; pose proof (text_length mids (mark ++ newline ++ station_text changed surface topography address telephone fax ip email lat lon alt synop hchanged hs rest)); lia).
  unfold station_text. rewrite read_line_app by assumption. rewrite read_upto_n by assumption. unfold to_int at 1. rewrite I5. cbn [bind].
  rewrite read_line_app by assumption. unfold to_int at 1. rewrite I6. cbn [bind]. rewrite read_line_app by assumption.
  rewrite read_upto_n by assumption. rewrite read_line_app by assumption. rewrite read_upto_n by assumption. rewrite read_line_app by assumption.
  rewrite (read_upto_n 8 lat) by assumption. unfold to_float at 1. rewrite F1. cbn [bind]. rewrite (read_upto_n 8 lon) by assumption. unfold to_float at 1. rewrite F2. cbn [bind].
  rewrite read_upto_n by assumption. unfold to_int at 1. rewrite I7. cbn [bind]. rewrite !read_line_app by assumption.
  rewrite (horizon_lines hs vss) by (try assumption; pose proof (text_length hs rest); lia). cbn [bind]. rewrite !strip_nl. reflexivity.
Qed.

(** without station record: no latitude is made up *)
Theorem C154_no_station_record : forall first st mo sep yr tail mids m,
  String.length st = 3%nat -> String.length mo = 3%nat -> String.length sep = 1%nat -> String.length yr = 4%nat ->
  Forall plain [first; date_line st mo sep yr tail] -> Forall (fun l => plain l /\ substring 2 4 (l ++ newline) <> "0004"%string) mids -> py_int "" = None ->
  bsrn_header py_float py_int (text_of (first :: date_line st mo sep yr tail :: mids)) <> Ok m.
Proof.
  intros first st mo sep yr tail mids m L1 L2 L3 L4 P M E. pose proof (Forall_inv P) as P1. pose proof (Forall_inv (Forall_inv_tail P)) as P2. rewrite !text_of_app. unfold bsrn_header.
  rewrite read_line_app by exact P1. rewrite read_line_app by exact P2.
  assert (A : forall fuel, (List.length mids < fuel)%nat -> after_lr0004 fuel (text_of mids) = ""%string).
  { clear - M. induction mids as [|l mids IH]; intros [|fuel] L; try (cbn in L; lia); [reflexivity|]. pose proof (Forall_inv M) as [Pl Nl]. rewrite text_of_app. cbn [after_lr0004]. rewrite read_line_app by exact Pl.
    rewrite line_nonempty. apply String.eqb_neq in Nl. rewrite Nl. apply IH; [exact (Forall_inv_tail M)|cbn in L; lia]. }
  assert (B : (List.length mids < S (String.length (text_of mids)))%nat). { pose proof (text_length mids ""%string) as X. rewrite length_app in X. cbn in X. lia. }
  rewrite (A _ B). destruct (to_int py_int _) as [y|]; [|discriminate]. cbn [bind]. destruct (to_int py_int _) as [mo'|]; [|discriminate]. cbn [bind]. destruct (negb _); [discriminate|].
  destruct (to_int py_int _) as [st'|]; [|discriminate]. cbn [bind]. destruct (match rev _ with [] => _ | _ => _ end) as [v|]; [|discriminate]. cbn [bind read_line read_upto].
  unfold to_int at 1. rewrite E. discriminate.
Qed.
(** a header that cannot be read raises ValueError, or IndexError for lack of a version *)
Lemma to_int_err s e : to_int py_int s = Err e -> e = ValueError.
Proof. unfold to_int. destruct (py_int s); congruence. Qed.
Lemma to_float_err s e : to_float py_float s = Err e -> e = ValueError.
Proof. unfold to_float. destruct (py_float s); congruence. Qed.
Theorem C154_errors : forall text e, bsrn_header py_float py_int text = Err e -> e = ValueError \/ e = IndexError.
Proof.
  assert (HV : forall fuel s e, horizon_values py_int fuel s = Err e -> e = ValueError).
  { induction fuel as [|fuel IH]; intros s e; [discriminate|]. cbn [horizon_values]. destruct (read_line s) as [line rest]. destruct (_ || _)%bool; [discriminate|].
    assert (MM : forall l, match mapM (to_int py_int) l with Ok _ => True | Err x => x = ValueError end).
    { induction l as [|w l IHl]; [exact I|]. cbn [mapM]. destruct (to_int py_int w) eqn:T; [|apply to_int_err in T; exact T]. cbn [bind]. destruct (mapM _ l); exact IHl. }
    specialize (MM (split_ws line)). destruct (mapM _ _) as [v|x]; [|cbn [bind]; congruence]. cbn [bind]. destruct (horizon_values py_int fuel rest) eqn:H; [discriminate|]. cbn [bind]. intros E. injection E as <-. exact (IH _ _ H). }
  assert (HZ : forall v e, bsrn_horizon v = Err e -> e = ValueError). { intros v e. unfold bsrn_horizon. destruct (Nat.eqb _ _); congruence. }
  intros text e. unfold bsrn_header. repeat match goal with |- context [let (_, _) := ?r in _] => destruct r end.
  repeat match goal with
  | |- context [bind (to_int py_int ?s) _] => let T := fresh "T" in destruct (to_int py_int s) eqn:T; [cbn [bind]|apply to_int_err in T; cbn [bind]; intros E; left; congruence]
  | |- context [bind (to_float py_float ?s) _] => let T := fresh "T" in destruct (to_float py_float s) eqn:T; [cbn [bind]|apply to_float_err in T; cbn [bind]; intros E; left; congruence]
  | |- context [if negb ?b then Err _ else _] => destruct b; cbn [negb]; [|intros E; left; congruence]
  | |- context [match rev ?l with [] => _ | _ => _ end] => destruct (rev l); [cbn [bind]; intros E; right; congruence|]
  | |- context [let (_, _) := ?r in _] => destruct r
  | |- context [bind (horizon_values py_int ?f ?s) _] => let T := fresh "T" in destruct (horizon_values py_int f s) eqn:T; [cbn [bind]|apply HV in T; cbn [bind]; intros E; left; congruence]
  | |- context [bind (bsrn_horizon ?v) _] => let T := fresh "T" in destruct (bsrn_horizon v) eqn:T; [cbn [bind]; discriminate|apply HZ in T; cbn [bind]; intros E; left; congruence]
  end.
Qed.
End Header.
Print Assumptions C154_errors.
Print Assumptions C154_metadata.
Print Assumptions C154_no_station_record.

(** the horizon: the pairs (azimuth, elevation) in order of azimuth, without the placeholder azimuth -1 *)
Definition flatten (ps : list (Z * Z)) : list Z := flat_map (fun p => [fst p; snd p]) ps.
Lemma evens_odds ps : evens (flatten ps) = map fst ps /\ odds (flatten ps) = map snd ps.
Proof. induction ps as [|[a e] ps [IH1 IH2]]; [split; reflexivity|]. cbn [flatten flat_map List.app evens odds map fst snd]. fold (flatten ps). rewrite IH1, IH2. split; reflexivity. Qed.
Lemma evens_odds_length {A} : forall (l : list A), List.length l = (List.length (evens l) + List.length (odds l))%nat /\ (List.length (odds l) <= List.length (evens l) <= S (List.length (odds l)))%nat.
Proof.
  fix IH 1. intros [|x [|y l]]; [cbn; lia|cbn; lia|]. destruct (IH l) as [H1 H2]. cbn [evens odds List.length]. lia.
Qed.
Lemma insert_azimuth_perm p l : Permutation (insert_azimuth p l) (p :: l).
Proof. induction l as [|q l IH]; [reflexivity|]. cbn. destruct (fst p <=? fst q); [reflexivity|]. etransitivity; [apply perm_skip, IH|apply perm_swap]. Qed.
Lemma sort_azimuth_perm l : Permutation (sort_azimuth l) l.
Proof. induction l as [|p l IH]; [reflexivity|]. cbn. etransitivity; [apply insert_azimuth_perm|]. apply perm_skip, IH. Qed.
Definition by_azimuth (p q : Z * Z) : Prop := fst p <= fst q.
Lemma insert_azimuth_sorted p l : StronglySorted by_azimuth l -> StronglySorted by_azimuth (insert_azimuth p l).
Proof.
  induction 1 as [|q l H IH F]; [repeat constructor|]. cbn. destruct (Z.leb_spec (fst p) (fst q)).
  - constructor; [constructor; assumption|]. constructor; [exact H0|]. eapply Forall_impl; [|exact F]. unfold by_azimuth. intros; lia.
  - constructor; [exact IH|]. eapply Permutation_Forall; [symmetry; apply insert_azimuth_perm|]. constructor; [unfold by_azimuth; lia|exact F].
Qed.
Lemma sort_azimuth_sorted l : StronglySorted by_azimuth (sort_azimuth l).
Proof. induction l; [constructor|]. cbn. apply insert_azimuth_sorted. assumption. Qed.
Theorem C154_horizon :
  (forall ps, exists h, bsrn_horizon (flatten ps) = Ok h /\ StronglySorted by_azimuth h /\ Permutation h (filter (fun p => negb (fst p =? -1)) ps)) /\
  (forall vs, Nat.odd (List.length vs) = true -> bsrn_horizon vs = Err ValueError).
Proof.
  split.
  - intros ps. unfold bsrn_horizon. destruct (evens_odds ps) as [-> ->]. rewrite !map_length, Nat.eqb_refl.
    replace (combine (map fst ps) (map snd ps)) with ps by (induction ps as [|[a e] ps IH]; cbn; [reflexivity|f_equal; exact IH]).
    eexists. split; [reflexivity|]. split; [apply sort_azimuth_sorted|apply sort_azimuth_perm].
  - intros vs O. unfold bsrn_horizon. destruct (evens_odds_length vs) as [H1 H2]. destruct (Nat.eqb_spec (List.length (odds vs)) (List.length (evens vs))) as [E|E]; [exfalso|reflexivity].
    rewrite H1, E in O. rewrite <- Nat.negb_even, Nat.even_add in O. destruct (Nat.even (List.length (evens vs))); discriminate.
Qed.
Print Assumptions C154_horizon.
(** the placeholder is dropped and the azimuths are put in order *)
Example C154_horizon_case : bsrn_horizon [90; 4; 0; 7; -1; -1; 45; 2] = Ok [(0, 7); (45, 2); (90, 4)].
Proof. reflexivity. Qed.

(** a file header in the archive's layout *)
Definition sample : string := text_of ["*U0001"; " 50  4 2019  1"; "*C0002"; "*C0004"; " 1 0 0"; "  1  2"; "Main street 1"; "+49 123             +49 456"; "10.0.0.1       bsrn@x.org"; "  98.3  186.5   22   "; " 1 0 0"; "  90  4   0  7  -1 -1"; "*C0100"; "data"]%string.
Definition sample_int (s : string) : option Z := lookup (strip s) [("50", 50); ("4", 4); ("2019", 2019); ("1", 1); ("2", 2); ("22", 22); ("90", 90); ("0", 0); ("7", 7); ("-1", -1)]%string.
Example C154_case : bsrn_header (fun _ => Some (Fin 95)) sample_int sample =
  Ok (BsrnMeta (Date 2019 4 1) 50 1 "1 0 0" 1 2 "Main street 1" "+49 123" "+49 456" "10.0.0.1" "bsrn@x.org" (Fin 95) (Fin 95 - #90)%fl (Fin 95) (Fin 95 - #180)%fl 22 "" "1 0 0" [(0, 7); (90, 4)]).
Proof. reflexivity. Qed.

(** ** C155 *)
Lemma lookup_dict_set {A} k k' (v : A) d : lookup k (dict_set k' v d) = if String.eqb k k' then Some v else lookup k d.
Proof.
  induction d as [|[x y] d IH]; [reflexivity|]. cbn [dict_set]. destruct (String.eqb_spec k' x) as [->|N].
  - cbn [lookup]. destruct (String.eqb k x); reflexivity.
  - cbn [lookup]. rewrite IH. destruct (String.eqb_spec k x) as [->|N2]; [|reflexivity]. destruct (String.eqb_spec x k'); [congruence|reflexivity].
Qed.
Lemma dict_get_some k d v : lookup k d = Some v -> dict_get k d = v.
Proof. unfold dict_get. intros ->. reflexivity. Qed.
(** a file is some lines, then logical records: a line '*xNNNN...' and the lines up to the next such line *)
Definition record_line (l : string) : Prop := exists t, l = String "*" t.
Definition number (l : string) : string := substring 2 4 l.
Definition well_formed (blocks : list (string * list string)) : Prop := Forall (fun b => record_line (fst b) /\ Forall (fun l => ~ record_line l) (snd b)) blocks.
Definition file_lines (junk : list string) (blocks : list (string * list string)) : list string := junk ++ flat_map (fun b => fst b :: snd b) blocks.
Lemma is_record_spec l : is_record l = true <-> record_line l.
Proof.
  unfold is_record, record_line. destruct l as [|c l]; [split; [discriminate|intros [t E]; discriminate]|]. cbn [String.prefix]. destruct (ascii_dec "*" c) as [<-|N].
  - split; [intros _; eexists; reflexivity|destruct l; reflexivity].
  - split; [discriminate|intros [t E]; injection E as -> _; congruence].
Qed.
Lemma scan_plain st ls : Forall (fun l => ~ record_line l) ls -> forall num, scan_lines st num ls = st.
Proof.
  induction ls as [|l ls IH]; intros F num; [reflexivity|]. cbn [scan_lines]. pose proof (Forall_inv F) as N. unfold scan_line at 1. destruct (is_record l) eqn:E; [apply is_record_spec in E; contradiction|].
  apply IH, (Forall_inv_tail F).
Qed.
Lemma scan_app st ls ls' num : scan_lines st num (ls ++ ls') = scan_lines (scan_lines st num ls) (num + Z.of_nat (List.length ls)) ls'.
Proof.
  revert st num. induction ls as [|l ls IH]; intros st num; cbn [List.app scan_lines List.length]; [f_equal; lia|]. rewrite IH. f_equal. lia.
Qed.
(** the two dictionaries when the file ends after n lines *)
Definition closed (st : scan) (n : Z) : list (string * Z) * list (string * Z) :=
  match lr st with Some l => (lr_startrow st, dict_set l (n - 1 - dict_get l (lr_startrow st)) (lr_nrows st)) | None => (lr_startrow st, lr_nrows st) end.
Lemma close_block st n h body : record_line h -> Forall (fun l => ~ record_line l) body -> let st' := scan_lines st n (h :: body) in
  lr st' = Some (number h) /\
  closed st' (n + Z.of_nat (List.length (h :: body))) = (dict_set (number h) n (fst (closed st n)), dict_set (number h) (Z.of_nat (List.length body)) (snd (closed st n))).
Proof.
  intros R F. cbn [scan_lines]. rewrite scan_plain by exact F. unfold scan_line. rewrite (proj2 (is_record_spec h) R). split; [reflexivity|].
  unfold closed at 1. cbn [lr lr_startrow lr_nrows]. unfold dict_get at 1. rewrite lookup_dict_set. unfold record_number. fold (number h). rewrite String.eqb_refl.
  replace (n + Z.of_nat (List.length (h :: body)) - 1 - n) with (Z.of_nat (List.length body)) by (cbn [List.length]; lia).
  unfold closed. destruct (lr st) as [l|]; cbn [fst snd]; [|reflexivity]. replace (n - dict_get l (lr_startrow st) - 1) with (n - 1 - dict_get l (lr_startrow st)) by ring. reflexivity.
Qed.
Lemma file_lines_snoc junk blocks b : file_lines junk (blocks ++ [b]) = file_lines junk blocks ++ (fst b :: snd b).
Proof. unfold file_lines. rewrite flat_map_app. cbn [flat_map]. rewrite app_nil_r, app_assoc. reflexivity. Qed.
Definition start0 : scan := Scan [] [] None.
Lemma scanned junk blocks : Forall (fun l => ~ record_line l) junk -> well_formed blocks ->
  let st := scan_lines start0 0 (file_lines junk blocks) in let n := Z.of_nat (List.length (file_lines junk blocks)) in
  (blocks <> [] -> lr st <> None) /\
  (forall r, (forall b, In b blocks -> number (fst b) <> r) -> lookup r (fst (closed st n)) = None) /\
  (forall pre h body post, blocks = pre ++ (h, body) :: post -> (forall b, In b post -> number (fst b) <> number h) ->
     lookup (number h) (fst (closed st n)) = Some (Z.of_nat (List.length (file_lines junk pre))) /\ lookup (number h) (snd (closed st n)) = Some (Z.of_nat (List.length body))).
Proof.
  intros J. induction blocks as [|[h0 body0] blocks IH] using rev_ind; intros W st n.
  - split; [congruence|]. split; [|intros [|p pre] h body post E; discriminate]. intros r _. unfold st, n, file_lines. cbn [flat_map]. rewrite app_nil_r, scan_plain by exact J. reflexivity.
  - apply Forall_app in W. destruct W as [W1 W2]. apply Forall_inv in W2. cbn [fst snd] in W2. destruct W2 as [R B]. specialize (IH W1). cbv zeta in IH. destruct IH as (IH0 & IH1 & IH2).
    unfold st, n. rewrite file_lines_snoc. cbn [fst snd]. rewrite scan_app, app_length, Nat2Z.inj_add. change (0 + ?x) with x.
    set (st0 := scan_lines start0 0 (file_lines junk blocks)) in *. set (n0 := Z.of_nat (List.length (file_lines junk blocks))) in *.
    destruct (close_block st0 n0 h0 body0 R B) as [C1 C2]. replace (0 + n0) with n0 by ring. split; [|split].
    + intros _. rewrite C1. discriminate.
    + intros r N. rewrite C2. cbn [fst]. rewrite lookup_dict_set. destruct (String.eqb_spec r (number h0)) as [->|Nr]; [exfalso; apply (N (h0, body0)); [apply in_or_app; right; left; reflexivity|reflexivity]|].
      apply IH1. intros b I. apply N. apply in_or_app. left. exact I.
    + intros pre h body post E N. rewrite C2. cbn [fst snd]. rewrite !lookup_dict_set. destruct post as [|p post _] using rev_ind.
      * apply app_inj_tail in E. destruct E as [-> E]. injection E as -> ->. rewrite String.eqb_refl. split; reflexivity.
      * change (pre ++ (h, body) :: post ++ [p]) with (pre ++ ((h, body) :: post) ++ [p]) in E. rewrite app_assoc in E. apply app_inj_tail in E. destruct E as [E <-].
        destruct (String.eqb_spec (number h) (number h0)) as [X|X]; [exfalso; apply (N (h0, body0)); [apply in_or_app; right; left; reflexivity|cbn [fst]; congruence]|].
        apply (IH2 pre h body post E). intros b I. apply N. apply in_or_app. left. exact I.
Qed.
Lemma last_occurrence (blocks : list (string * list string)) b r : In b blocks -> number (fst b) = r -> exists pre h body post, blocks = pre ++ (h, body) :: post /\ number h = r /\ forall b, In b post -> number (fst b) <> r.
Proof.
  induction blocks as [|[h3 body3] blocks IH] using rev_ind; intros I3 E3; [destruct I3|].
  destruct (string_dec (number h3) r) as [D|D]; [exists blocks, h3, body3, []; split; [reflexivity|split; [exact D|intros ? []]]|].
  apply in_app_or in I3. destruct I3 as [I3|[<-|[]]]; [|cbn in E3; contradiction]. destruct (IH I3 E3) as (pre & h & body & post & -> & Q2 & Q3).
  exists pre, h, body, (post ++ [(h3, body3)]). split; [rewrite <- app_assoc; reflexivity|]. split; [exact Q2|]. intros b' I. apply in_app_or in I. destruct I as [I|[<-|[]]]; [apply Q3, I|exact D].
Qed.
(** whatever the sequence of records, the rows read for a record are the lines of its last occurrence; a record that does not occur is not found *)
Theorem C155_locate : forall junk blocks, Forall (fun l => ~ record_line l) junk -> well_formed blocks ->
  (blocks = [] -> locate_records (file_lines junk blocks) = Err UnboundLocalError) /\
  (blocks <> [] -> exists startrow nrows, locate_records (file_lines junk blocks) = Ok (startrow, nrows) /\
     (forall r, present r startrow = true <-> exists b, In b blocks /\ number (fst b) = r) /\
     (forall pre h body post, blocks = pre ++ (h, body) :: post -> (forall b, In b post -> number (fst b) <> number h) -> rows_of (number h) startrow nrows (file_lines junk blocks) = body)).
Proof.
  intros junk blocks J W. destruct (scanned junk blocks J W) as (H0 & H1 & H2). unfold locate_records. fold start0. set (st := scan_lines start0 0 (file_lines junk blocks)) in *. split.
  - intros ->. unfold st, file_lines. cbn [flat_map]. rewrite app_nil_r, scan_plain by exact J. reflexivity.
  - intros N. specialize (H0 N). unfold closed in H1, H2. destruct (lr st) as [l|]; [|congruence]. cbn [fst snd] in H1, H2. eexists. eexists. split; [reflexivity|]. split.
    + intros r. unfold present. split.
      * intros P. destruct (in_dec string_dec r (map (fun b => number (fst b)) blocks)) as [I|I]; [apply in_map_iff in I; destruct I as (b & E & I); exists b; auto|].
        rewrite H1 in P; [discriminate|]. intros b I' E. apply I. apply in_map_iff. exists b. auto.
      * intros (b & I & E).
        pose proof (last_occurrence blocks b r I E) as L.
        destruct L as (pre & h & body & post & Eb & <- & Np). destruct (H2 pre h body post Eb Np) as [-> _]. reflexivity.
    + intros pre h body post E Np. destruct (H2 pre h body post E Np) as [S1 S2]. unfold rows_of. rewrite (dict_get_some _ _ _ S1), (dict_get_some _ _ _ S2), Nat2Z.id.
      replace (Z.to_nat (Z.of_nat (List.length (file_lines junk pre)) + 1)) with (List.length (file_lines junk pre ++ [h])) by (rewrite app_length; cbn [List.length]; lia).
      rewrite E. replace (file_lines junk (pre ++ (h, body) :: post)) with ((file_lines junk pre ++ [h]) ++ body ++ flat_map (fun b => fst b :: snd b) post).
      2:{ unfold file_lines. rewrite flat_map_app. cbn [flat_map fst snd]. rewrite <- !app_assoc. reflexivity. }
      rewrite skipn_app, skipn_all, Nat.sub_diag. cbn [List.app skipn]. rewrite firstn_app, Nat.sub_diag, firstn_all. cbn [firstn]. apply app_nil_r.
Qed.
Print Assumptions C155_locate.
Example C155_case : file_lines [] [("*C0001", []); ("*C0100", ["a"; "b"]); ("*C0300", ["c"])]%string = ["*C0001"; "*C0100"; "a"; "b"; "*C0300"; "c"]%string /\
  rows_of "0100" [("0001", 0); ("0100", 1); ("0300", 4)]%string [("0001", 0); ("0100", 2); ("0300", 1)]%string ["*C0001"; "*C0100"; "a"; "b"; "*C0300"; "c"]%string = ["a"; "b"]%string.
Proof. split; reflexivity. Qed.

(** ** C156 *)
(** a line written with a Fortran format: for each field the number of blanks before it and its width *)
Fixpoint laid (fmt : list (nat * nat)) (fs : list string) : string :=
  match fmt, fs with (skip, w) :: fmt', f :: fs' => (spaces skip ++ f ++ laid fmt' fs')%string | _, _ => ""%string end.
Definition fits (fmt : list (nat * nat)) (fs : list string) : Prop := Forall2 (fun p f => String.length f = snd p) fmt fs.
(** the four numbers of a quantity: 3X,I4,1X,F5.1,2(1X,I4) *)
Definition stats : list (nat * nat) := [(3, 4); (1, 5); (1, 4); (1, 4)]%nat.
Definition stamp : list (nat * nat) := [(1, 2); (1, 4)]%nat.
(** records 0100: 1X,I2,1X,I4,2(stats) / 8X,2(stats),4X,F5.1,1X,F5.1,1X,I4;  0300: 1X,I2,1X,I4,3(stats);  0500: 1X,I2,1X,I4,8(1X,F5.1) / 8X,12(1X,F5.1) *)
Definition fmt_0100_1 := stamp ++ stats ++ stats.
Definition fmt_0100_2 := [(11, 4); (1, 5); (1, 4); (1, 4)]%nat ++ stats ++ [(4, 5); (1, 5); (1, 4)]%nat.
Definition fmt_0300 := stamp ++ stats ++ stats ++ stats.
Definition fmt_0500_1 := stamp ++ repeat (1, 5)%nat 8.
Definition fmt_0500_2 := (9, 5)%nat :: repeat (1, 5)%nat 11.
(** a value, unless it is one of the codes for a missing value *)
Definition reading (missing : list R) (x : fl) : fl := match x with Fin r => if in_dec Req_EM_T r missing then NaN else x | _ => x end.
Definition line_end (e : string) : Prop := e = ""%string \/ e = newline.

Lemma str_S s n : String.length s = S n -> exists c t, s = String c t /\ String.length t = n.
Proof. destruct s as [|c t]; [discriminate|]. intros E. exists c, t. split; [reflexivity|]. cbn in E. lia. Qed.
Lemma Forall2_cons_inv {A B} (P : A -> B -> Prop) x y l l' : Forall2 P (x :: l) (y :: l') -> P x y /\ Forall2 P l l'.
Proof. intros H. inversion H. auto. Qed.
Lemma Forall2_length {A B} (P : A -> B -> Prop) l l' : Forall2 P l l' -> List.length l = List.length l'.
Proof. induction 1; cbn; congruence. Qed.
Lemma str_0 s : String.length s = O -> s = ""%string.
Proof. destruct s; [reflexivity|discriminate]. Qed.
Ltac chars := repeat (match goal with
  | H : String.length ?s = S _ |- _ => let c := fresh "c" in let t := fresh "t" in let E := fresh "E" in apply str_S in H; destruct H as (c & t & E & H); subst s
  | H : String.length ?s = O |- _ => apply str_0 in H; subst s end).
Lemma existsb_in v missing : existsb (fun m => feqb v (Fin m)) missing = true <-> exists r, v = Fin r /\ In r missing.
Proof.
  rewrite existsb_exists. split.
  - intros (m & I & E). destruct v as [r| | |]; try discriminate E. cbn in E. apply Reqb_true in E. subst. exists m. auto.
  - intros (r & -> & I). exists r. split; [exact I|]. cbn. apply Reqb_true. reflexivity.
Qed.
Lemma reading_field cell missing line spec : field cell missing line spec = reading missing (cell (substring (fst spec) (snd spec - fst spec) line)).
Proof.
  unfold field. set (v := cell _). destruct (existsb _ missing) eqn:E.
  - apply existsb_in in E. destruct E as (r & -> & I). cbn. destruct (in_dec Req_EM_T r missing); [reflexivity|contradiction].
  - destruct v as [r| | |]; try reflexivity. cbn. destruct (in_dec Req_EM_T r missing) as [I|I]; [|reflexivity]. exfalso. assert (X : existsb (fun m => feqb (Fin r) (Fin m)) missing = true) by (apply existsb_in; exists r; auto). congruence.
Qed.
Section Tables.
Variable cell : string -> fl.
(** pandas ignores the blanks around a number *)
Hypothesis cell_trim : forall a s b, blank a -> blank b -> cell (a ++ s ++ b) = cell s.
Lemma field_at missing line lo hi pre f post : substring lo (hi - lo) line = (pre ++ f ++ post)%string -> blank pre -> blank post -> field cell missing line (lo, hi) = reading missing (cell f).
Proof. intros E B1 B2. rewrite reading_field. cbn [fst snd]. rewrite E, cell_trim by assumption. reflexivity. Qed.
Lemma blank_end e : line_end e -> blank e.
Proof. intros [-> | ->]; cbn; auto. Qed.
Ltac at_ i p := match goal with |- field _ ?m ?l (?lo, ?hi) = reading _ (cell ?f) => apply (field_at m l lo hi (spaces i) f p); [reflexivity|cbn; tauto|cbn; tauto] end.
Ltac at_any := first [at_ 0%nat ""%string | at_ 1%nat ""%string | at_ 0%nat " "%string | at_ 1%nat " "%string | at_ 2%nat " "%string | at_ 3%nat " "%string | at_ 0%nat newline | at_ 1%nat newline | at_ 2%nat ""%string | at_ 3%nat ""%string].
Ltac open_fits F := unfold fits in F; repeat match goal with X : Forall2 _ (_ :: _) (_ :: _) |- _ => apply Forall2_cons_inv in X; let L := fresh "L" in destruct X as [L X]; cbn [snd] in L end; clear F.
Ltac by_fields := unfold line_fields; cbn [map List.app]; repeat (apply f_equal2; [first [at_any | reflexivity]|]); try reflexivity.

Lemma fields_0100_1 missing day minute g gs gn gx d ds dn dx e : fits fmt_0100_1 [day; minute; g; gs; gn; gx; d; ds; dn; dx]%string -> line_end e ->
  exists x, List.length x = 3%nat /\
  line_fields cell missing col_specs_0100 (laid fmt_0100_1 [day; minute; g; gs; gn; gx; d; ds; dn; dx] ++ e) = map (fun f => reading missing (cell f)) [day; minute; g; gs; gn; gx; d; ds; dn; dx] ++ x.
Proof.
  intros F E. unfold fmt_0100_1, stamp, stats in F. cbn [List.app] in F. open_fits F. chars.
  destruct E as [-> | ->]; (eexists [_; _; _]; split; [reflexivity|]; unfold col_specs_0100; by_fields).
Qed.
Lemma fields_0100_2 missing g gs gn gx d ds dn dx t h p e : fits fmt_0100_2 [g; gs; gn; gx; d; ds; dn; dx; t; h; p]%string -> line_end e ->
  exists x, List.length x = 2%nat /\
  line_fields cell missing col_specs_0100 (laid fmt_0100_2 [g; gs; gn; gx; d; ds; dn; dx; t; h; p] ++ e) = x ++ map (fun f => reading missing (cell f)) [g; gs; gn; gx; d; ds; dn; dx; t; h; p].
Proof.
  intros F E. unfold fmt_0100_2, stamp, stats in F. cbn [List.app] in F. open_fits F. chars.
  destruct E as [-> | ->]; (eexists [_; _]; split; [reflexivity|]; unfold col_specs_0100; by_fields).
Qed.
Lemma fields_0300 missing day minute g gs gn gx d ds dn dx n ns nn nx e : fits fmt_0300 [day; minute; g; gs; gn; gx; d; ds; dn; dx; n; ns; nn; nx]%string -> line_end e ->
  line_fields cell missing col_specs_0300 (laid fmt_0300 [day; minute; g; gs; gn; gx; d; ds; dn; dx; n; ns; nn; nx] ++ e) = map (fun f => reading missing (cell f)) [day; minute; g; gs; gn; gx; d; ds; dn; dx; n; ns; nn; nx].
Proof.
  intros F E. unfold fmt_0300, stamp, stats in F. cbn [List.app] in F. open_fits F. chars.
  unfold col_specs_0300. destruct E as [-> | ->]; by_fields.
Qed.
Lemma fields_0500_1 missing day minute g gs gn gx d ds dn dx e : fits fmt_0500_1 [day; minute; g; gs; gn; gx; d; ds; dn; dx]%string -> line_end e ->
  exists x, List.length x = 4%nat /\
  line_fields cell missing col_specs_0500 (laid fmt_0500_1 [day; minute; g; gs; gn; gx; d; ds; dn; dx] ++ e) = map (fun f => reading missing (cell f)) [day; minute; g; gs; gn; gx; d; ds; dn; dx] ++ x.
Proof.
  intros F E. unfold fmt_0500_1, stamp in F. cbn [List.app repeat] in F. open_fits F. chars.
  destruct E as [-> | ->]; (eexists [_; _; _; _]; split; [reflexivity|]; unfold col_specs_0500; by_fields).
Qed.
Lemma fields_0500_2 missing g gs gn gx d ds dn dx r rs rn rx e : fits fmt_0500_2 [g; gs; gn; gx; d; ds; dn; dx; r; rs; rn; rx]%string -> line_end e ->
  exists x, List.length x = 2%nat /\
  line_fields cell missing col_specs_0500 (laid fmt_0500_2 [g; gs; gn; gx; d; ds; dn; dx; r; rs; rn; rx] ++ e) = x ++ map (fun f => reading missing (cell f)) [g; gs; gn; gx; d; ds; dn; dx; r; rs; rn; rx].
Proof.
  intros F E. unfold fmt_0500_2 in F. cbn [List.app repeat] in F. open_fits F. chars.
  destruct E as [-> | ->]; (eexists [_; _]; split; [reflexivity|]; unfold col_specs_0500; by_fields).
Qed.

(** one minute of a table: day and minute of the first line, the values of the first line, the values of the second *)
Record entry := Entry { e_day : string; e_minute : string; e_first : list string; e_second : list string; e_end1 : string; e_end2 : string }.
Definition first_line (fmt : list (nat * nat)) (m : entry) : string := (laid fmt (e_day m :: e_minute m :: e_first m) ++ e_end1 m)%string.
Definition second_line (fmt : list (nat * nat)) (m : entry) : string := (laid fmt (e_second m) ++ e_end2 m)%string.
(** day d of the month and minute n of the day *)
Definition dated (d n : Z) (m : entry) : Prop := 1 <= d /\ 0 <= n /\ cell (e_day m) = Fin (IZR d) /\ cell (e_minute m) = Fin (IZR n).
Definition good (fmt1 fmt2 : list (nat * nat)) (m : entry) : Prop := fits fmt1 (e_day m :: e_minute m :: e_first m) /\ fits fmt2 (e_second m) /\ line_end (e_end1 m) /\ line_end (e_end2 m).
Definition stamp_of (y mo : Z) (dn : Z * Z) : fl := Fin (IZR (instant (Date y mo (fst dn)) 0 (snd dn))).
Definition names_0100 : list string := ["ghi"; "ghi_std"; "ghi_min"; "ghi_max"; "dni"; "dni_std"; "dni_min"; "dni_max"; "dhi"; "dhi_std"; "dhi_min"; "dhi_max"; "lwd"; "lwd_std"; "lwd_min"; "lwd_max"; "temp_air"; "relative_humidity"; "pressure"]%string.
Definition names_0300 : list string := ["gri"; "gri_std"; "gri_min"; "gri_max"; "lwu"; "lwu_std"; "lwu_min"; "lwu_max"; "net_radiation"; "net_radiation_std"; "net_radiation_min"; "net_radiation_max"]%string.
Definition names_0500 : list string := ["uva_global"; "uva_global_std"; "uva_global_min"; "uva_global_max"; "uvb_direct"; "uvb_direct_std"; "uvb_direct_min"; "uvb_direct_max";
  "uvb_global"; "uvb_global_std"; "uvb_global_min"; "uvb_global_max"; "uvb_diffuse"; "uvb_diffuse_std"; "uvb_diffuse_min"; "uvb_diffuse_max"; "uvb_reflected"; "uvb_reflected_std"; "uvb_reflected_min"; "uvb_reflected_max"]%string.
Definition both : list R := [-999; - (99.9)]%R.
Definition row_of (names : list string) (missing : list R) (y mo : Z) (p : (Z * Z) * entry) : fl * list (string * fl) :=
  (stamp_of y mo (fst p), combine names (map (fun f => reading missing (cell f)) (e_first (snd p) ++ e_second (snd p)))).
(** a month cut after the first line of a minute *)
Definition cut_row (names : list string) (missing : list R) (y mo : Z) (p : (Z * Z) * entry) : fl * list (string * fl) :=
  (stamp_of y mo (fst p), combine names (map (fun f => reading missing (cell f)) (e_first (snd p)) ++ repeat NaN 20)).

Lemma label_of y mo d n : bsrn_label (Date y mo 1) (Fin (IZR d)) (Fin (IZR n)) = stamp_of y mo (d, n).
Proof.
  unfold bsrn_label, stamp_of. cbn [fst snd fadd fsub fmul fneg]. f_equal. rewrite <- minus_IZR || idtac. unfold instant, ordinal. cbn [Calendar.yr Calendar.mo dy].
  repeat rewrite ?plus_IZR, ?mult_IZR, ?minus_IZR. ring.
Qed.
Lemma reading_nonneg missing z : (forall r, In r missing -> (r < 0)%R) -> 0 <= z -> reading missing (Fin (IZR z)) = Fin (IZR z).
Proof. intros N Z0. cbn. destruct (in_dec Req_EM_T (IZR z) missing) as [I|I]; [|reflexivity]. apply N in I. apply IZR_le in Z0. lra. Qed.
Lemma both_neg r : In r both -> (r < 0)%R.
Proof. intros [<- | [<- | []]]; lra. Qed.
Lemma one_neg r : In r [- (99.9)]%R -> (r < 0)%R.
Proof. intros [<- | []]; lra. Qed.
Lemma unstack_pairs {A} w (f g : A -> list fl) (ms : list A) rest : unstack w (flat_map (fun m => [f m; g m]) ms ++ rest) = map (fun m => f m ++ g m) ms ++ unstack w rest.
Proof. induction ms as [|m ms IH]; [reflexivity|]. cbn [flat_map List.app map unstack]. rewrite IH. reflexivity. Qed.
Lemma map_pairs {A} (h : string -> list fl) (f g : A -> string) (ms : list A) : map h (flat_map (fun m => [f m; g m]) ms) = flat_map (fun m => [h (f m); h (g m)]) ms.
Proof. induction ms as [|m ms IH]; [reflexivity|]. cbn [flat_map List.app map]. rewrite IH. reflexivity. Qed.
Ltac shape F := unfold fits in F; repeat match type of F with Forall2 _ (_ :: _) ?l => let x := fresh "x" in let l' := fresh "l" in destruct l as [|x l']; [inversion F|] end.
Ltac lengths H := repeat match type of H with List.length ?x = S _ => destruct x as [|? x]; [discriminate H|]; cbn [List.length] in H; apply eq_add_S in H | List.length ?x = O => destruct x; [|discriminate H]; clear H end.

Lemma row_0100 y mo d n m : good fmt_0100_1 fmt_0100_2 m -> dated d n m ->
  bsrn_row (Date y mo 1) columns_0100 (line_fields cell both col_specs_0100 (first_line fmt_0100_1 m) ++ line_fields cell both col_specs_0100 (second_line fmt_0100_2 m)) = row_of names_0100 both y mo ((d, n), m).
Proof.
  intros (F1 & F2 & E1 & E2) (D1 & N1 & D2 & N2). destruct m as [day minute fs ss e1 e2]. cbn [e_day e_minute e_first e_second e_end1 e_end2] in *. unfold first_line, second_line. cbn [e_day e_minute e_first e_second e_end1 e_end2].
  assert (L1 : List.length fs = 8%nat). { apply Forall2_length in F1. cbn in F1. lia. } assert (L2 : List.length ss = 11%nat). { apply Forall2_length in F2. cbn in F2. lia. } lengths L1. lengths L2.
  destruct (fields_0100_1 both _ _ _ _ _ _ _ _ _ _ e1 F1 E1) as (x & X1 & X2). destruct (fields_0100_2 both _ _ _ _ _ _ _ _ _ _ _ e2 F2 E2) as (z & Z1 & Z2). rewrite X2, Z2. lengths X1. lengths Z1.
  unfold row_of. cbn [fst snd e_first e_second]. cbn [map List.app]. unfold bsrn_row, columns_0100. cbn -[reading bsrn_label both stamp_of]. rewrite D2, N2. rewrite !(reading_nonneg both) by (try apply both_neg; lia). rewrite label_of. reflexivity.
Qed.
Lemma cut_0100 y mo d n m : good fmt_0100_1 fmt_0100_2 m -> dated d n m ->
  bsrn_row (Date y mo 1) columns_0100 (line_fields cell both col_specs_0100 (first_line fmt_0100_1 m) ++ repeat NaN 13) = cut_row names_0100 both y mo ((d, n), m).
Proof.
  intros (F1 & F2 & E1 & E2) (D1 & N1 & D2 & N2). destruct m as [day minute fs ss e1 e2]. cbn [e_day e_minute e_first e_second e_end1 e_end2] in *. unfold first_line, second_line. cbn [e_day e_minute e_first e_second e_end1 e_end2].
  assert (L1 : List.length fs = 8%nat). { apply Forall2_length in F1. cbn in F1. lia. } lengths L1.
  destruct (fields_0100_1 both _ _ _ _ _ _ _ _ _ _ e1 F1 E1) as (x & X1 & X2). rewrite X2. lengths X1.
  unfold cut_row. cbn [fst snd e_first e_second]. cbn [map List.app repeat]. unfold bsrn_row, columns_0100. cbn -[reading bsrn_label both stamp_of]. rewrite D2, N2. rewrite !(reading_nonneg both) by (try apply both_neg; lia). rewrite label_of. reflexivity.
Qed.
Lemma row_0500 y mo d n m : good fmt_0500_1 fmt_0500_2 m -> dated d n m ->
  bsrn_row (Date y mo 1) columns_0500 (line_fields cell [- (99.9)]%R col_specs_0500 (first_line fmt_0500_1 m) ++ line_fields cell [- (99.9)]%R col_specs_0500 (second_line fmt_0500_2 m)) = row_of names_0500 [- (99.9)]%R y mo ((d, n), m).
Proof.
  intros (F1 & F2 & E1 & E2) (D1 & N1 & D2 & N2). destruct m as [day minute fs ss e1 e2]. cbn [e_day e_minute e_first e_second e_end1 e_end2] in *. unfold first_line, second_line. cbn [e_day e_minute e_first e_second e_end1 e_end2].
  assert (L1 : List.length fs = 8%nat). { apply Forall2_length in F1. cbn in F1. lia. } assert (L2 : List.length ss = 12%nat). { apply Forall2_length in F2. cbn in F2. lia. } lengths L1. lengths L2.
  pose proof one_neg as O. remember [- (99.9)]%R as one eqn:EO. clear EO.
  destruct (fields_0500_1 one _ _ _ _ _ _ _ _ _ _ e1 F1 E1) as (x & X1 & X2). destruct (fields_0500_2 one _ _ _ _ _ _ _ _ _ _ _ _ e2 F2 E2) as (z & Z1 & Z2). rewrite X2, Z2. lengths X1. lengths Z1.
  unfold row_of. cbn [fst snd e_first e_second]. cbn [map List.app]. unfold bsrn_row, columns_0500. cbn -[reading bsrn_label stamp_of]. rewrite D2, N2. rewrite !(reading_nonneg one) by (try assumption; lia). rewrite label_of. reflexivity.
Qed.
Lemma cut_0500 y mo d n m : good fmt_0500_1 fmt_0500_2 m -> dated d n m ->
  bsrn_row (Date y mo 1) columns_0500 (line_fields cell [- (99.9)]%R col_specs_0500 (first_line fmt_0500_1 m) ++ repeat NaN 14) = cut_row names_0500 [- (99.9)]%R y mo ((d, n), m).
Proof.
  intros (F1 & F2 & E1 & E2) (D1 & N1 & D2 & N2). destruct m as [day minute fs ss e1 e2]. cbn [e_day e_minute e_first e_second e_end1 e_end2] in *. unfold first_line, second_line. cbn [e_day e_minute e_first e_second e_end1 e_end2].
  assert (L1 : List.length fs = 8%nat). { apply Forall2_length in F1. cbn in F1. lia. } lengths L1.
  pose proof one_neg as O. remember [- (99.9)]%R as one eqn:EO. clear EO.
  destruct (fields_0500_1 one _ _ _ _ _ _ _ _ _ _ e1 F1 E1) as (x & X1 & X2). rewrite X2. lengths X1.
  unfold cut_row. cbn [fst snd e_first e_second]. cbn [map List.app repeat]. unfold bsrn_row, columns_0500. cbn -[reading bsrn_label stamp_of]. rewrite D2, N2. rewrite !(reading_nonneg one) by (try assumption; lia). rewrite label_of. reflexivity.
Qed.
Lemma map_ext_Forall {A B} (f g : A -> B) (P : A -> Prop) l : Forall P l -> (forall x, P x -> f x = g x) -> map f l = map g l.
Proof. intros F H. induction F as [|x l Px F IH]; [reflexivity|]. cbn. rewrite (H x Px), IH. reflexivity. Qed.
Definition usable (fmt1 fmt2 : list (nat * nat)) (p : (Z * Z) * entry) : Prop := good fmt1 fmt2 (snd p) /\ dated (fst (fst p)) (snd (fst p)) (snd p).
Definition lines_0100 (ms : list ((Z * Z) * entry)) : list string := flat_map (fun p => [first_line fmt_0100_1 (snd p); second_line fmt_0100_2 (snd p)]) ms.
Definition lines_0500 (ms : list ((Z * Z) * entry)) : list string := flat_map (fun p => [first_line fmt_0500_1 (snd p); second_line fmt_0500_2 (snd p)]) ms.
Lemma paired_many w a b rest : paired w (a :: b :: rest) = Ok (unstack w (a :: b :: rest)).
Proof. reflexivity. Qed.
(** record 0100 in the archive's format: one row per minute, labelled with its UTC time, every quantity under its name *)
Theorem C156_0100 : forall y mo ms, ms <> [] -> Forall (usable fmt_0100_1 fmt_0100_2) ms ->
  table_0100 cell (Date y mo 1) (lines_0100 ms) = Ok (map (row_of names_0100 both y mo) ms) /\
  (forall last, usable fmt_0100_1 fmt_0100_2 last ->
     table_0100 cell (Date y mo 1) (lines_0100 ms ++ [first_line fmt_0100_1 (snd last)]) = Ok (map (row_of names_0100 both y mo) ms ++ [cut_row names_0100 both y mo last])) /\
  (forall line, table_0100 cell (Date y mo 1) [line] = Err ValueError).
Proof.
  intros y mo ms N F. fold both. unfold table_0100. fold both. assert (R : forall rest, map (bsrn_row (Date y mo 1) columns_0100) (unstack 13 (map (line_fields cell both col_specs_0100) (lines_0100 ms) ++ rest)) = map (row_of names_0100 both y mo) ms ++ map (bsrn_row (Date y mo 1) columns_0100) (unstack 13 rest)).
  { intros rest. unfold lines_0100. rewrite map_pairs, unstack_pairs, map_app, map_map. f_equal. apply (map_ext_Forall _ _ _ _ F). intros [[d n] m] [G D]. apply row_0100; assumption. }
  assert (P : forall rest, paired 13 (map (line_fields cell both col_specs_0100) (lines_0100 ms) ++ rest) = Ok (unstack 13 (map (line_fields cell both col_specs_0100) (lines_0100 ms) ++ rest))).
  { intros rest. destruct ms as [|p ms]; [congruence|]. unfold lines_0100. cbn [flat_map List.app map]. apply paired_many. }
  split; [|split].
  - specialize (R []). specialize (P []). rewrite app_nil_r in R, P. rewrite P. cbn [bind]. rewrite R. cbn [unstack map]. rewrite app_nil_r. reflexivity.
  - intros [[d n] m] [G D]. rewrite map_app. cbn [map]. rewrite P. cbn [bind]. rewrite R. cbn [unstack map snd]. rewrite (cut_0100 y mo d n m G D). reflexivity.
  - reflexivity.
Qed.
Theorem C156_0500 : forall y mo ms, ms <> [] -> Forall (usable fmt_0500_1 fmt_0500_2) ms ->
  table_0500 cell (Date y mo 1) (lines_0500 ms) = Ok (map (row_of names_0500 [- (99.9)]%R y mo) ms) /\
  (forall last, usable fmt_0500_1 fmt_0500_2 last ->
     table_0500 cell (Date y mo 1) (lines_0500 ms ++ [first_line fmt_0500_1 (snd last)]) = Ok (map (row_of names_0500 [- (99.9)]%R y mo) ms ++ [cut_row names_0500 [- (99.9)]%R y mo last])) /\
  (forall line, table_0500 cell (Date y mo 1) [line] = Err ValueError).
Proof.
  intros y mo ms N F. unfold table_0500. set (one := [- (99.9)]%R). assert (R : forall rest, map (bsrn_row (Date y mo 1) columns_0500) (unstack 14 (map (line_fields cell one col_specs_0500) (lines_0500 ms) ++ rest)) = map (row_of names_0500 one y mo) ms ++ map (bsrn_row (Date y mo 1) columns_0500) (unstack 14 rest)).
  { intros rest. unfold lines_0500. rewrite map_pairs, unstack_pairs, map_app, map_map. f_equal. apply (map_ext_Forall _ _ _ _ F). intros [[d n] m] [G D]. apply row_0500; assumption. }
  assert (P : forall rest, paired 14 (map (line_fields cell one col_specs_0500) (lines_0500 ms) ++ rest) = Ok (unstack 14 (map (line_fields cell one col_specs_0500) (lines_0500 ms) ++ rest))).
  { intros rest. destruct ms as [|p ms]; [congruence|]. unfold lines_0500. cbn [flat_map List.app map]. apply paired_many. }
  split; [|split].
  - specialize (R []). specialize (P []). rewrite app_nil_r in R, P. rewrite P. cbn [bind]. rewrite R. cbn [unstack map]. rewrite app_nil_r. reflexivity.
  - intros [[d n] m] [G D]. rewrite map_app. cbn [map]. rewrite P. cbn [bind]. rewrite R. cbn [unstack map snd]. unfold one. rewrite (cut_0500 y mo d n m G D). reflexivity.
  - reflexivity.
Qed.
(** record 0300: one line per minute *)
Theorem C156_0300 : forall y mo ms, Forall (fun p => usable fmt_0300 [] p) ms ->
  table_0300 cell (Date y mo 1) (map (fun p => first_line fmt_0300 (snd p)) ms) = Ok (map (row_of names_0300 both y mo) ms).
Proof.
  intros y mo ms F. unfold table_0300. f_equal. rewrite map_map. apply (map_ext_Forall _ _ _ _ F). intros [[d n] m] [(F1 & F2 & E1 & E2) (D1 & N1 & D2 & N2)].
  destruct m as [day minute fs ss e1 e2]. cbn [fst snd e_day e_minute e_first e_second e_end1 e_end2] in *. unfold first_line. cbn [e_day e_minute e_first e_end1].
  assert (L1 : List.length fs = 12%nat). { apply Forall2_length in F1. cbn in F1. lia. } assert (L2 : List.length ss = 0%nat). { apply Forall2_length in F2. cbn in F2. lia. } lengths L1. lengths L2.
  fold both. rewrite (fields_0300 both _ _ _ _ _ _ _ _ _ _ _ _ _ _ e1 F1 E1).
  unfold row_of. cbn [fst snd e_first e_second]. cbn [map List.app]. unfold bsrn_row, columns_0300. cbn -[reading bsrn_label both stamp_of]. rewrite D2, N2. rewrite !(reading_nonneg both) by (try apply both_neg; lia). rewrite label_of. reflexivity.
Qed.
End Tables.
Print Assumptions C156_0100.
Print Assumptions C156_0500.
Print Assumptions C156_0300.
(** the columns of the three records, as returned side by side and as the empty frame names them, are distinct *)
Theorem C156_columns : NoDup (names_0100 ++ names_0300 ++ names_0500) /\
  forall rs, empty_columns rs = rmap (@List.concat string) (mapM (getitem [("0100", names_0100); ("0300", names_0300); ("0500", names_0500)]%string) rs).
Proof.
  split.
  - repeat constructor; cbn; intuition discriminate.
  - intros rs. unfold empty_columns. induction rs as [|r rs IH]; [reflexivity|]. cbn [mapM]. unfold getitem at 1. cbn [lookup] in *.
    repeat match goal with |- context [String.eqb r ?x] => destruct (String.eqb_spec r x) as [->|?] end; cbn [bind]; try reflexivity;
      match goal with |- context [mapM ?f rs] => match f with context [skipn] => destruct (mapM f rs) as [cs|e] end end; cbn [bind] in *;
      match goal with |- context [mapM ?f rs] => destruct (mapM f rs) as [ds|e'] end; unfold rmap in *; cbn [bind] in *; try discriminate IH; try (injection IH as IH; subst; reflexivity).
    all: apply Ok_inj in IH; cbn [List.concat]; rewrite filter_app, IH; reflexivity.
Qed.
Print Assumptions C156_columns.
(** a line of the archive: 12 Jan, minute 3, global 215 W/m2, no standard deviation *)
Example C156_line : laid fmt_0100_1 ["12"; "   3"; " 215"; "-99.9"; " 214"; " 216"; "-999"; "-99.9"; "-999"; "-999"]%string = " 12    3    215 -99.9  214  216   -999 -99.9 -999 -999"%string /\
  reading both (Fin 215) = Fin 215 /\ reading both (Fin (-999)) = NaN /\ reading both NaN = NaN.
Proof.
  split; [reflexivity|]. unfold reading. split; [|split; [|reflexivity]].
  - destruct (in_dec Req_EM_T 215%R both) as [I|I]; [apply both_neg in I; lra|reflexivity].
  - destruct (in_dec Req_EM_T (-999)%R both) as [I|I]; [reflexivity|exfalso; apply I; left; reflexivity].
Qed.

(** ** C157 *)
Lemma lines_of_text ls : Forall plain ls -> forall fuel, (List.length ls < fuel)%nat -> lines_of fuel (text_of ls) = map (fun l => (l ++ newline)%string) ls.
Proof.
  induction ls as [|l ls IH]; intros F [|fuel] L; try (cbn in L; lia); [reflexivity|]. rewrite text_of_app. cbn [lines_of]. rewrite read_line_app by exact (Forall_inv F). rewrite line_nonempty. cbn [map]. f_equal.
  apply IH; [exact (Forall_inv_tail F)|cbn in L; lia].
Qed.
(** bodies r: the lines of the last record with number r *)
Definition has_bodies (blocks : list (string * list string)) (bodies : string -> option (list string)) : Prop :=
  forall r, match bodies r with
            | None => forall b, In b blocks -> number (fst b) <> r
            | Some body => exists pre h post, blocks = pre ++ (h, body) :: post /\ number h = r /\ (forall b, In b post -> number (fst b) <> r)
            end.
Definition readers (cell : string -> fl) := [("0100", table_0100 cell); ("0300", table_0300 cell); ("0500", table_0500 cell)]%string.
(** the tables of the requested records that the file contains *)
Definition chosen (cell : string -> fl) (requested : list string) (bodies : string -> option (list string)) :=
  flat_map (fun rt => match bodies (fst rt) with Some body => if mem (fst rt) requested then [(snd rt, body)] else [] | None => [] end) (readers cell).
Theorem C157_tables : forall cell py_float py_int ls junk blocks bodies requested meta, Forall plain ls -> map (fun l => (l ++ newline)%string) ls = file_lines junk blocks ->
  Forall (fun l => ~ record_line l) junk -> well_formed blocks -> blocks <> [] -> has_bodies blocks bodies -> bsrn_header py_float py_int (text_of ls) = Ok meta ->
  ((exists r, In r requested /\ ~ In r ["0100"; "0300"; "0500"]%string) -> parse_bsrn cell py_float py_int (text_of ls) requested = Err ValueError) /\
  ((forall r, In r requested -> In r ["0100"; "0300"; "0500"]%string) ->
     parse_bsrn cell py_float py_int (text_of ls) requested =
     match chosen cell requested bodies with
     | [] => rmap BsrnEmpty (empty_columns requested)
     | cs => rmap (BsrnTables meta) (mapM (fun tb => fst tb (b_start meta) (snd tb)) cs)
     end).
Proof.
  intros cell py_float py_int ls junk blocks bodies requested meta P L J W N B H. unfold parse_bsrn. rewrite H. cbn [bind].
  rewrite (lines_of_text ls P) by (pose proof (text_length ls ""%string) as X; rewrite length_app in X; cbn in X; lia). rewrite L.
  destruct (C155_locate junk blocks J W) as [_ C]. destruct (C N) as (startrow & nrows & E & Pr & Rw). rewrite E. cbn [bind]. split.
  - intros (r & I & Nr). replace (forallb is_supported requested) with false; [reflexivity|]. symmetry. apply not_true_is_false. intros F. rewrite forallb_forall in F. apply F in I. apply mem_In in I. contradiction.
  - intros S0. replace (forallb is_supported requested) with true by (symmetry; apply forallb_forall; intros r I; apply mem_In, S0, I). cbn [negb].
    assert (X : forall r (table : date -> list string -> res (list (fl * list (string * fl)))), (if present r startrow && mem r requested then let* t := table (b_start meta) (rows_of r startrow nrows (file_lines junk blocks)) in Ok [t] else Ok []) =
      mapM (fun tb => fst tb (b_start meta) (snd tb)) (match bodies r with Some body => if mem r requested then [(table, body)] else [] | None => [] end)).
    { intros r table. specialize (B r). destruct (bodies r) as [body|].
      - destruct B as (pre & h & post & Eb & Hh & Np). assert (Pp : present r startrow = true). { apply Pr. exists (h, body). split; [rewrite Eb; apply in_or_app; right; left; reflexivity|exact Hh]. }
        rewrite Pp. cbn [andb]. destruct (mem r requested); [|reflexivity]. cbn [mapM fst snd]. rewrite <- Hh in Np. rewrite <- Hh at 1. rewrite (Rw pre h body post Eb Np). destruct (table (b_start meta) body); reflexivity.
      - destruct (present r startrow) eqn:Pp; [|reflexivity]. apply Pr in Pp. destruct Pp as (b & I & Eb). exfalso. exact (B b I Eb). }
    rewrite !X. unfold chosen, readers. cbn [flat_map fst snd]. rewrite app_nil_r.
    set (c1 := match bodies "0100"%string with Some _ => _ | None => _ end). set (c3 := match bodies "0300"%string with Some _ => _ | None => _ end). set (c5 := match bodies "0500"%string with Some _ => _ | None => _ end).
    set (go := mapM (fun tb : (date -> list string -> res (list (fl * list (string * fl)))) * list string => fst tb (b_start meta) (snd tb))).
    assert (A : forall a b, go (a ++ b) = let* x := go a in let* y := go b in Ok (x ++ y)).
    { intros a b. unfold go. induction a as [|t a IH]; cbn [List.app mapM bind]; [destruct (mapM _ b); reflexivity|]. rewrite IH. destruct (fst t (b_start meta) (snd t)); [|reflexivity]. cbn [bind].
      destruct (mapM _ a); [|reflexivity]. cbn [bind]. destruct (mapM _ b); reflexivity. }
    assert (G : go (c1 ++ c3 ++ c5) = let* x := go c1 in let* y := go c3 in let* z := go c5 in Ok (x ++ y ++ z)).
    { rewrite !A. destruct (go c1); [|reflexivity]. cbn [bind]. destruct (go c3); [|reflexivity]. cbn [bind]. destruct (go c5); reflexivity. }
    assert (LG : forall c l, go c = Ok l -> (c = [] <-> l = [])).
    { intros c l. unfold go. destruct c as [|t c]; cbn [mapM]; [intros K; injection K as <-; tauto|]. destruct (fst t (b_start meta) (snd t)); [|discriminate]. cbn [bind]. destruct (mapM _ c); [|discriminate]. intros K. apply Ok_inj in K. subst. split; discriminate. }
    destruct (c1 ++ c3 ++ c5) as [|t c] eqn:C0.
    + apply app_eq_nil in C0. destruct C0 as [-> C0]. apply app_eq_nil in C0. destruct C0 as [-> ->]. reflexivity.
    + fold go. rewrite G. destruct (go c1) as [x|] eqn:G1; [|reflexivity]. cbn [bind]. destruct (go c3) as [u|] eqn:G3; [|reflexivity]. cbn [bind]. destruct (go c5) as [z|] eqn:G5; [|reflexivity]. cbn [bind].
      destruct (x ++ u ++ z) as [|t0 ts] eqn:K; [exfalso|reflexivity]. apply app_eq_nil in K. destruct K as [-> K]. apply app_eq_nil in K. destruct K as [-> ->].
      apply LG in G1, G3, G5. destruct G1 as [_ G1], G3 as [_ G3], G5 as [_ G5]. rewrite G1, G3, G5 in C0 by reflexivity. discriminate.
Qed.
Print Assumptions C157_tables.

(** get_bsrn: one file per calendar month from the month of start to the month of end *)
Theorem C157_months : forall y0 m0 y1 m1, 1 <= m0 <= 12 -> 1 <= m1 <= 12 ->
  (forall y m, In (y, m) (months_between y0 m0 y1 m1) <-> 1 <= m <= 12 /\ 12 * y0 + m0 <= 12 * y + m <= 12 * y1 + m1) /\
  StronglySorted (fun p q => 12 * fst p + snd p < 12 * fst q + snd q) (months_between y0 m0 y1 m1).
Proof.
  intros y0 m0 y1 m1 M0 M1. unfold months_between. split.
  - intros y m. rewrite in_map_iff. split.
    + intros (k & E & I). apply in_seq in I. cbv zeta in E. apply pair_equal_spec in E; destruct E as [E1 E2]. assert (D := Z_div_mod_eq_full (12 * y0 + (m0 - 1) + Z.of_nat k) 12). assert (B := Z.mod_pos_bound (12 * y0 + (m0 - 1) + Z.of_nat k) 12 eq_refl). lia.
    + intros (B & C). exists (Z.to_nat (12 * y + m - (12 * y0 + m0))). split.
      * cbv zeta. rewrite Z2Nat.id by lia. replace (12 * y0 + (m0 - 1) + (12 * y + m - (12 * y0 + m0))) with (m - 1 + y * 12) by ring. rewrite Z.div_add, Z.mod_add by lia. rewrite Z.div_small, Z.mod_small by lia. f_equal; lia.
      * apply in_seq. lia.
  - set (n := Z.to_nat _). generalize n. intros n'. generalize 0%nat. induction n' as [|n' IH]; intros k; cbn [seq map]; constructor; [apply IH|].
    apply Forall_forall. intros [y m] I. apply in_map_iff in I. destruct I as (j & E & I). apply in_seq in I. cbv zeta in E. apply pair_equal_spec in E; destruct E as [E1 E2]. cbn [fst snd].
    assert (D1 := Z_div_mod_eq_full (12 * y0 + (m0 - 1) + Z.of_nat k) 12). assert (D2 := Z_div_mod_eq_full (12 * y0 + (m0 - 1) + Z.of_nat j) 12). lia.
Qed.
Print Assumptions C157_months.
Section GetBsrn.
Context {T D M : Type}.
Variable server : Z * Z -> ftp_answer T.
Variable parse : T -> res (D * M).
(** what the server and the parser make of a month: data, or not available *)
Definition outcome (f : Z * Z) (o : option (D * M)) : Prop :=
  match server f with FtpFile b => exists p, parse b = Ok p /\ o = Some p | FtpMissing => o = None | FtpRefused _ => False end.
Definition found_in (outcomes : list (option (D * M))) : list (D * M) := flat_map (fun o => match o with Some p => [p] | None => [] end) outcomes.
Definition lost_in (files : list (Z * Z)) (outcomes : list (option (D * M))) : list (Z * Z) := flat_map (fun fo => match snd fo with Some _ => [] | None => [fst fo] end) (combine files outcomes).
Lemma fetch_outcomes files os : Forall2 outcome files os -> bsrn_fetch server parse files = Ok (found_in os, lost_in files os).
Proof.
  induction 1 as [|f o files os H F IH]; [reflexivity|]. cbn [bsrn_fetch]. unfold outcome in H. destruct (server f) as [b| |e]; [|subst o|contradiction].
  - destruct H as (p & -> & ->). cbn [bind]. rewrite IH. reflexivity.
  - cbn [bind]. rewrite IH. reflexivity.
Qed.
Theorem C157_get : forall y0 m0 y1 m1 os, Forall2 outcome (months_between y0 m0 y1 m1) os ->
  exists warning, get_bsrn server parse true y0 m0 y1 m1 = Ok (map fst (found_in os), match rev (found_in os) with p :: _ => Some (snd p) | [] => None end, warning) /\
  (warning = None <-> found_in os <> [] /\ Forall (fun o => o <> None) os) /\
  (warning = Some [] <-> found_in os = []) /\
  (found_in os <> [] -> warning <> None -> warning = Some (lost_in (months_between y0 m0 y1 m1) os)).
Proof.
  intros y0 m0 y1 m1 os F. unfold get_bsrn. cbn [negb]. rewrite (fetch_outcomes _ os F). cbn [bind]. eexists. split; [reflexivity|].
  assert (L : lost_in (months_between y0 m0 y1 m1) os = [] <-> Forall (fun o => o <> None) os).
  { unfold lost_in. clear - F. revert F. generalize (months_between y0 m0 y1 m1). intros fs F. induction F as [|f o fs os H F IH]; [split; [constructor|reflexivity]|]. cbn [combine flat_map fst snd]. destruct o as [p|].
    - cbn [List.app]. rewrite IH. split; [intros G; constructor; [discriminate|exact G]|intros G; inversion G; assumption].
    - cbn [List.app]. split; [discriminate|intros G; inversion G; congruence]. }
  destruct (found_in os) as [|p ps]; [|destruct (lost_in (months_between y0 m0 y1 m1) os) as [|q qs]]; intuition congruence.
Qed.
(** an answer other than the file or '550 Failed to open file.', or a file that cannot be parsed, is reported; an unknown station is a KeyError *)
Theorem C157_get_errors : forall y0 m0 y1 m1,
  get_bsrn server parse false y0 m0 y1 m1 = Err KeyError /\
  (forall pre f post os e, months_between y0 m0 y1 m1 = pre ++ f :: post -> Forall2 outcome pre os -> (server f = FtpRefused e \/ exists b, server f = FtpFile b /\ parse b = Err e) -> get_bsrn server parse true y0 m0 y1 m1 = Err e).
Proof.
  intros y0 m0 y1 m1. split; [reflexivity|]. intros pre f post os e E F H. unfold get_bsrn. cbn [negb]. rewrite E. replace (bsrn_fetch server parse (pre ++ f :: post)) with (@Err (list (D * M) * list (Z * Z)) e); [reflexivity|]. symmetry. clear E.
  induction F as [|g o pre os O F IH].
  - cbn [List.app bsrn_fetch]. destruct H as [->|(b & -> & ->)]; reflexivity.
  - cbn [List.app bsrn_fetch]. unfold outcome in O. destruct (server g) as [b| |e']; [destruct O as (p & -> & _)| |contradiction]; cbn [bind]; rewrite IH; reflexivity.
Qed.
End GetBsrn.
Print Assumptions C157_get.
Print Assumptions C157_get_errors.
Example C157_months_case : months_between 2019 11 2020 2 = [(2019, 11); (2019, 12); (2020, 1); (2020, 2)].
Proof. reflexivity. Qed.
