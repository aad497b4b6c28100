(** C171-C173: the header lines of NSRDB files, read_nsrdb_psm4, the requests *)
From Verif Require Import Base.Fl Base.Py Base.PyStr Base.FlFacts Base.Calendar Base.Strptime Model.Bsrn Model.Tmy Model.Pvgis Model.Web Model.Cams Model.Services Props.PTmy Props.PStations Props.PBsrn Props.PPvgis Props.PWeb Props.PCams.
From Coq Require Import Reals List String Ascii Bool ZArith Lia Lra.
Import ListNotations.
Open Scope list_scope.
Open Scope Z_scope.

(** ** C171: what a csv writer may write is read back *)
Definition lf : ascii := chr 10.
Definition cr : ascii := chr 13.
Definition dq : ascii := chr 34.
(** nothing in the field needs quotes *)
Definition simple_field (f : string) : Prop := has_char "," f = false /\ has_char dq f = false /\ has_char lf f = false /\ has_char cr f = false.
Fixpoint doubled (f : string) : string := match f with EmptyString => EmptyString | String c f' => if Ascii.eqb c dq then String dq (String dq (doubled f')) else String c (doubled f') end.
(** a field as it is, or between quotes with its quotes doubled *)
Definition written (f w : string) : Prop := (simple_field f /\ w = f) \/ w = String dq (doubled f ++ String dq "").
Definition line_end (e : string) : Prop := e = ""%string \/ e = String lf "" \/ e = String cr (String lf "").

Definition pre (f : string) (r : res (list string)) : res (list string) := match r with Ok (g :: gs) => Ok ((f ++ g)%string :: gs) | Ok [] => Ok [f] | Err e => Err e end.
Lemma pre_char c f r : csv_char c (pre f r) = pre (String c f) r.
Proof. destruct r as [[|g gs]|]; reflexivity. Qed.
Lemma pre_nil r : (forall l, r = Ok l -> l <> []) -> pre "" r = r.
Proof. intros H. destruct r as [[|g gs]|]; try reflexivity. exfalso. exact (H [] eq_refl eq_refl). Qed.
Lemma csv_end_nonnil s l : csv_end s = Ok l -> l <> [].
Proof. unfold csv_end. destruct (all_chars is_crnl s); [intros E; injection E as <-; discriminate|discriminate]. Qed.
Lemma csv_char_nonnil c r l : csv_char c r = Ok l -> l <> [].
Proof. destruct r as [[|g gs]|]; cbn; intros E; injection E as <- || discriminate; discriminate. Qed.
Lemma csv_next_nonnil r l : csv_next r = Ok l -> l <> [].
Proof. destruct r as [gs|]; cbn; intros E; [injection E as <-; discriminate|discriminate]. Qed.
Lemma csv_nonnil s : forall st l, csv_fields st s = Ok l -> l <> [].
Proof.
  induction s as [|c s IH]; intros st l E; [injection E as <-; discriminate|]. cbn [csv_fields] in E.
  destruct st; repeat match type of E with context [if ?b then _ else _] => destruct b end;
    eauto using csv_end_nonnil, csv_char_nonnil, csv_next_nonnil.
Qed.
Lemma char_crnl c f : has_char lf (String c f) = false -> has_char cr (String c f) = false -> is_crnl c = false.
Proof.
  cbn [has_char]. intros A B. apply orb_false_iff in A, B. destruct A as [A _], B as [B _]. unfold is_crnl. apply orb_false_iff.
  split; apply Nat.eqb_neq; intros E; apply (f_equal ascii_of_nat) in E; rewrite ascii_nat_embedding in E; subst c; discriminate.
Qed.
Lemma in_field f r : simple_field f -> csv_fields InField (f ++ r) = pre f (csv_fields InField r).
Proof.
  induction f as [|c f IH]; intros (C & Q & L & R0); [symmetry; apply pre_nil; apply csv_nonnil|].
  cbn [append csv_fields]. rewrite (char_crnl c f L R0). cbn [has_char] in C, Q, L, R0. apply orb_false_iff in C, Q, L, R0. destruct C as [C1 C2], Q as [Q1 Q2], L as [L1 L2], R0 as [R1 R2].
  rewrite C1. rewrite IH by (repeat split; assumption). apply pre_char.
Qed.
Lemma in_quoted f r : csv_fields InQuoted (doubled f ++ String dq r) = pre f (csv_fields QuoteInQuoted r).
Proof.
  induction f as [|c f IH]; [symmetry; apply pre_nil; apply csv_nonnil|]. cbn [doubled]. destruct (Ascii.eqb_spec c dq) as [->|N].
  - cbn [append csv_fields]. change (Ascii.eqb dq quote) with true. cbv iota. rewrite IH. apply pre_char.
  - cbn [append csv_fields]. change quote with dq. rewrite (proj2 (Ascii.eqb_neq c dq) N). rewrite IH. apply pre_char.
Qed.
Lemma at_end st e : line_end e -> st <> InQuoted -> csv_fields st e = Ok [""%string].
Proof. intros [-> | [-> | ->]] N; destruct st; try reflexivity; contradiction. Qed.
Lemma comma st t : st <> InQuoted -> csv_fields st (String "," t) = csv_next (csv_fields StartField t).
Proof. intros N. destruct st; try reflexivity. contradiction. Qed.
(** one field, then the rest of the line *)
Lemma one_field f w r gs : written f w -> (forall st, st <> InQuoted -> csv_fields st r = Ok (""%string :: gs)) -> csv_fields StartField (w ++ r) = Ok (f :: gs).
Proof.
  intros [[P ->] | ->] H.
  - destruct f as [|c f]; [cbn [append]; rewrite H by discriminate; reflexivity|].
    pose proof (in_field (String c f) r P) as E. rewrite H in E by discriminate. cbn [pre append] in E. destruct P as (C & Q & L & R0). pose proof (char_crnl c f L R0) as K.
    cbn [append csv_fields] in E |- *. rewrite K in E |- *. cbn [has_char] in C, Q. apply orb_false_iff in C, Q. destruct C as [C _], Q as [Q _]. change quote with dq. rewrite C in E. rewrite C, Q, E.
    rewrite sapp_nil. reflexivity.
  - cbn [append csv_fields]. change (is_crnl dq) with false. change (Ascii.eqb dq quote) with true. cbv iota. rewrite sapp_assoc. cbn [append]. rewrite in_quoted, H by discriminate. cbn [pre]. rewrite sapp_nil. reflexivity.
Qed.
Lemma row_fields fs ws e : Forall2 written fs ws -> line_end e -> ws <> [] -> csv_fields StartField (String.concat "," ws ++ e) = Ok fs.
Proof.
  intros F L N. induction F as [|f w fs ws W F IH]; [contradiction|]. destruct ws as [|w' ws].
  - inversion F; subst. cbn [String.concat]. apply one_field; [exact W|]. intros st NQ. apply at_end; assumption.
  - change (String.concat "," (w :: w' :: ws)) with (w ++ "," ++ String.concat "," (w' :: ws))%string. rewrite !sapp_assoc. apply one_field; [exact W|]. intros st NQ. change ("," ++ String.concat "," (w' :: ws) ++ e)%string with (String "," (String.concat "," (w' :: ws) ++ e)). rewrite comma by exact NQ. rewrite IH by discriminate. reflexivity.
Qed.
Lemma first_not_newline fs ws e : Forall2 written fs ws -> ws <> [] -> ws <> [""%string] -> exists c t, (String.concat "," ws ++ e)%string = String c t /\ is_crnl c = false.
Proof.
  intros F N N1. destruct F as [|f w fs ws W F]; [contradiction|]. destruct w as [|c w].
  - destruct ws as [|w' ws]; [contradiction|]. eexists. eexists. split; [reflexivity|reflexivity].
  - exists c, (match ws with [] => w ++ e | _ => w ++ "," ++ String.concat "," ws ++ e end)%string. split.
    + destruct ws as [|w' ws]; [reflexivity|]. change (String.concat "," (String c w :: w' :: ws)) with (String c w ++ "," ++ String.concat "," (w' :: ws))%string. rewrite !sapp_assoc. reflexivity.
    + destruct W as [[(C & Q & L & R0) <-] | E]; [exact (char_crnl c w L R0)|]. injection E as -> _. reflexivity.
Qed.
Theorem C171_row : forall fs ws e, Forall2 written fs ws -> line_end e -> ws <> [] -> ws <> [""%string] -> csv_row (String.concat "," ws ++ e) = Ok fs.
Proof.
  intros fs ws e F L N N1. pose proof (row_fields fs ws e F L N) as R0. destruct (first_not_newline fs ws e F N N1) as (c & t & E & K). rewrite E in *. unfold csv_row. rewrite K. exact R0.
Qed.
Print Assumptions C171_row.
(** an empty line, and the end of the file, are the row without fields *)
Theorem C171_empty : forall e, line_end e -> csv_row e = Ok [].
Proof. intros e [-> | [-> | ->]]; reflexivity. Qed.
Print Assumptions C171_empty.
(** a row is refused only where a carriage return or line feed is followed by more text *)
Definition breaks (s : string) : Prop := exists a c b d, s = (a ++ String c b)%string /\ (c = lf \/ c = cr) /\ has_char d b = true /\ d <> lf /\ d <> cr.
Lemma crnl_spec c : is_crnl c = true -> c = lf \/ c = cr.
Proof. unfold is_crnl. intros H. apply orb_true_iff in H. destruct H as [H|H]; apply Nat.eqb_eq in H; apply (f_equal ascii_of_nat) in H; rewrite ascii_nat_embedding in H; subst c; [left|right]; reflexivity. Qed.
Lemma not_all s : all_chars is_crnl s = false -> exists d, has_char d s = true /\ d <> lf /\ d <> cr.
Proof.
  induction s as [|c s IH]; [discriminate|]. cbn [all_chars]. destruct (is_crnl c) eqn:K.
  - cbn [andb]. intros H. destruct (IH H) as (d & A & B). exists d. cbn [has_char]. rewrite A, orb_true_r. split; [reflexivity|exact B].
  - intros _. exists c. cbn [has_char]. rewrite Ascii.eqb_refl. split; [reflexivity|]. split; intros ->; discriminate.
Qed.
Lemma end_error c s e : is_crnl c = true -> csv_end s = Err e -> e = CsvError /\ breaks (String c s).
Proof.
  unfold csv_end. intros K. destruct (all_chars is_crnl s) eqn:A; [discriminate|]. intros E. injection E as <-. split; [reflexivity|]. destruct (not_all s A) as (d & D). exists ""%string, c, s, d. split; [reflexivity|].
  split; [exact (crnl_spec c K)|exact D].
Qed.
Lemma breaks_cons c s : breaks s -> breaks (String c s).
Proof. intros (a & x & b & d & E & H). exists (String c a), x, b, d. rewrite E. split; [reflexivity|exact H]. Qed.
Lemma csv_error s : forall st e, csv_fields st s = Err e -> e = CsvError /\ breaks s.
Proof.
  induction s as [|c s IH]; intros st e E; [discriminate|]. cbn [csv_fields] in E.
  assert (CC : forall st' d, csv_char d (csv_fields st' s) = Err e -> e = CsvError /\ breaks (String c s)).
  { intros st' d X. destruct (csv_fields st' s) as [[|g gs]|] eqn:Y; try discriminate. injection X as ->. destruct (IH _ _ Y) as [A B]. split; [exact A|apply breaks_cons, B]. }
  assert (CN : forall st', csv_next (csv_fields st' s) = Err e -> e = CsvError /\ breaks (String c s)).
  { intros st' X. destruct (csv_fields st' s) as [gs|] eqn:Y; try discriminate. injection X as ->. destruct (IH _ _ Y) as [A B]. split; [exact A|apply breaks_cons, B]. }
  assert (CS : forall st', csv_fields st' s = Err e -> e = CsvError /\ breaks (String c s)) by (intros st' X; destruct (IH _ _ X) as [A B]; split; [exact A|apply breaks_cons, B]).
  destruct st; repeat match type of E with context [if ?b then _ else _] => destruct b eqn:? end; eauto using end_error.
Qed.
Theorem C171_errors : forall s e, csv_row s = Err e -> e = CsvError /\ breaks s.
Proof.
  intros [|c s] e E; [discriminate|]. unfold csv_row in E. destruct (is_crnl c) eqn:K; [|exact (csv_error _ _ _ E)].
  destruct (csv_end s) eqn:X; [discriminate|]. injection E as ->. exact (end_error c s e K X).
Qed.
Print Assumptions C171_errors.
Example C171_example : csv_row ("Year,Month," ++ String dq ("GaAs (Bauhuis et al., 2009)" ++ String dq "") ++ String lf "")%string = Ok ["Year"; "Month"; "GaAs (Bauhuis et al., 2009)"]%string.
Proof. reflexivity. Qed.

(** ** C172 *)
(** a header line carrying these fields *)
Definition header_row (fs : list string) (l : string) : Prop :=
  exists ws, Forall2 written fs ws /\ ws <> [] /\ ws <> [""%string] /\ Forall (fun f => has_char lf f = false) fs /\ (l = String.concat "," ws ++ String lf "" \/ l = String.concat "," ws ++ String cr (String lf ""))%string.
Definition last_stripped (l l' : list string) : Prop := exists a x, l = a ++ [x] /\ l' = a ++ [strip x].
Lemma strip_last_spec l l' : last_stripped l l' -> strip_last l = Ok l'.
Proof.
  intros (a & x & -> & ->). induction a as [|y a IH]; [reflexivity|]. cbn [app strip_last]. destruct (a ++ [x]) as [|z t] eqn:E; [destruct a; discriminate|]. rewrite <- E in *. rewrite IH. reflexivity.
Qed.
Lemma doubled_plain f : has_char lf f = false -> has_char lf (doubled f) = false.
Proof.
  induction f as [|c f IH]; [reflexivity|]. cbn [has_char doubled]. intros H. apply orb_false_iff in H. destruct H as [A B]. destruct (Ascii.eqb_spec c dq) as [->|_]; cbn [has_char]; rewrite IH by exact B; [reflexivity|].
  rewrite A. reflexivity.
Qed.
Lemma written_plain f w : written f w -> has_char lf f = false -> has_char lf w = false.
Proof. intros [[_ ->] | ->] H; [exact H|]. cbn [has_char]. rewrite has_char_app. rewrite doubled_plain by exact H. reflexivity. Qed.
Lemma concat_plain fs ws : Forall2 written fs ws -> Forall (fun f => has_char lf f = false) fs -> plain (String.concat "," ws).
Proof.
  intros F H. induction F as [|f w fs ws W F IH]; [reflexivity|]. pose proof (written_plain f w W (Forall_inv H)) as P. specialize (IH (Forall_inv_tail H)). destruct ws as [|w' ws]; [exact P|].
  change (String.concat "," (w :: w' :: ws)) with (w ++ "," ++ String.concat "," (w' :: ws))%string. unfold plain. rewrite !has_char_app. unfold plain in IH. change (chr 10) with lf in *. rewrite P, IH. reflexivity.
Qed.
Lemma read_header fs l rest : header_row fs l -> read_line (l ++ rest) = (l, rest) /\ csv_row l = Ok fs.
Proof.
  intros (ws & F & N & N1 & P & E). pose proof (concat_plain fs ws F P) as PL. destruct E as [-> | ->].
  - split; [|apply C171_row; [exact F|right; left; reflexivity|exact N|exact N1]]. rewrite sapp_assoc. exact (read_line_app (String.concat "," ws) rest PL).
  - split; [|apply C171_row; [exact F|right; right; reflexivity|exact N|exact N1]]. change (String cr (String lf "")) with (String cr "" ++ newline)%string. rewrite <- sapp_assoc, sapp_assoc. apply (read_line_app (String.concat "," ws ++ String cr "")%string rest).
    apply plain_app. split; [exact PL|reflexivity].
Qed.
(** the value paired with a name; the last one if the name occurs more than once *)
Definition text_at (k : string) (kvs : list (string * string)) : option string := option_map snd (find (fun kv => String.eqb k (fst kv)) (rev kvs)).
Lemma texts_lookup kvs k : lookup k (fold_left (fun d kv => dict_set (fst kv) (VText (snd kv)) d) kvs []) = option_map VText (text_at k kvs).
Proof.
  unfold text_at. induction kvs as [|[a b] kvs IH] using rev_ind; [reflexivity|]. rewrite fold_left_app, rev_app_distr. cbn [fold_left rev app find fst snd]. rewrite lookup_dict_set.
  destruct (String.eqb k a); [reflexivity|exact IH].
Qed.
Definition psm4_dictionary : dictionary :=
  [("GHI", ("ghi", kept)); ("DNI", ("dni", kept)); ("DHI", ("dhi", kept)); ("Clearsky GHI", ("ghi_clear", kept)); ("Clearsky DNI", ("dni_clear", kept)); ("Clearsky DHI", ("dhi_clear", kept));
   ("Temperature", ("temp_air", kept)); ("Dew Point", ("temp_dew", kept)); ("Relative Humidity", ("relative_humidity", kept)); ("Pressure", ("pressure", kept)); ("Wind Speed", ("wind_speed", kept));
   ("Wind Direction", ("wind_direction", kept)); ("Surface Albedo", ("albedo", kept)); ("Precipitable Water", ("precipitable_water", kept)); ("AOD", ("aod", kept)); ("Solar Zenith Angle", ("solar_zenith", kept))]%string.
Lemma psm4_renamed t : rename_columns psm4_map t = map (translated psm4_dictionary) t.
Proof.
  unfold rename_columns. apply map_ext. intros [n vs]. unfold translated. cbn [fst snd]. unfold psm4_map, psm4_dictionary. cbn [lookup].
  repeat match goal with |- context [String.eqb n ?x] => destruct (String.eqb_spec n x) as [->|?]; [cbn; rewrite ?map_kept; reflexivity|] end. reflexivity.
Qed.
Section Read.
Variable py_int : string -> option Z.
Variable py_float : string -> option fl.
Variable frame : list string -> string -> res (list (Z * Z * Z * Z * Z) * table).
Lemma int_entry_ok k s n d : lookup k d = Some (VText s) -> py_int s = Some n -> int_entry py_int k d = Ok (dict_set k (VInt n) d).
Proof. intros A B. unfold int_entry. rewrite A, B. reflexivity. Qed.
Lemma float_entry_ok k s n d : lookup k d = Some (VText s) -> py_float s = Some n -> float_entry py_float k d = Ok (dict_set k (VFloat n) d).
Proof. intros A B. unfold float_entry. rewrite A, B. reflexivity. Qed.
(** the numbers of the header *)
Record psm4_numbers (kvs : list (string * string)) (local_tz tz elevation : Z) (latitude longitude : fl) : Prop := {
  n_local : exists s, text_at "Local Time Zone" kvs = Some s /\ py_int s = Some local_tz;
  n_tz : exists s, text_at "Time Zone" kvs = Some s /\ py_int s = Some tz;
  n_elevation : exists s, text_at "Elevation" kvs = Some s /\ py_int s = Some elevation;
  n_latitude : exists s, text_at "Latitude" kvs = Some s /\ py_float s = Some latitude;
  n_longitude : exists s, text_at "Longitude" kvs = Some s /\ py_float s = Some longitude }.
Definition read_value (kvs : list (string * string)) (local_tz tz elevation : Z) (latitude longitude : fl) (k : string) : option value :=
  if String.eqb k "Local Time Zone" then Some (VInt local_tz) else if String.eqb k "Time Zone" then Some (VInt tz) else if String.eqb k "Elevation" then Some (VInt elevation)
  else if String.eqb k "Latitude" then Some (VFloat latitude) else if String.eqb k "Longitude" then Some (VFloat longitude) else option_map VText (text_at k kvs).
Ltac look := repeat rewrite lookup_dict_set; cbn [String.eqb Ascii.eqb Bool.eqb].
Lemma psm4_meta_ok fs vs fs' vs' ltz tz el lat lon : last_stripped fs fs' -> last_stripped vs vs' -> psm4_numbers (combine fs' vs') ltz tz el lat lon ->
  exists d, psm4_meta py_int py_float fs vs = Ok d /\ forall k, lookup k d = read_value (combine fs' vs') ltz tz el lat lon k.
Proof.
  intros A B [(s1 & T1 & I1) (s2 & T2 & I2) (s3 & T3 & I3) (s4 & T4 & I4) (s5 & T5 & I5)]. unfold psm4_meta. rewrite (strip_last_spec _ _ A), (strip_last_spec _ _ B). cbn [bind]. set (kvs := combine fs' vs') in *.
  pose proof (texts_lookup kvs) as TL. set (d0 := fold_left _ kvs []) in *. clearbody d0.
  rewrite (int_entry_ok "Local Time Zone" s1 ltz d0) by (try rewrite TL, T1; auto). cbn [bind].
  rewrite (int_entry_ok "Time Zone" s2 tz) by (look; try rewrite TL, T2; auto). cbn [bind].
  rewrite (float_entry_ok "Latitude" s4 lat) by (look; try rewrite TL, T4; auto). cbn [bind].
  rewrite (float_entry_ok "Longitude" s5 lon) by (look; try rewrite TL, T5; auto). cbn [bind].
  rewrite (int_entry_ok "Elevation" s3 el) by (look; try rewrite TL, T3; auto).
  eexists. split; [reflexivity|]. intros k. look. rewrite TL. unfold read_value.
  repeat match goal with |- context [String.eqb k ?x] => destruct (String.eqb_spec k x) as [->|?]; [reflexivity|] end. reflexivity.
Qed.
(** with map_variables the place has pvlib's names *)
Definition pvlib_place (m : string -> option value) (k : string) : option value :=
  if String.eqb k "latitude" then m "Latitude"%string else if String.eqb k "longitude" then m "Longitude"%string else if String.eqb k "altitude" then m "Elevation"%string
  else if mem k ["Latitude"; "Longitude"; "Elevation"]%string then None else m k.
Lemma move_ok old new d v : lookup old d = Some v -> exists d', move old new d = Ok d' /\ forall k, lookup k d' = if String.eqb k new then Some v else if String.eqb k old then None else lookup k d.
Proof. intros E. unfold move. rewrite E. eexists. split; [reflexivity|]. intros k. rewrite lookup_dict_set. destruct (String.eqb k new); [reflexivity|]. apply lookup_remove. Qed.
(** the header is read, the table is what the csv parser makes of the remaining lines under the names given (names left blank dropped) *)
Theorem C172_read : forall fs vs cs fs' vs' cs' l1 l2 l3 rest ltz tz el lat lon rows t mv,
  header_row fs l1 -> header_row vs l2 -> header_row cs l3 -> last_stripped fs fs' -> last_stripped vs vs' -> last_stripped cs cs' ->
  psm4_numbers (combine fs' vs') ltz tz el lat lon -> -12 <= tz <= 14 ->
  (forall c, In c ["Year"; "Month"; "Day"; "Hour"; "Minute"]%string -> In c cs') -> frame (filter (fun c => negb (String.eqb c "")) cs') rest = Ok (rows, t) ->
  Forall (fun r => let '(y, m, d, _, _) := r in valid_date (Date y m d)) rows ->
  exists index d, read_nsrdb_psm4 py_int py_float frame (l1 ++ l2 ++ l3 ++ rest) mv = Ok (index, if mv then map (translated psm4_dictionary) t else t, d) /\
    Forall2 (fun r i => let '(y, m, d, h, mi) := r in i = instant (Date y m d) h mi - 60 * tz) rows index /\
    let m := read_value (combine fs' vs') ltz tz el lat lon in forall k, lookup k d = if mv then pvlib_place m k else m k.
Proof.
  intros fs vs cs fs' vs' cs' l1 l2 l3 rest ltz tz el lat lon rows t mv H1 H2 H3 S1 S2 S3 N Z0 CI F V.
  unfold read_nsrdb_psm4. destruct (read_header fs l1 (l2 ++ l3 ++ rest)%string H1) as [-> ->]. cbn [bind]. destruct (read_header vs l2 (l3 ++ rest)%string H2) as [-> ->]. cbn [bind].
  destruct (read_header cs l3 rest H3) as [-> ->]. cbn [bind]. rewrite (strip_last_spec _ _ S3). cbn [bind]. rewrite F. cbn [bind fst snd].
  destruct (psm4_meta_ok fs vs fs' vs' ltz tz el lat lon S1 S2 N) as (d & -> & L). cbn [bind]. set (m := read_value _ _ _ _ _ _) in *.
  rewrite (L "Time Zone"%string). change (m "Time Zone"%string) with (Some (VInt tz)). cbn [bind].
  assert (IX : forall z, mapM (psm4_stamp z) rows = Ok (map (fun r => let '(y, m, d, h, mi) := r in instant (Date y m d) h mi - 60 * z) rows)).
  { intros z. clear -V. induction rows as [|r rows IH]; [reflexivity|]. cbn [mapM map]. rewrite (IH (Forall_inv_tail V)). pose proof (Forall_inv V) as W. destruct r as [[[[y mm] dd] h] mi]. unfold psm4_stamp. rewrite (proj2 (valid_dateb_spec _) W). reflexivity. }
  assert (PI : psm4_index (filter (fun c => negb (String.eqb c "")) cs') tz rows = Ok (map (fun r => let '(y, m, d, h, mi) := r in instant (Date y m d) h mi - 60 * tz) rows)).
  { unfold psm4_index. replace (forallb _ _) with true.
    - rewrite (IX 0). cbn [bind]. unfold etc_gmt. rewrite (proj2 (Z.leb_le _ _)), (proj2 (Z.leb_le _ _)) by lia. cbn [andb bind]. apply IX.
    - symmetry. apply forallb_forall. intros c I. apply mem_In. apply filter_In. split; [apply CI, I|]. cbn [In] in I. repeat (destruct I as [<-|I]; [reflexivity|]). destruct I. }
  rewrite PI. cbn [bind].
  assert (F2 : Forall2 (fun r i => let '(y, m, d, h, mi) := r in i = instant (Date y m d) h mi - 60 * tz) rows (map (fun r => let '(y, m, d, h, mi) := r in instant (Date y m d) h mi - 60 * tz) rows)).
  { clear. induction rows as [|r rows IH]; constructor; [destruct r as [[[[? ?] ?] ?] ?]; reflexivity|exact IH]. }
  destruct mv.
  - destruct (move_ok "Latitude" "latitude" d (VFloat lat)) as (d1 & -> & L1); [exact (L "Latitude"%string)|]. cbn [bind].
    destruct (move_ok "Longitude" "longitude" d1 (VFloat lon)) as (d2 & -> & L2); [rewrite L1; exact (L "Longitude"%string)|]. cbn [bind].
    destruct (move_ok "Elevation" "altitude" d2 (VInt el)) as (d3 & -> & L3); [rewrite L2; cbn [String.eqb Ascii.eqb Bool.eqb]; rewrite L1; exact (L "Elevation"%string)|]. cbn [bind].
    exists (map (fun r => let '(y, m, d, h, mi) := r in instant (Date y m d) h mi - 60 * tz) rows), d3. rewrite psm4_renamed. split; [reflexivity|]. split; [exact F2|]. cbv zeta. intros k. rewrite L3, L2, L1, L. unfold pvlib_place, mem, existsb.
    repeat match goal with |- context [String.eqb k ?x] => destruct (String.eqb_spec k x) as [->|?]; [reflexivity|] end. reflexivity.
  - eexists. exists d. split; [reflexivity|]. split; [exact F2|]. cbv zeta. exact L.
Qed.
(** whatever the text, a failure is one of these, or that of the csv parser *)
Theorem C172_errors : forall text mv e, read_nsrdb_psm4 py_int py_float frame text mv = Err e ->
  e = CsvError \/ e = IndexError \/ e = KeyError \/ e = ValueError \/ exists cs s, frame cs s = Err e.
Proof.
  intros text mv e. unfold read_nsrdb_psm4. destruct (read_line text) as [l1 s1]. destruct (csv_row l1) as [fs|] eqn:C1; [|intros E; injection E as ->; left; exact (proj1 (C171_errors _ _ C1))]. cbn [bind].
  destruct (read_line s1) as [l2 s2]. destruct (csv_row l2) as [vs|] eqn:C2; [|intros E; injection E as ->; left; exact (proj1 (C171_errors _ _ C2))]. cbn [bind].
  destruct (read_line s2) as [l3 s3]. destruct (csv_row l3) as [cs|] eqn:C3; [|intros E; injection E as ->; left; exact (proj1 (C171_errors _ _ C3))]. cbn [bind].
  assert (SL : forall l x, strip_last l = Err x -> x = IndexError).
  { induction l as [|a l IH]; intros x E; [injection E as <-; reflexivity|]. cbn [strip_last] in E. destruct l as [|b l]; [discriminate|]. destruct (strip_last (b :: l)) as [u|u] eqn:Q; [discriminate|]. injection E as <-. exact (IH u eq_refl). }
  destruct (strip_last cs) as [cs'|] eqn:S1; [|intros E; injection E as ->; right; left; exact (SL _ _ S1)]. cbn [bind].
  destruct (frame _ s3) as [[rows t]|] eqn:FR; [|intros E; injection E as ->; right; right; right; right; eexists; eexists; exact FR]. cbn [bind fst snd].
  assert (IE : forall k d x, int_entry py_int k d = Err x -> x = KeyError \/ x = ValueError).
  { intros k d x. unfold int_entry. destruct (lookup k d) as [[s| | |]|]; try discriminate; [destruct (py_int s); [discriminate|]|]; intros E; injection E as <-; auto. }
  assert (FE : forall k d x, float_entry py_float k d = Err x -> x = KeyError \/ x = ValueError).
  { intros k d x. unfold float_entry. destruct (lookup k d) as [[s| | |]|]; try discriminate; [destruct (py_float s); [discriminate|]|]; intros E; injection E as <-; auto. }
  assert (IK : forall k d d', int_entry py_int k d = Ok d' -> (exists s n, lookup k d = Some (VText s) /\ d' = dict_set k (VInt n) d) \/ (exists v, lookup k d = Some v /\ (forall s, v <> VText s) /\ d' = d)).
  { intros k d d'. unfold int_entry. destruct (lookup k d) as [v|] eqn:L0; [|discriminate]. destruct v as [s| | |]; [destruct (py_int s) as [n|]; [|discriminate]|..]; intros E; injection E as <-; [left; exists s, n; auto|right; eexists; split; [reflexivity|split; [discriminate|reflexivity]]..]. }
  assert (FK : forall k d d', float_entry py_float k d = Ok d' -> (exists s n, lookup k d = Some (VText s) /\ d' = dict_set k (VFloat n) d) \/ (exists v, lookup k d = Some v /\ (forall s, v <> VText s) /\ d' = d)).
  { intros k d d'. unfold float_entry. destruct (lookup k d) as [v|] eqn:L0; [|discriminate]. destruct v as [s| | |]; [destruct (py_float s) as [n|]; [|discriminate]|..]; intros E; injection E as <-; [left; exists s, n; auto|right; eexists; split; [reflexivity|split; [discriminate|reflexivity]]..]. }
  unfold psm4_meta. destruct (strip_last fs) as [fs'|] eqn:S2; [|intros E; injection E as ->; right; left; exact (SL _ _ S2)]. cbn [bind].
  destruct (strip_last vs) as [vs'|] eqn:S3; [|intros E; injection E as ->; right; left; exact (SL _ _ S3)]. cbn [bind].
  pose proof (texts_lookup (combine fs' vs')) as TL. set (d0 := fold_left _ _ _) in *. clearbody d0.
  destruct (int_entry py_int "Local Time Zone" d0) as [d1|x] eqn:E1; [|intros E; injection E as ->; destruct (IE _ _ _ E1); auto]. cbn [bind].
  destruct (int_entry py_int "Time Zone" d1) as [d2|x] eqn:E2; [|intros E; injection E as ->; destruct (IE _ _ _ E2); auto]. cbn [bind].
  destruct (float_entry py_float "Latitude" d2) as [d3|x] eqn:E3; [|intros E; injection E as ->; destruct (FE _ _ _ E3); auto]. cbn [bind].
  destruct (float_entry py_float "Longitude" d3) as [d4|x] eqn:E4; [|intros E; injection E as ->; destruct (FE _ _ _ E4); auto]. cbn [bind].
  destruct (int_entry py_int "Elevation" d4) as [d5|x] eqn:E5; [|intros E; injection E as ->; destruct (IE _ _ _ E5); auto]. cbn [bind].
  assert (KD : exists ltz tz el lat lon s1 s2 s3 s4 s5, lookup "Local Time Zone" d0 = Some (VText s1) /\ lookup "Time Zone" d0 = Some (VText s2) /\ lookup "Latitude" d0 = Some (VText s3) /\ lookup "Longitude" d0 = Some (VText s4) /\ lookup "Elevation" d0 = Some (VText s5) /\
     d5 = dict_set "Elevation" (VInt el) (dict_set "Longitude" (VFloat lon) (dict_set "Latitude" (VFloat lat) (dict_set "Time Zone" (VInt tz) (dict_set "Local Time Zone" (VInt ltz) d0))))).
  { assert (TX : forall k v, lookup k d0 = Some v -> exists s, v = VText s) by (intros k v X; rewrite TL in X; destruct (text_at k _) as [s|]; [|discriminate]; injection X as <-; exists s; reflexivity).
    destruct (IK _ _ _ E1) as [(a1 & ltz & A1 & ->)|(v & A1 & NT & _)]; [|destruct (TX _ _ A1) as (s & ->); exfalso; exact (NT s eq_refl)].
    destruct (IK _ _ _ E2) as [(a2 & tz & A2 & ->)|(v & A2 & NT & _)]; rewrite !lookup_dict_set in A2; cbn [String.eqb Ascii.eqb Bool.eqb] in A2; [|destruct (TX _ _ A2) as (s & ->); exfalso; exact (NT s eq_refl)].
    destruct (FK _ _ _ E3) as [(a3 & lat & A3 & ->)|(v & A3 & NT & _)]; rewrite !lookup_dict_set in A3; cbn [String.eqb Ascii.eqb Bool.eqb] in A3; [|destruct (TX _ _ A3) as (s & ->); exfalso; exact (NT s eq_refl)].
    destruct (FK _ _ _ E4) as [(a4 & lon & A4 & ->)|(v & A4 & NT & _)]; rewrite !lookup_dict_set in A4; cbn [String.eqb Ascii.eqb Bool.eqb] in A4; [|destruct (TX _ _ A4) as (s & ->); exfalso; exact (NT s eq_refl)].
    destruct (IK _ _ _ E5) as [(a5 & el & A5 & ->)|(v & A5 & NT & _)]; rewrite !lookup_dict_set in A5; cbn [String.eqb Ascii.eqb Bool.eqb] in A5; [|destruct (TX _ _ A5) as (s & ->); exfalso; exact (NT s eq_refl)].
    exists ltz, tz, el, lat, lon, a1, a2, a3, a4, a5. auto 10. }
  clear E1 E2 E3 E4 E5. destruct KD as (ltz & tz & el & lat & lon & a1 & a2 & a3 & a4 & a5 & A1 & A2 & A3 & A4 & A5 & ->).
  match goal with |- context [match lookup "Time Zone" ?d with _ => _ end] => replace (lookup "Time Zone" d) with (Some (VInt tz)) by (look; reflexivity); set (dd := d) end. cbn [bind].
  assert (ST : forall z x, mapM (psm4_stamp z) rows = Err x -> x = ValueError).
  { intros z. clear. induction rows as [|r rows IH]; intros x; [discriminate|]. cbn [mapM]. destruct (psm4_stamp z r) as [u|u] eqn:U.
    - cbn [bind]. destruct (mapM (psm4_stamp z) rows) as [us|us] eqn:M; [discriminate|]. cbn [bind]. intros E. injection E as <-. exact (IH us eq_refl).
    - cbn [bind]. intros E. injection E as <-. destruct r as [[[[y m] d] h] mi]. unfold psm4_stamp in U. destruct (valid_dateb _); [discriminate|]. injection U as <-. reflexivity. }
  unfold psm4_index. destruct (forallb _ _); [|cbn [bind]; intros E; injection E as <-; auto]. destruct (mapM (psm4_stamp 0) rows) eqn:M0; [|cbn [bind]; intros E; injection E as <-; right; right; right; left; exact (ST _ _ M0)]. cbn [bind].
  unfold etc_gmt. destruct ((-12 <=? tz) && (tz <=? 14)); [|cbn [bind]; intros E; injection E as <-; auto]. cbn [bind].
  destruct (mapM (psm4_stamp tz) rows) eqn:M1; [|cbn [bind]; intros E; injection E as <-; right; right; right; left; exact (ST _ _ M1)]. cbn [bind].
  destruct mv; [|discriminate].
  assert (MK : forall o n d x, move o n d = Err x -> x = KeyError) by (intros o n d x; unfold move; destruct (lookup o d); [discriminate|]; intros E; injection E as <-; reflexivity).
  destruct (move "Latitude" "latitude" dd) as [m1|] eqn:Q1; [|cbn [bind]; intros E; injection E as <-; right; right; left; exact (MK _ _ _ _ Q1)]. cbn [bind].
  destruct (move "Longitude" "longitude" m1) as [m2|] eqn:Q2; [|cbn [bind]; intros E; injection E as <-; right; right; left; exact (MK _ _ _ _ Q2)]. cbn [bind].
  destruct (move "Elevation" "altitude" m2) as [m3|] eqn:Q3; [|cbn [bind]; intros E; injection E as <-; right; right; left; exact (MK _ _ _ _ Q3)]. cbn [bind]. discriminate.
Qed.
(** a time zone outside -12 ... 14 is not one of pandas' *)
(** a header without one of the five numbers: KeyError if the others are numbers, ValueError if one is there but is none *)
Theorem C172_header_numbers : forall fs vs cs fs' vs' cs' l1 l2 l3 rest rows t mv,
  header_row fs l1 -> header_row vs l2 -> header_row cs l3 -> last_stripped fs fs' -> last_stripped vs vs' -> last_stripped cs cs' ->
  frame (filter (fun c => negb (String.eqb c "")) cs') rest = Ok (rows, t) ->
  let ints := ["Local Time Zone"; "Time Zone"; "Elevation"]%string in let floats := ["Latitude"; "Longitude"]%string in let said k := text_at k (combine fs' vs') in
  ((exists k, In k (ints ++ floats) /\ said k = None) -> (forall k s, In k ints -> said k = Some s -> py_int s <> None) -> (forall k s, In k floats -> said k = Some s -> py_float s <> None) ->
     read_nsrdb_psm4 py_int py_float frame (l1 ++ l2 ++ l3 ++ rest) mv = Err KeyError) /\
  ((forall k, In k (ints ++ floats) -> said k <> None) -> (exists k s, said k = Some s /\ (In k ints /\ py_int s = None \/ In k floats /\ py_float s = None)) ->
     read_nsrdb_psm4 py_int py_float frame (l1 ++ l2 ++ l3 ++ rest) mv = Err ValueError).
Proof.
  intros fs vs cs fs' vs' cs' l1 l2 l3 rest rows t mv H1 H2 H3 S1 S2 S3 F ints floats said.
  unfold read_nsrdb_psm4. destruct (read_header fs l1 (l2 ++ l3 ++ rest)%string H1) as [-> ->]. cbn [bind]. destruct (read_header vs l2 (l3 ++ rest)%string H2) as [-> ->]. cbn [bind].
  destruct (read_header cs l3 rest H3) as [-> ->]. cbn [bind]. rewrite (strip_last_spec _ _ S3). cbn [bind]. rewrite F. cbn [bind fst snd].
  unfold psm4_meta. rewrite (strip_last_spec _ _ S1), (strip_last_spec _ _ S2). cbn [bind].
  pose proof (texts_lookup (combine fs' vs')) as TL. fold said in TL. set (d0 := fold_left _ (combine fs' vs') []) in *. clearbody d0.
  assert (IE : forall k d, lookup k d = option_map VText (said k) -> int_entry py_int k d = match said k with None => Err KeyError | Some s => match py_int s with Some n => Ok (dict_set k (VInt n) d) | None => Err ValueError end end).
  { intros k d L. unfold int_entry. rewrite L. destruct (said k); reflexivity. }
  assert (FE : forall k d, lookup k d = option_map VText (said k) -> float_entry py_float k d = match said k with None => Err KeyError | Some s => match py_float s with Some n => Ok (dict_set k (VFloat n) d) | None => Err ValueError end end).
  { intros k d L. unfold float_entry. rewrite L. destruct (said k); reflexivity. }
  rewrite (IE "Local Time Zone"%string d0) by apply TL.
  assert (L : forall k k' v d, k <> k' -> lookup k d = option_map VText (said k) -> lookup k (dict_set k' v d) = option_map VText (said k)).
  { intros k k' v d N E. rewrite lookup_dict_set. destruct (String.eqb_spec k k'); [contradiction|exact E]. }
  assert (In1 : forall k, In k (ints ++ floats) <-> (k = "Local Time Zone" \/ k = "Time Zone" \/ k = "Elevation" \/ k = "Latitude" \/ k = "Longitude")%string).
  { intros k. unfold ints, floats. cbn [app In]. intuition congruence. }
  assert (Ii : forall k, In k ints <-> (k = "Local Time Zone" \/ k = "Time Zone" \/ k = "Elevation")%string) by (intros k; unfold ints; cbn [In]; intuition congruence).
  assert (If : forall k, In k floats <-> (k = "Latitude" \/ k = "Longitude")%string) by (intros k; unfold floats; cbn [In]; intuition congruence).
  destruct (said "Local Time Zone"%string) as [s1|] eqn:A1; [|cbn [bind]; split; [reflexivity|intros H; exfalso; apply (H "Local Time Zone"%string); [apply In1; auto|exact A1]]].
  destruct (py_int s1) as [n1|] eqn:B1; cbn [bind]; [|split; [intros _ H; exfalso; apply (H "Local Time Zone"%string s1); [apply Ii; auto|exact A1|exact B1]|reflexivity]].
  rewrite (IE "Time Zone"%string) by (apply L; [discriminate|apply TL]).
  destruct (said "Time Zone"%string) as [s2|] eqn:A2; [|cbn [bind]; split; [reflexivity|intros H; exfalso; apply (H "Time Zone"%string); [apply In1; auto|exact A2]]].
  destruct (py_int s2) as [n2|] eqn:B2; cbn [bind]; [|split; [intros _ H; exfalso; apply (H "Time Zone"%string s2); [apply Ii; auto|exact A2|exact B2]|reflexivity]].
  rewrite (FE "Latitude"%string) by (repeat (apply L; [discriminate|]); apply TL).
  destruct (said "Latitude"%string) as [s3|] eqn:A3; [|cbn [bind]; split; [reflexivity|intros H; exfalso; apply (H "Latitude"%string); [apply In1; auto|exact A3]]].
  destruct (py_float s3) as [n3|] eqn:B3; cbn [bind]; [|split; [intros _ _ H; exfalso; apply (H "Latitude"%string s3); [apply If; auto|exact A3|exact B3]|reflexivity]].
  rewrite (FE "Longitude"%string) by (repeat (apply L; [discriminate|]); apply TL).
  destruct (said "Longitude"%string) as [s4|] eqn:A4; [|cbn [bind]; split; [reflexivity|intros H; exfalso; apply (H "Longitude"%string); [apply In1; auto 6|exact A4]]].
  destruct (py_float s4) as [n4|] eqn:B4; cbn [bind]; [|split; [intros _ _ H; exfalso; apply (H "Longitude"%string s4); [apply If; auto|exact A4|exact B4]|reflexivity]].
  rewrite (IE "Elevation"%string) by (repeat (apply L; [discriminate|]); apply TL).
  destruct (said "Elevation"%string) as [s5|] eqn:A5; [|cbn [bind]; split; [reflexivity|intros H; exfalso; apply (H "Elevation"%string); [apply In1; auto|exact A5]]].
  destruct (py_int s5) as [n5|] eqn:B5; cbn [bind]; [|split; [intros _ H; exfalso; apply (H "Elevation"%string s5); [apply Ii; auto|exact A5|exact B5]|reflexivity]].
  split.
  - intros (k & K & N). exfalso. apply In1 in K. destruct K as [-> | [-> | [-> | [-> | ->]]]]; congruence.
  - intros _ (k & s & K & [[I P]|[I P]]); exfalso; [apply Ii in I; destruct I as [-> | [-> | ->]]|apply If in I; destruct I as [-> | ->]]; congruence.
Qed.
Theorem C172_time_zone : forall columns tz rows, (forall c, In c ["Year"; "Month"; "Day"; "Hour"; "Minute"]%string -> In c columns) -> Forall (fun r => let '(y, m, d, _, _) := r in valid_date (Date y m d)) rows ->
  (psm4_index columns tz rows = Err KeyError <-> ~ (-12 <= tz <= 14)).
Proof.
  intros columns tz rows CI V. unfold psm4_index. replace (forallb _ _) with true by (symmetry; apply forallb_forall; intros c I; apply mem_In, CI, I).
  assert (IX : forall z, exists l, mapM (psm4_stamp z) rows = Ok l).
  { intros z. clear -V. induction rows as [|r rows IH]; [exists []; reflexivity|]. cbn [mapM]. destruct (IH (Forall_inv_tail V)) as (l & ->). pose proof (Forall_inv V) as W. destruct r as [[[[y mm] dd] h] mi]. unfold psm4_stamp. rewrite (proj2 (valid_dateb_spec _) W). eexists. reflexivity. }
  destruct (IX 0) as (l0 & ->). destruct (IX tz) as (l1 & E1). cbn [bind]. unfold etc_gmt. destruct (Z.leb_spec (-12) tz), (Z.leb_spec tz 14); cbn [andb bind]; rewrite ?E1; (split; [try discriminate; lia|try lia; reflexivity]).
Qed.
End Read.
Print Assumptions C172_read.
Print Assumptions C172_errors.
Print Assumptions C172_header_numbers.
Print Assumptions C172_time_zone.
(** midnight of 1 January 2020 in a zone seven hours behind UTC *)
Definition psm4_int (s : string) : option Z := lookup s [("-7", -7); ("1600", 1600)]%string.
Definition psm4_float (s : string) : option fl := lookup s [("39.7", #39.7); ("-105.2", #(-105.2))]%string.
Definition psm4_sample_frame (cs : list string) (s : string) : res (list (Z * Z * Z * Z * Z) * table) := Ok ([(2020, 1, 1, 0, 30)], [("GHI", [#0])])%string.
Example C172_example : exists i t d, read_nsrdb_psm4 psm4_int psm4_float psm4_sample_frame
   ("Source,Latitude,Longitude,Time Zone,Elevation,Local Time Zone" ++ newline ++ "NSRDB,39.7,-105.2,-7,1600,-7" ++ newline ++ "Year,Month,Day,Hour,Minute,GHI,," ++ newline ++ "2020,1,1,0,30,0" ++ newline)%string true = Ok (i, t, d) /\
  i = [instant (Date 2020 1 1) 7 30] /\ t = [("ghi"%string, [#0])] /\ lookup "longitude" d = Some (VFloat #(-105.2)) /\ lookup "Source" d = Some (VText "NSRDB").
Proof. eexists. eexists. eexists. split; [reflexivity|]. repeat split. Qed.

(** ** C173 *)
(** pvlib's name, the name in a request, the name in the answer *)
Definition psm4_names : list (string * string * string) :=
  [("ghi", "ghi", "GHI"); ("dni", "dni", "DNI"); ("dhi", "dhi", "DHI"); ("ghi_clear", "clearsky_ghi", "Clearsky GHI"); ("dni_clear", "clearsky_dni", "Clearsky DNI"); ("dhi_clear", "clearsky_dhi", "Clearsky DHI");
   ("temp_air", "air_temperature", "Temperature"); ("temp_dew", "dew_point", "Dew Point"); ("relative_humidity", "relative_humidity", "Relative Humidity"); ("pressure", "surface_pressure", "Pressure");
   ("wind_speed", "wind_speed", "Wind Speed"); ("wind_direction", "wind_direction", "Wind Direction"); ("albedo", "surface_albedo", "Surface Albedo"); ("precipitable_water", "total_precipitable_water", "Precipitable Water");
   ("aod", "aod", "AOD"); ("solar_zenith", "solar_zenith_angle", "Solar Zenith Angle")]%string.
Definition asked (p : string) : string := match find (fun n => String.eqb (fst (fst n)) p) psm4_names with Some (_, r, _) => r | None => p end.
Lemma asked_spec p : get_or psm4_request_map p = asked p.
Proof. unfold get_or, asked, psm4_request_map, psm4_names. cbn [lookup find fst snd]. repeat match goal with |- context [String.eqb ?x p] => rewrite (String.eqb_sym x p) end. string_cases p. reflexivity. Qed.
Theorem C173_request : forall lon lat key email full aff names step ps leap utc, let q := psm4_params lon lat key email full aff names step ps leap utc in
  lookup "wkt" q = Some ("POINT(" ++ strip lon ++ " " ++ strip lat ++ ")")%string /\ lookup "attributes" q = Some (String.concat "," (map asked ps)) /\
  lookup "leap_day" q = Some (if leap then "true" else "false")%string /\ lookup "utc" q = Some (if utc then "true" else "false")%string /\ lookup "interval" q = Some step /\ lookup "names" q = Some names /\
  lookup "api_key" q = Some key /\ lookup "email" q = Some email /\ lookup "full_name" q = Some full /\ lookup "affiliation" q = Some aff.
Proof. intros. subst q. rewrite <- (map_ext _ _ asked_spec ps). repeat split. Qed.
Print Assumptions C173_request.
(** the column with which a request for a pvlib name is answered is given that name *)
Theorem C173_round_trip : forall p r a vs, In (p, r, a) psm4_names -> asked p = r /\ rename_columns psm4_map [(a, vs)] = [(p, vs)].
Proof. intros p r a vs I. unfold psm4_names in I. cbn [In] in I. repeat (destruct I as [I|I]; [injection I as <- <- <-; split; reflexivity|]). destruct I. Qed.
Print Assumptions C173_round_trip.
