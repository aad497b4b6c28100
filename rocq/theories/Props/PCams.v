(** C167-C170: CAMS (SoDa) *)
From Verif Require Import Base.Fl Base.Py Base.PyStr Base.FlFacts Base.Calendar Base.Strptime Model.Bsrn Model.Tmy Model.Web Model.Cams Props.PTmy Props.PStations Props.PBsrn Props.PPvgis Props.PWeb.
From Coq Require Import Reals List String Ascii Bool ZArith Lia Lra.
Import ListNotations.
Open Scope list_scope.
Open Scope Z_scope.

(** ** C167: the header *)
Definition no_cut (s : string) : Prop := forall a b, s <> (a ++ ": " ++ b)%string.
Fixpoint marks (s : string) : Prop := match s with EmptyString => True | String c s' => (c = "#"%char \/ c = " "%char) /\ marks s' end.
(** '# key: value', what follows a second ': ' is dropped *)
Definition entry_line (kv : string * string) (l : string) : Prop :=
  exists h, marks h /\ no_cut (fst kv) /\ starts_not is_hash (fst kv) /\ no_cut (snd kv) /\ (l = (h ++ fst kv ++ ": " ++ snd kv)%string \/ exists more, l = (h ++ fst kv ++ ": " ++ snd kv ++ ": " ++ more)%string).
Definition last_line (l : string) : Prop := exists t, l = ("# Observation period" ++ t)%string.
(** lines before the names of the columns, with the entries they hold *)
Inductive head_lines : list string -> list (string * string) -> Prop :=
| hl_nil : head_lines [] []
| hl_entry l kv ls kvs : plain l -> ~ last_line l -> entry_line kv l -> head_lines ls kvs -> head_lines (l :: ls) (kv :: kvs)
| hl_other l ls kvs : plain l -> ~ last_line l -> no_cut l -> head_lines ls kvs -> head_lines (l :: ls) kvs.

Lemma prefix_true p s : String.prefix p s = true <-> exists t, s = (p ++ t)%string.
Proof.
  revert s. induction p as [|c p IH]; intros s; [split; [intros _; exists s; reflexivity|intros _; destruct s; reflexivity]|]. destruct s as [|d s]; cbn [String.prefix append]; [split; [discriminate|intros (t & E); discriminate]|].
  destruct (ascii_dec c d) as [->|N]; [|split; [discriminate|intros (t & E); injection E as E _; congruence]]. rewrite IH. split; intros (t & E); exists t; [f_equal; exact E|injection E as E; exact E].
Qed.
Lemma cut_none s : no_cut s -> cut s = None.
Proof.
  induction s as [|c s IH]; intros N; [reflexivity|]. cbn [cut]. destruct (String.prefix ": " (String c s)) eqn:P; [apply prefix_true in P; destruct P as (t & E); exfalso; exact (N "" t E)%string|].
  rewrite IH; [reflexivity|]. intros a b E. apply (N (String c a) b). rewrite E. reflexivity.
Qed.
Lemma cut_first k v : no_cut k -> cut (k ++ ": " ++ v) = Some (k, v).
Proof.
  induction k as [|c k IH]; intros N.
  - cbn [append]. unfold cut; fold cut. change (String.prefix ": " (String ":" (String " " v))) with (String.prefix ": " (": " ++ v)). rewrite (proj2 (prefix_true ": " (": " ++ v)) (ex_intro _ v eq_refl)).
    cbn [String.length Nat.sub substring]. rewrite Nat.sub_0_r, substring_zero by lia. reflexivity.
  - change ((String c k ++ ": " ++ v)%string) with (String c (k ++ ": " ++ v)). cbn [cut]. destruct (String.prefix ": " (String c (k ++ ": " ++ v))) eqn:P.
    + exfalso. apply prefix_true in P. destruct P as (t & E). cbn [append] in E. injection E as -> E. destruct k as [|d k]; [discriminate|]. injection E as -> E. apply (N ""%string k). reflexivity.
    + rewrite IH; [reflexivity|]. intros a b E. apply (N (String c a) b). rewrite E. reflexivity.
Qed.
Lemma no_cut_marks h k : marks h -> no_cut k -> no_cut (h ++ k).
Proof.
  induction h as [|c h IH]; intros M N; [exact N|]. destruct M as [C M]. intros [|a a'] b E.
  - injection E as -> _. destruct C as [C|C]; discriminate.
  - injection E as _ E. exact (IH M N a' b E).
Qed.
Lemma lstrip_marks h k : marks h -> starts_not is_hash k -> lstrip is_hash (h ++ k) = k.
Proof.
  induction h as [|c h IH]; intros M N; [apply lstrip_not, N|]. destruct M as [C M]. cbn [append lstrip]. assert (H : is_hash c = true) by (destruct C as [-> | ->]; reflexivity). rewrite H. apply IH; assumption.
Qed.
Lemma not_last l : ~ last_line l -> String.prefix "# Observation period" l = false.
Proof. intros N. destruct (String.prefix _ l) eqn:P; [|reflexivity]. apply prefix_true in P. contradiction. Qed.
Lemma chomp l : plain l -> rstrip is_newline (l ++ newline) = l.
Proof. exact (rstrip_newline l). Qed.
Lemma split_join c ps : Forall (fun p => has_char c p = false) ps -> ps <> [] -> split_on c (String.concat (String c "") ps) = ps.
Proof.
  intros F N. destruct ps as [|p ps]; [contradiction|]. clear N. revert p F. induction ps as [|q ps IH]; intros p F; [cbn; apply split_on_nosep, (Forall_inv F)|].
  change (String.concat (String c "") (p :: q :: ps)) with (p ++ String c "" ++ String.concat (String c "") (q :: ps))%string. cbn [append]. rewrite split_on_app by exact (Forall_inv F). f_equal. apply IH. exact (Forall_inv_tail F).
Qed.
Lemma header_step fuel l rest d : plain l -> ~ last_line l -> cams_header (S fuel) (l ++ newline ++ rest) d = match cut l with Some (k, v) => cams_header fuel rest (dict_set (lstrip is_hash k) (up_to_cut v) d) | None => cams_header fuel rest d end.
Proof. intros P N. cbn [cams_header]. rewrite read_line_app by exact P. rewrite chomp by exact P. rewrite not_last by exact N. reflexivity. Qed.
Lemma entry_cut kv l d fuel rest : plain l -> ~ last_line l -> entry_line kv l -> cams_header (S fuel) (l ++ newline ++ rest) d = cams_header fuel rest (dict_set (fst kv) (snd kv) d).
Proof.
  intros P N (h & M & K & ST & V & E). rewrite header_step by assumption. destruct kv as [k v]. cbn [fst snd] in *. destruct E as [-> | (more & ->)]; rewrite <- sapp_assoc.
  - rewrite cut_first by (apply no_cut_marks; assumption). rewrite lstrip_marks by assumption. unfold up_to_cut. rewrite cut_none by exact V. reflexivity.
  - rewrite cut_first by (apply no_cut_marks; assumption). rewrite lstrip_marks by assumption. unfold up_to_cut. rewrite cut_first by exact V. reflexivity.
Qed.
(** the entries, the last one of a key counting, the names of the columns and what follows them *)
Theorem C167_header : forall ls kvs names rest fuel, head_lines ls kvs -> Forall (fun n => has_char ";" n = false /\ plain n) names -> (List.length ls < fuel)%nat ->
  cams_header fuel (text_of ls ++ "# " ++ String.concat ";" ("Observation period" :: names)%string ++ newline ++ rest) [] =
    Some ("Observation period"%string :: names, fold_left (fun d kv => dict_set (fst kv) (snd kv) d) kvs [], rest).
Proof.
  intros ls kvs names rest fuel H NM L. generalize (@nil (string * string)) as d. revert fuel L. induction H as [|l kv ls kvs P N E H IH|l ls kvs P N C H IH]; intros fuel L d.
  - destruct fuel as [|fuel]; [cbn in L; lia|]. change (text_of [] ++ ?x)%string with x. rewrite <- sapp_assoc. set (line := ("# " ++ String.concat ";" ("Observation period" :: names))%string).
    assert (PL : plain line). { subst line. apply plain_app. split; [reflexivity|]. clear - NM. assert (G : forall p, plain p -> plain (String.concat ";" (p :: names))); [|apply G; reflexivity]. induction NM as [|n names [_ X] F IH]; intros p Pp; [exact Pp|].
      change (String.concat ";" (p :: n :: names)) with (p ++ ";" ++ String.concat ";" (n :: names))%string. apply plain_app. split; [exact Pp|]. apply plain_app. split; [reflexivity|apply IH, X]. }
    cbn [cams_header]. rewrite read_line_app by exact PL. rewrite chomp by exact PL. assert (PR : String.prefix "# Observation period" line = true). { apply prefix_true. subst line. destruct names as [|n names]; [exists ""%string; reflexivity|]. exists (";" ++ String.concat ";" (n :: names))%string. reflexivity. }
    rewrite PR. cbn [fold_left]. do 2 f_equal. f_equal. unfold line. change (lstrip is_hash ("# " ++ ?x)) with (lstrip is_hash x). rewrite lstrip_not by (destruct names; reflexivity).
    apply (split_join ";"); [|discriminate]. constructor; [reflexivity|]. eapply Forall_impl; [|exact NM]. intros n [X _]. exact X.
  - destruct fuel as [|fuel]; [cbn in L; lia|]. rewrite text_of_app, !sapp_assoc. rewrite (entry_cut kv l) by assumption. apply (IH fuel). cbn in L. lia.
  - destruct fuel as [|fuel]; [cbn in L; lia|]. rewrite text_of_app, !sapp_assoc. rewrite header_step by assumption. rewrite cut_none by exact C. apply (IH fuel). cbn in L. lia.
Qed.
Print Assumptions C167_header.
(** a file without the line of column names is read for ever *)
Theorem C167_endless_refuted : forall ls, Forall (fun l => plain l /\ ~ last_line l) ls -> forall fuel d, cams_header fuel (text_of ls) d = None.
Proof.
  intros ls F. induction F as [|l ls [P N] F IH]; intros fuel d.
  - revert d. induction fuel as [|fuel IH]; intros d; [reflexivity|]. exact (IH d).
  - destruct fuel as [|fuel]; [reflexivity|]. rewrite text_of_app. rewrite header_step by assumption. destruct (cut l) as [[k v]|]; apply IH.
Qed.
Print Assumptions C167_endless_refuted.
Example C167_example : cams_header 9 ("# Coding: utf-8
#
# Latitude (positive North, ISO 19115): 55.7906
# Noise: a: b
# Observation period;TOA;GHI
2020")%string [] = Some (["Observation period"; "TOA"; "GHI"], [("Coding", "utf-8"); ("Latitude (positive North, ISO 19115)", "55.7906"); ("Noise", "a")], "2020")%string.
Proof. reflexivity. Qed.

(** ** C168: the metadata *)
(** the first word of a key, in any case, names a place *)
Definition names_place (k p : string) : Prop :=
  In p ["latitude"; "longitude"; "altitude"]%string /\ exists b w, blank b /\ has_char " " w = false /\ starts_not is_ws w /\ lower w = p /\ (k = (b ++ w)%string \/ exists t, k = (b ++ w ++ " " ++ t)%string).
Lemma lstrip_blank b s : blank b -> starts_not is_ws s -> lstrip is_ws (b ++ s) = s.
Proof. induction b as [|c b IH]; intros B N; [apply lstrip_not, N|]. destruct B as [C B]. cbn [append lstrip]. rewrite C. apply IH; assumption. Qed.
Lemma lstrip_parts s : exists b, blank b /\ s = (b ++ lstrip is_ws s)%string /\ starts_not is_ws (lstrip is_ws s).
Proof.
  induction s as [|c s (b & B & E & N)]; [exists ""%string; repeat split|]. cbn [lstrip]. destruct (is_ws c) eqn:W.
  - exists (String c b). split; [split; [exact W|exact B]|]. split; [cbn [append]; f_equal; exact E|exact N].
  - exists ""%string. split; [exact I|]. split; [reflexivity|exact W].
Qed.
Lemma names_place_short k p : names_place k p <-> short_key k = p /\ mem p places = true.
Proof.
  unfold short_key. split.
  - intros (I & b & w & B & NS & ST & L & E). split; [|apply mem_In; exact I]. destruct E as [-> | (t & ->)].
    + rewrite lstrip_blank by assumption. rewrite split_on_nosep by exact NS. exact L.
    + rewrite lstrip_blank; [cbn [append]; rewrite split_on_app by exact NS; exact L|exact B|]. destruct w; [|exact ST]. cbn in L. subst p. cbn in I. intuition discriminate.
  - intros [E M]. apply mem_In in M. split; [exact M|]. destruct (lstrip_parts k) as (b & B & K & ST). set (r := lstrip is_ws k) in *. clearbody r. subst k.
    assert (G : exists w, has_char " " w = false /\ (r = w \/ exists t, r = (w ++ " " ++ t)%string) /\ exists l, split_on " " r = w :: l).
    { clear. induction r as [|c r (w & NS & W & l & S0)]; [exists ""%string; split; [reflexivity|]; split; [left; reflexivity|exists []; reflexivity]|]. cbn [split_on]. destruct (Ascii.eqb_spec c " ") as [->|N].
      - exists ""%string. split; [reflexivity|]. split; [right; exists r; reflexivity|eexists; reflexivity].
      - exists (String c w). cbn [has_char]. rewrite (proj2 (Ascii.eqb_neq c " ") N). split; [exact NS|]. split; [destruct W as [-> | (t & ->)]; [left; reflexivity|right; exists t; reflexivity]|]. rewrite S0. exists l. reflexivity. }
    destruct G as (w & NS & W & l & S0). rewrite S0 in E. exists b, w. split; [exact B|]. split; [exact NS|]. split; [|split; [exact E|]].
    + destruct w as [|c w]; [exact I|]. destruct W as [-> | (t & ->)]; exact ST.
    + destruct W as [-> | (t & ->)]; [left; reflexivity|right; exists t; reflexivity].
Qed.
Lemma lookup_remove {A} q k (d : list (string * A)) : lookup q (remove_key k d) = if String.eqb q k then None else lookup q d.
Proof.
  induction d as [|[a b] d IH]; [cbn; destruct (String.eqb q k); reflexivity|]. unfold remove_key in *. cbn [filter fst]. destruct (String.eqb_spec a k) as [->|N]; cbn [negb lookup].
  - rewrite IH. destruct (String.eqb q k); reflexivity.
  - cbn [lookup]. rewrite IH. destruct (String.eqb_spec q a) as [->|_]; [|reflexivity]. rewrite (proj2 (String.eqb_neq a k) N). reflexivity.
Qed.
Lemma short_short k : mem (short_key k) places = true -> short_key (short_key k) = short_key k.
Proof. intros M. apply mem_In in M. cbn [In places] in M. destruct M as [<- | [<- | [<- | []]]]; reflexivity. Qed.
Section Metadata.
Variable py_float : string -> option fl.
Lemma places_loop (number : string -> fl) : forall todo d, NoDup todo ->
  (forall k, In k todo -> mem (short_key k) places = true -> exists s, lookup k d = Some (Text s) /\ py_float s = Some (number k)) ->
  (forall k k', In k todo -> In k' todo -> mem (short_key k) places = true -> short_key k' = short_key k -> k' = k) ->
  exists d', cams_places py_float todo d = Ok d' /\ forall q,
    (forall k, In k todo -> mem (short_key k) places = true -> short_key k = q -> lookup q d' = Some (Number (number k))) /\
    ((forall k, In k todo -> mem (short_key k) places = true -> short_key k <> q) -> lookup q d' = if mem (short_key q) places && mem q todo then None else lookup q d).
Proof.
  induction todo as [|k todo IH]; intros d ND V U.
  - exists d. split; [reflexivity|]. intros q. split; [intros k []|]. intros _. rewrite andb_false_r. reflexivity.
  - inversion ND as [|? ? NI ND']; subst. cbn [cams_places]. destruct (mem (short_key k) places) eqn:M.
    + destruct (V k (or_introl eq_refl) M) as (s & L & F). rewrite L. cbn [entry_float]. rewrite F. cbn [bind].
      assert (AW : forall k2, In k2 todo -> short_key k2 <> short_key k). { intros k2 I2 E. assert (k2 = k) by (apply U; [left; reflexivity|right; exact I2|exact M|exact E]). subst k2. contradiction. }
      assert (NS : ~ In (short_key k) todo). { intros I2. apply (AW _ I2). apply short_short, M. }
      edestruct (IH (dict_set (short_key k) (Number (number k)) (remove_key k d)) ND') as (d' & E & Q).
      { intros k2 I2 M2. destruct (V k2 (or_intror I2) M2) as (s2 & L2 & F2). exists s2. split; [|exact F2]. rewrite lookup_dict_set. destruct (String.eqb_spec k2 (short_key k)) as [->|_]; [contradiction|].
        rewrite lookup_remove. destruct (String.eqb_spec k2 k) as [->|_]; [contradiction|exact L2]. }
      { intros k1 k2 I1 I2. apply U; right; assumption. }
      exists d'. split; [exact E|]. intros q. destruct (Q q) as [Q1 Q2]. split.
      * intros k2 [->|I2] M2 S2; [|apply Q1; assumption]. rewrite Q2; [|intros k3 I3 _ S3; apply (AW k3 I3); congruence]. subst q.
        destruct (mem (short_key k2) todo) eqn:MT; [exfalso; apply NS; apply mem_In in MT; exact MT|]. rewrite andb_false_r, lookup_dict_set, String.eqb_refl. reflexivity.
      * intros N. rewrite Q2 by (intros k3 I3; apply N; right; exact I3). rewrite lookup_dict_set. destruct (String.eqb_spec q (short_key k)) as [Eq|Nq]; [exfalso; apply (N k (or_introl eq_refl) M); congruence|].
        rewrite lookup_remove. unfold mem at 4. cbn [existsb]. destruct (String.eqb_spec q k) as [->|_]; cbn [orb]; [rewrite M; cbn [andb]; destruct (mem k todo); reflexivity|reflexivity].
    + destruct (IH d ND') as (d' & E & Q); [intros k2 I2; apply V; right; exact I2|intros k1 k2 I1 I2; apply U; right; assumption|]. exists d'. split; [exact E|]. intros q. destruct (Q q) as [Q1 Q2]. split.
      * intros k2 [->|I2] M2; [congruence|]. apply Q1; assumption.
      * intros N. rewrite Q2 by (intros k3 I3; apply N; right; exact I3). unfold mem at 4. cbn [existsb]. destruct (String.eqb_spec q k) as [->|_]; cbn [orb]; [rewrite M; reflexivity|reflexivity].
Qed.
Definition period_key : string := "Summarization (integration) period".
Definition steps : list (string * string) :=
  [("1min", "0 year 0 month 0 day 0 h 1 min 0 s"); ("15min", "0 year 0 month 0 day 0 h 15 min 0 s"); ("1h", "0 year 0 month 0 day 1 h 0 min 0 s"); ("1d", "0 year 0 month 1 day 0 h 0 min 0 s"); ("1M", "0 year 1 month 0 day 0 h 0 min 0 s")]%string.
Lemma lookup_texts meta k v : NoDup (map fst meta) -> In (k, v) meta -> lookup k (texts meta) = Some (Text v).
Proof.
  intros ND I. induction meta as [|[a b] meta IH]; [destruct I|]. cbn [map fst] in ND. inversion ND as [|? ? NI ND']; subst. cbn [texts map fst snd lookup]. destruct I as [E|I]; [injection E as -> ->; rewrite String.eqb_refl; reflexivity|].
  destruct (String.eqb_spec k a) as [->|_]; [exfalso; apply NI; apply (in_map fst) in I; exact I|]. apply IH; assumption.
Qed.
(** latitude, longitude and altitude become numbers under these names; the unit and the time step are added; every other entry is kept *)
Theorem C168_metadata : forall integrated meta step period, NoDup (map fst meta) -> In (step, period) steps -> In (period_key, period) meta ->
  (forall k v p, In (k, v) meta -> names_place k p -> exists x, py_float v = Some x) -> (forall k k' p, In k (map fst meta) -> In k' (map fst meta) -> names_place k p -> names_place k' p -> k' = k) ->
  exists d, cams_meta py_float integrated meta = Ok (step, d) /\
    (forall k v p, In (k, v) meta -> names_place k p -> exists x, py_float v = Some x /\ lookup p d = Some (Number x) /\ (k <> p -> lookup k d = None)) /\
    (forall k v, In (k, v) meta -> (forall p, ~ names_place k p) -> k <> "radiation_unit"%string -> k <> "time_step"%string -> lookup k d = Some (Text v)) /\
    lookup "radiation_unit" d = Some (Text (if integrated then "Wh/m^2" else "W/m^2")%string) /\ lookup "time_step" d = Some (Text step).
Proof.
  intros integrated meta step period ND ST PK V U.
  set (number := fun k => match lookup k (texts meta) with Some (Text s) => match py_float s with Some x => x | None => NaN end | _ => NaN end).
  assert (NP : forall k, mem (short_key k) places = true -> names_place k (short_key k)) by (intros k M; apply names_place_short; split; [reflexivity|exact M]).
  assert (IV : forall k, In k (map fst meta) -> exists v, In (k, v) meta). { intros k I. apply in_map_iff in I. destruct I as ([a b] & E & I). cbn in E. subst a. exists b. exact I. }
  destruct (places_loop number (map fst meta) (texts meta) ND) as (d & E & Q).
  { intros k I M. destruct (IV k I) as (v & I'). destruct (V k v _ I' (NP k M)) as (x & F). exists v. rewrite (lookup_texts meta k v ND I'). split; [reflexivity|]. unfold number. rewrite (lookup_texts meta k v ND I'), F. reflexivity. }
  { intros k k' I I' M S0. apply (U k k' (short_key k) I I'); [apply NP, M|]. rewrite <- S0. apply NP. rewrite S0. exact M. }
  assert (KEPT : forall k v, In (k, v) meta -> (forall p, ~ names_place k p) -> lookup k d = Some (Text v)).
  { intros k v I N. destruct (Q k) as [_ Q2]. assert (MK : mem (short_key k) places = false). { destruct (mem (short_key k) places) eqn:M; [exfalso; exact (N _ (NP k M))|reflexivity]. }
    rewrite Q2; [rewrite MK; apply lookup_texts; assumption|]. intros k2 I2 M2 S2. rewrite <- S2, short_short in MK by exact M2. congruence. }
  assert (PN : forall p, ~ names_place period_key p). { intros p N. apply names_place_short in N. destruct N as [N1 N2]. vm_compute in N1. subst p. discriminate. }
  assert (LP : lookup period_key (dict_set "radiation_unit" (Text (if integrated then "Wh/m^2" else "W/m^2")) d) = Some (Text period)).
  { rewrite lookup_dict_set. change (String.eqb period_key "radiation_unit") with false. cbn [negb]. apply KEPT; assumption. }
  assert (LS : lookup period summation_periods = Some step). { unfold steps in ST. cbn [In] in ST. repeat (destruct ST as [ST|ST]; [injection ST as <- <-; reflexivity|]). destruct ST. }
  eexists. split; [unfold cams_meta; rewrite E; cbn [bind]; fold period_key; rewrite LP, LS; reflexivity|]. split; [|split; [|split]].
  - intros k v p I N. destruct (V k v p I N) as (x & F). exists x. split; [exact F|]. apply names_place_short in N. destruct N as [S0 M]. destruct (Q p) as [Q1 _].
    assert (PM : p <> "radiation_unit"%string /\ p <> "time_step"%string) by (apply mem_In in M; cbn [places In] in M; split; intros ->; intuition discriminate). destruct PM as [P1 P2].
    assert (NK : number k = x) by (unfold number; rewrite (lookup_texts meta k v ND I), F; reflexivity). split.
    + rewrite !lookup_dict_set. rewrite (proj2 (String.eqb_neq _ _) P1), (proj2 (String.eqb_neq _ _) P2). rewrite <- NK. apply Q1; [apply (in_map fst) in I; exact I|rewrite S0; exact M|exact S0].
    + intros NE. assert (MS : mem (short_key k) places = true) by (rewrite S0; exact M). rewrite !lookup_dict_set.
      destruct (String.eqb_spec k "time_step") as [->|_]; [vm_compute in MS; discriminate|]. destruct (String.eqb_spec k "radiation_unit") as [->|_]; [vm_compute in MS; discriminate|].
      destruct (Q k) as [_ Q2]. rewrite Q2; [rewrite MS, (proj2 (mem_In k (map fst meta))); [reflexivity|]; apply (in_map fst) in I; exact I|].
      intros k2 I2 M2 S2. apply NE. assert (short_key k = k) by (rewrite <- S2; apply short_short, M2). congruence.
  - intros k v I N N1 N2. rewrite !lookup_dict_set, (proj2 (String.eqb_neq _ _) N1), (proj2 (String.eqb_neq _ _) N2). apply KEPT; assumption.
  - rewrite !lookup_dict_set. reflexivity.
  - rewrite lookup_dict_set. reflexivity.
Qed.
(** a place that is no number, or another integration period *)
Theorem C168_errors : forall integrated meta,
  (forall k v p rest, meta = (k, v) :: rest -> names_place k p -> py_float v = None -> cams_meta py_float integrated meta = Err ValueError) /\
  ((forall k p, In k (map fst meta) -> ~ names_place k p) -> (forall step period, In (step, period) steps -> lookup period_key meta <> Some period) -> cams_meta py_float integrated meta = Err KeyError).
Proof.
  intros integrated meta. split.
  - intros k v p rest -> N F. apply names_place_short in N. destruct N as [S0 M]. unfold cams_meta. cbn [map fst cams_places]. rewrite S0, M. cbn [texts map fst snd lookup]. rewrite String.eqb_refl. cbn [entry_float]. rewrite F. reflexivity.
  - intros N P. assert (E : cams_places py_float (map fst meta) (texts meta) = Ok (texts meta)).
    { generalize (texts meta) as d. revert N. generalize (map fst meta) as keys. clear. induction keys as [|k keys IH]; intros N d; [reflexivity|]. cbn [cams_places]. destruct (mem (short_key k) places) eqn:M.
      - exfalso. apply (N k (short_key k)); [left; reflexivity|]. apply names_place_short. split; [reflexivity|exact M].
      - apply IH. intros k2 p I. apply N. right. exact I. }
    unfold cams_meta. rewrite E. cbn [bind]. rewrite lookup_dict_set. change (String.eqb "Summarization (integration) period" "radiation_unit") with false. cbn [negb].
    assert (T : lookup period_key (texts meta) = option_map Text (lookup period_key meta)). { unfold texts. clear. induction meta as [|[a b] meta IH]; [reflexivity|]. cbn [map fst snd lookup]. destruct (String.eqb period_key a); [reflexivity|exact IH]. }
    fold period_key. rewrite T. destruct (lookup period_key meta) as [s|]; [|reflexivity]. cbn [option_map]. destruct (lookup s summation_periods) as [st|] eqn:L; [|reflexivity]. exfalso.
    apply lookup_In in L. cbn [In summation_periods] in L. repeat (destruct L as [L|L]; [injection L as <- <-; refine (P _ _ _ eq_refl); cbn; tauto|]). destruct L.
Qed.
End Metadata.
Print Assumptions C168_metadata.
Print Assumptions C168_errors.

(** ** C169: the time stamps *)
Definition midnight_of (t m : Z) : Prop := exists k, m = 1440 * k /\ m <= t < m + 1440.
Lemma midnight t : midnight_of t (1440 * (t / 1440)).
Proof. exists (t / 1440). split; [reflexivity|]. pose proof (Z_div_mod_eq_full t 1440). pose proof (Z.mod_pos_bound t 1440). lia. Qed.
Lemma midnights l : Forall2 midnight_of l (map (fun t => 1440 * (t / 1440)) l).
Proof. induction l as [|t l IH]; constructor; [apply midnight|exact IH]. Qed.
(** steps shorter than a day: start or end of the period, by default the start; another label gives running numbers *)
Theorem C169_instants : forall step periods label, In step ["1min"; "15min"; "1h"]%string ->
  (label = None \/ label = Some "left"%string -> cams_index label step periods = Ok (Instants (map fst periods))) /\
  (label = Some "right"%string -> cams_index label step periods = Ok (Instants (map snd periods))) /\
  (forall l, label = Some l -> l <> "left"%string -> l <> "right"%string -> cams_index label step periods = Ok Numbers).
Proof.
  intros step periods label I. cbn [In] in I. split; [|split].
  - intros [-> | ->]; destruct I as [<- | [<- | [<- | []]]]; reflexivity.
  - intros ->. destruct I as [<- | [<- | [<- | []]]]; reflexivity.
  - intros l -> N1 N2. unfold cams_index. rewrite (proj2 (String.eqb_neq l _) N1), (proj2 (String.eqb_neq l _) N2). destruct I as [<- | [<- | [<- | []]]]; reflexivity.
Qed.
Print Assumptions C169_instants.
(** days: the date of the start or of the end *)
Theorem C169_days : forall periods label,
  (label = None \/ label = Some "left"%string -> exists l, cams_index label "1d" periods = Ok (Dates l) /\ Forall2 midnight_of (map fst periods) l) /\
  (label = Some "right"%string -> exists l, cams_index label "1d" periods = Ok (Dates l) /\ Forall2 midnight_of (map snd periods) l) /\
  (forall l, label = Some l -> l <> "left"%string -> l <> "right"%string -> cams_index label "1d" periods = Err AttributeError).
Proof.
  intros periods label. split; [|split].
  - intros [-> | ->]; eexists; (split; [reflexivity|apply midnights]).
  - intros ->. eexists. split; [reflexivity|apply midnights].
  - intros l -> N1 N2. unfold cams_index. rewrite (proj2 (String.eqb_neq l _) N1), (proj2 (String.eqb_neq l _) N2). reflexivity.
Qed.
Print Assumptions C169_days.
(** months: their first day with label left, otherwise their last day *)
Definition first_of (ym : Z * Z) : Z := instant (Date (fst ym) (snd ym) 1) 0 0.
Definition last_of (ym : Z * Z) : Z := instant (Date (fst ym) (snd ym) (days_in_month (fst ym) (snd ym))) 0 0.
Definition month_period (ym : Z * Z) : Z * Z := (first_of ym, first_of (if snd ym <? 12 then (fst ym, snd ym + 1) else (fst ym + 1, 1))).
Lemma month_end ym : 1 <= snd ym <= 12 -> snd (month_period ym) = last_of ym + 1440.
Proof.
  intros M. destruct ym as [y m]. cbn [fst snd] in M. unfold month_period, first_of, last_of. cbn [fst snd]. assert (V : valid_date (Date y m (days_in_month y m))).
  { split; [exact M|]. cbn [Calendar.yr mo dy]. pose proof (days_in_month_bounds y m). lia. }
  pose proof (next_day_ordinal _ V) as N. unfold next_day in N. cbn [Calendar.yr mo dy] in N. rewrite Z.ltb_irrefl in N. unfold instant. destruct (m <? 12); cbn [fst snd]; rewrite N; ring.
Qed.
Lemma first_midnight ym : 1440 * (first_of ym / 1440) = first_of ym.
Proof. unfold first_of, instant. set (o := ordinal _). replace (o * 1440 + 0 * 60 + 0) with (o * 1440) by ring. rewrite Z.div_mul by lia. ring. Qed.
Lemma map_eq_in {A B} (f g : A -> B) (P : A -> Prop) l : Forall P l -> (forall x, P x -> f x = g x) -> map f l = map g l.
Proof. intros F H. induction F as [|x l Px F IH]; [reflexivity|]. cbn [map]. rewrite (H x Px), IH. reflexivity. Qed.
Theorem C169_months : forall yms label, Forall (fun ym => 1 <= snd ym <= 12) yms ->
  (label = Some "left"%string -> cams_index label "1M" (map month_period yms) = Ok (Dates (map first_of yms))) /\
  (label = None \/ label = Some "right"%string -> cams_index label "1M" (map month_period yms) = Ok (Dates (map last_of yms))) /\
  (forall l, label = Some l -> l <> "left"%string -> l <> "right"%string -> cams_index label "1M" (map month_period yms) = Err AttributeError).
Proof.
  intros yms label F. split; [|split].
  - intros ->. unfold cams_index. cbn [String.eqb Ascii.eqb Bool.eqb orb andb negb]. do 2 f_equal. rewrite !map_map. apply map_ext. intros ym. cbn [month_period fst]. apply first_midnight.
  - assert (E : map (fun t => t - 1440) (map (fun t => 1440 * (t / 1440)) (map snd (map month_period yms))) = map last_of yms).
    { rewrite !map_map. apply (map_eq_in _ _ _ yms F). intros ym M. rewrite <- (Z.add_simpl_r (last_of ym) 1440), <- (month_end ym M). unfold month_period. cbn [snd]. rewrite first_midnight. reflexivity. }
    intros [-> | ->]; unfold cams_index; cbn [String.eqb Ascii.eqb Bool.eqb orb andb negb]; rewrite E; reflexivity.
  - intros l -> N1 N2. unfold cams_index. rewrite (proj2 (String.eqb_neq l _) N1), (proj2 (String.eqb_neq l _) N2). reflexivity.
Qed.
Print Assumptions C169_months.
Example C169_example : cams_index None "1M" [month_period (2020, 2)] = Ok (Dates [instant (Date 2020 2 29) 0 0]) /\ cams_index (Some "left") "1M" [month_period (2020, 12)] = Ok (Dates [instant (Date 2020 12 1) 0 0]).
Proof. split; reflexivity. Qed.

(** ** C170: energy and power *)
Definition energies : list string :=
  ["TOA"; "GHI"; "BHI"; "DHI"; "BNI"; "Clear sky GHI"; "Clear sky BHI"; "Clear sky DHI"; "Clear sky BNI"; "GHI no corr"; "BHI no corr"; "DHI no corr"; "BNI no corr"]%string.
Definition hours_of (p : Z * Z) : R := (IZR (snd p - fst p) / 60)%R.
Definition lasting (step : string) (p : Z * Z) : Prop :=
  (step = "1min" /\ snd p - fst p = 1 \/ step = "15min" /\ snd p - fst p = 15 \/ step = "1h" /\ snd p - fst p = 60 \/ step = "1d" /\ snd p - fst p = 1440 \/ step = "1M" /\ fst p < snd p)%string.
Lemma energies_same n : mem n integrated_columns = mem n energies.
Proof. unfold mem, integrated_columns, energies. cbn [existsb]. repeat match goal with |- context [String.eqb n ?x] => destruct (String.eqb n x); [rewrite ?orb_true_r; reflexivity|cbn [orb]] end. reflexivity. Qed.
(** every energy over a period of h hours becomes energy / h; other columns stay *)
Theorem C170_power : forall step periods t, Forall (lasting step) periods -> In step (map fst steps) ->
  cams_power step periods t = Ok (map (fun c => if mem (fst c) energies then (fst c, map (fun vp => (fst vp / #(hours_of (snd vp)))%fl) (combine (snd c) periods)) else c) t).
Proof.
  intros step periods t F S0. assert (H : (if String.eqb step "1M" then Ok (map (fun p => (#(IZR (60 * (snd p - fst p))) / #60 / #60)%fl) periods) else let* h := step_hours step in Ok (map (fun _ => h) periods)) = Ok (map (fun p => #(hours_of p)) periods)).
  { destruct (String.eqb_spec step "1M") as [->|N].
    - f_equal. apply map_ext. intros p. unfold hours_of. rewrite !fdiv_fin by lra. rewrite mult_IZR. f_equal. field.
    - assert (E : forall h, step_hours step = Ok h -> (forall p, lasting step p -> h = #(hours_of p)) -> (let* h := step_hours step in Ok (map (fun _ => h) periods)) = Ok (map (fun p => #(hours_of p)) periods)).
      { intros h -> P. cbn [bind]. f_equal. apply (map_eq_in _ _ _ periods F). exact P. }
      cbn [map fst steps In] in S0. destruct S0 as [<- | [<- | [<- | [<- | [<- | []]]]]]; [| | | |congruence].
      + apply (E (#1 / #60)%fl eq_refl). intros p L. unfold lasting in L. destruct L as [[_ L] | [[L _] | [[L _] | [[L _] | [L _]]]]]; try discriminate L. unfold hours_of. rewrite L, fdiv_fin by lra. reflexivity.
      + apply (E (#15 / #60)%fl eq_refl). intros p L. unfold lasting in L. destruct L as [[L _] | [[_ L] | [[L _] | [[L _] | [L _]]]]]; try discriminate L. unfold hours_of. rewrite L, fdiv_fin by lra. reflexivity.
      + apply (E #1 eq_refl). intros p L. unfold lasting in L. destruct L as [[L _] | [[L _] | [[_ L] | [[L _] | [L _]]]]]; try discriminate L. unfold hours_of. rewrite L. f_equal. lra.
      + apply (E #24 eq_refl). intros p L. unfold lasting in L. destruct L as [[L _] | [[L _] | [[L _] | [[_ L] | [L _]]]]]; try discriminate L. unfold hours_of. rewrite L. f_equal. lra. }
  unfold cams_power. rewrite H. cbn [bind]. f_equal. apply map_ext. intros [n vs]. cbn [fst snd]. rewrite energies_same. destruct (mem n energies); [|reflexivity]. f_equal. clear. revert vs. induction periods as [|p periods IH]; intros vs; [destruct vs; reflexivity|].
  destruct vs as [|v vs]; [reflexivity|]. cbn [combine map fst snd]. f_equal. apply IH.
Qed.
Print Assumptions C170_power.
(** the whole table: energies only with integrated = True, pvlib names only with map_variables *)
Definition cams_dictionary : dictionary :=
  [("TOA", ("ghi_extra", kept)); ("GHI", ("ghi", kept)); ("BHI", ("bhi", kept)); ("DHI", ("dhi", kept)); ("BNI", ("dni", kept)); ("Clear sky GHI", ("ghi_clear", kept)); ("Clear sky BHI", ("bhi_clear", kept));
   ("Clear sky DHI", ("dhi_clear", kept)); ("Clear sky BNI", ("dni_clear", kept)); ("sza", ("solar_zenith", kept))]%string.
Definition in_watts (periods : list (Z * Z)) (c : string * list fl) : string * list fl :=
  if mem (fst c) energies then (fst c, map (fun vp => (fst vp / #(hours_of (snd vp)))%fl) (combine (snd c) periods)) else c.
Theorem C170_table : forall py_float meta periods t integrated label m step d idx, cams_meta py_float integrated meta = Ok (step, d) -> cams_index label step periods = Ok idx -> Forall (lasting step) periods ->
  read_cams py_float meta periods t integrated label m =
    Ok (idx, map (fun c => (if m then translated cams_dictionary else fun c => c) ((if integrated then fun c => c else in_watts periods) c)) t, d).
Proof.
  intros py_float meta periods t integrated label m step d idx M I F. assert (S0 : In step (map fst steps)).
  { unfold cams_meta in M. destruct (cams_places _ _ _) as [d0|]; [|discriminate]. cbn [bind] in M. destruct (lookup _ _) as [[s|x]|]; try discriminate. destruct (lookup s summation_periods) as [st|] eqn:L; [|discriminate].
    apply Ok_inj in M. assert (st = step) by congruence. subst st. apply lookup_In in L. cbn [In summation_periods] in L. repeat (destruct L as [L|L]; [injection L as _ <-; cbn; tauto|]). destruct L. }
  unfold read_cams. rewrite M. cbn [bind fst snd]. rewrite I. cbn [bind].
  assert (E : (if integrated then Ok t else cams_power step periods t) = Ok (map (if integrated then fun c => c else in_watts periods) t)).
  { destruct integrated; [rewrite map_id; reflexivity|]. rewrite (C170_power step periods t F S0). reflexivity. }
  rewrite E. cbn [bind]. rewrite <- (map_map (if integrated then fun c => c else in_watts periods) (if m then translated cams_dictionary else fun c => c)). set (t' := map (if integrated then fun c => c else in_watts periods) t). clearbody t'. destruct m; [|cbn beta; rewrite (map_id t'); reflexivity]. unfold rename_columns. do 3 f_equal. apply map_ext. intros [n vs]. unfold translated, cams_map, cams_dictionary. cbn [fst snd lookup].
  repeat match goal with |- context [String.eqb n ?x] => destruct (String.eqb_spec n x) as [->|?]; [cbn; rewrite ?map_kept; reflexivity|] end. reflexivity.
Qed.
Print Assumptions C170_table.
Theorem C170_errors : forall py_float meta periods t integrated label m e, cams_meta py_float integrated meta = Err e -> read_cams py_float meta periods t integrated label m = Err e.
Proof. intros * E. unfold read_cams. rewrite E. reflexivity. Qed.
Print Assumptions C170_errors.
(** the request *)
Theorem C170_request : forall latitude longitude start end_ email identifier altitude step time_ref verbose code,
  In (step, code) [("1min", "PT01M"); ("15min", "PT15M"); ("1h", "PT01H"); ("1d", "P01D"); ("1M", "P01M")]%string -> In identifier ["mcclear"; "cams_radiation"]%string ->
  forall user host, email = (user ++ "@" ++ host)%string -> has_char "@" user = false -> has_char "@" host = false ->
  let fits := step = "1min"%string /\ time_ref = "UT"%string in
  exists warned v, cams_request latitude longitude start end_ email identifier altitude step time_ref verbose =
    Ok (warned, ("latitude=" ++ latitude ++ ";longitude=" ++ longitude ++ ";altitude=" ++ (match altitude with Some a => a | None => "-999" end) ++ ";date_begin=" ++ start ++ ";date_end=" ++ end_ ++
                 ";time_ref=" ++ time_ref ++ ";summarization=" ++ code ++ ";username=" ++ user ++ "%2540" ++ host ++ ";verbose=" ++ v)%string, ("get_" ++ identifier)%string) /\
    (v = "true"%string <-> verbose = true /\ fits) /\ (v = "true"%string \/ v = "false"%string) /\ (warned = true <-> verbose = true /\ ~ fits).
Proof.
  intros latitude longitude start end_ email identifier altitude step time_ref verbose code S0 ID user host -> N1 N2 fits.
  assert (RC : forall s, has_char "@" s = false -> replace_char "@" "%2540" s = s). { induction s as [|c s IH]; [reflexivity|]. cbn [has_char replace_char]. intros H. apply orb_false_iff in H. destruct H as [-> H]. rewrite IH by exact H. reflexivity. }
  assert (RA : replace_char "@" "%2540" (user ++ "@" ++ host) = (user ++ "%2540" ++ host)%string).
  { clear - N1 N2 RC. induction user as [|c user IH]; [cbn [append replace_char]; change (Ascii.eqb "@" "@") with true; cbn [append]; rewrite RC by exact N2; reflexivity|].
    cbn [append replace_char has_char] in *. apply orb_false_iff in N1. destruct N1 as [-> N1]. f_equal. apply IH, N1. }
  assert (LT : lookup step time_steps = Some code). { cbn [In] in S0. repeat (destruct S0 as [S0|S0]; [injection S0 as <- <-; reflexivity|]). destruct S0. }
  assert (MI : mem identifier ["mcclear"; "cams_radiation"]%string = true) by (apply mem_In; exact ID).
  assert (LI : lower identifier = identifier) by (cbn [In] in ID; destruct ID as [<- | [<- | []]]; reflexivity).
  unfold cams_request. rewrite LT, MI, LI, RA. cbn [negb].
  set (off := (verbose && (negb (String.eqb step "1min") || negb (String.eqb time_ref "UT")))%bool).
  assert (OFF : off = true <-> verbose = true /\ ~ fits).
  { subst off fits. destruct verbose; cbn [andb]; [|split; [discriminate|intros [X _]; discriminate]]. destruct (String.eqb_spec step "1min") as [E1|E1], (String.eqb_spec time_ref "UT") as [E2|E2]; cbn [negb orb]; intuition congruence. }
  exists off, (if (if off then false else verbose) then "true" else "false")%string. split; [|split; [|split]].
  - f_equal. f_equal. f_equal. cbn [map fst snd String.concat]. repeat rewrite sapp_assoc. reflexivity.
  - destruct off; [split; [discriminate|intros [V X]; exfalso; destruct (proj1 OFF eq_refl) as [_ Y]; contradiction]|]. destruct verbose; [|split; [discriminate|intros [X _]; discriminate]].
    split; [intros _; split; [reflexivity|]|reflexivity]. subst fits. destruct (String.eqb_spec step "1min") as [E1|E1]; [destruct (String.eqb_spec time_ref "UT") as [E2|E2]; [split; assumption|]|];
      exfalso; assert (X : false = true) by (apply OFF; split; [reflexivity|]; intros [Y1 Y2]; contradiction); discriminate.
  - destruct (if off then false else verbose); [left|right]; reflexivity.
  - exact OFF.
Qed.
Print Assumptions C170_request.
Theorem C170_request_errors : forall latitude longitude start end_ email identifier altitude step time_ref verbose,
  cams_request latitude longitude start end_ email identifier altitude step time_ref verbose = Err ValueError <->
  ~ In step ["1min"; "15min"; "1h"; "1d"; "1M"]%string \/ ~ In identifier ["mcclear"; "cams_radiation"]%string.
Proof.
  intros *. unfold cams_request. destruct (lookup step time_steps) as [code|] eqn:L.
  - apply lookup_In in L. cbn [In time_steps] in L. assert (I : In step ["1min"; "15min"; "1h"; "1d"; "1M"]%string) by (repeat (destruct L as [L|L]; [injection L as <- _; cbn; tauto|]); destruct L).
    destruct (mem identifier ["mcclear"; "cams_radiation"]%string) eqn:M; cbn [negb].
    + apply mem_In in M. split; [discriminate|]. intros [X|X]; contradiction.
    + split; [intros _; right; intros X; apply mem_In in X; congruence|reflexivity].
  - split; [|reflexivity]. intros _. left. intros I. cbn [In] in I. repeat (destruct I as [<-|I]; [discriminate L|]). destruct I.
Qed.
Print Assumptions C170_request_errors.
Example C170_example : cams_request "55" "12" "2020-01-01" "2020-01-02" "a@b.c" "mcclear" None "1h" "UT" true =
  Ok (true, "latitude=55;longitude=12;altitude=-999;date_begin=2020-01-01;date_end=2020-01-02;time_ref=UT;summarization=PT01H;username=a%2540b.c;verbose=false", "get_mcclear")%string.
Proof. reflexivity. Qed.
